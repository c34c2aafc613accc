(** FunLossFacts.v -- programs with functions raise nothing if nothing is lost: proofs. *)
From Coq Require Import ZArith List Bool Arith Lia.
From Verif Require Import Base CType Spec ExceptionPolicy Promotion SafeBase SafeSpec SafeFacts Program ProgramSpec
  ProgramFacts PropsProgramProofs ComposeSpec ComposeFacts BuiltinSpec BuiltinFacts BuiltinAllSpec BuiltinAllFacts
  FunProgram FunSpec FunFacts FunExampleFacts FunLossSpec.
Import ListNotations.
Local Open Scope Z_scope.
Local Open Scope m_scope.

Section Go.
  Variable D : dmodel.
  Variable glob : nat -> bool.
  Variable F : list fundef.
  Variable G0 : tenv.
  Variable ty : otype -> Prop.
  Variable okc : tenv -> cmd -> Prop.
  Variable okd : tenv -> cond -> Prop.
  Variable okx : tenv -> otype -> expr -> Prop.
  Hypothesis Hty : forall T, ty T -> type_ok true D T.
  Hypothesis Hcmd : forall G f c s i i', (forall v, ty (G v)) -> okc G c -> compiles D G c = true -> store_ok D G s i ->
    lossless_exec f D G i c = Some i' -> exists s', exec f D G s c = Some (s', RDone) /\ store_ok D G s' i'.
  Hypothesis Hcond : forall G c s i t, (forall v, ty (G v)) -> okd G c -> cond_compiles D G c = true -> store_ok D G s i ->
    lossless_cond D G i c = Some t -> returns (eval_cond D G s c) t.
  Hypothesis Hexp : forall G T e t s i m0 z, (forall v, ty (G v)) -> ty T -> okx G T e -> type_of D G e = Some t ->
    convert D T t 0 = Some m0 -> store_ok D G s i -> lossless D G i e = Some z -> holds D T z ->
    returns (x <- eval D G s e ;; run (convert D T t x)) z.
  Hypothesis HF : functions_ok okc okd okx F D glob G0 ty.
  Hypothesis HP : program_compiles D glob F = true.

  Lemma fcond_quiet : forall G c s i, (forall v, ty (G v)) -> store_ok D G s i -> forall t,
    fcond_ok okd G c -> fcond_compiles D G c = true -> lossless_fcond D G i c = Some t -> returns (eval_fcond D G s c) t.
  Proof.
    intros G c s i HG Hs. induction c as [c|a IHa|a IHa b IHb|a IHa b IHb]; intros t Hok Hc Hl;
      cbn [fcond_ok fcond_compiles lossless_fcond eval_fcond] in *.
    - exact (Hcond G c s i t HG Hok Hc Hs Hl).
    - destruct (lossless_fcond D G i a) as [x|]; [|discriminate]. injection Hl as <-.
      rewrite (bind_ret _ _ _ _ _ (IHa x Hok Hc eq_refl)). reflexivity.
    - destruct Hok as [Ka Kb]. apply andb_true_iff in Hc. destruct Hc as [Ca Cb].
      destruct (lossless_fcond D G i a) as [x|]; [|discriminate]. rewrite (bind_ret _ _ _ _ _ (IHa x Ka Ca eq_refl)).
      destruct x; [exact (IHb t Kb Cb Hl)|]. injection Hl as <-. reflexivity.
    - destruct Hok as [Ka Kb]. apply andb_true_iff in Hc. destruct Hc as [Ca Cb].
      destruct (lossless_fcond D G i a) as [x|]; [|discriminate]. rewrite (bind_ret _ _ _ _ _ (IHa x Ka Ca eq_refl)).
      destruct x; [|exact (IHb t Kb Cb Hl)]. injection Hl as <-. reflexivity.
  Qed.

  Lemma pass_quiet : forall G s i E, (forall v, ty (G v)) -> (forall v, ty (E v)) -> store_ok D G s i ->
    forall ps args fr j j1, args_ok okx G E ps args -> args_compile D glob G E ps args = true -> store_ok D E fr j ->
    lossless_pass D G i E ps args j = Some j1 ->
    exists fr1, returns (pass D G s E ps args fr) fr1 /\ store_ok D E fr1 j1.
  Proof.
    intros G s i E HG HE Hs. induction ps as [|p ps IH]; intros [|e es] fr j j1 Hok Hc Hj Hl; cbn [args_compile pass lossless_pass] in *;
      try discriminate.
    - injection Hl as <-. exists fr. split; [reflexivity|exact Hj].
    - inversion Hok as [|? ? ? ? K1 K2]. subst. apply andb_true_iff in Hc. destruct Hc as [Hc C2]. apply andb_true_iff in Hc. destruct Hc as [_ C1].
      destruct (type_of D G e) as [t|] eqn:Et; [|discriminate]. destruct (convert D (E p) t 0) as [m0|] eqn:Ec; [|discriminate].
      apply obind_some in Hl. destruct Hl as (z & Lz & Hl). apply obind_some in Hl. destruct Hl as (z' & Fz & Hl).
      apply fits_some in Fz. destruct Fz as [-> Fz].
      rewrite <- bind_assoc. rewrite (bind_ret _ _ _ _ _ (Hexp G (E p) e t s i m0 z HG (HE p) K1 Et Ec Hs Lz Fz)).
      eapply IH; [exact K2|exact C2| |exact Hl]. apply store_ok_upd; assumption.
  Qed.

  Definition ends (G : tenv) (s : store) (c : fcmd) (i' : nat -> Z) : Prop :=
    exists n s', f_exec D glob F (S n) G s c = Some (s', RDone) /\ store_ok D G s' i'.

  Lemma f_exec_quiet : forall G i c i', f_lossless D glob F G i c i' ->
    forall s, (forall v, ty (G v)) -> agrees glob G0 G -> fcmd_ok okc okd okx F G c -> f_compiles D glob F G c = true ->
    store_ok D G s i -> ends G s c i'.
  Proof.
    induction 1 as [G i c i' n L|G i v f args d fr j z Ef Lp Lb IHb Lz Hz Hv|G i a i1 b i2 La IHa Lb IHb|G i c t a b i1 Lc La IHa
      |G i c a Lc|G i c a i1 i2 Lc La IHa Lw IHw|G i a b i1 La IHa]; intros s HG HA Hok Hc Hs; cbn [fcmd_ok f_compiles] in Hok, Hc.
    - destruct (Hcmd G n c s i i' HG Hok Hc Hs L) as (s' & E & S'). exists n, s'. split; [|exact S'].
      cbn [f_exec]. eapply exec_mono; [|exact E]. lia.
    - rewrite Ef in Hc. specialize (Hok d Ef). apply andb_true_iff in Hc. destruct Hc as [Hc Cv]. apply andb_true_iff in Hc. destruct Hc as [Ca Cr].
      pose proof (nth_error_In F f Ef) as Hd. destruct (HF d Hd) as (Kb & Kr & Tr & Te & _ & Hg).
      pose proof (enter_good D glob F G0 ty okc okd okx HF G s i d Hd HA Hs) as He.
      destruct (pass_quiet G s i (f_env d) HG Te Hs (f_params d) args _ _ fr Hok Ca He Lp) as (fr1 & R & S0).
      assert (Hcb : f_compiles D glob F (f_env d) (f_body d) = true).
      { unfold program_compiles in HP. rewrite forallb_forall in HP. apply HP. exact Hd. }
      destruct (IHb fr1 Te Hg Kb Hcb S0) as (n & s1 & Eb & S1).
      destruct (type_of D (f_env d) (f_result d)) as [t|] eqn:Et; [|discriminate].
      destruct (convert D (f_type d) t 0) as [m0|] eqn:Ec; [|discriminate].
      destruct (convert D (G v) (f_type d) 0) as [m1|] eqn:Ev; [|discriminate].
      pose proof (leave_good D glob F G0 ty okc okd okx HF G s i d s1 j Hd HA Hs S1) as S2.
      destruct (convert_any D (G v) (f_type d) 0 z m1 Ev) as (k1 & K1).
      exists (S n), (upd (leave glob s s1) v (Some z)). split; [|apply store_ok_upd; assumption].
      cbn [f_exec]. rewrite Ef, R. cbn [snd]. cbn [f_exec] in Eb. rewrite Eb, Et, <- bind_assoc.
      rewrite (bind_ret _ _ _ _ _ (Hexp (f_env d) (f_type d) (f_result d) t s1 j m0 z Te Tr Kr Et Ec S1 Lz Hz)), K1. cbn [run].
      rewrite (finish_ret _ _ _ _ _ (convert_lossless D (G v) (f_type d) z k1 (Hty _ (HG v)) (Hty _ Tr) Hz Hv K1)). reflexivity.
    - apply andb_prop in Hc. destruct Hc as [Ca Cb]. destruct Hok as [Oa Ob].
      destruct (IHa s HG HA Oa Ca Hs) as (n & s1 & E1 & S1). destruct (IHb s1 HG HA Ob Cb S1) as (m & s2 & E2 & S2).
      exists (Nat.max n m), s2. split; [|exact S2].
      change (match f_exec D glob F (S (Nat.max n m)) G s a with Some (s1, RDone) => f_exec D glob F (S (Nat.max n m)) G s1 b | x => x end = Some (s2, RDone)).
      rewrite (f_exec_mono D glob F (S n) (S (Nat.max n m)) G s a _ ltac:(lia) E1).
      exact (f_exec_mono D glob F (S m) (S (Nat.max n m)) G s1 b _ ltac:(lia) E2).
    - apply andb_prop in Hc. destruct Hc as [Cc Cb]. apply andb_prop in Cc. destruct Cc as [Cc Ca]. destruct Hok as (Oc & Oa & Ob).
      destruct (IHa s HG HA ltac:(destruct t; assumption) ltac:(destruct t; assumption) Hs) as (n & s1 & E1 & S1).
      exists n, s1. split; [|exact S1].
      change (match snd (eval_fcond D G s c) with Ret true => f_exec D glob F (S n) G s a | Ret false => f_exec D glob F (S n) G s b
              | Throw e => Some (s, RRaised e) | Undef | Trapped => Some (s, RUndef) end = Some (s1, RDone)).
      rewrite (fcond_quiet G c s i HG Hs t Oc Cc Lc). cbn [snd]. destruct t; exact E1.
    - apply andb_prop in Hc. destruct Hc as [Cc Ca]. destruct Hok as (Oc & Oa). exists 0%nat, s. split; [|exact Hs].
      change (loop (fun s => eval_fcond D G s c) (fun s => f_exec D glob F 1 G s a) 1 s = Some (s, RDone)).
      cbn [loop]. rewrite (fcond_quiet G c s i HG Hs false Oc Cc Lc). reflexivity.
    - pose proof Hok as Hok'. pose proof Hc as Hc'. apply andb_prop in Hc. destruct Hc as [Cc Ca]. destruct Hok as (Oc & Oa).
      destruct (IHa s HG HA Oa Ca Hs) as (n & s1 & E1 & S1). destruct (IHw s1 HG HA Hok' Hc' S1) as (m & s2 & E2 & S2).
      exists (S (Nat.max n m)), s2. split; [|exact S2].
      set (k := S (Nat.max n m)).
      change (loop (fun s => eval_fcond D G s c) (fun s => f_exec D glob F (S k) G s a) (S k) s = Some (s2, RDone)).
      change (loop (fun s => eval_fcond D G s c) (fun s => f_exec D glob F (S m) G s a) (S m) s1 = Some (s2, RDone)) in E2.
      cbn [loop]. rewrite (fcond_quiet G c s i HG Hs true Oc Cc Lc). cbn [snd].
      rewrite (f_exec_mono D glob F (S n) (S k) G s a _ ltac:(lia) E1).
      eapply loop_mono; [| |exact E2]; [|lia]. intros s0 r0 E0. eapply f_exec_mono; [|exact E0]. lia.
    - apply andb_prop in Hc. destruct Hc as [Ca Cb]. destruct Hok as [Oa Ob].
      destruct (IHa s HG HA Oa Ca Hs) as (n & s1 & E1 & S1). exists n, s1. split; [|exact S1].
      change (match f_exec D glob F (S n) G s a with Some (s1, RRaised _) => f_exec D glob F (S n) G s1 b | x => x end = Some (s1, RDone)).
      rewrite E1. reflexivity.
  Qed.
End Go.

Lemma C91_quiet : forall D glob F G c s i i',
  simple_program true D glob F G c -> program_compiles D glob F = true -> f_compiles D glob F G c = true ->
  store_ok D G s i -> f_lossless D glob F G i c i' ->
  exists fuel s', f_exec D glob F fuel G s c = Some (s', RDone) /\ store_ok D G s' i'.
Proof.
  intros D glob F G c s i i' (HG & HF & Hok) HP Hc Hs L.
  destruct (f_exec_quiet D glob F G (type_ok true D) (cmd_ok true D) (fun _ => cond_ok true D) (fun _ _ => expr_ok true D)
    (fun T K => K)
    (fun G1 f c1 s1 i1 i2 K0 K1 K2 K3 K4 => lossless_exec_char D G1 f K0 c1 s1 i1 i2 K1 K2 K3 K4)
    (fun G1 c1 s1 i1 t K0 K1 K2 K3 K4 => lossless_cond_char D G1 s1 i1 c1 t K0 K3 K1 K2 K4))
    with (4 := L) (s := s) as (n & s' & E & S'); try assumption; try (intros v _; reflexivity).
  - intros G1 T e t s1 i1 m0 z K0 KT K1 K2 K3 K4 K5 K6.
    pose proof (lossless_char D G1 s1 i1 K0 K4 e t z K1 K2 K5) as R.
    destruct (expr_holds D G1 s1 i1 e t z K0 K4 K1 K2 R) as [Te Iz].
    rewrite (bind_ret _ _ _ _ _ R). destruct (convert_any D T t 0 z m0 K3) as (k & K). rewrite K. cbn [run].
    exact (convert_lossless D T t z k KT Te Iz K6 K).
  - exists (S n), s'. split; assumption.
Qed.

Lemma C91_quiet_all : forall D glob F G c s i i',
  bounded_program D glob F G c -> program_compiles D glob F = true -> f_compiles D glob F G c = true ->
  store_ok D G s i -> f_lossless D glob F G i c i' ->
  exists fuel s', f_exec D glob F fuel G s c = Some (s', RDone) /\ store_ok D G s' i'.
Proof.
  intros D glob F G c s i i' (HG & HF & Hok) HP Hc Hs L. cbv zeta in HF, Hok.
  destruct (f_exec_quiet D glob F G (type_fine true D)
    (fun G c => cmd_fine true D G c /\ every_op_cmd (shift_bounded D) D G c)
    (fun G c => cond_fine true D G c /\ every_op_cond (shift_bounded D) D G c)
    (fun G t e => expr_fine true D G (Some t) e /\ every_op (shift_bounded D) D G e) (fun T K => proj1 K)
    (fun G1 f c1 s1 i1 i2 K0 K1 K2 K3 K4 => lossless_exec_char2 D G1 f K0 c1 s1 i1 i2 (proj1 K1) (proj2 K1) K2 K3 K4)
    (fun G1 c1 s1 i1 t K0 K1 K2 K3 K4 => lossless_cond_char2 D G1 s1 i1 c1 t K0 K3 (proj1 K1) (proj2 K1) K2 K4))
    with (2 := HF) (4 := L) (s := s) as (n & s' & E & S'); try assumption; try (intros v _; reflexivity).
  - intros G1 T e t s1 i1 m0 z K0 KT [K1 Kq] K2 K3 K4 K5 K6.
    pose proof (lossless_char2 D G1 s1 i1 K0 K4 e (Some T) t z K1 Kq K2 K5) as R.
    rewrite (bind_ret _ _ _ _ _ R). destruct (convert_any D T t 0 z m0 K3) as (k & K). rewrite K. cbn [run].
    exact (convert_lossless2 D G1 s1 i1 e T t z k K0 K4 KT K1 K2 R K6 K).
  - exists (S n), s'. split; assumption.
Qed.

(** the factorial function *)
Lemma keep_in : forall D T z, in_type D T z -> keep D T z = Some z.
Proof. intros D T z H. unfold keep, in_range. destruct H as [A B]. apply Z.leb_le in A, B. rewrite A, B. reflexivity. Qed.
Lemma fits_in : forall D o z, holds D o z -> fits_type D o z = Some z.
Proof. intros D o z [A B]. unfold fits_type. apply Z.leb_le in A, B. rewrite A, B. reflexivity. Qed.
Lemma int_in : forall z, -2147483648 <= z <= 2147483647 -> in_type LP64 Int z.
Proof. intros z H. exact H. Qed.
Lemma long_in : forall z, -9223372036854775808 <= z <= 9223372036854775807 -> in_type LP64 Long z.
Proof. intros z H. exact H. Qed.
Lemma uint_in : forall z, 0 <= z <= 4294967295 -> in_type LP64 UInt z.
Proof. intros z H. exact H. Qed.

Lemma factorial_small : forall k, (k <= 20)%nat -> 1 <= factorial k <= 2432902008176640000.
Proof.
  intros k H. do 21 (destruct k as [|k]; [vm_compute; split; congruence|]). lia.
Qed.

Lemma fe_lossless : forall k j, (k <= 20)%nat -> j 2%nat = 1 -> j 1%nat = Z.of_nat k ->
  -2147483648 <= j 9%nat -> j 9%nat + Z.max 1 (Z.of_nat k) <= 2147483647 ->
  exists j', f_lossless LP64 fe_glob [fe_fact] fe_G j fe_body j'
  /\ j' 2%nat = factorial k /\ j' 9%nat = j 9%nat + Z.max 1 (Z.of_nat k).
Proof.
  induction k as [k IH] using lt_wf_ind. intros j Hk H2 H1 L9 H9.
  set (j1 := upd j 9%nat (j 9%nat + 1)).
  assert (I1 : f_lossless LP64 fe_glob [fe_fact] fe_G j (FDo (CInc 9%nat)) j1).
  { apply FL_do with (n := 1%nat). cbn [lossless_exec]. cbv zeta. unfold lossless_op.
    change (built_in_type LP64 Add (base_ty (fe_G 9%nat)) Int) with Int. cbn [math_op].
    rewrite keep_in by (apply int_in; lia). cbn [obind]. rewrite keep_in by (apply int_in; lia). cbn [obind exact].
    rewrite keep_in by (apply int_in; lia). cbn [obind]. rewrite fits_in; [reflexivity|]. change (-2147483648 <= j 9%nat + 1 <= 2147483647). lia. }
  assert (C1 : lossless_fcond LP64 fe_G j1 (FNot (FRel (Cond RLe true (EVar 1%nat) (EConst (ORaw Int) 1))))
               = Some (negb (Z.of_nat k <=? 1))).
  { cbn [lossless_fcond lossless_cond lossless obind]. change (j1 1%nat) with (j 1%nat). rewrite H1.
    change (uac LP64 (btype LP64 fe_G (EVar 1%nat)) (btype LP64 fe_G (EConst (ORaw Int) 1))) with Int.
    rewrite keep_in by (apply int_in; lia). cbn [obind]. rewrite keep_in by (apply int_in; lia). reflexivity. }
  destruct (Z.leb_spec (Z.of_nat k) 1) as [K|K].
  - exists j1. split; [|split].
    + eapply FL_seq; [exact I1|]. eapply FL_if; [exact C1|]. apply FL_do with (n := 1%nat). reflexivity.
    + change (j 2%nat = factorial k). rewrite H2. assert (k = 0 \/ k = 1)%nat as [-> | ->] by lia; reflexivity.
    + change (j 9%nat + 1 = j 9%nat + Z.max 1 (Z.of_nat k)). lia.
  - destruct k as [|m]; [lia|].
    set (fr := upd (fun v => if fe_glob v then j1 v else 1) 1%nat (Z.of_nat m)).
    destruct (IH m ltac:(lia) fr ltac:(lia) eq_refl eq_refl) as (q & Lq & Q2 & Q9).
    { change (fr 9%nat) with (j 9%nat + 1). lia. }
    { change (fr 9%nat) with (j 9%nat + 1). lia. }
    change (fr 9%nat) with (j 9%nat + 1) in Q9.
    pose proof (factorial_small m ltac:(lia)) as Fm. pose proof (factorial_small (S m) Hk) as Fs.
    set (j2 := upd (after_call fe_glob j1 q) 2%nat (factorial m)).
    assert (I2 : f_lossless LP64 fe_glob [fe_fact] fe_G j1
                   (FCall 2%nat 0%nat [EBin (BA Sub) true (EVar 1%nat) (EConst (ORaw Int) 1)]) j2).
    { apply FL_call with (d := fe_fact) (fr := fr); [reflexivity| |exact Lq| | |].
      - cbn [lossless_pass f_params fe_fact lossless obind]. change (j1 1%nat) with (j 1%nat). rewrite H1. unfold lossless_op.
        change (built_in_type LP64 Sub (btype LP64 fe_G (EVar 1%nat)) (btype LP64 fe_G (EConst (ORaw Int) 1))) with Int.
        rewrite keep_in by (apply int_in; lia). cbn [obind]. rewrite keep_in by (apply int_in; lia). cbn [obind math_op exact].
        replace (Z.of_nat (S m) - 1) with (Z.of_nat m) by lia.
        rewrite keep_in by (apply int_in; lia). cbn [obind].
        rewrite fits_in; [reflexivity|]. change (-2147483648 <= Z.of_nat m <= 2147483647). lia.
      - cbn [lossless f_result fe_fact]. rewrite Q2. reflexivity.
      - change (-9223372036854775808 <= factorial m <= 9223372036854775807). lia.
      - change (-9223372036854775808 <= factorial m <= 9223372036854775807). lia. }
    assert (E3 : Z.of_nat (S m) * factorial m = factorial (S m)) by reflexivity.
    exists (upd j2 2%nat (factorial (S m))). split; [|split].
    + eapply FL_seq; [exact I1|]. eapply FL_if; [exact C1|]. cbn [negb]. eapply FL_seq; [exact I2|].
      apply FL_do with (n := 1%nat). cbn [lossless_exec lossless obind].
      change (j2 1%nat) with (j 1%nat). rewrite H1. change (j2 2%nat) with (factorial m). unfold lossless_op.
      change (built_in_type LP64 Mul (btype LP64 fe_G (EVar 1%nat)) (btype LP64 fe_G (EVar 2%nat))) with Long.
      rewrite keep_in by (apply long_in; lia). cbn [obind]. rewrite keep_in by (apply long_in; lia). cbn [obind math_op exact]. rewrite E3.
      rewrite keep_in by (apply long_in; lia). cbn [obind].
      rewrite fits_in; [reflexivity|]. change (-9223372036854775808 <= factorial (S m) <= 9223372036854775807). lia.
    + reflexivity.
    + change (q 9%nat = j 9%nat + Z.max 1 (Z.of_nat (S m))). rewrite Q9. lia.
Qed.

Lemma C91_fact_total : forall k s i, store_ok LP64 fe_G s i -> i 0%nat = Z.of_nat k -> (k <= 20)%nat ->
  i 9%nat + Z.max 1 (Z.of_nat k) <= 2147483647 ->
  exists fuel s', f_exec LP64 fe_glob [fe_fact] fuel fe_G s fe_main = Some (s', RDone)
  /\ s' 3%nat = Some (factorial k) /\ s' 9%nat = Some (i 9%nat + Z.max 1 (Z.of_nat k)).
Proof.
  intros k s i Hs H0 Hk H9.
  set (fr := upd (fun v => if fe_glob v then i v else 1) 1%nat (Z.of_nat k)).
  assert (L9 : -2147483648 <= i 9%nat <= 2147483647) by exact (proj2 (Hs 9%nat)).
  destruct (fe_lossless k fr Hk eq_refl eq_refl (proj1 L9) H9) as (q & Lq & Q2 & Q9). change (fr 9%nat) with (i 9%nat) in Q9.
  pose proof (factorial_small k Hk) as Fk.
  destruct (C91_quiet LP64 fe_glob [fe_fact] fe_G fe_main s i (upd (after_call fe_glob i q) 3%nat (factorial k))
    (fe_simple true) ltac:(vm_compute; reflexivity) ltac:(vm_compute; reflexivity) Hs) as (fuel & s' & E & S').
  - apply FL_call with (d := fe_fact) (fr := fr); [reflexivity| |exact Lq| | |].
    + cbn [lossless_pass f_params fe_fact lossless obind]. rewrite H0.
      rewrite fits_in; [reflexivity|]. change (-2147483648 <= Z.of_nat k <= 2147483647). lia.
    + cbn [lossless f_result fe_fact]. rewrite Q2. reflexivity.
    + change (-9223372036854775808 <= factorial k <= 9223372036854775807). lia.
    + change (-9223372036854775808 <= factorial k <= 9223372036854775807). lia.
  - exists fuel, s'. split; [exact E|]. split; [exact (proj1 (S' 3%nat))|]. rewrite (proj1 (S' 9%nat)). f_equal. exact Q9.
Qed.

(** Euclid's algorithm *)
Lemma ge_bounded : bounded_program LP64 ge_glob [ge_gcd] ge_G ge_main.
Proof.
  destruct ge_fine as (T & HF & _). split; [exact T|]. split.
  - intros d [<-|[]]. destruct (HF ge_gcd (or_introl eq_refl)) as (A & B & C). split; [|split; [split; [exact B|exact I]|exact C]].
    cbn [f_body ge_gcd f_env fcmd_ok ge_body fcond_ok] in *. destruct A as (A1 & A2 & A3). split; [|split].
    + split; [exact A1|]. split; exact I.
    + split; [exact A2|exact I].
    + intros d Ed. specialize (A3 d Ed). cbn in Ed. injection Ed as <-.
      inversion A3 as [|? ? ? ? X1 Y1]. subst. inversion Y1 as [|? ? ? ? X2 Y2]. subst.
      constructor; [split; [exact X1|exact I]|]. constructor; [|constructor]. split; [exact X2|].
      cbn [every_op]. split; [exact I|]. split; [exact I|]. intros t u _ _ [E|E]; discriminate.
  - intros d [= <-]. repeat constructor.
Qed.
Lemma ge_lossless : forall k j, (forall v, 0 <= j v <= 4294967295) -> j 2%nat < Z.of_nat k ->
  exists j', f_lossless LP64 ge_glob [ge_gcd] ge_G j ge_body j' /\ j' 3%nat = Z.gcd (j 1%nat) (j 2%nat).
Proof.
  induction k as [|k IH]; intros j Hj Hk; [specialize (Hj 2%nat); lia|].
  assert (C1 : lossless_fcond LP64 ge_G j (FRel (Cond REq true (EVar 2%nat) (EConst (ORaw UInt) 0))) = Some (j 2%nat =? 0)).
  { cbn [lossless_fcond lossless_cond lossless obind].
    change (uac LP64 (btype LP64 ge_G (EVar 2%nat)) (btype LP64 ge_G (EConst (ORaw UInt) 0))) with UInt.
    rewrite keep_in by (apply uint_in, Hj). cbn [obind]. rewrite keep_in by (apply uint_in; lia). reflexivity. }
  pose proof (Hj 1%nat) as J1. pose proof (Hj 2%nat) as J2.
  destruct (Z.eqb_spec (j 2%nat) 0) as [E|E].
  - exists (upd j 3%nat (j 1%nat)). split.
    + eapply FL_if; [exact C1|]. apply FL_do with (n := 1%nat). cbn [lossless_exec lossless obind].
      rewrite fits_in; [reflexivity|]. exact J1.
    + change (j 1%nat = Z.gcd (j 1%nat) (j 2%nat)). rewrite E, Z.gcd_0_r. rewrite Z.abs_eq by lia. reflexivity.
  - pose proof (Z.rem_bound_pos (j 1%nat) (j 2%nat) ltac:(lia) ltac:(lia)) as B.
    set (fr := upd (upd (fun v => if ge_glob v then j v else 1) 1%nat (j 2%nat)) 2%nat (Z.rem (j 1%nat) (j 2%nat))).
    destruct (IH fr) as (q & Lq & Q3).
    { intros v. unfold fr, upd, ge_glob. destruct (Nat.eqb v 2); [lia|]. destruct (Nat.eqb v 1); lia. }
    { change (fr 2%nat) with (Z.rem (j 1%nat) (j 2%nat)). lia. }
    change (fr 1%nat) with (j 2%nat) in Q3. change (fr 2%nat) with (Z.rem (j 1%nat) (j 2%nat)) in Q3.
    assert (Q : q 3%nat = Z.gcd (j 1%nat) (j 2%nat)).
    { rewrite Q3, Z.rem_mod_nonneg by lia. rewrite Z.gcd_comm, Z.gcd_mod by lia. apply Z.gcd_comm. }
    assert (Bq : 0 <= q 3%nat <= 4294967295).
    { rewrite Q. split; [apply Z.gcd_nonneg|]. pose proof (Z.divide_pos_le (Z.gcd (j 1%nat) (j 2%nat)) (j 2%nat) ltac:(lia) (Z.gcd_divide_r _ _)). lia. }
    exists (upd (after_call ge_glob j q) 3%nat (q 3%nat)). split; [|exact Q].
    eapply FL_if; [exact C1|]. cbn iota. apply FL_call with (d := ge_gcd) (fr := fr); [reflexivity| |exact Lq|reflexivity|exact Bq|exact Bq].
    cbn [lossless_pass f_params ge_gcd lossless obind]. rewrite fits_in by exact J2. cbn [obind]. unfold lossless_op.
    change (built_in_type LP64 Mod (btype LP64 ge_G (EVar 1%nat)) (btype LP64 ge_G (EVar 2%nat))) with UInt.
    rewrite keep_in by (apply uint_in; lia). cbn [obind]. rewrite keep_in by (apply uint_in; lia). cbn [obind math_op exact].
    destruct (Z.eqb_spec (j 2%nat) 0) as [E'|_]; [contradiction|]. cbn [obind].
    rewrite keep_in by (apply uint_in; lia). cbn [obind].
    rewrite fits_in; [reflexivity|]. change (0 <= Z.rem (j 1%nat) (j 2%nat) <= 4294967295). lia.
Qed.
Lemma C91_gcd_quiet : forall s i, store_ok LP64 ge_G s i ->
  exists fuel s', f_exec LP64 ge_glob [ge_gcd] fuel ge_G s ge_main = Some (s', RDone)
  /\ s' 0%nat = Some (Z.gcd (i 4%nat) (i 5%nat)).
Proof.
  intros s i Hs. assert (Hi : forall v, 0 <= i v <= 4294967295) by (intros v; exact (proj2 (Hs v))).
  set (fr := upd (upd (fun v => if ge_glob v then i v else 1) 1%nat (i 4%nat)) 2%nat (i 5%nat)).
  pose proof (Hi 4%nat) as I4. pose proof (Hi 5%nat) as I5.
  destruct (ge_lossless (S (Z.to_nat (i 5%nat))) fr) as (q & Lq & Q3).
  { intros v. unfold fr, upd, ge_glob. destruct (Nat.eqb v 2); [lia|]. destruct (Nat.eqb v 1); lia. }
  { change (fr 2%nat) with (i 5%nat). lia. }
  change (fr 1%nat) with (i 4%nat) in Q3. change (fr 2%nat) with (i 5%nat) in Q3.
  assert (Bq : 0 <= q 3%nat <= 4294967295).
  { rewrite Q3. split; [apply Z.gcd_nonneg|]. destruct (Z.eq_dec (i 5%nat) 0) as [E|E].
    - rewrite E, Z.gcd_0_r, Z.abs_eq; lia.
    - pose proof (Z.divide_pos_le (Z.gcd (i 4%nat) (i 5%nat)) (i 5%nat) ltac:(lia) (Z.gcd_divide_r _ _)). lia. }
  destruct (C91_quiet_all LP64 ge_glob [ge_gcd] ge_G ge_main s i (upd (after_call ge_glob i q) 0%nat (q 3%nat))
    ge_bounded ltac:(vm_compute; reflexivity) ltac:(vm_compute; reflexivity) Hs) as (fuel & s' & E & S').
  - apply FL_call with (d := ge_gcd) (fr := fr); [reflexivity| |exact Lq|reflexivity|exact Bq|exact Bq].
    cbn [lossless_pass f_params ge_gcd lossless obind]. rewrite fits_in by exact I4. cbn [obind]. rewrite fits_in by exact I5. reflexivity.
  - exists fuel, s'. split; [exact E|]. rewrite <- Q3. exact (proj1 (S' 0%nat)).
Qed.
