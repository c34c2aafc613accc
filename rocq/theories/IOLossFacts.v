(** IOLossFacts.v -- programs with input and output raise nothing if the input is as expected
    and nothing is lost: proofs. *)
From Coq Require Import ZArith List Bool Arith Lia.
From Verif Require Import Base CType Spec ExceptionPolicy Promotion SafeBase SafeSpec IntervalFacts Program ProgramSpec
  SafeFacts ProgramFacts PropsProgramProofs ComposeSpec ComposeFacts BuiltinSpec BuiltinFacts BuiltinAllSpec BuiltinAllFacts
  Stream StreamSpec StreamFacts PropsStreamProofs IOProgram IOProgramSpec IOProgramFacts IOLossSpec.
Import ListNotations.
Local Open Scope Z_scope.

(** the decimal representation is unique *)
Lemma denotes_nonneg : forall cs n, denotes cs n -> 0 <= n.
Proof. induction 1 as [c d [H _]|cs n c d H IH [Hd _]]; lia. Qed.
Lemma denotes_zero : forall cs n, denotes cs n -> n = 0 -> exists r, cs = 48 :: r.
Proof.
  induction 1 as [c d [H ->]|cs n c d H IH [Hd ->]]; intros E.
  - subst d. exists []. reflexivity.
  - pose proof (denotes_nonneg cs n H). destruct IH as (r & ->); [lia|]. exists (r ++ [48 + d]). reflexivity.
Qed.
Definition no_zeros (ds : list Z) : Prop := forall c r, ds <> 48 :: c :: r.
Lemma no_zeros_init : forall ds c, no_zeros (ds ++ [c]) -> no_zeros ds.
Proof. intros ds c H d r ->. apply (H d (r ++ [c])). reflexivity. Qed.
Lemma denotes_unique : forall cs n, denotes cs n -> no_zeros cs -> forall cs', denotes cs' n -> no_zeros cs' -> cs = cs'.
Proof.
  assert (One : forall cs n c d, denotes cs n -> no_zeros (cs ++ [c]) -> 0 <= d <= 9 -> 10 * n + d <= 9 -> False).
  { intros cs n c d H Z Hd L. pose proof (denotes_nonneg cs n H). destruct (denotes_zero cs n H) as (r & ->); [lia|].
    destruct r as [|x r]; [apply (Z c []); reflexivity|apply (Z x (r ++ [c])); reflexivity]. }
  induction 1 as [c d [Hd ->]|cs n c d H IH [Hd ->]]; intros Z cs' H' Z'.
  - inversion H' as [c' d' [Hd' E']|cs1 n1 c1 d1 H1 [Hd1 E1]]; subst; [reflexivity|].
    exfalso. eapply One; [exact H1|exact Z'|exact Hd1|lia].
  - remember (10 * n + d) as k eqn:Ek. destruct H' as [c' d' [Hd' ->]|cs1 n1 c1 d1 H1 [Hd1 ->]].
    + exfalso. eapply One; [exact H|exact Z|exact Hd|lia].
    + assert (n1 = n /\ d1 = d) as [-> ->] by lia. f_equal. apply IH; [eapply no_zeros_init; exact Z|exact H1|eapply no_zeros_init; exact Z'].
Qed.
Lemma decimal_unique : forall cs cs' z, decimal cs z -> decimal cs' z -> cs = cs'.
Proof.
  intros cs cs' z (sg & ds & n & -> & A & B & C & P & Z) (sg' & ds' & n' & -> & A' & B' & C' & P' & Z').
  assert (E : sg = sg').
  { destruct sg, sg'; try congruence; try reflexivity; exfalso.
    - destruct C as [C _]. destruct C' as [_ C']. specialize (C' (C eq_refl)). discriminate.
    - destruct C as [_ C]. destruct C' as [C' _]. specialize (C (C' eq_refl)). discriminate. }
  subst sg'. assert (n = n') by (destruct sg; cbn [signed] in *; lia). subst n'.
  f_equal. exact (denotes_unique ds n A Z ds' A' Z').
Qed.

(** more fuel, same result *)
Lemma io_loop_mono : forall cnd body body', (forall p r, body p = Some r -> body' p = Some r) ->
  forall n n' p r, (n <= n')%nat -> io_loop cnd body n p = Some r -> io_loop cnd body' n' p = Some r.
Proof.
  intros cnd body body' Hb. induction n as [|n IH]; intros n' p r Hn H; cbn [io_loop] in H; [discriminate|].
  destruct n' as [|n']; [lia|]. cbn [io_loop].
  destruct (snd (cnd (fst (fst p)))) as [[|]| | |]; auto.
  destruct (body p) as [[p1 [|e|]]|] eqn:E; try discriminate; rewrite (Hb p _ E); auto.
  apply IH; [lia|assumption].
Qed.
Lemma io_exec_mono : forall D G n n', (n <= n')%nat -> forall c p r, io_exec n D G p c = Some r -> io_exec n' D G p c = Some r.
Proof.
  intros D G n n' Hn. induction c as [c|v|v|a IHa b IHb|c a IHa b IHb|c a IHa|a IHa b IHb]; intros [[s t] o] r H; cbn [io_exec] in *.
  - destruct (exec n D G s c) as [q|] eqn:E; [|discriminate]. assert (E2 : exec n' D G s c = Some q) by (eapply exec_mono; eassumption); rewrite E2. exact H.
  - exact H.
  - exact H.
  - destruct (io_exec n D G (s, t, o) a) as [[p1 [|e|]]|] eqn:E; try discriminate; rewrite (IHa _ _ E); auto.
  - destruct (snd (eval_cond D G s c)) as [[|]| | |]; auto.
  - eapply io_loop_mono; [|exact Hn|exact H]. exact IHa.
  - destruct (io_exec n D G (s, t, o) a) as [[p1 [|e|]]|] eqn:E; try discriminate; rewrite (IHa _ _ E); auto.
Qed.

Section Go.
  Variables (D : dmodel) (G : tenv) (okc : cmd -> Prop) (okd : cond -> Prop).
  Hypothesis HG : forall v, wf_operand D (G v) /\ (forall E, get_ep (G v) = Some E -> throws_arithmetic E).
  Hypothesis Hcmd : forall f c s i i', okc c -> compiles D G c = true -> store_ok D G s i ->
    lossless_exec f D G i c = Some i' -> exists s', exec f D G s c = Some (s', RDone) /\ store_ok D G s' i'.
  Hypothesis Hcond : forall c s i t, okd c -> cond_compiles D G c = true -> store_ok D G s i ->
    lossless_cond D G i c = Some t -> returns (eval_cond D G s c) t.

  Lemma read_quiet : forall v s i t z rest, wide_type (base_ty (G v)) -> io_compiles D G (IORead v) = true ->
    store_ok D G s i -> offers D G t v z rest -> forall n o,
    io_exec n D G (s, t, o) (IORead v) = Some ((upd s v (Some z), remaining rest, o), RDone).
  Proof.
    intros v s i t z rest Hw Hc Hs (sg & Gd & Nu & Ac & Rg) n o. cbn [io_compiles io_exec] in *.
    destruct (HG v) as [Wf Th]. destruct (G v) as [T|a|T N P E] eqn:Gv; try discriminate. cbn [base_ty] in *.
    specialize (Th (sE a) eq_refl).
    assert (It : in_type D (st a) z) by exact (holds_in D (OSafe a) z Wf Rg).
    destruct (input D a t (s v)) as [[[t' x] m]|] eqn:Ei; [|unfold input in Ei; rewrite Hc in Ei; discriminate].
    destruct (input_wide D a t (s v) t' x m Hw Wf Th Ei) as [(sg' & z' & rest' & _ & Nu' & _ & _ & -> & -> & K)|(_ & _ & _ & No)].
    - destruct (numeral_unique _ _ _ _ _ _ _ Nu Nu') as (<- & <- & _).
      destruct K as [[_ R]|[N _]]; [|exfalso; apply N; exact Rg]. rewrite R. reflexivity.
    - exfalso. exact (No sg z rest Gd Nu Ac It).
  Qed.

  Lemma io_exec_quiet : forall p c p', io_lossless D G p c p' ->
    forall caught s, io_ok okc okd D G caught c -> io_compiles D G c = true -> store_ok D G s (fst (fst p)) ->
    exists n s', io_exec n D G (s, snd (fst p), snd p) c = Some ((s', snd (fst p'), snd p'), RDone) /\ store_ok D G s' (fst (fst p')).
  Proof.
    induction 1 as [n i t o c i' L|i t o v z rest Of|i t o v cs Dc|p a p1 b p2 La IHa Lb IHb|i t o c w a b p1 Lc La IHa
      |i t o c a Lc|i t o c a p1 p2 Lc La IHa Lw IHw|p a b p1 La IHa]; intros caught s Hok Hc Hs; cbn [fst snd] in *.
    - cbn [io_ok io_compiles] in *. destruct (Hcmd n c s i i' Hok Hc Hs L) as (s' & E & S'). exists n, s'. split; [|exact S'].
      cbn [io_exec]. rewrite E. reflexivity.
    - destruct Hok as [Hw _]. exists 0%nat, (upd s v (Some z)). split; [exact (read_quiet v s i t z rest Hw Hc Hs Of 0 o)|].
      apply store_ok_upd; [exact Hs|]. destruct Of as (sg & _ & _ & _ & Rg). exact Rg.
    - cbn [io_compiles] in Hc. exists 0%nat, s. split; [|exact Hs]. cbn [io_exec]. destruct (HG v) as [Wf _].
      destruct (Hs v) as [Sv Hv]. rewrite Sv. destruct (G v) as [T|a|T N P E] eqn:Gv; try discriminate.
      rewrite (output_put D a (i v) Wf Hv), (decimal_unique _ _ _ (put_int_decimal (i v)) Dc). reflexivity.
    - cbn [io_ok io_compiles] in *. destruct Hok as [Ka Kb]. apply andb_true_iff in Hc. destruct Hc as [Ca Cb].
      destruct p as [[i t] o], p1 as [[i1 t1] o1]. cbn [fst snd] in *.
      destruct (IHa caught s Ka Ca Hs) as (n & s1 & E1 & S1). destruct (IHb caught s1 Kb Cb S1) as (m & s2 & E2 & S2).
      exists (Nat.max n m), s2. split; [|exact S2]. cbn [io_exec].
      rewrite (io_exec_mono D G n (Nat.max n m) ltac:(lia) _ _ _ E1). exact (io_exec_mono D G m (Nat.max n m) ltac:(lia) _ _ _ E2).
    - cbn [io_ok io_compiles] in *. destruct Hok as (Kc & Ka & Kb). apply andb_true_iff in Hc. destruct Hc as [Hc Cb].
      apply andb_true_iff in Hc. destruct Hc as [Cc Ca].
      destruct (IHa caught s ltac:(destruct w; assumption) ltac:(destruct w; assumption) Hs) as (n & s1 & E1 & S1).
      exists n, s1. split; [|exact S1]. cbn [io_exec]. rewrite (Hcond c s i w Kc Cc Hs Lc). cbn [snd]. destruct w; exact E1.
    - cbn [io_ok io_compiles] in *. destruct Hok as (Kc & Ka). apply andb_true_iff in Hc. destruct Hc as [Cc Ca].
      exists 1%nat, s. split; [|exact Hs]. cbn [io_exec io_loop fst]. rewrite (Hcond c s i false Kc Cc Hs Lc). reflexivity.
    - pose proof Hok as Hok'. pose proof Hc as Hc'. cbn [io_ok io_compiles] in Hok, Hc. destruct Hok as (Kc & Ka).
      apply andb_true_iff in Hc. destruct Hc as [Cc Ca]. destruct p1 as [[i1 t1] o1]. cbn [fst snd] in *.
      destruct (IHa caught s Ka Ca Hs) as (n & s1 & E1 & S1). destruct (IHw caught s1 Hok' Hc' S1) as (m & s2 & E2 & S2).
      exists (S (Nat.max n m)), s2. split; [|exact S2]. cbn [io_exec] in *.
      set (k := S (Nat.max n m)) in *. unfold k at 2. cbn [io_loop fst].
      rewrite (Hcond c s i true Kc Cc Hs Lc). cbn [snd].
      rewrite (io_exec_mono D G n k ltac:(lia) _ _ _ E1).
      eapply io_loop_mono; [| |exact E2]; [|lia]. intros p r. apply io_exec_mono. lia.
    - cbn [io_ok io_compiles] in *. destruct Hok as [Ka Kb]. apply andb_true_iff in Hc. destruct Hc as [Ca Cb].
      destruct p as [[i t] o]. cbn [fst snd] in *. destruct (IHa true s Ka Ca Hs) as (n & s1 & E1 & S1).
      exists n, s1. split; [|exact S1]. cbn [io_exec]. rewrite E1. reflexivity.
  Qed.
End Go.

Lemma C87_quiet : forall D G c s i t o i' t' o',
  (forall v, type_ok true D (G v)) -> store_ok D G s i ->
  io_ok (cmd_ok true D G) (cond_ok true D) D G false c -> io_compiles D G c = true ->
  io_lossless D G (i, t, o) c (i', t', o') ->
  exists fuel s', io_exec fuel D G (s, t, o) c = Some ((s', t', o'), RDone) /\ store_ok D G s' i'.
Proof.
  intros D G c s i t o i' t' o' HG Hs Hok Hc L.
  refine (io_exec_quiet D G (cmd_ok true D G) (cond_ok true D) _ _ _ _ _ _ L false s Hok Hc Hs).
  - intros v. destruct (HG v) as (W & T & _). split; assumption.
  - intros f c1 s1 i1 i2 K1 K2 K3 K4. exact (lossless_exec_char D G f HG c1 s1 i1 i2 K1 K2 K3 K4).
  - intros c1 s1 i1 w K1 K2 K3 K4. exact (lossless_cond_char D G s1 i1 c1 w HG K3 K1 K2 K4).
Qed.
Lemma C87_quiet_all : forall D G c s i t o i' t' o',
  (forall v, type_fine true D (G v)) -> store_ok D G s i ->
  io_ok (fun c => cmd_fine true D G c /\ every_op_cmd (shift_bounded D) D G c)
    (fun c => cond_fine true D G c /\ every_op_cond (shift_bounded D) D G c) D G false c -> io_compiles D G c = true ->
  io_lossless D G (i, t, o) c (i', t', o') ->
  exists fuel s', io_exec fuel D G (s, t, o) c = Some ((s', t', o'), RDone) /\ store_ok D G s' i'.
Proof.
  intros D G c s i t o i' t' o' HG Hs Hok Hc L.
  refine (io_exec_quiet D G _ _ _ _ _ _ _ _ L false s Hok Hc Hs).
  - intros v. destruct (HG v) as ((W & T & _) & _). split; assumption.
  - intros f c1 s1 i1 i2 K1 K2 K3 K4. exact (lossless_exec_char2 D G f HG c1 s1 i1 i2 (proj1 K1) (proj2 K1) K2 K3 K4).
  - intros c1 s1 i1 w K1 K2 K3 K4. exact (lossless_cond_char2 D G s1 i1 c1 w HG K3 (proj1 K1) (proj2 K1) K2 K4).
Qed.

Lemma sum_types : forall v, type_ok true LP64 (sum_G v).
Proof.
  intros v. destruct v as [|[|[|v]]]; unfold type_ok, throws_arithmetic; cbn; unfold in_type; repeat split;
      try (intros; discriminate); try (intros E [= <-]; auto); auto; vm_compute; congruence.
Qed.
Lemma sum_ok : io_ok (cmd_ok true LP64 sum_G) (cond_ok true LP64) LP64 sum_G false sum_c.
Proof.
  cbn. unfold type_ok, op_ok, wide_type. cbn. unfold in_type, holds.
  repeat split; try (intros; discriminate); auto; try (vm_compute; congruence).
Qed.
Lemma numeral_nonempty : forall cs sg z rest, numeral cs sg z rest -> at_end cs = false.
Proof.
  intros cs sg z rest (bl & ds & n & _ & Dn & -> & _ & _). destruct bl; [|reflexivity]. destruct sg; try reflexivity. cbn.
  destruct Dn as [c d _|cs n c d _ _]; [reflexivity|]. destruct cs; reflexivity.
Qed.
Lemma keep_in : forall D T z, in_type D T z -> keep D T z = Some z.
Proof. intros D T z H. unfold keep, in_range. destruct H as [A B]. apply Z.leb_le in A, B. rewrite A, B. reflexivity. Qed.
Lemma fits_in : forall D o z, holds D o z -> fits_type D o z = Some z.
Proof. intros D o z [A B]. unfold fits_type. apply Z.leb_le in A, B. rewrite A, B. reflexivity. Qed.
Lemma int_in : forall z, -2147483648 <= z <= 2147483647 -> in_type LP64 Int z.
Proof. intros z H. exact H. Qed.
Lemma long_in : forall z, -9223372036854775808 <= z <= 9223372036854775807 -> in_type LP64 Long z.
Proof. intros z H. exact H. Qed.

Lemma sum_lossless : forall l i t o, Forall (fun z => -2147483648 <= z <= 2147483647) l ->
  lists (chars t) l -> (l <> [] -> good t = true) -> i 0%nat = Z.of_nat (length l) -> Z.of_nat (length l) <= 2147483647 ->
  Z.abs (i 2%nat) <= 2147483648 * (2147483647 - Z.of_nat (length l)) ->
  exists i' t', io_lossless LP64 sum_G (i, t, o) sum_loop (i', t', o) /\ i' 2%nat = i 2%nat + total l.
Proof.
  induction l as [|z l IH]; intros i t o Hl Ht Hg H0 Hn H2.
  - exists i, t. split; [|cbn; lia]. apply IL_while_end. cbn [lossless_cond lossless obind]. rewrite H0. reflexivity.
  - inversion Hl as [|? ? Hz Hl']. subst. inversion Ht as [|? sg ? rest ? Nu Ht']. subst.
    cbn [length] in *. rewrite Nat2Z.inj_succ in *. set (n := Z.of_nat (length l)) in *. assert (Pn : 0 <= n) by lia.
    set (i1 := upd i 1%nat z). set (i2 := upd i1 2%nat (i 2%nat + z)). set (i3 := upd i2 0%nat n).
    destruct (IH i3 (remaining rest) o Hl' Ht') as (i' & t' & L & E).
    { intros Nl. destruct l as [|y l]; [congruence|]. inversion Ht' as [|? sg1 ? rest1 ? Nu1 _]. subst.
      unfold remaining, good. cbn. rewrite (numeral_nonempty _ _ _ _ Nu1). reflexivity. }
    { reflexivity. }
    { lia. }
    { change (i3 2%nat) with (i 2%nat + z). lia. }
    exists i', t'. split; [|rewrite E; change (i3 2%nat) with (i 2%nat + z); cbn [total fold_right]; fold (total l); lia].
    eapply IL_while with (p1 := (i3, remaining rest, o)); [| |exact L].
    + cbn [lossless_cond lossless obind]. rewrite H0.
      change (uac LP64 (btype LP64 sum_G (EVar 0%nat)) (btype LP64 sum_G (EConst (ORaw Int) 0))) with Int.
      rewrite keep_in by (apply int_in; lia). cbn [obind]. rewrite keep_in by (apply int_in; lia). cbn [obind math_rel].
      f_equal. unfold Z.gtb. destruct (Z.compare_spec (Z.succ n) 0); try reflexivity; lia.
    + eapply IL_seq with (p1 := (i2, remaining rest, o)).
      * apply IL_try. eapply IL_seq with (p1 := (i1, remaining rest, o)).
        -- apply IL_read. exists sg. split; [apply Hg; discriminate|]. split; [exact Nu|]. split; [left; reflexivity|]. exact Hz.
        -- apply IL_do with (n := 1%nat). cbn [lossless_exec lossless obind]. cbv zeta. unfold lossless_op.
           change (built_in_type LP64 Add (base_ty (sum_G 2%nat)) (btype LP64 sum_G (EVar 1%nat))) with Long.
           change (i1 2%nat) with (i 2%nat). change (i1 1%nat) with z.
           rewrite keep_in by (apply long_in; lia). cbn [obind]. rewrite keep_in by (apply long_in; lia). cbn [obind math_op exact].
           rewrite keep_in by (apply long_in; lia). cbn [obind]. rewrite fits_in; [reflexivity|].
           change (-9223372036854775808 <= i 2%nat + z <= 9223372036854775807). lia.
      * apply IL_do with (n := 1%nat). cbn [lossless_exec]. cbv zeta. unfold lossless_op.
        change (built_in_type LP64 Sub (base_ty (sum_G 0%nat)) Int) with Int. change (i2 0%nat) with (i 0%nat). rewrite H0.
        rewrite keep_in by (apply int_in; lia). cbn [obind]. rewrite keep_in by (apply int_in; lia). cbn [obind math_op exact].
        replace (Z.succ n - 1) with n by lia.
        rewrite keep_in by (apply int_in; lia). cbn [obind]. rewrite fits_in; [reflexivity|].
        change (-2147483648 <= n <= 2147483647). lia.
Qed.

Lemma C87_sum_lemma : forall l t o s i, Forall (fun z => -2147483648 <= z <= 2147483647) l ->
  Z.of_nat (length l) <= 2147483647 -> good t = true -> lists (chars t) (Z.of_nat (length l) :: l) ->
  store_ok LP64 sum_G s i -> i 2%nat = 0 ->
  exists fuel s' t' cs, io_exec fuel LP64 sum_G (s, t, o) sum_c = Some ((s', t', o ++ cs), RDone) /\ decimal cs (total l).
Proof.
  intros l t o s i Hl Hn Hg Ht Hs H2. inversion Ht as [|? sg ? rest ? Nu Ht']. subst.
  set (n := Z.of_nat (length l)) in *. set (i1 := upd i 0%nat n).
  destruct (sum_lossless l i1 (remaining rest) o Hl Ht') as (i' & t' & L & E).
  { intros Nl. destruct l as [|y l]; [congruence|]. inversion Ht' as [|? sg1 ? rest1 ? Nu1 _]. subst.
    unfold remaining, good. cbn. rewrite (numeral_nonempty _ _ _ _ Nu1). reflexivity. }
  { reflexivity. }
  { exact Hn. }
  { change (i1 2%nat) with (i 2%nat). fold n. lia. }
  change (i1 2%nat) with (i 2%nat) in E. rewrite H2 in E. cbn [Z.add] in E.
  destruct (C87_quiet LP64 sum_G sum_c s i t o i' t' (o ++ put_int (total l)) sum_types Hs sum_ok ltac:(vm_compute; reflexivity))
    as (fuel & s' & Ex & _).
  - eapply IL_seq with (p1 := (i1, remaining rest, o)).
    + apply IL_read. exists sg. split; [exact Hg|]. split; [exact Nu|]. split; [left; reflexivity|].
      change (-2147483648 <= n <= 2147483647). lia.
    + eapply IL_seq; [exact L|]. apply IL_write. rewrite E. apply put_int_decimal.
  - exists fuel, s', t', (put_int (total l)). split; [exact Ex|apply put_int_decimal].
Qed.
