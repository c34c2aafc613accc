(** IOProgramFacts.v -- lemmas for PropsIOProgram.v. *)
From Coq Require Import ZArith List Bool Arith Lia.
From Verif Require Import Base CType Spec ExceptionPolicy Promotion SafeBase SafeSpec IntervalFacts Program ProgramSpec
  ProgramFacts PropsProgramProofs ComposeSpec ComposeFacts Stream StreamSpec StreamFacts PropsStreamProofs IOProgram IOProgramSpec.
Import ListNotations.
Local Open Scope Z_scope.

(** a variable with a value still has one after input *)
Lemma input_some : forall D t i x i' v m, wide_type (st t) -> input D t i (Some x) = Some (i', v, m) -> exists z, v = Some z.
Proof.
  intros D t i x i' v m (W1 & W2 & W3) H. unfold input in H. destruct (input_compiles D t); [|discriminate].
  assert (E : is_small_char (st t) = false) by (destruct (st t); congruence || reflexivity). rewrite E in H.
  assert (K : forall j, exists j' z, extract_raw D (st t) j (Some x) = (j', Some z)).
  { intros j. unfold extract_raw. assert (F : exists j' z, extract D (st t) j (Some x) = (j', Some z)).
    { unfold extract. destruct (sentry false j) as [[|] j1]; [|eauto].
      destruct (scan (chars j1)) as [[neg ds] rest]. destruct (num_value D (st t) neg ds) as [w er]. eauto. }
    destruct (st t); try exact F. congruence. }
  destruct (K (if csigned D (st t) then i else reject_minus i)) as (j' & z & E2). rewrite E2 in H. exists z.
  destruct (failbit j'); injection H as _ <- _; reflexivity.
Qed.

(** output has no leading zeros *)
Lemma digits_of_first : forall fuel n, 0 < n < 2 ^ Z.of_nat fuel -> exists c ds, digits_of fuel n = c :: ds /\ c <> 48.
Proof.
  induction fuel as [|f IH]; intros n Hn; [cbn in Hn; lia|]. cbn [digits_of].
  destruct (n <? 10) eqn:E.
  - apply Z.ltb_lt in E. exists (ch_0 + n), []. split; [reflexivity|unfold ch_0; lia].
  - apply Z.ltb_ge in E. rewrite Nat2Z.inj_succ, Z.pow_succ_r in Hn by lia.
    destruct (IH (n / 10)) as (c & ds & -> & Nc).
    + split; [apply Z.div_str_pos; lia|]. apply Z.div_lt_upper_bound; lia.
    + exists c. eexists. split; [reflexivity|exact Nc].
Qed.
Lemma put_int_decimal : forall v, decimal (put_int v) v.
Proof.
  intros v. destruct (Z.eq_dec v 0) as [->|Nv].
  - exists NoSign, [48], 0. refine (conj eq_refl (conj _ (conj eq_refl (conj _ (conj _ _))))).
    + constructor. unfold digit_char. lia.
    + split; [discriminate|lia].
    + discriminate.
    + discriminate.
  - assert (B : 0 < Z.abs v < 2 ^ Z.of_nat (S (Z.to_nat (Z.log2 (Z.abs v))))).
    { rewrite Nat2Z.inj_succ, Z2Nat.id by apply Z.log2_nonneg. split; [lia|]. apply Z.log2_spec. lia. }
    destruct (digits_of_first _ _ B) as (c & ds & E & Nc).
    assert (Hd : denotes (c :: ds) (Z.abs v)) by (rewrite <- E; apply digits_of_denotes; [lia|discriminate]).
    unfold put_int. rewrite E. destruct (v <? 0) eqn:L; [apply Z.ltb_lt in L; exists Minus|apply Z.ltb_ge in L; exists NoSign];
      exists (c :: ds), (Z.abs v); refine (conj eq_refl (conj Hd (conj _ (conj _ (conj _ _))))); cbn [signed]; try lia; try discriminate.
    + split; [intros _; exact L|reflexivity].
    + congruence.
    + split; [discriminate|lia].
    + congruence.
Qed.

Section Go.
  Variables (D : dmodel) (G : tenv) (okc : cmd -> Prop) (okd : cond -> Prop).
  Hypothesis HG : forall v, wf_operand D (G v) /\ (forall E, get_ep (G v) = Some E -> throws_arithmetic E).
  Hypothesis Hcmd : forall fuel c s i s' r, okc c -> compiles D G c = true -> store_ok D G s i -> exec fuel D G s c = Some (s', r) ->
    exists i', store_ok D G s' i' /\ ((r = RDone /\ ideal i c i' true) \/ (exists e, r = RRaised e /\ ideal i c i' false)).
  Hypothesis Hcond : forall c s i, okd c -> cond_compiles D G c = true -> store_ok D G s i ->
    (exists t, truth i c = Some t /\ snd (eval_cond D G s c) = Ret t) \/ (exists e, snd (eval_cond D G s c) = Throw e).

  Definition io_good (caught : bool) (c : iocmd) (q : istate) (p' : iostate) (r : result) : Prop :=
    exists i', store_is (fst (fst p')) i'
    /\ ((r = RDone /\ store_ok D G (fst (fst p')) i' /\ io_ideal D G q c (i', snd (fst p'), snd p') true)
        \/ (exists e, r = RRaised e /\ (caught = true -> store_ok D G (fst (fst p')) i')
            /\ io_ideal D G q c (i', snd (fst p'), snd p') false)).

  Lemma ok_is : forall s i, store_ok D G s i -> store_is s i.
  Proof. intros s i H v. apply H. Qed.

  Lemma read_good : forall v caught s t o i p' r fuel, io_ok okc okd D G caught (IORead v) -> io_compiles D G (IORead v) = true ->
    store_ok D G s i -> io_exec fuel D G (s, t, o) (IORead v) = Some (p', r) -> io_good caught (IORead v) (i, t, o) p' r.
  Proof.
    intros v caught s t o i p' r fuel Hok Hc Hs H. cbn [io_ok io_compiles io_exec] in *.
    destruct (HG v) as [Wf Th]. destruct (G v) as [T|a|T N P E] eqn:Gv; try discriminate. cbn [base_ty lim_lo lim_hi] in *.
    destruct Hok as [Hw Hfull]. specialize (Th (sE a) eq_refl). destruct (Hs v) as [Sv Hv]. rewrite Sv in H.
    destruct (input D a t (Some (i v))) as [[[t' x] m]|] eqn:Ei; [|unfold input in Ei; rewrite Hc in Ei; discriminate].
    injection H as <- <-. destruct (input_some D a t (i v) t' x m Hw Ei) as (z & ->).
    assert (Is : store_is (upd s v (Some z)) (upd i v z)).
    { intros w. unfold upd. destruct (Nat.eqb w v); [reflexivity|apply Hs]. }
    exists (upd i v z). split; [exact Is|]. cbn [fst snd].
    destruct (C44_wide_lemma D a t (Some (i v)) t' (Some z) m Hw Wf Th Ei)
      as [(sg & z' & rest & Gd & Nu & Ac & Rg & Rt & Ez & Cr & Fb)|[Tm No]].
    - injection Ez as <-. left. unfold ending. rewrite Rt. cbn. split; [reflexivity|]. split.
      + intros w. split; [apply Is|]. unfold upd. destruct (Nat.eqb_spec w v) as [->|Nw]; [rewrite Gv; exact Rg|apply Hs].
      + constructor; [|exact Fb]. exists sg. rewrite Cr, Gv. auto.
    - right. destruct Tm as (er & _ & ->). exists er. split; [reflexivity|]. split.
      + intros Hb. destruct (Hfull Hb) as [F1 F2]. rewrite Gv in Hv.
        destruct (C44_full_lemma D a t (i v) t' (Some z) _ Hw Wf Th F1 F2 Hv Ei) as (z' & [= <-] & Hz).
        intros w. split; [apply Is|]. unfold upd. destruct (Nat.eqb_spec w v) as [->|Nw]; [rewrite Gv; exact Hz|apply Hs].
      + constructor. intros z' rest (sg & Gd & Nu & Ac & Rg). rewrite Gv in Ac, Rg. exact (No sg z' rest Gd Nu Ac Rg).
  Qed.

  Lemma io_loop_good : forall c a caught body, okd c -> cond_compiles D G c = true ->
    (forall s t o i p' r, store_ok D G s i -> body (s, t, o) = Some (p', r) -> io_good caught a (i, t, o) p' r) ->
    forall k s t o i p' r, store_ok D G s i -> io_loop (fun s => eval_cond D G s c) body k (s, t, o) = Some (p', r) ->
    io_good caught (IOWhile c a) (i, t, o) p' r.
  Proof.
    intros c a caught body Hc Hcc Hb. induction k as [|k IH]; intros s t o i p' r Hs H; cbn [io_loop fst] in H; [discriminate|].
    destruct (Hcond c s i Hc Hcc Hs) as [(w & Tw & Ew)|(e & Ew)]; rewrite Ew in H.
    - destruct w.
      + destruct (body (s, t, o)) as [[[[s1 t1] o1] r1]|] eqn:Eb; [|discriminate].
        destruct (Hb s t o i _ r1 Hs Eb) as (i1 & Is & [(-> & Hs1 & I1)|(e & -> & Hs1 & I1)]); cbn [fst snd] in *.
        * destruct (IH s1 t1 o1 i1 p' r Hs1 H) as (i2 & Is2 & K). exists i2. split; [exact Is2|].
          destruct K as [(-> & Hs2 & I2)|(e & -> & Hs2 & I2)]; [left|right; exists e]; (split; [reflexivity|split; [exact Hs2|]]);
            eapply II_while; eassumption.
        * injection H as <- <-. exists i1. split; [exact Is|]. right. exists e. split; [reflexivity|]. split; [exact Hs1|].
          eapply II_while_body_raise; eassumption.
      + injection H as <- <-. exists i. split; [apply ok_is; exact Hs|]. left. split; [reflexivity|]. split; [exact Hs|].
        apply II_while_end. exact Tw.
    - injection H as <- <-. exists i. split; [apply ok_is; exact Hs|]. right. exists e. split; [reflexivity|]. split; [auto|].
      apply II_while_raise.
  Qed.

  Lemma io_exec_good : forall fuel c caught s t o i p' r, io_ok okc okd D G caught c -> io_compiles D G c = true ->
    store_ok D G s i -> io_exec fuel D G (s, t, o) c = Some (p', r) -> io_good caught c (i, t, o) p' r.
  Proof.
    intros fuel. induction c as [c|v|v|a IHa b IHb|c a IHa b IHb|c a IHa|a IHa b IHb];
      intros caught s t o i p' r Hok Hc Hs H.
    - cbn [io_ok io_compiles io_exec] in *. destruct (exec fuel D G s c) as [[s1 r1]|] eqn:E; [|discriminate]. injection H as <- <-.
      destruct (Hcmd fuel c s i s1 r1 Hok Hc Hs E) as (i' & A & [[-> B]|(e & -> & B)]); exists i'; (split; [apply ok_is; exact A|]);
        [left|right; exists e]; (split; [reflexivity|split; [auto|constructor; exact B]]).
    - eapply read_good; eassumption.
    - cbn [io_compiles io_exec] in *. destruct (HG v) as [Wf _]. destruct (Hs v) as [Sv Hv]. rewrite Sv in H.
      destruct (G v) as [T|a|T N P E] eqn:Gv; try discriminate. injection H as <- <-. exists i. split; [apply ok_is; exact Hs|].
      left. split; [reflexivity|]. split; [exact Hs|]. constructor. rewrite (output_put D a (i v) Wf Hv). apply put_int_decimal.
    - cbn [io_ok io_compiles io_exec] in *. destruct Hok as [Ka Kb]. apply andb_true_iff in Hc. destruct Hc as [Ca Cb].
      destruct (io_exec fuel D G (s, t, o) a) as [[[[s1 t1] o1] r1]|] eqn:E; [|discriminate].
      destruct (IHa caught s t o i _ r1 Ka Ca Hs E) as (i1 & Is & [(-> & Hs1 & I1)|(e & -> & Hs1 & I1)]); cbn [fst snd] in *.
      + destruct (IHb caught s1 t1 o1 i1 p' r Kb Cb Hs1 H) as (i2 & Is2 & K). exists i2. split; [exact Is2|].
        destruct K as [(-> & Hs2 & I2)|(e & -> & Hs2 & I2)]; [left|right; exists e]; (split; [reflexivity|split; [exact Hs2|]]);
          eapply II_seq; eassumption.
      + injection H as <- <-. exists i1. split; [exact Is|]. right. exists e. split; [reflexivity|]. split; [exact Hs1|].
        apply II_seq_raise. exact I1.
    - cbn [io_ok io_compiles io_exec] in *. destruct Hok as (Kc & Ka & Kb). apply andb_true_iff in Hc. destruct Hc as [Hc Cb].
      apply andb_true_iff in Hc. destruct Hc as [Cc Ca].
      destruct (Hcond c s i Kc Cc Hs) as [(w & Tw & Ew)|(e & Ew)]; rewrite Ew in H.
      + assert (K : io_good caught (if w then a else b) (i, t, o) p' r) by (destruct w; eauto).
        destruct K as (i2 & Is2 & K). exists i2. split; [exact Is2|].
        destruct K as [(-> & Hs2 & I2)|(e & -> & Hs2 & I2)]; [left|right; exists e]; (split; [reflexivity|split; [exact Hs2|]]);
          eapply II_if; eassumption.
      + injection H as <- <-. exists i. split; [apply ok_is; exact Hs|]. right. exists e. split; [reflexivity|]. split; [auto|].
        apply II_if_raise.
    - cbn [io_ok io_compiles] in *. destruct Hok as (Kc & Ka). apply andb_true_iff in Hc. destruct Hc as [Cc Ca].
      apply (io_loop_good c a caught (fun p => io_exec fuel D G p a) Kc Cc) with (k := fuel) (s := s); [|exact Hs|exact H].
      intros s1 t1 o1 i1 p1 r1 Hs1 E. eapply IHa; eassumption.
    - cbn [io_ok io_compiles io_exec] in *. destruct Hok as [Ka Kb]. apply andb_true_iff in Hc. destruct Hc as [Ca Cb].
      destruct (io_exec fuel D G (s, t, o) a) as [[[[s1 t1] o1] r1]|] eqn:E; [|discriminate].
      destruct (IHa true s t o i _ r1 Ka Ca Hs E) as (i1 & Is & [(-> & Hs1 & I1)|(e & -> & Hs1 & I1)]); cbn [fst snd] in *.
      + injection H as <- <-. exists i1. split; [exact Is|]. left. split; [reflexivity|]. split; [exact Hs1|]. apply II_try. exact I1.
      + destruct (IHb caught s1 t1 o1 i1 p' r Kb Cb (Hs1 eq_refl) H) as (i2 & Is2 & K). exists i2. split; [exact Is2|].
        destruct K as [(-> & Hs2 & I2)|(e' & -> & Hs2 & I2)]; [left|right; exists e']; (split; [reflexivity|split; [exact Hs2|]]);
          eapply II_try_catch; eassumption.
  Qed.
End Go.

Lemma C87_lemma : forall nat D G fuel c s i t o s' t' o' r,
  (forall v, type_ok nat D (G v)) -> store_ok D G s i ->
  io_ok (cmd_ok nat D G) (cond_ok nat D) D G false c -> io_compiles D G c = true ->
  io_exec fuel D G (s, t, o) c = Some ((s', t', o'), r) ->
  exists i', store_is s' i'
  /\ ((r = RDone /\ store_ok D G s' i' /\ io_ideal D G (i, t, o) c (i', t', o') true)
      \/ (exists e, r = RRaised e /\ io_ideal D G (i, t, o) c (i', t', o') false)).
Proof.
  intros nat D G fuel c s i t o s' t' o' r HG Hs Hok Hc H.
  destruct (io_exec_good D G (cmd_ok nat D G) (cond_ok nat D)) with (fuel := fuel) (c := c) (caught := false) (s := s) (t := t) (o := o)
    (i := i) (p' := ((s', t'), o')) (r := r) as (i' & A & B); auto.
  - intros v. destruct (HG v) as (W & T & _). split; assumption.
  - intros f c1 s1 i1 s2 r1 K1 K2 K3 K4. exact (C33_lemma nat D G f c1 s1 i1 s2 r1 HG K3 K1 K2 K4).
  - intros c1 s1 i1 K1 K2 K3. destruct (cond_char nat D G s1 i1 c1 HG K3 K1 K2) as [(w & T1 & T2)|(e & _ & T)].
    + left. exists w. split; [assumption|]. rewrite T2. reflexivity.
    + right. exists e. rewrite T. reflexivity.
  - exists i'. split; [exact A|]. cbn [fst snd] in B. destruct B as [B|(e & B1 & _ & B3)]; [left; exact B|right; eauto].
Qed.
Lemma C87_all_lemma : forall nat D G fuel c s i t o s' t' o' r,
  (forall v, type_fine nat D (G v)) -> store_ok D G s i ->
  io_ok (cmd_fine nat D G) (cond_fine nat D G) D G false c -> io_compiles D G c = true ->
  io_exec fuel D G (s, t, o) c = Some ((s', t', o'), r) ->
  exists i', store_is s' i'
  /\ ((r = RDone /\ store_ok D G s' i' /\ io_ideal D G (i, t, o) c (i', t', o') true)
      \/ (exists e, r = RRaised e /\ io_ideal D G (i, t, o) c (i', t', o') false)).
Proof.
  intros nat D G fuel c s i t o s' t' o' r HG Hs Hok Hc H.
  destruct (io_exec_good D G (cmd_fine nat D G) (cond_fine nat D G)) with (fuel := fuel) (c := c) (caught := false) (s := s) (t := t) (o := o)
    (i := i) (p' := ((s', t'), o')) (r := r) as (i' & A & B); auto.
  - intros v. destruct (HG v) as ((W & T & _) & _). split; assumption.
  - intros f c1 s1 i1 s2 r1 K1 K2 K3 K4. exact (C73_cmd nat D G f c1 s1 i1 s2 r1 HG K3 K1 K2 K4).
  - intros c1 s1 i1 K1 K2 K3. destruct (cond_char2 nat D G s1 i1 c1 HG K3 K1 K2) as [(w & T1 & T2)|F].
    + left. exists w. split; [assumption|]. rewrite T2. reflexivity.
    + right. destruct (fails_throw _ _ F) as (l & e & T). exists e. rewrite T. reflexivity.
  - exists i'. split; [exact A|]. cbn [fst snd] in B. destruct B as [B|(e & B1 & _ & B3)]; [left; exact B|right; eauto].
Qed.

(** the refutations *)
Definition io_G : tenv := fun v =>
  match v with O => OSafe (mkSafe Short 1 1000 Native default_exception_policy)
  | _ => OSafe (mkSafe Short 2 2000 Native default_exception_policy) end.
Definition io_s : store := fun _ => Some 5.
Lemma C87_caught_lemma : exists D G fuel c1 s i t s' t' o',
  (forall v, type_ok true D (G v)) /\ store_ok D G s i
  /\ wide_type (base_ty (G 0%nat)) /\ cmd_ok true D G c1
  /\ io_compiles D G (IOSeq (IOTry (IORead 0%nat) (IODo CSkip)) (IODo c1)) = true
  /\ io_exec fuel D G (s, t, []) (IOSeq (IOTry (IORead 0%nat) (IODo CSkip)) (IODo c1)) = Some ((s', t', o'), RDone)
  /\ s' 1%nat = Some (-25536) /\ ~ holds D (G 1%nat) (-25536).
Proof.
  exists LP64, io_G, 1%nat, (CAssign 1%nat (EBin (BA Add) true (EVar 0%nat) (EVar 0%nat))), io_s, (fun _ => 5),
    (mkIs [50; 48; 48; 48; 48] false false).
  do 3 eexists. split; [|split; [|split; [|split; [|split; [|split; [|split]]]]]].
  - intros v. destruct v as [|v]; unfold type_ok, throws_arithmetic; cbn; unfold in_type; repeat split;
      try (intros; discriminate); try (intros E [= <-]; auto); auto; vm_compute; congruence.
  - intros v. split; [reflexivity|]. destruct v as [|v]; vm_compute; split; congruence.
  - vm_compute. repeat split; congruence.
  - cbn. unfold op_ok. auto.
  - vm_compute. reflexivity.
  - vm_compute. reflexivity.
  - reflexivity.
  - unfold holds. cbn. lia.
Qed.
Lemma C87_caught_undefined_lemma : exists D G fuel c1 s i t s' t' o',
  (forall v, type_fine true D (G v)) /\ store_ok D G s i
  /\ wide_type (base_ty (G 0%nat)) /\ cmd_fine true D G c1
  /\ io_compiles D G (IOSeq (IOTry (IORead 0%nat) (IODo CSkip)) (IODo c1)) = true
  /\ io_exec fuel D G (s, t, []) (IOSeq (IOTry (IORead 0%nat) (IODo CSkip)) (IODo c1)) = Some ((s', t', o'), RUndef).
Proof.
  exists LP64, io_G, 1%nat, (CCompound (BA Div) 1%nat (EVar 0%nat)), io_s, (fun _ => 5),
    (mkIs [120] false false).
  do 3 eexists. split; [|split; [|split; [|split; [|split]]]].
  - intros v. destruct v as [|v]; unfold type_fine, type_ok, throws_arithmetic; cbn; unfold in_type; repeat split;
      try (intros; discriminate); try (intros E [= <-]; auto); auto; vm_compute; congruence.
  - intros v. split; [reflexivity|]. destruct v as [|v]; vm_compute; split; congruence.
  - vm_compute. repeat split; congruence.
  - split; [exact I|]. intros t [= <-] s m H. left.
    vm_compute in H. injection H as <- _. vm_compute. intuition congruence.
  - vm_compute. reflexivity.
  - vm_compute. reflexivity.
Qed.
Lemma C87_trap_lemma : forall D G v a, G v = OSafe a -> traps (sE a) -> io_compiles D G (IORead v) = false.
Proof.
  intros D G v a E T. cbn [io_compiles]. rewrite E. unfold input_compiles.
  destruct (construct D a (ORaw Int) 0); [|reflexivity]. destruct (construct D a (ORaw (st a)) 0); [|reflexivity].
  unfold dispatch_compiles, policy_handler. cbn. rewrite T. reflexivity.
Qed.
