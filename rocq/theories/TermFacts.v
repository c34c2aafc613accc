(** TermFacts.v -- proofs about termination. *)
From Coq Require Import ZArith Bool List Lia Arith.
From Verif Require Import Base CType Spec CTypeFacts ExceptionPolicy Promotion SafeBase SafeSpec Program ProgramSpec ProgramFacts
  PropsProgramProofs ComposeSpec ComposeFacts BuiltinSpec ThreadsSpec TermSpec.
Import ListNotations.
Local Open Scope Z_scope.

Section Ends.
  Variable D : dmodel.
  Variable G : tenv.
  Variable okc : cmd -> Prop.
  Variable okk : cond -> Prop.
  Hypothesis ok_seq : forall a b, okc (CSeq a b) -> okc a /\ okc b.
  Hypothesis ok_try : forall a b, okc (CTry a b) -> okc a /\ okc b.
  Hypothesis ok_if : forall c a b, okc (CIf c a b) -> okk c /\ okc a /\ okc b.
  Hypothesis ok_while : forall c a, okc (CWhile c a) -> okk c /\ okc a.
  Hypothesis good_cond : forall s i c, store_ok D G s i -> okk c ->
    (exists t, truth i c = Some t /\ snd (eval_cond D G s c) = Ret t) \/ exists e, snd (eval_cond D G s c) = Throw e.
  Hypothesis good_cmd : forall f c s i s' r, okc c -> store_ok D G s i -> exec f D G s c = Some (s', r) ->
    exists i', store_ok D G s' i' /\ ((r = RDone /\ ideal i c i' true) \/ (exists e, r = RRaised e /\ ideal i c i' false)).

  Lemma halts_ends : forall i c, halts i c -> okc c -> forall s, store_ok D G s i -> ends D G s c.
  Proof.
    induction 1 as [i|i v|i v e|i op v e|i v|i v|i inc w v|i a b Ha IHa Hb IHb|i c a b Ha IHa Hb IHb|i c a Ha IHa Hb IHb|i a b Ha IHa Hb IHb];
      intros Ho s Hs; unfold ends.
    - exists O. eexists. reflexivity.
    - exists O. cbn [exec]. destruct (G v); eexists; reflexivity.
    - exists O. cbn [exec]. destruct (type_of D G e); eexists; reflexivity.
    - exists O. cbn [exec]. destruct (type_of D G e); eexists; reflexivity.
    - exists O. cbn [exec]. destruct (G v); eexists; reflexivity.
    - exists O. cbn [exec]. destruct (G v); eexists; reflexivity.
    - exists O. cbn [exec]. destruct (G v), (G w); try (eexists; reflexivity).
      match goal with |- exists r, match ?p with _ => _ end = _ => destruct p as [sx [| |]] end; try (eexists; reflexivity).
      destruct (snd (read s v)); eexists; reflexivity.
    - destruct (ok_seq _ _ Ho) as [Oa Ob]. destruct (IHa Oa s Hs) as (f1 & [s1 r1] & E1).
      destruct (good_cmd _ _ _ _ _ _ Oa Hs E1) as (i1 & Hs1 & [[-> I1]|(e & -> & I1)]).
      + destruct (IHb i1 I1 Ob s1 Hs1) as (f2 & r2 & E2). exists (Nat.max f1 f2), r2. cbn [exec].
        rewrite (exec_mono D G f1 (Nat.max f1 f2) a s _ (Nat.le_max_l f1 f2) E1).
        exact (exec_mono D G f2 (Nat.max f1 f2) b s1 _ (Nat.le_max_r f1 f2) E2).
      + exists f1, (s1, RRaised e). cbn [exec]. rewrite E1. reflexivity.
    - destruct (ok_if _ _ _ Ho) as (Oc & Oa & Ob).
      destruct (good_cond s i c Hs Oc) as [(t & T & E)|(e & E)].
      + destruct t.
        * destruct (IHa T Oa s Hs) as (f & r & E1). exists f, r. cbn [exec]. rewrite E. exact E1.
        * destruct (IHb T Ob s Hs) as (f & r & E1). exists f, r. cbn [exec]. rewrite E. exact E1.
      + exists O. cbn [exec]. rewrite E. eexists. reflexivity.
    - destruct (ok_while _ _ Ho) as (Oc & Oa).
      destruct (good_cond s i c Hs Oc) as [(t & T & E)|(e & E)].
      + destruct t.
        * destruct (IHa T Oa s Hs) as (f1 & [s1 r1] & E1).
          destruct (good_cmd _ _ _ _ _ _ Oa Hs E1) as (i1 & Hs1 & [[-> I1]|(e & -> & I1)]).
          -- destruct (IHb T i1 I1 Ho s1 Hs1) as (f2 & r2 & E2). exists (S (Nat.max f1 f2)), r2. cbn [exec loop]. rewrite E.
             rewrite (exec_mono D G f1 (S (Nat.max f1 f2)) a s _ ltac:(lia) E1).
             cbn [exec] in E2. eapply loop_mono; [|exact (Nat.le_max_r f1 f2)|exact E2].
             intros s0 r0 E0. exact (exec_mono D G f2 (S (Nat.max f1 f2)) a s0 _ ltac:(lia) E0).
          -- exists (S f1), (s1, RRaised e). cbn [exec loop]. rewrite E.
             rewrite (exec_mono D G f1 (S f1) a s _ ltac:(lia) E1). reflexivity.
        * exists 1%nat. cbn [exec loop]. rewrite E. eexists. reflexivity.
      + exists 1%nat. cbn [exec loop]. rewrite E. eexists. reflexivity.
    - destruct (ok_try _ _ Ho) as [Oa Ob]. destruct (IHa Oa s Hs) as (f1 & [s1 r1] & E1).
      destruct (good_cmd _ _ _ _ _ _ Oa Hs E1) as (i1 & Hs1 & [[-> I1]|(e & -> & I1)]).
      + exists f1, (s1, RDone). cbn [exec]. rewrite E1. reflexivity.
      + destruct (IHb i1 I1 Ob s1 Hs1) as (f2 & r2 & E2). exists (Nat.max f1 f2), r2. cbn [exec].
        rewrite (exec_mono D G f1 (Nat.max f1 f2) a s _ (Nat.le_max_l f1 f2) E1).
        exact (exec_mono D G f2 (Nat.max f1 f2) b s1 _ (Nat.le_max_r f1 f2) E2).
  Qed.

  (** a quantity that grows and is bounded *)
  Lemma variant_loop : forall c a f0 (m : (nat -> Z) -> Z) B, okc (CWhile c a) ->
    (forall s i, store_ok D G s i -> truth i c = Some true -> exists r, exec f0 D G s a = Some r) ->
    (forall i, in_ranges D G i -> m i <= B) ->
    (forall i i1, in_ranges D G i -> in_ranges D G i1 -> truth i c = Some true -> ideal i a i1 true -> m i < m i1) ->
    forall k f s i, (f0 <= f)%nat -> store_ok D G s i -> B - m i + 1 < Z.of_nat k ->
    exists r, loop (fun s => eval_cond D G s c) (fun s => exec f D G s a) k s = Some r.
  Proof.
    intros c a f0 m B Ho Hb HB Hm. destruct (ok_while _ _ Ho) as (Oc & Oa).
    induction k as [|k IH]; intros f s i Hf Hs Bk.
    - assert (m i <= B) by (apply HB; intros v; apply Hs). lia.
    - cbn [loop]. destruct (good_cond s i c Hs Oc) as [(t & T & E)|(e & E)]; rewrite E; [|eexists; reflexivity].
      destruct t; [|eexists; reflexivity].
      destruct (Hb s i Hs T) as ([s1 r1] & E1). rewrite (exec_mono D G f0 f a s _ Hf E1).
      destruct (good_cmd _ _ _ _ _ _ Oa Hs E1) as (i1 & Hs1 & [[-> I1]|(e & -> & I1)]); [|eexists; reflexivity].
      apply (IH f s1 i1 Hf Hs1).
      assert (m i < m i1) by (apply Hm; try assumption; intros v; [apply Hs|apply Hs1]). lia.
  Qed.
End Ends.

(** exact arithmetic without handlers is deterministic *)
Lemma ideal_det : forall i c i1 b1, ideal i c i1 b1 -> b1 = true -> no_try c -> forall i2, ideal i c i2 true -> i1 = i2.
Proof.
  induction 1; intros Hb Nt j2 H2; try discriminate; cbn [no_try] in Nt.
  - inversion H2; reflexivity.
  - inversion H2; subst. congruence.
  - inversion H2; subst. assert (y = y0) by congruence. subst. congruence.
  - inversion H2; reflexivity.
  - inversion H2; reflexivity.
  - inversion H2; reflexivity.
  - inversion H2; subst. destruct Nt as [N1 N2].
    match goal with A : ideal i a ?j true, B : ideal ?j b j2 true |- _ =>
      assert (i1 = j) by (apply IHideal1; auto); subst; apply IHideal2; auto end.
  - inversion H2; subst. assert (t = t0) by congruence. subst t0. apply IHideal; auto. destruct Nt, t; assumption.
  - inversion H2; subst; [reflexivity|congruence].
  - inversion H2; subst; [congruence|].
    match goal with A : ideal i a ?j true, B : ideal ?j (CWhile c a) j2 true |- _ =>
      assert (i1 = j) by (apply IHideal1; auto); subst; apply IHideal2; auto end.
  - destruct Nt.
  - destruct Nt.
Qed.

Lemma ideal_halts : forall i c i1 b, ideal i c i1 b -> b = true -> no_try c -> halts i c.
Proof.
  induction 1; intros Hb Nt; try discriminate; cbn [no_try] in Nt; try constructor; try solve [destruct Nt].
  - destruct Nt. apply IHideal1; auto.
  - intros j Hj. destruct Nt as [N1 N2]. rewrite <- (ideal_det _ _ _ _ H eq_refl N1 j Hj). apply IHideal2; auto.
  - intros T. assert (t = true) by congruence. subst t. apply IHideal; tauto.
  - intros T. assert (t = false) by congruence. subst t. apply IHideal; tauto.
  - congruence.
  - congruence.
  - intros _. apply IHideal1; auto.
  - intros _ j Hj. rewrite <- (ideal_det _ _ _ _ H0 eq_refl Nt j Hj). apply IHideal2; auto.
Qed.

Definition okb (n : bool) (D : dmodel) (G : tenv) (c : cmd) : Prop := cmd_ok n D G c /\ compiles D G c = true.
Definition okbk (n : bool) (D : dmodel) (G : tenv) (c : cond) : Prop := cond_ok n D c /\ cond_compiles D G c = true.
Definition okf (n : bool) (D : dmodel) (G : tenv) (c : cmd) : Prop := cmd_fine n D G c /\ compiles D G c = true.
Definition okfk (n : bool) (D : dmodel) (G : tenv) (c : cond) : Prop := cond_fine n D G c /\ cond_compiles D G c = true.

Ltac parts := intros; match goal with H : _ /\ compiles _ _ _ = true |- _ => let A := fresh in let B := fresh in
  destruct H as [A B]; cbn [cmd_ok cmd_fine compiles] in A, B; rewrite ?andb_true_iff in B; tauto end.
Lemma base_cond : forall n D G, (forall v, type_ok n D (G v)) -> forall s i c, store_ok D G s i -> okbk n D G c ->
  (exists t, truth i c = Some t /\ snd (eval_cond D G s c) = Ret t) \/ exists e, snd (eval_cond D G s c) = Throw e.
Proof.
  intros n D G HG s i c Hs [H1 H2]. destruct (cond_char n D G s i c HG Hs H1 H2) as [(t & T & R)|(e & _ & T)].
  - left. exists t. split; [exact T|]. rewrite R. reflexivity.
  - right. exists e. rewrite T. reflexivity.
Qed.
Lemma fine_cond : forall n D G, (forall v, type_fine n D (G v)) -> forall s i c, store_ok D G s i -> okfk n D G c ->
  (exists t, truth i c = Some t /\ snd (eval_cond D G s c) = Ret t) \/ exists e, snd (eval_cond D G s c) = Throw e.
Proof.
  intros n D G HG s i c Hs [H1 H2]. destruct (cond_char2 n D G s i c HG Hs H1 H2) as [(t & T & R)|(l & e & T)%fails_throw].
  - left. exists t. split; [exact T|]. rewrite R. reflexivity.
  - right. exists e. rewrite T. reflexivity.
Qed.

Lemma ends_base : forall n D G, (forall v, type_ok n D (G v)) -> forall i c, halts i c ->
  cmd_ok n D G c -> compiles D G c = true -> forall s, store_ok D G s i -> ends D G s c.
Proof.
  intros n D G HG i c H H1 H2 s Hs.
  refine (halts_ends D G (okb n D G) (okbk n D G) _ _ _ _ (base_cond n D G HG) _ i c H (conj H1 H2) s Hs).
  1-4: unfold okb, okbk; parts.
  intros f c0 s0 i0 s' r [A B] Hs0 E. exact (C33_lemma n D G f c0 s0 i0 s' r HG Hs0 A B E).
Qed.
Lemma ends_fine : forall n D G, (forall v, type_fine n D (G v)) -> forall i c, halts i c ->
  cmd_fine n D G c -> compiles D G c = true -> forall s, store_ok D G s i -> ends D G s c.
Proof.
  intros n D G HG i c H H1 H2 s Hs.
  refine (halts_ends D G (okf n D G) (okfk n D G) _ _ _ _ (fine_cond n D G HG) _ i c H (conj H1 H2) s Hs).
  1-4: unfold okf, okfk; parts.
  intros f c0 s0 i0 s' r [A B] Hs0 E. exact (C73_cmd n D G f c0 s0 i0 s' r HG Hs0 A B E).
Qed.

(** a program that completes in exact arithmetic *)
Lemma exact_ends : forall n D G c s i i', (forall v, type_ok n D (G v)) -> store_ok D G s i ->
  cmd_ok n D G c -> compiles D G c = true -> no_try c -> ideal i c i' true ->
  exists f s' r, exec f D G s c = Some (s', r) /\ ((r = RDone /\ store_ok D G s' i') \/ exists e, r = RRaised e).
Proof.
  intros n D G c s i i' HG Hs H1 H2 Nt I.
  destruct (ends_base n D G HG i c (ideal_halts _ _ _ _ I eq_refl Nt) H1 H2 s Hs) as (f & [s' r] & E).
  exists f, s', r. split; [exact E|].
  destruct (C33_lemma n D G f c s i s' r HG Hs H1 H2 E) as (j & Hj & [[-> J]|(e & -> & _)]); [left|right; eauto].
  split; [reflexivity|]. rewrite (ideal_det _ _ _ _ I eq_refl Nt j J). exact Hj.
Qed.
Lemma exact_ends_fine : forall n D G c s i i', (forall v, type_fine n D (G v)) -> store_ok D G s i ->
  cmd_fine n D G c -> compiles D G c = true -> no_try c -> ideal i c i' true ->
  exists f s' r, exec f D G s c = Some (s', r) /\ ((r = RDone /\ store_ok D G s' i') \/ exists e, r = RRaised e).
Proof.
  intros n D G c s i i' HG Hs H1 H2 Nt I.
  destruct (ends_fine n D G HG i c (ideal_halts _ _ _ _ I eq_refl Nt) H1 H2 s Hs) as (f & [s' r] & E).
  exists f, s', r. split; [exact E|].
  destruct (C73_cmd n D G f c s i s' r HG Hs H1 H2 E) as (j & Hj & [[-> J]|(e & -> & _)]); [left|right; eauto].
  split; [reflexivity|]. rewrite (ideal_det _ _ _ _ I eq_refl Nt j J). exact Hj.
Qed.

(** loops in which a bounded quantity grows *)
Lemma variant_base : forall n D G c a f0 m B, (forall v, type_ok n D (G v)) -> cmd_ok n D G (CWhile c a) ->
  compiles D G (CWhile c a) = true ->
  (forall s i, store_ok D G s i -> truth i c = Some true -> exists r, exec f0 D G s a = Some r) ->
  (forall i, in_ranges D G i -> m i <= B) ->
  (forall i i1, in_ranges D G i -> in_ranges D G i1 -> truth i c = Some true -> ideal i a i1 true -> m i < m i1) ->
  forall s i f, store_ok D G s i -> (f0 <= f)%nat -> B - m i + 1 < Z.of_nat f -> exists r, exec f D G s (CWhile c a) = Some r.
Proof.
  intros n D G c a f0 m B HG H1 H2 Hb HB Hm s i f Hs Hf Bf. cbn [exec].
  refine (variant_loop D G (okb n D G) (okbk n D G) _ (base_cond n D G HG) _ c a f0 m B (conj H1 H2) Hb HB Hm f f s i Hf Hs Bf).
  - unfold okb, okbk; parts.
  - intros f1 c0 s0 i0 s' r [A0 B0] Hs0 E. exact (C33_lemma n D G f1 c0 s0 i0 s' r HG Hs0 A0 B0 E).
Qed.
Lemma variant_fine : forall n D G c a f0 m B, (forall v, type_fine n D (G v)) -> cmd_fine n D G (CWhile c a) ->
  compiles D G (CWhile c a) = true ->
  (forall s i, store_ok D G s i -> truth i c = Some true -> exists r, exec f0 D G s a = Some r) ->
  (forall i, in_ranges D G i -> m i <= B) ->
  (forall i i1, in_ranges D G i -> in_ranges D G i1 -> truth i c = Some true -> ideal i a i1 true -> m i < m i1) ->
  forall s i f, store_ok D G s i -> (f0 <= f)%nat -> B - m i + 1 < Z.of_nat f -> exists r, exec f D G s (CWhile c a) = Some r.
Proof.
  intros n D G c a f0 m B HG H1 H2 Hb HB Hm s i f Hs Hf Bf. cbn [exec].
  refine (variant_loop D G (okf n D G) (okfk n D G) _ (fine_cond n D G HG) _ c a f0 m B (conj H1 H2) Hb HB Hm f f s i Hf Hs Bf).
  - unfold okf, okfk; parts.
  - intros f1 c0 s0 i0 s' r [A0 B0] Hs0 E. exact (C73_cmd n D G f1 c0 s0 i0 s' r HG Hs0 A0 B0 E).
Qed.

(** a counter that always grows *)
Lemma counter_up : forall n D G c a f0 v, (forall v, type_ok n D (G v)) -> cmd_ok n D G (CWhile c a) ->
  compiles D G (CWhile c a) = true ->
  (forall s i, store_ok D G s i -> truth i c = Some true -> exists r, exec f0 D G s a = Some r) ->
  (forall i i1, in_ranges D G i -> in_ranges D G i1 -> truth i c = Some true -> ideal i a i1 true -> i v < i1 v) ->
  forall s i f, store_ok D G s i -> (f0 <= f)%nat -> lim_hi D (G v) - i v + 1 < Z.of_nat f ->
  exists r, exec f D G s (CWhile c a) = Some r.
Proof.
  intros n D G c a f0 v HG H1 H2 Hb Hm. apply (variant_base n D G c a f0 (fun i => i v)); try assumption.
  intros i Hi. apply (Hi v).
Qed.
Lemma counter_down : forall n D G c a f0 v, (forall v, type_ok n D (G v)) -> cmd_ok n D G (CWhile c a) ->
  compiles D G (CWhile c a) = true ->
  (forall s i, store_ok D G s i -> truth i c = Some true -> exists r, exec f0 D G s a = Some r) ->
  (forall i i1, in_ranges D G i -> in_ranges D G i1 -> truth i c = Some true -> ideal i a i1 true -> i1 v < i v) ->
  forall s i f, store_ok D G s i -> (f0 <= f)%nat -> i v - lim_lo D (G v) + 1 < Z.of_nat f ->
  exists r, exec f D G s (CWhile c a) = Some r.
Proof.
  intros n D G c a f0 v HG H1 H2 Hb Hm s i f Hs Hf Bf.
  apply (variant_base n D G c a f0 (fun i => - i v) (- lim_lo D (G v)) HG H1 H2 Hb) with (i := i); try assumption; try lia.
  - intros j Hj. specialize (Hj v). unfold holds in Hj. lia.
  - intros j j1 A B C E. specialize (Hm j j1 A B C E). lia.
Qed.

(** ------------------------------------------------------------------ *)
(** what a command does not write *)
Lemma ideal_unwritten : forall i c i' b, ideal i c i' b -> forall v, ~ writes c v -> i' v = i v.
Proof.
  assert (U : forall (i : nat -> Z) w z v, w <> v -> upd i w z v = i v).
  { intros i w z v N. unfold upd. destruct (Nat.eqb_spec v w); [congruence|reflexivity]. }
  induction 1; intros v0 N; cbn [writes] in N; try reflexivity; try (apply U; tauto).
  - rewrite U by tauto. apply U. tauto.
  - rewrite IHideal2 by tauto. apply IHideal1. tauto.
  - apply IHideal. tauto.
  - apply IHideal. destruct t; tauto.
  - rewrite IHideal2 by (cbn [writes]; tauto). apply IHideal1. tauto.
  - apply IHideal. tauto.
  - apply IHideal. tauto.
  - rewrite IHideal2 by tauto. apply IHideal1. tauto.
Qed.

(** ------------------------------------------------------------------ *)
(** counting loops *)
Lemma upd_eq : forall (i : nat -> Z) v z, upd i v z v = z.
Proof. intros i v z. unfold upd. rewrite Nat.eqb_refl. reflexivity. Qed.
Lemma upd_ne : forall (i : nat -> Z) w z v, w <> v -> upd i w z v = i v.
Proof. intros i w z v N. unfold upd. destruct (Nat.eqb_spec v w); [congruence|reflexivity]. Qed.

Lemma numbers_nil : forall a b, b <= a -> numbers a b = [].
Proof. intros a b H. unfold numbers. replace (Z.to_nat (b - a)) with O by lia. reflexivity. Qed.
Lemma numbers_cons : forall a b, a < b -> numbers a b = a :: numbers (a + 1) b.
Proof.
  intros a b H. unfold numbers. replace (Z.to_nat (b - a)) with (S (Z.to_nat (b - (a + 1)))) by lia.
  cbn [seq map]. f_equal; [lia|]. rewrite <- seq_shift, map_map. apply map_ext. intros k. lia.
Qed.

Lemma step_run : forall i body x i1 r, ideal i (CSeq body (CInc x)) i1 r -> ~ writes body x ->
  if r then exists i0, ideal i body i0 true /\ i0 x = i x /\ i1 = upd i0 x (i x + 1) else i1 x = i x.
Proof.
  intros i body x i1 r H N. inversion H; subst.
  - assert (E : i2 x = i x) by (eapply ideal_unwritten; eauto).
    match goal with K : ideal i2 (CInc x) _ _ |- _ => inversion K; subst end; [|assumption].
    exists i2. rewrite E. auto.
  - eapply ideal_unwritten; eauto.
Qed.
Lemma step_down_run : forall i body x i1 r, ideal i (CSeq body (CDec x)) i1 r -> ~ writes body x ->
  if r then exists i0, ideal i body i0 true /\ i0 x = i x /\ i1 = upd i0 x (i x - 1) else i1 x = i x.
Proof.
  intros i body x i1 r H N. inversion H; subst.
  - assert (E : i2 x = i x) by (eapply ideal_unwritten; eauto).
    match goal with K : ideal i2 (CDec x) _ _ |- _ => inversion K; subst end; [|assumption].
    exists i2. rewrite E. auto.
  - eapply ideal_unwritten; eauto.
Qed.

Lemma for_up_run : forall o x y body, x <> y -> ~ writes body x -> ~ writes body y ->
  forall i c i' r, ideal i c i' r -> c = for_up o x y body ->
  (if r then passes body x 1 i (numbers (i x) (i y)) i' /\ i' x = Z.max (i x) (i y) else i x <= i' x <= Z.max (i x) (i y)) /\ i' y = i y.
Proof.
  intros o x y body Nxy Nx Ny i c i' r H. induction H; intros E; try discriminate; injection E as -> ->; cbn [truth value math_rel] in *.
  - injection H as H. apply Z.ltb_ge in H. rewrite numbers_nil by lia. split; [split; [constructor|lia]|reflexivity].
  - injection H as H. apply Z.ltb_lt in H. specialize (IHideal2 eq_refl).
    assert (W := ideal_unwritten _ _ _ _ H0 y ltac:(cbn [writes]; intuition congruence)).
    destruct (step_run _ _ _ _ _ H0 Nx) as (i0 & I0 & E0 & ->). rewrite (upd_ne i0 x (i x + 1) y Nxy) in *.
    rewrite upd_eq in IHideal2. rewrite W in IHideal2. destruct IHideal2 as [K K2]. split; [|congruence].
    destruct r; [|lia]. destruct K as [K1 K3]. split; [|lia].
    rewrite numbers_cons by lia. econstructor; [exact I0|exact K1].
  - injection H as H. apply Z.ltb_lt in H.
    assert (W := ideal_unwritten _ _ _ _ H0 y ltac:(cbn [writes]; intuition congruence)).
    pose proof (step_run _ _ _ _ _ H0 Nx) as E1. cbv beta iota in E1. split; [lia|assumption].
  - split; [lia|reflexivity].
Qed.

(** the numbers from a down to b + 1 *)
Lemma downs_nil : forall a b, a <= b -> map (fun z => a + b + 1 - z) (numbers (b + 1) (a + 1)) = [].
Proof. intros a b H. rewrite numbers_nil by lia. reflexivity. Qed.
Lemma downs_cons : forall a b, b < a ->
  map (fun z => a + b + 1 - z) (numbers (b + 1) (a + 1)) = a :: map (fun z => a - 1 + b + 1 - z) (numbers (b + 1) (a - 1 + 1)).
Proof.
  intros a b H. rewrite (numbers_cons (b + 1)) by lia. cbn [map]. f_equal; [lia|].
  unfold numbers. rewrite !map_map. replace (Z.to_nat (a + 1 - (b + 1 + 1))) with (Z.to_nat (a - 1 + 1 - (b + 1))) by lia.
  apply map_ext. intros k. lia.
Qed.
Lemma for_down_run : forall o x y body, x <> y -> ~ writes body x -> ~ writes body y ->
  forall i c i' r, ideal i c i' r -> c = for_down o x y body ->
  (if r then passes body x (-1) i (map (fun z => i x + i y + 1 - z) (numbers (i y + 1) (i x + 1))) i' /\ i' x = Z.min (i x) (i y)
   else Z.min (i x) (i y) <= i' x <= i x) /\ i' y = i y.
Proof.
  intros o x y body Nxy Nx Ny i c i' r H. induction H; intros E; try discriminate; injection E as -> ->; cbn [truth value math_rel] in *.
  - injection H as H. rewrite Z.gtb_ltb in H. apply Z.ltb_ge in H. rewrite downs_nil by lia. split; [split; [constructor|lia]|reflexivity].
  - injection H as H. rewrite Z.gtb_ltb in H. apply Z.ltb_lt in H. specialize (IHideal2 eq_refl).
    assert (W := ideal_unwritten _ _ _ _ H0 y ltac:(cbn [writes]; intuition congruence)).
    destruct (step_down_run _ _ _ _ _ H0 Nx) as (i0 & I0 & E0 & ->). rewrite (upd_ne i0 x (i x - 1) y Nxy) in *.
    rewrite upd_eq in IHideal2. rewrite W in IHideal2. destruct IHideal2 as [K K2]. split; [|congruence].
    destruct r; [|lia]. destruct K as [K1 K3]. split; [|lia].
    rewrite downs_cons by lia. econstructor; [exact I0|exact K1].
  - injection H as H. rewrite Z.gtb_ltb in H. apply Z.ltb_lt in H.
    assert (W := ideal_unwritten _ _ _ _ H0 y ltac:(cbn [writes]; intuition congruence)).
    pose proof (step_down_run _ _ _ _ _ H0 Nx) as E1. cbv beta iota in E1. split; [lia|assumption].
  - split; [lia|reflexivity].
Qed.

Lemma body_step : forall D G f s a x t, G x = OSafe t -> (exists r, exec f D G s a = Some r) ->
  (exists r, exec f D G s (CSeq a (CInc x)) = Some r) /\ (exists r, exec f D G s (CSeq a (CDec x)) = Some r).
Proof.
  intros D G f s a x t Hx ([s1 r] & E). cbn [exec]. rewrite E. destruct r; split; try (eexists; reflexivity);
    rewrite Hx; eexists; reflexivity.
Qed.

Lemma counts_up : forall n D G o x y body f0, (forall v, type_ok n D (G v)) -> cmd_ok n D G body ->
  compiles D G (for_up o x y body) = true -> x <> y -> ~ writes body x -> ~ writes body y ->
  (forall s i, store_ok D G s i -> exists r, exec f0 D G s body = Some r) ->
  forall s i f, store_ok D G s i -> (f0 <= f)%nat -> lim_hi D (G x) - i x + 1 < Z.of_nat f ->
  exists s' i' r, exec f D G s (for_up o x y body) = Some (s', r) /\ store_ok D G s' i' /\ i' y = i y
  /\ ((r = RDone /\ passes body x 1 i (numbers (i x) (i y)) i' /\ i' x = Z.max (i x) (i y))
      \/ (exists e, r = RRaised e /\ i x <= i' x <= Z.max (i x) (i y))).
Proof.
  intros n D G o x y body f0 HG H1 H2 Nxy Nx Ny Hb s i f Hs Hf Bf.
  assert (Hx : exists t, G x = OSafe t).
  { cbn [for_up compiles] in H2. rewrite !andb_true_iff in H2. destruct H2 as (_ & _ & H2). destruct (G x); try discriminate. eauto. }
  destruct Hx as (t & Hx).
  assert (Ho : cmd_ok n D G (for_up o x y body)) by (cbn; tauto).
  destruct (counter_up n D G (Cond RLt o (EVar x) (EVar y)) (CSeq body (CInc x)) f0 x HG Ho H2) with (s := s) (i := i) (f := f) as ([s' r] & E);
    try assumption.
  - intros s0 i0 Hs0 _. apply (body_step D G f0 s0 body x t Hx (Hb s0 i0 Hs0)).
  - intros i0 i1 _ _ _ I. destruct (step_run _ _ _ _ _ I Nx) as (j & _ & _ & ->). rewrite upd_eq. lia.
  - destruct (C33_lemma n D G f _ s i s' r HG Hs Ho H2 E) as (i' & Hs' & [[-> I]|(e & -> & I)]);
      exists s', i'; eexists; (split; [exact E|]); (split; [exact Hs'|]);
      destruct (for_up_run o x y body Nxy Nx Ny _ _ _ _ I eq_refl) as [K1 K2]; (split; [exact K2|]).
    + left. split; [reflexivity|exact K1].
    + right. exists e. split; [reflexivity|exact K1].
Qed.
Lemma counts_down : forall n D G o x y body f0, (forall v, type_ok n D (G v)) -> cmd_ok n D G body ->
  compiles D G (for_down o x y body) = true -> x <> y -> ~ writes body x -> ~ writes body y ->
  (forall s i, store_ok D G s i -> exists r, exec f0 D G s body = Some r) ->
  forall s i f, store_ok D G s i -> (f0 <= f)%nat -> i x - lim_lo D (G x) + 1 < Z.of_nat f ->
  exists s' i' r, exec f D G s (for_down o x y body) = Some (s', r) /\ store_ok D G s' i' /\ i' y = i y
  /\ ((r = RDone /\ passes body x (-1) i (map (fun z => i x + i y + 1 - z) (numbers (i y + 1) (i x + 1))) i' /\ i' x = Z.min (i x) (i y))
      \/ (exists e, r = RRaised e /\ Z.min (i x) (i y) <= i' x <= i x)).
Proof.
  intros n D G o x y body f0 HG H1 H2 Nxy Nx Ny Hb s i f Hs Hf Bf.
  assert (Hx : exists t, G x = OSafe t).
  { cbn [for_down compiles] in H2. rewrite !andb_true_iff in H2. destruct H2 as (_ & _ & H2). destruct (G x); try discriminate. eauto. }
  destruct Hx as (t & Hx).
  assert (Ho : cmd_ok n D G (for_down o x y body)) by (cbn; tauto).
  destruct (counter_down n D G (Cond RGt o (EVar x) (EVar y)) (CSeq body (CDec x)) f0 x HG Ho H2) with (s := s) (i := i) (f := f) as ([s' r] & E);
    try assumption.
  - intros s0 i0 Hs0 _. apply (body_step D G f0 s0 body x t Hx (Hb s0 i0 Hs0)).
  - intros i0 i1 _ _ _ I. destruct (step_down_run _ _ _ _ _ I Nx) as (j & _ & _ & ->). rewrite upd_eq. lia.
  - destruct (C33_lemma n D G f _ s i s' r HG Hs Ho H2 E) as (i' & Hs' & [[-> I]|(e & -> & I)]);
      exists s', i'; eexists; (split; [exact E|]); (split; [exact Hs'|]);
      destruct (for_down_run o x y body Nxy Nx Ny _ _ _ _ I eq_refl) as [K1 K2]; (split; [exact K2|]).
    + left. split; [reflexivity|exact K1].
    + right. exists e. split; [reflexivity|exact K1].
Qed.

(** programs without loops end at once *)
Lemma no_loops_end : forall D G c, no_loops c -> forall s f, exists r, exec f D G s c = Some r.
Proof.
  induction c as [|v|v e|op v e|v|v|inc w v|a IHa b IHb|c a IHa b IHb|c a IHa|a IHa b IHb]; intros N s f; cbn [no_loops] in N; cbn [exec].
  - eexists. reflexivity.
  - destruct (G v); eexists; reflexivity.
  - destruct (type_of D G e); eexists; reflexivity.
  - destruct (type_of D G e); eexists; reflexivity.
  - destruct (G v); eexists; reflexivity.
  - destruct (G v); eexists; reflexivity.
  - destruct (G v), (G w); try (eexists; reflexivity).
    match goal with |- exists r, match ?p with _ => _ end = _ => destruct p as [sx [| |]] end; try (eexists; reflexivity).
    destruct (snd (read s v)); eexists; reflexivity.
  - destruct N as [Na Nb]. destruct (IHa Na s f) as ([s1 r] & ->). destruct r; try (eexists; reflexivity). apply IHb. assumption.
  - destruct N as [Na Nb]. destruct (snd (eval_cond D G s c)) as [[|]| | |]; try (eexists; reflexivity); [apply IHa|apply IHb]; assumption.
  - destruct N.
  - destruct N as [Na Nb]. destruct (IHa Na s f) as ([s1 r] & ->). destruct r; try (eexists; reflexivity). apply IHb. assumption.
Qed.

(** the built-in counter that wraps *)
Lemma bloop_wraps : forall G f k i, 0 <= i 0%nat <= 255 -> base_ty (G 0%nat) = UChar ->
  bloop (fun i => bcond LP64 G i (Cond RLt true (EVar 0%nat) (EConst (ORaw Int) 300)))
    (fun i => bexec f LP64 G i (CInc 0%nat)) k i = None.
Proof.
  intros G f. induction k as [|k IH]; intros i B E; cbn [bloop]; [reflexivity|].
  assert (C : bcond LP64 G i (Cond RLt true (EVar 0%nat) (EConst (ORaw Int) 300)) = Ok true).
  { unfold bcond. cbn [beval btype brel base_ty rbind]. rewrite E. f_equal. unfold c_lt.
    change (uac LP64 UChar Int) with Int.
    apply Z.ltb_lt. rewrite !conv_id; [lia|..]; unfold in_type; change (lo LP64 Int) with (-2147483648); change (hi LP64 Int) with 2147483647; lia. }
  assert (A : built_in LP64 Add UChar Int (i 0%nat) 1 = Ok (i 0%nat + 1)).
  { cbn [built_in]. unfold c_add, c_arith. change (uac LP64 UChar Int) with Int.
    rewrite !conv_id by (unfold in_type; change (lo LP64 Int) with (-2147483648); change (hi LP64 Int) with 2147483647; lia).
    unfold fin, in_range. change (csigned LP64 Int) with true. cbv iota.
    change (lo LP64 Int) with (-2147483648). change (hi LP64 Int) with 2147483647.
    replace (-2147483648 <=? i 0%nat + 1) with true by (symmetry; apply Z.leb_le; lia).
    replace (i 0%nat + 1 <=? 2147483647) with true by (symmetry; apply Z.leb_le; lia). reflexivity. }
  assert (N : bexec f LP64 G i (CInc 0%nat) = Some (Ok (upd i 0%nat (conv LP64 UChar (i 0%nat + 1))))).
  { cbn [bexec]. rewrite E, A. reflexivity. }
  rewrite C, N. apply IH; [|assumption]. rewrite upd_eq. exact (conv_range LP64 UChar _).
Qed.

(** ------------------------------------------------------------------ *)
Lemma rem_cond_true : forall s z, s 0%nat = Some z -> z = 0 \/ z = 8 -> snd (eval_cond LP64 rem_types s rem_cond) = Ret true.
Proof.
  intros s z S Z. unfold eval_cond, rem_cond.
  cbn [eval]. unfold read. rewrite S. destruct Z as [-> | ->]; vm_compute; reflexivity.
Qed.
Lemma rem_body_run : forall s z f, s 0%nat = Some z -> z = 0 \/ z = 8 ->
  exec f LP64 rem_types s rem_body = Some (upd s 0%nat (Some (8 - z)), RDone).
Proof.
  intros s z f S Z. unfold rem_body. cbn [exec eval]. unfold read. rewrite S.
  destruct Z as [-> | ->]; lazy; reflexivity.
Qed.
Lemma rem_forever : forall f k s z, s 0%nat = Some z -> z = 0 \/ z = 8 ->
  loop (fun s => eval_cond LP64 rem_types s rem_cond) (fun s => exec f LP64 rem_types s rem_body) k s = None.
Proof.
  intros f. induction k as [|k IH]; intros s z S Z; cbn [loop]; [reflexivity|].
  rewrite (rem_cond_true s z S Z), (rem_body_run s z f S Z). apply (IH _ (8 - z)); [reflexivity|lia].
Qed.
Lemma rem_loop_runs : forall s f, s 0%nat = Some 0 -> exec f LP64 rem_types s (CWhile rem_cond rem_body) = None.
Proof. intros s f S. exact (rem_forever f f s 0 S (or_introl eq_refl)). Qed.
Lemma rem_loop_ideal : forall i, i 0%nat = 0 -> ideal i (CWhile rem_cond rem_body) (upd i 0%nat 8) true.
Proof.
  intros i I0. apply I_while with (i1 := upd i 0%nat 8).
  - unfold rem_cond. cbn. rewrite I0. reflexivity.
  - apply I_assign. cbn. rewrite I0. reflexivity.
  - apply I_while_end. reflexivity.
Qed.
