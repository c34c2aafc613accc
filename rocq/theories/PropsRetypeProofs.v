(** PropsRetypeProofs.v -- the lemmas behind PropsRetype.v. *)
From Coq Require Import ZArith Bool List Lia.
From Verif Require Import Base CType Spec CheckedInteger CheckedResultOps Interval ExceptionPolicy
  Promotion SafeBase SafeSpec Program ProgramSpec ProgramFacts PropsProgramProofs RetypeSpec.
Import ListNotations.
Local Open Scope Z_scope.

Lemma same_value : forall e e', same_expr e e' -> forall i, value i e = value i e'.
Proof.
  induction 1; intros i; cbn [value]; auto.
  - rewrite IHsame_expr1, IHsame_expr2. reflexivity.
  - rewrite IHsame_expr. reflexivity.
Qed.
Lemma same_truth : forall c c', same_cond c c' -> forall i, truth i c = truth i c'.
Proof.
  intros c c' [r f f' a a' b b' Ha Hb] i. cbn [truth].
  rewrite (same_value a a' Ha), (same_value b b' Hb). reflexivity.
Qed.

Ltac retype :=
  match goal with
  | [ S : same_expr ?e ?e' |- value _ ?e' = _ ] => rewrite <- (same_value e e' S)
  | [ S : same_cond ?e ?e' |- truth _ ?e' = _ ] => rewrite <- (same_truth e e' S)
  end; eassumption.
Lemma ideal_retype : forall i c i' r, ideal i c i' r -> r = true -> forall c', same_cmd c c' -> ideal i c' i' true.
Proof.
  induction 1; intros Hr c' Hc; try discriminate; inversion Hc; subst.
  - constructor.
  - apply I_assign. retype.
  - eapply I_compound; [retype|eassumption].
  - constructor.
  - constructor.
  - constructor.
  - eapply I_seq; [apply IHideal1|apply IHideal2]; auto.
  - eapply I_if; [retype|]. apply IHideal; [reflexivity|]. destruct t; assumption.
  - apply I_while_end. retype.
  - eapply I_while; [retype|apply IHideal1|apply IHideal2]; auto.
Qed.

Lemma ideal_det : forall i c i1 r, ideal i c i1 r -> r = true -> same_cmd c c ->
  forall i2, ideal i c i2 true -> i1 = i2.
Proof.
  induction 1; intros Hr Hc j Hj; try discriminate; inversion Hc; subst; inversion Hj; subst; try congruence.
  - assert (i1 = i3) by (apply IHideal1; auto). subst i3. auto.
  - assert (t = t0) by congruence. subst t0. apply IHideal; auto. destruct t; assumption.
  - assert (i1 = i3) by (apply IHideal1; auto). subst i3. auto.
Qed.
Lemma same_expr_refl : forall e, same_expr e e.
Proof. induction e; constructor; auto. Qed.
Lemma same_cond_refl : forall c, same_cond c c.
Proof. intros [r f a b]. constructor; apply same_expr_refl. Qed.
Lemma same_cmd_refl_r : forall c c', same_cmd c c' -> same_cmd c' c'.
Proof. induction 1; constructor; auto using same_expr_refl, same_cond_refl. Qed.

Lemma C66_expr_lemma : forall n n' D D' G G' s s' i e e' t t' z z',
  (forall v, type_ok n D (G v)) -> (forall v, type_ok n' D' (G' v)) ->
  store_ok D G s i -> store_ok D' G' s' i ->
  expr_ok n D e -> expr_ok n' D' e' -> type_of D G e = Some t -> type_of D' G' e' = Some t' ->
  value i e = value i e' -> returns (eval D G s e) z -> returns (eval D' G' s' e') z' -> z = z'.
Proof.
  intros n n' D D' G G' s s' i e e' t t' z z' HG HG' Hs Hs' He He' Ht Ht' Hv Hz Hz'.
  destruct (C35_lemma n D G s i e t HG Hs He Ht) as [(x & V & R & _)|(er & _ & T)];
    [|rewrite T in Hz; discriminate].
  destruct (C35_lemma n' D' G' s' i e' t' HG' Hs' He' Ht') as [(x' & V' & R' & _)|(er & _ & T)];
    [|rewrite T in Hz'; discriminate].
  unfold returns in *. congruence.
Qed.

Lemma C66_lemma : forall n n' D D' G G' fuel fuel' c c' s s' i s1 s1',
  (forall v, type_ok n D (G v)) -> (forall v, type_ok n' D' (G' v)) ->
  store_ok D G s i -> store_ok D' G' s' i ->
  cmd_ok n D G c -> cmd_ok n' D' G' c' -> compiles D G c = true -> compiles D' G' c' = true ->
  same_cmd c c' ->
  exec fuel D G s c = Some (s1, RDone) -> exec fuel' D' G' s' c' = Some (s1', RDone) ->
  forall v, s1 v = s1' v.
Proof.
  intros n n' D D' G G' fuel fuel' c c' s s' i s1 s1' HG HG' Hs Hs' Hok Hok' Hc Hc' Hsame H H' v.
  destruct (C33_lemma n D G fuel c s i s1 RDone HG Hs Hok Hc H) as (i1 & O1 & [[_ I1]|(e & E & _)]); [|discriminate].
  destruct (C33_lemma n' D' G' fuel' c' s' i s1' RDone HG' Hs' Hok' Hc' H') as (i2 & O2 & [[_ I2]|(e & E & _)]);
    [|discriminate].
  pose proof (ideal_retype _ _ _ _ I1 eq_refl c' Hsame) as I1'.
  assert (i1 = i2) by (eapply ideal_det; eauto using same_cmd_refl_r). subst i2.
  destruct (O1 v) as [-> _]. destruct (O2 v) as [-> _]. reflexivity.
Qed.
