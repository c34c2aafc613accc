(** IntervalTotal.v -- the compile-time interval computation of every operator
    succeeds, except for right shifts of unsigned types at one count. Proofs only. *)
From Coq Require Import ZArith List Bool Lia.
From Verif Require Import Base CType CTypeFacts Utility UtilityFacts SafeCompare Spec CheckedInteger CheckedIntegerFacts
  CheckedResultOps CheckedResultFacts Interval IntervalFacts IntervalOpsFacts ExceptionPolicy Promotion SafeBase SafeSpec
  SafeFacts SafeDivFacts SafeShiftFacts SafeConvFacts SafePortModFacts CheckedShiftFacts.
Import ListNotations.
Local Open Scope Z_scope.

(** a list of computed values has a minimum and a maximum *)
Lemma minmax_of_total : forall D R h l,
  Forall (fun r => exists c, r = Ok c /\ cr_ok D R c) (h :: l) -> exists i, minmax_of D R (h :: l) = Ok i
    /\ cr_ok D R (il i) /\ cr_ok D R (iu i) /\ bound_lo D R (il i) <= bound_hi D R (iu i).
Proof.
  intros D R h l H. unfold minmax_of.
  assert (exists c cs, seq_res (h :: l) = Ok (c :: cs) /\ Forall (cr_ok D R) (c :: cs)) as (c & cs & -> & Hc).
  { revert h H. induction l as [|h' l IH]; intros h H; inversion H as [|? ? (c & -> & Hc) Hl]; subst.
    - exists c, []. cbn. auto.
    - destruct (IH h' Hl) as (c' & cs & E & F). exists c, (c' :: cs). split; [|auto].
      cbn [seq_res] in *. rewrite E. reflexivity. }
  destruct (minmax_spec D R c cs Hc) as (i & Hi & Hc2).
  exists i. split; [exact Hi|]. destruct Hc2 as [[Hn ->]|(N1 & N2 & K1 & K2 & K3 & _)].
  - assert (Hh : cr_ok D R c) by (inversion Hc; assumption). cbn [il iu]. splits; auto.
    destruct c as [v|e]; [cbn in Hn; tauto|]. cbn. pose proof (lo_le_0 D R). pose proof (hi_ge_127 D R). lia.
  - splits; auto. apply bounds_le_of_cle; auto.
Qed.

Lemma lim_cr_ok : forall D R o, wf_operand D o ->
  cr_ok D R (il (lim_interval D R o)) /\ cr_ok D R (iu (lim_interval D R o)).
Proof. intros D R o (H1 & H2 & _). unfold lim_interval. cbn. split; apply cast_ok; assumption. Qed.

Lemma minus_one_ok : forall D R, cr_ok D R (CVal (conv D R (-1))).
Proof. intros. cbn. apply conv_range. Qed.
Lemma one_ok : forall D R, cr_ok D R (CVal 1).
Proof. intros. cbn. apply one_in. Qed.

Lemma nonzero_excludes : forall D R i, cr_ok D R (il i) -> cr_ok D R (iu i) ->
  nonzero_interval D R i = true -> tri_bool (excludes_pt D R i (CVal 0)) = true.
Proof.
  intros D R i H1 H2 H. unfold nonzero_interval, excludes_pt in *.
  unfold cr_gt in *. destruct (cr_lt D R (iu i) (CVal 0)), (cr_lt D R (CVal 0) (il i)); cbn in *; auto.
Qed.

(** corners and the eight combinations of the division *)
Lemma corners_total : forall D R f t u, (forall a b, cr_ok D R a -> cr_ok D R b -> exists c, f a b = Ok c /\ cr_ok D R c) ->
  cr_ok D R (il t) -> cr_ok D R (iu t) -> cr_ok D R (il u) -> cr_ok D R (iu u) ->
  (exists i, minmax_of D R (corners f t u) = Ok i
     /\ cr_ok D R (il i) /\ cr_ok D R (iu i) /\ bound_lo D R (il i) <= bound_hi D R (iu i))
  /\ (exists i, minmax_of D R (eight f D R t u) = Ok i
     /\ cr_ok D R (il i) /\ cr_ok D R (iu i) /\ bound_lo D R (il i) <= bound_hi D R (iu i)).
Proof.
  intros D R f t u Hf H1 H2 H3 H4. pose proof (minus_one_ok D R). pose proof (one_ok D R).
  split; apply minmax_of_total; repeat constructor; apply Hf; assumption.
Qed.

Lemma r_type_interval_total : forall D op R t u, wf_operand D t -> wf_operand D u ->
  (op = Shr -> csigned D R = true \/ width D (promote D R) <> width D R \/ lim_hi D t <= 0
     \/ (lim_lo D u <> width D R /\ lim_hi D u <> width D R)) ->
  exists ri, r_type_interval D op R t u = Ok ri
    /\ cr_ok D R (il ri) /\ cr_ok D R (iu ri) /\ bound_lo D R (il ri) <= bound_hi D R (iu ri).
Proof.
  intros D op R t u Ht Hu Hs.
  destruct (lim_cr_ok D R t Ht) as [A B]. destruct (lim_cr_ok D R u Hu) as [C E].
  assert (FD : forall a b, cr_ok D R a -> cr_ok D R b -> exists c, cr_div D R a b = Ok c /\ cr_ok D R c).
  { intros a b Ha Hb. destruct (cr_div_total D R a b Ha Hb) as (c & H1 & H2 & _). eauto. }
  pose proof (cr_mod_ok D R) as FM.
  destruct op; cbn [r_type_interval].
  - assert (H : exists ri, r_type_interval D Add R t u = Ok ri).
    { cbn [r_type_interval]. unfold i_add. destruct (cr_add_total D R _ _ A C) as (c & -> & _).
      destruct (cr_add_total D R _ _ B E) as (d & -> & _). eexists; reflexivity. }
    destruct H as (ri & H). pose proof (ri_add D R t u Ht Hu ri H) as ((_ & _ & L) & _).
    cbn [r_type_interval] in H. exists ri. split; [exact H|]. unfold i_add in H.
    destruct (cr_add_total D R _ _ A C) as (c & Ec & Oc & _). destruct (cr_add_total D R _ _ B E) as (d & Ed & Od & _).
    rewrite Ec, Ed in H. injection H as <-. auto.
  - assert (H : exists ri, r_type_interval D Sub R t u = Ok ri).
    { cbn [r_type_interval]. unfold i_sub. destruct (cr_sub_total D R _ _ A E) as (c & -> & _).
      destruct (cr_sub_total D R _ _ B C) as (d & -> & _). eexists; reflexivity. }
    destruct H as (ri & H). pose proof (ri_sub D R t u Ht Hu ri H) as ((_ & _ & L) & _).
    cbn [r_type_interval] in H. exists ri. split; [exact H|]. unfold i_sub in H.
    destruct (cr_sub_total D R _ _ A E) as (c & Ec & Oc & _). destruct (cr_sub_total D R _ _ B C) as (d & Ed & Od & _).
    rewrite Ec, Ed in H. injection H as <-. auto.
  - unfold i_mul. apply corners_total; auto. intros a b Ha Hb.
    destruct (cr_mul_total D R a b Ha Hb) as (c & H1 & H2 & _). eauto.
  - unfold div_interval. destruct (nonzero_interval D R (lim_interval D R u)) eqn:Z.
    + unfold i_div. rewrite (nonzero_excludes _ _ _ C E Z). apply corners_total; auto.
    + apply corners_total; auto.
  - unfold mod_interval. destruct (nonzero_interval D R (lim_interval D R u)) eqn:Z.
    + unfold i_mod. rewrite (nonzero_excludes _ _ _ C E Z). apply corners_total; auto.
    + apply corners_total; auto.
  - unfold i_shl. apply corners_total; auto. intros a b Ha Hb.
    destruct (shl_sound D R a b Ha Hb) as (c & H1 & H2 & _). eauto.
  - unfold i_shr.
    assert (TA : forall v z, in_type D (base_ty t) z -> cast D R (base_ty t) z = CVal v -> v = z)
      by (intros v z Hz Hc; destruct (cast_val D R (base_ty t) z v Hz Hc); congruence).
    assert (UA : forall v z, in_type D (base_ty u) z -> cast D R (base_ty u) z = CVal v -> v = z)
      by (intros v z Hz Hc; destruct (cast_val D R (base_ty u) z v Hz Hc); congruence).
    destruct Ht as (Ht1 & Ht2 & Ht3), Hu as (Hu1 & Hu2 & _).
    assert (G : forall p q, p = lim_lo D t \/ p = lim_hi D t -> q = lim_lo D u \/ q = lim_hi D u ->
      exists c, cr_shr D R (cast D R (base_ty t) p) (cast D R (base_ty u) q) = Ok c /\ cr_ok D R c).
    { intros p q Hp Hq.
      assert (Ip : in_type D (base_ty t) p) by (destruct Hp as [->| ->]; assumption).
      assert (Iq : in_type D (base_ty u) q) by (destruct Hq as [->| ->]; assumption).
      destruct (shr_sound D R (cast D R (base_ty t) p) (cast D R (base_ty u) q)) as (c & H1 & H2 & _);
        [apply cast_ok; assumption..| |eauto].
      intros (v & V0 & VA & HL & HW & HB). apply (TA v p Ip) in VA. apply (UA _ q Iq) in HB.
      destruct (Hs eq_refl) as [X|[X|[X|[X1 X2]]]].
      - pose proof (hi_pos_lo D R X). pose proof (hi_ge_127 D R). lia.
      - contradiction.
      - destruct Hp; lia.
      - destruct Hq; congruence. }
    apply minmax_of_total. unfold lim_interval. cbn [il iu]. repeat constructor; apply G; auto.
Qed.
