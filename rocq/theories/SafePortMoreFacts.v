(** SafePortMoreFacts.v -- portability of comparisons and of division. Proofs only. *)
From Coq Require Import ZArith Bool List Lia.
From Verif Require Import Base CType Spec CTypeFacts Utility UtilityFacts SafeCompare
  CheckedInteger CheckedIntegerFacts CheckedResultOps CheckedResultFacts Interval IntervalFacts
  IntervalOpsFacts ExceptionPolicy Promotion SafeBase SafeSpec SafeFacts SafeDivFacts SafeConvFacts
  SafeBitFacts SafeTraceFacts SafePortFacts.
Import ListNotations.
Local Open Scope Z_scope.

Lemma divide_same : forall D D' R R' v w, same D D' R R' -> in_type D R v -> in_type D R w ->
  divide D R v w = divide D' R' v w.
Proof.
  intros D D' R R' v w HS Hv Hw.
  pose proof (in_same _ _ _ _ _ HS Hv) as Hv'. pose proof (in_same _ _ _ _ _ HS Hw) as Hw'.
  destruct (divide_spec D R v w Hv Hw) as [A1 A2]. destruct (divide_spec D' R' v w Hv' Hw') as [B1 B2].
  destruct HS as [HL HH]. destruct (Z.eq_dec w 0) as [E|E].
  - rewrite A1, B1 by assumption. reflexivity.
  - apply (eoo_det D R D' R' (Z.quot v w)); auto.
Qed.
Lemma cr_div_same : forall D D' R R' a b, same D D' R R' -> cr_ok D R a -> cr_ok D R b ->
  cr_div D R a b = cr_div D' R' a b.
Proof.
  intros D D' R R' a b HS Ha Hb.
  unfold cr_div. rewrite <- (to_pflag_same D D' R R' a), <- (to_pflag_same D D' R R' b) by assumption.
  destruct a as [v|e], b as [w|f].
  - cbn [cr_value rbind]. cbn [cr_ok] in *. rewrite (divide_same D D' R R' v w HS Ha Hb). reflexivity.
  - destruct (to_pflag_val' D R v Ha) as [->|[->| ->]]; destruct f; reflexivity.
  - destruct (to_pflag_val' D R w Hb) as [->|[->| ->]]; destruct e; reflexivity.
  - destruct e, f; reflexivity.
Qed.
Lemma conv_same : forall D D' R R' z, same D D' R R' -> conv D R z = conv D' R' z.
Proof.
  intros D D' R R' z HS. pose proof (same_signed _ _ _ _ HS) as Hg. destruct HS as [HL HH].
  pose proof (digits_width D R) as A. pose proof (digits_width D' R') as B.
  assert (digits D R = digits D' R') as Hd.
  { unfold hi in HH. pose proof (digits_pos D R). pose proof (digits_pos D' R').
    apply (Z.pow_inj_r 2); lia. }
  assert (width D R = width D' R') as Hw by (rewrite Hg in A; lia).
  unfold conv. rewrite Hw, Hg, Hd. reflexivity.
Qed.

Lemma i_div_same : forall D D' R R' i j, same D D' R R' -> i_ok D R i -> i_ok D R j ->
  i_div D R i j = i_div D' R' i j.
Proof.
  intros D D' R R' i j HS [A B] [C E]. unfold i_div, minmax_of, corners, excludes_pt, cr_gt.
  rewrite <- !(cr_lt_same D D' R R') by (try assumption; apply zero_in).
  rewrite <- !(cr_div_same D D' R R') by assumption.
  destruct (cr_div_total D R (il i) (il j) A C) as (p1 & -> & O1 & _).
  destruct (cr_div_total D R (il i) (iu j) A E) as (p2 & -> & O2 & _).
  destruct (cr_div_total D R (iu i) (il j) B C) as (p3 & -> & O3 & _).
  destruct (cr_div_total D R (iu i) (iu j) B E) as (p4 & -> & O4 & _).
  cbn [seq_res rbind]. rewrite (minmax_same D D' R R'); [reflexivity|assumption|].
  repeat (apply Forall_cons; [assumption|]). apply Forall_nil.
Qed.
Lemma div_interval_same : forall D D' R R' i j, same D D' R R' -> i_ok D R i -> i_ok D R j ->
  div_interval D R i j = div_interval D' R' i j.
Proof.
  intros D D' R R' i j HS Hi Hj. unfold div_interval. rewrite (i_div_same D D' R R' i j HS Hi Hj).
  destruct Hi as [A B], Hj as [C E]. unfold nonzero_interval, cr_gt.
  rewrite <- !(cr_lt_same D D' R R') by (try assumption; apply zero_in).
  destruct (tri_bool _); [reflexivity|].
  assert (M1 : cr_ok D R (CVal (conv D R (-1)))) by (cbn; apply conv_range).
  assert (P1 : cr_ok D R (CVal 1)) by (cbn; apply one_in).
  unfold eight, minmax_of. cbv zeta. rewrite <- (conv_same D D' R R' (-1) HS).
  rewrite <- !(cr_div_same D D' R R') by assumption.
  destruct (cr_div_total D R (il i) (il j) A C) as (p1 & -> & O1 & _).
  destruct (cr_div_total D R (il i) _ A M1) as (p2 & -> & O2 & _).
  destruct (cr_div_total D R (il i) _ A P1) as (p3 & -> & O3 & _).
  destruct (cr_div_total D R (il i) (iu j) A E) as (p4 & -> & O4 & _).
  destruct (cr_div_total D R (iu i) (il j) B C) as (p5 & -> & O5 & _).
  destruct (cr_div_total D R (iu i) _ B M1) as (p6 & -> & O6 & _).
  destruct (cr_div_total D R (iu i) _ B P1) as (p7 & -> & O7 & _).
  destruct (cr_div_total D R (iu i) (iu j) B E) as (p8 & -> & O8 & _).
  cbn [seq_res rbind]. apply minmax_same; [assumption|].
  repeat (apply Forall_cons; [assumption|]). apply Forall_nil.
Qed.
Lemma div_interval_ok : forall D R i j k, i_ok D R i -> i_ok D R j -> div_interval D R i j = Ok k -> i_ok D R k.
Proof.
  intros D R i j k [A B] [C E] H.
  assert (M1 : cr_ok D R (CVal (conv D R (-1)))) by (cbn; apply conv_range).
  assert (P1 : cr_ok D R (CVal 1)) by (cbn; apply one_in).
  assert (HM : forall h l, Forall (cr_ok D R) (h :: l) -> minmax D R (h :: l) = Ok k -> i_ok D R k).
  { intros h l Hl. destruct (minmax_spec D R h l Hl) as (z & -> & [[_ ->]|(_ & _ & O & O' & _)]); intros [= <-].
    - inversion Hl; subst. split; assumption.
    - split; assumption. }
  unfold div_interval, i_div, eight, corners, minmax_of in H. cbv zeta in H.
  destruct (cr_div_total D R (il i) (il j) A C) as (p1 & E1 & O1 & _).
  destruct (cr_div_total D R (il i) _ A M1) as (p2 & E2 & O2 & _).
  destruct (cr_div_total D R (il i) _ A P1) as (p3 & E3 & O3 & _).
  destruct (cr_div_total D R (il i) (iu j) A E) as (p4 & E4 & O4 & _).
  destruct (cr_div_total D R (iu i) (il j) B C) as (p5 & E5 & O5 & _).
  destruct (cr_div_total D R (iu i) _ B M1) as (p6 & E6 & O6 & _).
  destruct (cr_div_total D R (iu i) _ B P1) as (p7 & E7 & O7 & _).
  destruct (cr_div_total D R (iu i) (iu j) B E) as (p8 & E8 & O8 & _).
  rewrite E1, E2, E3, E4, E5, E6, E7, E8 in H. cbn [seq_res rbind] in H.
  destruct (nonzero_interval D R j).
  - destruct (tri_bool _); [|discriminate]. revert H. apply HM.
    repeat (apply Forall_cons; [assumption|]). apply Forall_nil.
  - revert H. apply HM. repeat (apply Forall_cons; [assumption|]). apply Forall_nil.
Qed.

Lemma auto_temp_max : forall D D' t u t' u', csigned D (base_ty t) = csigned D' (base_ty t') ->
  csigned D (base_ty u) = csigned D' (base_ty u') ->
  exists b, auto_temp D (base_ty t) (base_ty u) = max_type D b
         /\ auto_temp D' (base_ty t') (base_ty u') = max_type D' b.
Proof.
  intros D D' t u t' u' H1 H2. exists (negb (negb (csigned D (base_ty t)) && negb (csigned D (base_ty u)))).
  unfold auto_temp, max_type. rewrite <- H1, <- H2.
  destruct (negb (csigned D (base_ty t)) && negb (csigned D (base_ty u))); auto.
Qed.
Lemma union_ok : forall D R i j, i_ok D R i -> i_ok D R j -> i_ok D R (auto_union D R i j).
Proof.
  intros D R i j [A B] [C E]. unfold auto_union. split; cbn [il iu]; destruct (tri_bool _); assumption.
Qed.
Lemma union_same : forall D D' R R' i j, same D D' R R' -> i_ok D R i -> i_ok D R j ->
  auto_union D R i j = auto_union D' R' i j.
Proof.
  intros D D' R R' i j HS [A B] [C E]. unfold auto_union.
  rewrite !(cr_lt_same D D' R R') by assumption. reflexivity.
Qed.

Section PortMore.
  Variables (D D' : dmodel) (t u t' u' : otype).
  Hypotheses (Ct : corresponds D D' t t') (Cu : corresponds D D' u u').
  Hypotheses (Wt : wf_operand D t) (Wu : wf_operand D u).
  Hypotheses (Wt' : wf_operand D' t') (Wu' : wf_operand D' u').

  Lemma auto_type_same : forall b i R, i_ok D (max_type D b) i ->
    auto_type D (max_type D b) (Ok i) = Some R ->
    exists R', auto_type D' (max_type D' b) (Ok i) = Some R' /\ same D D' R R'.
  Proof.
    intros b i R [O1 O2] H. pose proof (max_same D D' b) as HS. unfold auto_type in *.
    rewrite <- (bound_lo_same _ _ _ _ (il i) HS), <- (bound_hi_same _ _ _ _ (iu i) HS).
    apply stored_type_same; [apply bound_lo_in; assumption|apply bound_hi_in; assumption|assumption].
  Qed.

  Lemma automatic_cmp_same : forall R, automatic_result D PCmp t u = Some R ->
    exists R', automatic_result D' PCmp t' u' = Some R' /\ same D D' R R'.
  Proof.
    intros R H. cbn [automatic_result] in *.
    destruct Ct as (_ & _ & S1 & _), Cu as (_ & _ & S2 & _).
    destruct (auto_temp_max D D' t u t' u' S1 S2) as (b & E1 & E2). rewrite E1 in H. rewrite E2.
    pose proof (max_same D D' b) as HS.
    rewrite <- (lim_interval_same D D' _ _ t t' Ct Wt Wt' HS), <- (lim_interval_same D D' _ _ u u' Cu Wu Wu' HS).
    pose proof (lim_interval_ok D (max_type D b) t Wt) as It. pose proof (lim_interval_ok D (max_type D b) u Wu) as Iu.
    rewrite <- (union_same D D' _ _ _ _ HS It Iu). apply auto_type_same; [apply union_ok; assumption|assumption].
  Qed.
  Lemma automatic_div_same : forall R, automatic_result D (PArith Div) t u = Some R ->
    exists R', automatic_result D' (PArith Div) t' u' = Some R' /\ same D D' R R'.
  Proof.
    intros R H. cbn [automatic_result] in *.
    destruct Ct as (_ & _ & S1 & _), Cu as (_ & _ & S2 & _).
    destruct (auto_temp_max D D' t u t' u' S1 S2) as (b & E1 & E2). rewrite E1 in H. rewrite E2.
    pose proof (max_same D D' b) as HS.
    rewrite <- (lim_interval_same D D' _ _ t t' Ct Wt Wt' HS), <- (lim_interval_same D D' _ _ u u' Cu Wu Wu' HS).
    pose proof (lim_interval_ok D (max_type D b) t Wt) as It. pose proof (lim_interval_ok D (max_type D b) u Wu) as Iu.
    rewrite <- (div_interval_same D D' _ _ _ _ HS It Iu).
    destruct (div_interval D _ _ _) as [i|] eqn:Ei; [|discriminate].
    apply auto_type_same; [exact (div_interval_ok D _ _ _ i It Iu Ei)|exact H].
  Qed.
  Lemma common_same : forall P E, common_pp t u = Some P -> common_ep t u = Some E ->
    common_pp t' u' = Some P /\ common_ep t' u' = Some E
    /\ (forall E0, get_ep t = Some E0 -> E0 = E) /\ (forall E0, get_ep u = Some E0 -> E0 = E).
  Proof.
    intros P E H1 H2.
    assert (Hsafe : is_safe t' = is_safe t /\ is_safe u' = is_safe u).
    { destruct Ct as (_ & _ & _ & _ & _ & Kt), Cu as (_ & _ & _ & _ & _ & Ku).
      destruct t, t', u, u'; try contradiction; auto. }
    destruct Hsafe as [St Su].
    destruct Ct as (_ & _ & _ & Pt & Et & _), Cu as (_ & _ & _ & Pu & Eu & _).
    splits.
    - unfold common_pp in *. rewrite St, Su, <- Pt, <- Pu. assumption.
    - unfold common_ep in *. rewrite St, Su, <- Et, <- Eu. assumption.
    - intros E0 HE0. unfold common_ep in H2. destruct (_ || _); [|discriminate]. rewrite HE0 in H2.
      destruct (get_ep u) as [b|]; [|congruence]. destruct (ep_eqb E0 b) eqn:Q; [|discriminate].
      apply ep_eqb_eq in Q. congruence.
    - intros E0 HE0. unfold common_ep in H2. destruct (_ || _); [|discriminate]. rewrite HE0 in H2.
      destruct (get_ep t) as [b|]; [|congruence]. destruct (ep_eqb b E0) eqn:Q; [|discriminate].
      congruence.
  Qed.

  Lemma closed_in : forall R o z, wf_operand D o -> holds D o z ->
    interval_open (lim_interval D R o) = false -> in_type D R z.
  Proof.
    intros R o z (A & B & C) Hz H. unfold interval_open, lim_interval in H. cbn [il iu] in H.
    apply orb_false_elim in H. destruct H as [H1 H2].
    destruct (cast_cases D R _ _ A) as [(? & E)|[(? & E)|[(? & ? & E)|(? & ? & ? & E)]]];
      rewrite E in H1; try discriminate.
    destruct (cast_cases D R _ _ B) as [(? & E')|[(? & E')|[(? & ? & E')|(? & ? & ? & E')]]];
      rewrite E' in H2; try discriminate.
    unfold holds, in_type in *. lia.
  Qed.

  Lemma compare_same : forall c x y m E P, holds D t x -> holds D u y ->
    common_pp t u = Some P -> P = Automatic -> common_ep t u = Some E -> throws_arithmetic E ->
    compare D c t u x y = Some m -> compare D' c t' u' x y = Some m.
  Proof.
    intros c x y m E P Hx Hy HP -> HEp HE H.
    destruct (common_same _ _ HP HEp) as (HP' & HEp' & Kt & Ku).
    unfold compare in *. rewrite HP, HEp in H. rewrite HP', HEp'. cbn [result_base_type] in *.
    destruct (automatic_result D PCmp t u) as [R|] eqn:HR; [|discriminate].
    destruct (automatic_cmp_same R HR) as (R' & -> & HS).
    rewrite <- (lim_interval_same D D' _ _ t t' Ct Wt Wt' HS), <- (lim_interval_same D D' _ _ u u' Cu Wu Wu' HS).
    pose proof (lim_interval_ok D R t Wt) as It. pose proof (lim_interval_ok D R u Wu) as Iu.
    cbv zeta in *.
    set (ti := lim_interval D R t) in *. set (ui := lim_interval D R u) in *.
    assert (L : i_lt D' R' ti ui = i_lt D R ti ui /\ i_gt D' R' ti ui = i_gt D R ti ui
              /\ intersect D' R' ti ui = intersect D R ti ui).
    { destruct It as [A B], Iu as [C F]. unfold i_lt, i_gt, intersect, cr_gt, cr_ge, cr_le.
      rewrite <- !(cr_lt_same D D' R R') by assumption. auto. }
    destruct L as (-> & -> & ->).
    destruct (interval_open ti || interval_open ui) eqn:Hopen.
    - destruct (casting_helper D E R t u x y) as [casts|] eqn:Hk; [|discriminate].
      assert (Hk' : casting_helper D' E R' t' u' x y = Some casts).
      { unfold casting_helper in *.
        destruct (cast_operand D E R t x) as [mt|] eqn:E1; [|discriminate].
        destruct (cast_operand D E R u y) as [mu|] eqn:E2; [|discriminate].
        rewrite (cast_operand_same D D' E R R' t t' x mt HS Ct Wt Wt' Hx HE Kt E1).
        rewrite (cast_operand_same D D' E R R' u u' y mu HS Cu Wu Wu' Hy HE Ku E2). assumption. }
      rewrite Hk'. rewrite <- H.
      match goal with |- match c with CLt => if _ then _ else if _ then _ else Some ?a | CEq => _ end
         = match c with CLt => if _ then _ else if _ then _ else Some ?b | CEq => _ end => assert (EM : a = b) end.
      { destruct (casting_helper_throws _ _ _ _ _ _ _ _ HE Wt Wu Hx Hy Hk) as [(Ix & Iy & ->)|[_ (e & _ & ->)]];
          [|reflexivity].
        rewrite !mbind_ret. cbn [fst snd].
        pose proof (in_same _ _ _ _ _ HS Ix). pose proof (in_same _ _ _ _ _ HS Iy).
        rewrite !less_than_spec, !equal_spec by assumption. reflexivity. }
      rewrite EM. reflexivity.
    - apply orb_false_elim in Hopen. destruct Hopen as [Ot Ou].
      pose proof (closed_in R t x Wt Hx Ot) as Ix. pose proof (closed_in R u y Wu Hy Ou) as Iy.
      pose proof (in_same _ _ _ _ _ HS Ix). pose proof (in_same _ _ _ _ _ HS Iy).
      rewrite (conv_id D' R' x), (conv_id D' R' y) by assumption.
      rewrite (conv_id D R x), (conv_id D R y) in H by assumption.
      rewrite c_lt_same, c_eq_same in * by assumption. assumption.
  Qed.
End PortMore.
