(** SafePortModFacts.v -- portability of the remainder under automatic promotion. Proofs only. *)
From Coq Require Import ZArith Bool List Lia.
From Verif Require Import Base CType Spec CTypeFacts Utility UtilityFacts SafeCompare
  CheckedInteger CheckedIntegerFacts CheckedResultOps CheckedResultFacts Interval IntervalFacts
  IntervalOpsFacts ExceptionPolicy Promotion SafeBase SafeSpec SafeFacts SafeDivFacts SafeConvFacts
  SafeBitFacts SafeTraceFacts SafePortFacts SafePortMoreFacts SafePortDivFacts.
Import ListNotations.
Local Open Scope Z_scope.

Lemma modulus_char : forall D R t u, in_type D R t -> in_type D R u ->
  modulus D R t u = if u =? 0 then Ok (CErr domain_error)
                    else if csigned D R && (t =? lo D R) && (u =? lo D R) then Ok (CVal t)
                    else Ok (CVal (remainder t u)).
Proof.
  intros D R t u Ht Hu. destruct (Z.eqb_spec u 0) as [->|U]; [apply modulus_zero; assumption|].
  destruct (csigned D R && (t =? lo D R) && (u =? lo D R)) eqn:E.
  - rewrite !andb_true_iff, !Z.eqb_eq in E. destruct E as [[S ->] ->]. apply modulus_min_min. assumption.
  - apply modulus_spec; auto. intros (S & -> & ->). rewrite S, !Z.eqb_refl in E. discriminate.
Qed.
Lemma modulus_same : forall D D' R R' v w, same D D' R R' -> in_type D R v -> in_type D R w ->
  modulus D R v w = modulus D' R' v w.
Proof.
  intros D D' R R' v w HS Hv Hw.
  rewrite (modulus_char D R v w Hv Hw), (modulus_char D' R' v w) by (eapply in_same; eassumption).
  rewrite (same_signed _ _ _ _ HS). destruct HS as [-> _]. reflexivity.
Qed.
Lemma subtract_same : forall D D' R R' v w, same D D' R R' -> in_type D R v -> in_type D R w ->
  subtract D R v w = subtract D' R' v w.
Proof.
  intros D D' R R' v w HS Hv Hw. pose proof (in_same _ _ _ _ _ HS Hv). pose proof (in_same _ _ _ _ _ HS Hw).
  destruct HS as [HL HH]. apply (eoo_det D R D' R' (v - w)); auto using subtract_spec.
Qed.
Lemma cr_mod_same : forall D D' R R' a b, same D D' R R' -> cr_ok D R a -> cr_ok D R b ->
  cr_mod D R a b = cr_mod D' R' a b.
Proof.
  intros D D' R R' a b HS Ha Hb.
  unfold cr_mod. rewrite <- (to_pflag_same D D' R R' a), <- (to_pflag_same D D' R R' b) by assumption.
  pose proof (one_in D R) as I1.
  destruct a as [v|e], b as [w|f].
  - cbn [cr_value rbind]. cbn [cr_ok] in *. rewrite (modulus_same D D' R R' v w HS Ha Hb).
    rewrite (subtract_same D D' R R' w 1 HS Hb I1), (subtract_same D D' R R' 1 w HS I1 Hb). reflexivity.
  - destruct (to_pflag_val' D R v Ha) as [->|[->| ->]]; destruct f; reflexivity.
  - cbn [cr_value rbind]. cbn [cr_ok] in Hb.
    rewrite (subtract_same D D' R R' w 1 HS Hb I1), (subtract_same D D' R R' 1 w HS I1 Hb). reflexivity.
  - destruct e, f; reflexivity.
Qed.
Lemma subtract_ok : forall D R v w, in_type D R v -> in_type D R w -> exists c, subtract D R v w = Ok c /\ cr_ok D R c.
Proof.
  intros D R v w Hv Hw.
  destruct (eoo_cases _ _ _ _ (subtract_spec D R v w Hv Hw)) as [[Hi ->]|[[Hi ->]|[Hi ->]]];
    eexists; (split; [reflexivity|]); cbn; auto.
Qed.
Lemma modulus_ok : forall D R v w, in_type D R v -> in_type D R w -> exists c, modulus D R v w = Ok c /\ cr_ok D R c.
Proof.
  intros D R v w Hv Hw. rewrite modulus_char by assumption. destruct (Z.eqb_spec w 0) as [->|W].
  - eexists. split; [reflexivity|]. cbn. auto.
  - destruct (_ && _); eexists; (split; [reflexivity|]); cbn [cr_ok]; auto using remainder_in.
Qed.
Lemma cr_mod_ok : forall D R a b, cr_ok D R a -> cr_ok D R b -> exists c, cr_mod D R a b = Ok c /\ cr_ok D R c.
Proof.
  intros D R a b Ha Hb. pose proof (one_in D R) as I1. pose proof (zero_in D R) as I0.
  assert (Z : forall c, cr_ok D R c -> exists c0, Ok c = Ok c0 /\ cr_ok D R c0) by eauto.
  assert (E : cr_ok D R (CErr range_error)) by (cbn; auto).
  unfold cr_mod. destruct a as [v|e], b as [w|f]; cbn [cr_value rbind].
  - cbn [cr_ok] in *. pose proof (modulus_ok D R v w Ha Hb).
    destruct (to_pflag_val' D R v Ha) as [->|[->| ->]]; destruct (to_pflag_val' D R w Hb) as [->|[->| ->]]; cbn;
      auto.
  - destruct (to_pflag_val' D R v Ha) as [->|[->| ->]]; destruct f; cbn; auto.
  - cbn [cr_ok] in *. pose proof (subtract_ok D R 1 w I1 Hb). pose proof (subtract_ok D R w 1 Hb I1).
    destruct (to_pflag_val' D R w Hb) as [->|[->| ->]]; destruct e; cbn; auto.
  - destruct e, f; cbn; auto.
Qed.

Section Intervals.
  Variables (D D' : dmodel) (R R' : ctype).
  Hypothesis HS : same D D' R R'.
  Variables (i j : interval).
  Hypotheses (Hi : i_ok D R i) (Hj : i_ok D R j).

  Lemma eight_mod_same : minmax_of D R (eight (cr_mod D R) D R i j) = minmax_of D' R' (eight (cr_mod D' R') D' R' i j).
  Proof.
    destruct Hi as [A B], Hj as [C E].
    assert (M1 : cr_ok D R (CVal (conv D R (-1)))) by (cbn; apply conv_range).
    assert (P1 : cr_ok D R (CVal 1)) by (cbn; apply one_in).
    unfold eight, minmax_of. cbv zeta. rewrite <- (conv_same D D' R R' (-1) HS).
    rewrite <- !(cr_mod_same D D' R R') by assumption.
    destruct (cr_mod_ok D R (il i) (il j) A C) as (p1 & -> & O1).
    destruct (cr_mod_ok D R (il i) _ A M1) as (p2 & -> & O2).
    destruct (cr_mod_ok D R (il i) _ A P1) as (p3 & -> & O3).
    destruct (cr_mod_ok D R (il i) (iu j) A E) as (p4 & -> & O4).
    destruct (cr_mod_ok D R (iu i) (il j) B C) as (p5 & -> & O5).
    destruct (cr_mod_ok D R (iu i) _ B M1) as (p6 & -> & O6).
    destruct (cr_mod_ok D R (iu i) _ B P1) as (p7 & -> & O7).
    destruct (cr_mod_ok D R (iu i) (iu j) B E) as (p8 & -> & O8).
    cbn [seq_res rbind]. apply minmax_same; [assumption|].
    repeat (apply Forall_cons; [assumption|]). apply Forall_nil.
  Qed.
  Lemma nonzero_same : nonzero_interval D R j = nonzero_interval D' R' j.
  Proof.
    destruct Hj as [C E]. unfold nonzero_interval, cr_gt.
    rewrite <- !(cr_lt_same D D' R R') by (try assumption; apply zero_in). reflexivity.
  Qed.
  Lemma i_mod_same : i_mod D R i j = i_mod D' R' i j.
  Proof.
    destruct Hi as [A B], Hj as [C E]. unfold i_mod, minmax_of, corners, excludes_pt, cr_gt.
    rewrite <- !(cr_lt_same D D' R R') by (try assumption; apply zero_in).
    rewrite <- !(cr_mod_same D D' R R') by assumption.
    destruct (cr_mod_ok D R (il i) (il j) A C) as (p1 & -> & O1).
    destruct (cr_mod_ok D R (il i) (iu j) A E) as (p2 & -> & O2).
    destruct (cr_mod_ok D R (iu i) (il j) B C) as (p3 & -> & O3).
    destruct (cr_mod_ok D R (iu i) (iu j) B E) as (p4 & -> & O4).
    cbn [seq_res rbind]. rewrite (minmax_same D D' R R'); [reflexivity|assumption|].
    repeat (apply Forall_cons; [assumption|]). apply Forall_nil.
  Qed.
  Lemma mod_interval_same : mod_interval D R i j = mod_interval D' R' i j.
  Proof. unfold mod_interval. rewrite nonzero_same, i_mod_same, eight_mod_same. reflexivity. Qed.
  Lemma auto_mod_interval_same : auto_mod_interval D R i j = auto_mod_interval D' R' i j.
  Proof.
    unfold auto_mod_interval. rewrite nonzero_same, (i_div_same D D' R R' i j HS Hi Hj), eight_mod_same. reflexivity.
  Qed.
  Lemma auto_mod_interval_ok : forall k, auto_mod_interval D R i j = Ok k -> i_ok D R k.
  Proof.
    intros k H. destruct (nonzero_interval D R j) eqn:N.
    - apply (div_interval_ok D R i j k Hi Hj). unfold auto_mod_interval in H. unfold div_interval.
      rewrite N in *. assumption.
    - unfold auto_mod_interval in H. rewrite N in H.
      destruct Hi as [A B], Hj as [C E].
      assert (M1 : cr_ok D R (CVal (conv D R (-1)))) by (cbn; apply conv_range).
      assert (P1 : cr_ok D R (CVal 1)) by (cbn; apply one_in).
      unfold eight, minmax_of in H. cbv zeta in H.
      destruct (cr_mod_ok D R (il i) (il j) A C) as (p1 & E1 & O1).
      destruct (cr_mod_ok D R (il i) _ A M1) as (p2 & E2 & O2).
      destruct (cr_mod_ok D R (il i) _ A P1) as (p3 & E3 & O3).
      destruct (cr_mod_ok D R (il i) (iu j) A E) as (p4 & E4 & O4).
      destruct (cr_mod_ok D R (iu i) (il j) B C) as (p5 & E5 & O5).
      destruct (cr_mod_ok D R (iu i) _ B M1) as (p6 & E6 & O6).
      destruct (cr_mod_ok D R (iu i) _ B P1) as (p7 & E7 & O7).
      destruct (cr_mod_ok D R (iu i) (iu j) B E) as (p8 & E8 & O8).
      rewrite E1, E2, E3, E4, E5, E6, E7, E8 in H. cbn [seq_res rbind] in H.
      assert (Hl : Forall (cr_ok D R) [p1; p2; p3; p4; p5; p6; p7; p8])
        by (repeat (apply Forall_cons; [assumption|]); apply Forall_nil).
      destruct (minmax_spec D R p1 _ Hl) as (z & Ez & Hz). rewrite Ez in H. injection H as <-.
      destruct Hz as [[_ ->]|(_ & _ & O & O' & _)]; split; assumption.
  Qed.
End Intervals.

Definition mod_answer (x y : Z) : M Z :=
  if y =? 0 then ([(arithmetic_error, domain_error)], Throw domain_error) else ([], Ret (remainder x y)).

(** operands that fit the result type, without the two dividends MIN *)
Lemma mod_is_answer : forall D t u x y s m,
  wf_operand D t -> wf_operand D u -> holds D t x -> holds D u y ->
  binary D Mod t u x y = Some (s, m) -> sP s = Automatic -> throws_arithmetic (sE s) ->
  fits_in D (st s) t -> fits_in D (st s) u ->
  ~ (x = lo D (st s) /\ (y = lo D (st s) \/ y = -1)) ->
  m = mod_answer x y.
Proof.
  intros D t u x y s m Ht Hu Hx Hy H HP HE Ft Fu Hne.
  assert (Ix : in_type D (st s) x) by (unfold fits_in, holds, in_type in *; lia).
  assert (Iy : in_type D (st s) y) by (unfold fits_in, holds, in_type in *; lia).
  unfold mod_answer. destruct (Z.eqb_spec y 0) as [Y|Y].
  - destruct (binary_inv _ _ _ _ _ _ _ _ H) as (P & E & R & ri & H1 & H2 & H3 & H4 & -> & K).
    cbn [sP sE st] in *. destruct K as [[X0 ->]|[X1 (W & casts & HW & Hk & _ & ->)]].
    + destruct (mod_fits_unchecked D R t u ri Ht Hu (fits_in_fits _ _ _ Ft) (fits_in_fits _ _ _ Fu) H4 X0 x y Hx Hy).
      congruence.
    + cbn [work_type] in HW. destruct (work_range D R _ _ W HW) as [R1 R2].
      assert (Jx : in_type D W x) by (unfold in_type in *; lia).
      assert (Jy : in_type D W y) by (unfold in_type in *; lia).
      apply casting_helper_in in Hk; auto. subst casts y. unfold checked_run. rewrite mbind_ret.
      cbn [fst snd checked_op]. rewrite modulus_zero by assumption. cbn [mlift]. rewrite mbind_ret.
      cbn [dispatch_and_return]. rewrite dispatch_arith by (try assumption; unfold arithmetic_err; auto).
      reflexivity.
  - assert (Hl : result_large_enough D s t u) by (right; right; auto).
    destruct (mod_char D t u x y s m Ht Hu Hx Hy H HE Hl ltac:(tauto)) as [_ C].
    destruct (C Y) as [[Rt _]|[[N|N] _]]; [exact Rt|contradiction|contradiction].
Qed.

Section PortMod.
  Variables (D D' : dmodel) (t u t' u' : otype).
  Hypotheses (Ct : corresponds D D' t t') (Cu : corresponds D D' u u').
  Hypotheses (Wt : wf_operand D t) (Wu : wf_operand D u).
  Hypotheses (Wt' : wf_operand D' t') (Wu' : wf_operand D' u').

  Lemma automatic_mod_same : forall R, automatic_result D (PArith Mod) t u = Some R ->
    exists R', automatic_result D' (PArith Mod) t' u' = Some R' /\ same D D' R R'.
  Proof.
    intros R H. cbn [automatic_result] in *.
    destruct Ct as (_ & _ & S1 & _), Cu as (_ & _ & S2 & _).
    destruct (auto_temp_max D D' t u t' u' S1 S2) as (b & E1 & E2). rewrite E1 in H. rewrite E2.
    pose proof (max_same D D' b) as HS.
    rewrite <- (lim_interval_same D D' _ _ t t' Ct Wt Wt' HS), <- (lim_interval_same D D' _ _ u u' Cu Wu Wu' HS).
    pose proof (lim_interval_ok D (max_type D b) t Wt) as It. pose proof (lim_interval_ok D (max_type D b) u Wu) as Iu.
    rewrite <- (auto_mod_interval_same D D' _ _ HS _ _ It Iu).
    destruct (auto_mod_interval D _ _ _) as [i|] eqn:Ei; [|discriminate].
    apply auto_type_same; [exact (auto_mod_interval_ok D _ _ _ It Iu i Ei)|exact H].
  Qed.

  Lemma mod_same : forall x y s m, holds D t x -> holds D u y ->
    binary D Mod t u x y = Some (s, m) -> sP s = Automatic -> throws_arithmetic (sE s) ->
    fits_in D (st s) t -> fits_in D (st s) u ->
    ~ (x = lo D (st s) /\ (y = lo D (st s) \/ y = -1)) ->
    exists s', binary D' Mod t' u' x y = Some (s', m)
      /\ smin s' = smin s /\ smax s' = smax s /\ same D D' (st s) (st s').
  Proof.
    intros x y s m Hx Hy H HP HE Ft Fu Hne.
    assert (Hx' : holds D' t' x) by (destruct Ct as (L1 & L2 & _); unfold holds in *; lia).
    assert (Hy' : holds D' u' y) by (destruct Cu as (L1 & L2 & _); unfold holds in *; lia).
    pose proof (mod_is_answer D t u x y s m Wt Wu Hx Hy H HP HE Ft Fu Hne) as Em. revert H. rewrite Em. intros H.
    destruct (binary_inv _ _ _ _ _ _ _ _ H) as (P & E & R & ri & H1 & H2 & H3 & H4 & -> & K).
    cbn [sP sE st smin smax] in *. subst P. cbn [result_base_type] in H3.
    destruct (automatic_mod_same R H3) as (R' & H3' & HS).
    destruct (common_same D D' t u t' u' Ct Cu Wt Wu Wt' Wu' _ _ H1 H2) as (H1' & H2' & Kt & Ku).
    assert (Ft' : fits_in D' R' t').
    { destruct Ct as (L1 & L2 & _), HS as [HL HH]. unfold fits_in in *. lia. }
    assert (Fu' : fits_in D' R' u').
    { destruct Cu as (L1 & L2 & _), HS as [HL HH]. unfold fits_in in *. lia. }
    pose proof (lim_interval_ok D R t Wt) as It. pose proof (lim_interval_ok D R u Wu) as Iu.
    assert (H4' : r_type_interval D' Mod R' t' u' = Ok ri).
    { cbn [r_type_interval] in *.
      rewrite <- (lim_interval_same D D' _ _ t t' Ct Wt Wt' HS), <- (lim_interval_same D D' _ _ u u' Cu Wu Wu' HS).
      rewrite <- (mod_interval_same D D' R R') by assumption. assumption. }
    assert (Hst : op_static D' Mod t' u' = Some (mkInfo E R'
       (mkSafe R' (bound_lo D' R' (il ri)) (bound_hi D' R' (iu ri)) Automatic E)
       (exception_possible D' Mod R' t' u' ri))).
    { unfold op_static. rewrite H1', H2'. cbn [result_base_type]. rewrite H3', H4'. reflexivity. }
    set (s' := mkSafe R' (bound_lo D' R' (il ri)) (bound_hi D' R' (iu ri)) Automatic E) in *.
    assert (exists m', binary D' Mod t' u' x y = Some (s', m')) as (m' & B).
    { unfold binary. rewrite Hst. cbn [oi_checked oi_R oi_E oi_type].
      destruct (exception_possible D' Mod R' t' u' ri); [|eauto]. cbn [work_type].
      destruct (div_temp_total D' R' (base_ty t') (base_ty u')) as (W' & HW'). rewrite HW'.
      destruct (work_range D' R' _ _ W' HW') as [R1' R2'].
      assert (Jx' : in_type D' W' x) by (unfold fits_in, holds, in_type in *; lia).
      assert (Jy' : in_type D' W' y) by (unfold fits_in, holds, in_type in *; lia).
      assert (Ept : get_ep t = get_ep t' /\ get_ep u = get_ep u')
        by (destruct Ct as (_ & _ & _ & _ & Et & _), Cu as (_ & _ & _ & _ & Eu & _); auto).
      destruct Ept as [Ept Epu]. rewrite Ept in Kt. rewrite Epu in Ku.
      unfold casting_helper. rewrite (cast_operand_total D' E W' t' x), (cast_operand_total D' E W' u' y) by assumption.
      assert (Hc' : all_compile E (op_errors D' Mod W') = true).
      { unfold op_errors, all_compile. destruct (csigned D' W'); cbn; unfold dispatch_compiles; cbn; rewrite HE; reflexivity. }
      rewrite Hc'. eauto. }
    exists s'. rewrite B. split; [|splits; [symmetry; apply bound_lo_same; exact HS|symmetry; apply bound_hi_same; exact HS|exact HS]].
    do 2 f_equal. apply (mod_is_answer D' t' u' x y s' m'); try assumption; try reflexivity.
    unfold s'. cbn [st]. destruct HS as [HL HH]. rewrite <- HL. assumption.
  Qed.
End PortMod.

(** the six comparison operators *)
Definition six (D : dmodel) : list (otype -> otype -> Z -> Z -> option (M bool)) :=
  [s_lt D; s_gt D; s_le D; s_ge D; s_eq D; s_ne D].
Lemma compare_port : forall D D' c t u t' u' x y m,
  corresponds D D' t t' -> corresponds D D' u u' ->
  wf_operand D t -> wf_operand D u -> wf_operand D' t' -> wf_operand D' u' ->
  holds D t x -> holds D u y -> common_pp t u = Some Automatic -> operand_throws t -> operand_throws u ->
  compare D c t u x y = Some m -> compare D' c t' u' x y = Some m.
Proof.
  intros D D' c t u t' u' x y m Ct Cu Wt Wu Wt' Wu' Hx Hy HP Tt Tu H.
  assert (exists E, common_ep t u = Some E /\ throws_arithmetic E) as (E & HE & HT).
  { unfold compare in H. destruct (common_pp t u); [|discriminate]. destruct (common_ep t u) as [E|] eqn:EE; [|discriminate].
    exists E. split; [reflexivity|]. unfold common_ep in EE. destruct (_ || _) eqn:S; [|discriminate].
    destruct (get_ep t) as [a|] eqn:Ga, (get_ep u) as [b|] eqn:Gb; try discriminate.
    - destruct (ep_eqb a b) eqn:Q; [|discriminate]. apply ep_eqb_eq in Q. subst b. injection EE as <-. apply (Tt _ Ga).
    - injection EE as <-. apply (Tt _ Ga).
    - injection EE as <-. apply (Tu _ Gb). }
  eapply compare_same with (E := E); eauto.
Qed.
Lemma compare_port_all : forall D D' k t u t' u' x y m,
  corresponds D D' t t' -> corresponds D D' u u' ->
  wf_operand D t -> wf_operand D u -> wf_operand D' t' -> wf_operand D' u' ->
  holds D t x -> holds D u y -> common_pp t u = Some Automatic -> operand_throws t -> operand_throws u ->
  nth_error (six D) k = Some m -> forall r, m t u x y = Some r ->
  exists m', nth_error (six D') k = Some m' /\ m' t' u' x y = Some r.
Proof.
  intros D D' k t u t' u' x y m Ct Cu Wt Wu Wt' Wu' Hx Hy HP Tt Tu Hk r Hr.
  assert (HP' : common_pp u t = Some Automatic) by (rewrite common_pp_comm; assumption).
  assert (L : forall c r0, compare D c t u x y = Some r0 -> compare D' c t' u' x y = Some r0)
    by (intros; eapply compare_port with (D := D); eauto).
  assert (G : forall c r0, compare D c u t y x = Some r0 -> compare D' c u' t' y x = Some r0)
    by (intros; eapply compare_port with (D := D); eauto).
  assert (N : forall (a b : option (M bool)) r0, (forall r1, a = Some r1 -> b = Some r1) ->
     option_map mnot a = Some r0 -> option_map mnot b = Some r0).
  { intros [a|] b r0 Hab; cbn; [|discriminate]. rewrite (Hab a eq_refl). auto. }
  destruct k as [|[|[|[|[|[|k]]]]]]; cbn [six nth_error] in *;
    [| | | | | |destruct k; discriminate]; injection Hk as <-; eexists; (split; [reflexivity|]);
    unfold s_le, s_ge, s_ne, s_lt, s_gt, s_eq in *; eauto.
Qed.
