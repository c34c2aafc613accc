(** AutoShiftFacts.v -- shifts under automatic promotion. Proofs only. *)
From Coq Require Import ZArith Bool List Lia.
From Verif Require Import Base CType Spec CTypeFacts Utility UtilityFacts SafeCompare
  CheckedInteger CheckedIntegerFacts CheckedResultOps CheckedResultFacts Interval IntervalFacts
  IntervalOpsFacts ExceptionPolicy Promotion SafeBase SafeSpec SafeFacts SafeDivFacts SafeShiftFacts
  SafeConvFacts AutoFacts AutoDivFacts.
Import ListNotations.
Local Open Scope Z_scope.

(** the widest type of the signedness of T *)
Lemma shift_temp_cases : forall D T, auto_shift_temp D T = intmax D \/ auto_shift_temp D T = uintmax D.
Proof. intros. unfold auto_shift_temp. destruct (csigned D T); auto. Qed.
Lemma shift_temp_signed : forall D T, csigned D (auto_shift_temp D T) = csigned D T.
Proof.
  intros. unfold auto_shift_temp. destruct (csigned D T) eqn:E; [apply intmax_signed|apply uintmax_unsigned].
Qed.
Lemma base_fits_temp : forall D o z, wf_operand D o -> holds D o z -> in_type D (auto_shift_temp D (base_ty o)) z.
Proof.
  intros D o z (W1 & W2 & _) H. unfold holds, in_type in *. unfold auto_shift_temp.
  destruct (csigned D (base_ty o)) eqn:E.
  - pose proof (intmax_lo D (base_ty o)). pose proof (intmax_hi D (base_ty o) E). lia.
  - pose proof (uintmax_hi D (base_ty o)). pose proof (lo_unsigned D _ E).
    pose proof (lo_unsigned D _ (uintmax_unsigned D)). lia.
Qed.
Lemma auto_shift_signed : forall D op t u R, op = Shl \/ op = Shr ->
  automatic_result D (PArith op) t u = Some R -> csigned D R = csigned D (base_ty t).
Proof.
  intros D op t u R Hop H. rewrite <- (shift_temp_signed D (base_ty t)).
  assert (exists ri, auto_type D (auto_shift_temp D (base_ty t)) ri = Some R) as [ri E]
    by (destruct Hop as [->| ->]; eexists; exact H).
  unfold auto_type, stored_type in E. destruct ri as [i|]; [|discriminate].
  destruct (csigned D (auto_shift_temp _ _)) eqn:ES.
  - unfold signed_stored_type in E. apply int_t_least_spec in E. tauto.
  - unfold unsigned_stored_type in E. apply uint_t_least_spec in E. tauto.
Qed.
Lemma C78_sign_lemma : forall D op t u x y s m, op = Shl \/ op = Shr ->
  binary D op t u x y = Some (s, m) -> sP s = Automatic -> csigned D (st s) = csigned D (base_ty t).
Proof.
  intros D op t u x y s m Hop Hb HA.
  destruct (binary_inv _ _ _ _ _ _ _ _ Hb) as (P & E & R & ri & HP & HEp & HR & Hri & -> & _).
  cbn [sP st] in *. subst P. eapply auto_shift_signed; eassumption.
Qed.

Lemma shl_mono : forall x y a b, 0 <= x <= a -> 0 <= y <= b -> 0 <= x * 2 ^ y <= a * 2 ^ b.
Proof.
  intros x y a b Hx Hy. pose proof (Z.pow_pos_nonneg 2 y ltac:(lia) ltac:(lia)).
  pose proof (Z.pow_le_mono_r 2 y b ltac:(lia) ltac:(lia)). nia.
Qed.

(** the result type of << holds every result that the widest type holds *)
Lemma auto_shl_range : forall D t u R x y, wf_operand D t -> wf_operand D u -> holds D t x -> holds D u y ->
  automatic_result D (PArith Shl) t u = Some R -> 0 <= x -> 0 <= y ->
  in_type D (auto_shift_temp D (base_ty t)) (x * 2 ^ y) -> in_type D (auto_shift_temp D (base_ty t)) y ->
  in_type D R (x * 2 ^ y).
Proof.
  intros D t u R x y Ht Hu Hx Hy HR X0 Y0 I Iy.
  cbn [automatic_result] in HR. set (tmp := auto_shift_temp D (base_ty t)) in *. unfold auto_type in HR.
  destruct (i_shl D tmp (lim_interval D tmp t) (lim_interval D tmp u)) as [ri|] eqn:Ei; [|discriminate].
  destruct (shl_static D tmp t u ri Ht Hu Ei) as ((B1 & B2 & B3) & Hs & _).
  destruct (stored_type_spec D tmp _ _ R (shift_temp_cases D (base_ty t)) B1 B2 B3 HR) as (_ & M1 & M2 & _).
  pose proof (Hs x y Hx Hy (base_fits_temp D t x Ht Hx) Iy Y0 (or_introl X0) I).
  unfold in_type in *. lia.
Qed.
Lemma C78_shl_lemma : forall D t u x y s m,
  wf_operand D t -> wf_operand D u -> holds D t x -> holds D u y ->
  binary D Shl t u x y = Some (s, m) -> throws_arithmetic (sE s) -> throws_shift (sE s) -> sP s = Automatic ->
  0 <= lim_lo D t -> 0 < lim_hi D t -> 0 <= lim_lo D u ->
  lim_hi D t * 2 ^ lim_hi D u <= (if csigned D (base_ty t) then hi D (intmax D) else hi D (uintmax D)) ->
  returns m (x * 2 ^ y) /\ holds D (OSafe s) (x * 2 ^ y) /\ wf_operand D (OSafe s).
Proof.
  intros D t u x y s m Ht Hu Hx Hy Hb HE HS HA T0 T1 U0 Hmax.
  assert (Hmax' : lim_hi D t * 2 ^ lim_hi D u <= hi D (auto_shift_temp D (base_ty t))).
  { unfold auto_shift_temp. destruct (csigned D (base_ty t)); assumption. }
  destruct (shl_char D t u x y s m Ht Hu Hx Hy Hb HE HS) as [W C].
  assert (X0 : 0 <= x <= lim_hi D t) by (unfold holds in *; lia).
  assert (Y0 : 0 <= y <= lim_hi D u) by (unfold holds in *; lia).
  assert (HR : automatic_result D (PArith Shl) t u = Some (st s)).
  { destruct (binary_inv _ _ _ _ _ _ _ _ Hb) as (P & E & R & ri & HP & HEp & HR & Hri & -> & _).
    cbn [sP] in HA. subst P. exact HR. }
  assert (H2 : lim_hi D u < 2 ^ lim_hi D u) by (apply Z.pow_gt_lin_r; lia).
  pose proof (lo_le_0 D (auto_shift_temp D (base_ty t))) as Lt.
  assert (K : forall a b, 0 <= a <= lim_hi D t -> 0 <= b <= lim_hi D u -> holds D t a -> holds D u b ->
     in_type D (st s) (a * 2 ^ b)).
  { intros a b A B A' B'. pose proof (shl_mono a b _ _ A B).
    apply (auto_shl_range D t u (st s) a b Ht Hu A' B' HR); try lia; unfold in_type; nia. }
  assert (Km : in_type D (st s) (lim_hi D t * 2 ^ lim_hi D u)).
  { apply K; try lia; unfold holds; destruct Ht as (_ & _ & ?), Hu as (_ & _ & ?); lia. }
  pose proof (lo_le_0 D (st s)) as Ls.
  assert (Ix : in_type D (st s) x) by (unfold in_type in *; nia).
  assert (Iy : in_type D (st s) y) by (unfold in_type in *; nia).
  specialize (K x y X0 Y0 Hx Hy).
  assert (Dg : lim_hi D u < digits D (st s)).
  { assert (2 ^ lim_hi D u < 2 ^ digits D (st s)).
    { assert (hi D (st s) < 2 ^ digits D (st s)) by (unfold hi; lia). unfold in_type in Km. nia. }
    apply (Z.pow_lt_mono_r_iff 2); [lia|pose proof (digits_pos D (st s)); lia|assumption]. }
  destruct (C ltac:(left; lia)) as [(A & _ & _ & B)|[[[N|N] _]|[(N & _)|(_ & [N|N] & _)]]]; try tauto; try lia.
  { splits; try assumption; apply B. }
  exfalso. unfold shl_fails in N. unfold in_type in K. lia.
Qed.
Lemma C78_shr_lemma : forall D t u x y s m,
  wf_operand D t -> wf_operand D u -> holds D t x -> holds D u y ->
  binary D Shr t u x y = Some (s, m) -> throws_arithmetic (sE s) -> throws_shift (sE s) -> sP s = Automatic ->
  0 <= lim_lo D t -> lim_lo D u = 0 -> y < digits D (st s) ->
  returns m (x / 2 ^ y) /\ holds D (OSafe s) (x / 2 ^ y) /\ wf_operand D (OSafe s).
Proof.
  intros D t u x y s m Ht Hu Hx Hy Hb HE HS HA T0 U0 Yd.
  destruct (shr_char D t u x y s m Ht Hu Hx Hy Hb HE HS) as [W C].
  assert (HR : automatic_result D (PArith Shr) t u = Some (st s)).
  { destruct (binary_inv _ _ _ _ _ _ _ _ Hb) as (P & E & R & ri & HP & HEp & HR & Hri & -> & _).
    cbn [sP] in HA. subst P. exact HR. }
  cbn [automatic_result] in HR. set (tmp := auto_shift_temp D (base_ty t)) in *. unfold auto_type in HR.
  pose proof (lo_le_0 D tmp). pose proof (hi_ge_127 D tmp).
  assert (Z0 : in_type D tmp 0) by (unfold in_type; lia).
  assert (Eu : auto_shr_u D tmp u = lim_interval D tmp u).
  { unfold auto_shr_u, lim_interval. cbn [il iu]. pose proof Hu as (W1 & _). rewrite U0 in *.
    rewrite (proj1 (cast_spec D tmp _ _ W1) Z0). reflexivity. }
  rewrite Eu in HR.
  destruct (i_shr D tmp (lim_interval D tmp t) (lim_interval D tmp u)) as [ri|] eqn:Ei; [|discriminate].
  destruct (shr_static D tmp t u ri Ht Hu Ei) as ((B1 & B2 & B3) & Hs).
  destruct (stored_type_spec D tmp _ _ (st s) (shift_temp_cases D (base_ty t)) B1 B2 B3 HR) as (_ & M1 & M2 & _).
  assert (Hu0 : holds D u 0) by (unfold holds in *; lia).
  destruct (Hs ltac:(right; lia) x 0 Hx Hu0) as [Q _].
  specialize (Q (base_fits_temp D t x Ht Hx) Z0 ltac:(lia) ltac:(unfold holds in *; lia)).
  rewrite Z.pow_0_r, Z.div_1_r in Q.
  assert (Ix : in_type D (st s) x) by (unfold in_type in *; lia).
  assert (Y0 : 0 <= y) by (unfold holds in *; lia).
  assert (Iy : in_type D (st s) y).
  { assert (digits D (st s) <= hi D (st s)) by (destruct (st s), D; vm_compute; congruence).
    pose proof (lo_le_0 D (st s)). unfold in_type. lia. }
  destruct (C ltac:(right; lia)) as [(A & _ & _ & _ & B)|[[[N|N] _]|[N _]]]; try tauto.
  { splits; try assumption; apply B. }
  exfalso. unfold holds in *. lia.
Qed.
