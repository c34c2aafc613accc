(** PortBitFacts.v -- bitwise operators and automatic left shifts on two data models. Proofs only. *)
From Coq Require Import ZArith Bool List Lia.
From Verif Require Import Base CType Spec CTypeFacts Utility CheckedInteger CheckedResultOps Interval
  ExceptionPolicy Promotion SafeBase SafeSpec SafeFacts SafeBitFacts PropsConvProofs BitExactFacts AutoShiftFacts.
Import ListNotations.
Local Open Scope Z_scope.

Lemma pow_unique : forall j k B, 0 < j -> 0 < k -> B < 2 ^ j -> 2 ^ (j - 1) <= Z.max 1 B ->
  B < 2 ^ k -> 2 ^ (k - 1) <= Z.max 1 B -> j = k.
Proof.
  assert (A : forall j k B, 0 < j -> 0 < k -> 2 ^ (j - 1) <= Z.max 1 B -> B < 2 ^ k -> j <= k).
  { intros j k B Hj Hk H1 H2. destruct (Z_le_gt_dec j k) as [|G]; [assumption|exfalso].
    assert (2 ^ k <= 2 ^ (j - 1)) by (apply Z.pow_le_mono_r; lia).
    assert (2 ^ 1 <= 2 ^ k) by (apply Z.pow_le_mono_r; lia). lia. }
  intros j k B Hj Hk H1 H2 H3 H4. pose proof (A j k B Hj Hk H2 H3). pose proof (A k j B Hk Hj H4 H1). lia.
Qed.

Lemma corr_policies : forall D D' t t' u u', corresponds D D' t t' -> corresponds D D' u u' ->
  common_pp t' u' = common_pp t u /\ common_ep t' u' = common_ep t u.
Proof.
  intros D D' t t' u u' (_ & _ & _ & Pt & Et & Kt) (_ & _ & _ & Pu & Eu & Ku).
  assert (St : is_safe t' = is_safe t) by (destruct t, t'; cbn in Kt |- *; tauto || reflexivity).
  assert (Su : is_safe u' = is_safe u) by (destruct u, u'; cbn in Ku |- *; tauto || reflexivity).
  unfold common_pp, common_ep. rewrite St, Su, Pt, Pu, Et, Eu. split; reflexivity.
Qed.

Lemma port_bitwise : forall D D' b t u t' u' x y s m s' m',
  corresponds D D' t t' -> corresponds D D' u u' ->
  wf_operand D t -> wf_operand D u -> wf_operand D' t' -> wf_operand D' u' ->
  holds D t x -> holds D u y -> 0 <= x -> 0 <= y ->
  bitwise D b t u x y = Some (s, m) -> sP s = Native \/ sP s = Automatic ->
  bitwise D' b t' u' x y = Some (s', m') ->
  m' = m /\ smin s' = smin s /\ smax s' = smax s.
Proof.
  intros D D' b t u t' u' x y s m s' m' Ct Cu Wt Wu Wt' Wu' Hx Hy Px Py H HP H'.
  destruct (corr_policies D D' t t' u u' Ct Cu) as (QP & _).
  destruct Ct as (L1 & L2 & _), Cu as (K1 & K2 & _).
  assert (HP' : sP s' = Native \/ sP s' = Automatic).
  { destruct (bitwise_inv _ _ _ _ _ _ _ _ H) as (? & A & _). destruct (bitwise_inv _ _ _ _ _ _ _ _ H') as (? & A' & _).
    rewrite QP, A in A'. injection A' as <-. assumption. }
  assert (Hx' : holds D' t' x) by (unfold holds in *; lia). assert (Hy' : holds D' u' y) by (unfold holds in *; lia).
  destruct (C28_range D b t u x y s m Wt Wu Hx Hy H HP Px Py) as (_ & R & _).
  destruct (C28_range D' b t' u' x y s' m' Wt' Wu' Hx' Hy' H' HP' Px Py) as (_ & R' & _).
  unfold returns in *. split; [congruence|].
  assert (0 <= lim_hi D t) by (unfold holds in *; lia). assert (0 <= lim_hi D u) by (unfold holds in *; lia).
  destruct (bitwise_declared D b t u x y s m Wt Wu ltac:(lia) ltac:(lia) H HP) as (E0 & k & A0 & A1 & A2 & A3).
  destruct (bitwise_declared D' b t' u' x y s' m' Wt' Wu' ltac:(lia) ltac:(lia) H' HP') as (E0' & k' & A0' & A1' & A2' & A3').
  rewrite <- L2, <- K2 in A2', A3'.
  rewrite (pow_unique k k' _ A0 A0' A2 A3 A2' A3') in A1. split; congruence.
Qed.

Lemma widest_same : forall D D' (c : bool), (if c then hi D (intmax D) else hi D (uintmax D)) = (if c then hi D' (intmax D') else hi D' (uintmax D')).
Proof. destruct D, D', c; reflexivity. Qed.

Lemma port_left_shift : forall D D' t u t' u' x y s m s' m',
  corresponds D D' t t' -> corresponds D D' u u' ->
  wf_operand D t -> wf_operand D u -> wf_operand D' t' -> wf_operand D' u' ->
  holds D t x -> holds D u y ->
  binary D Shl t u x y = Some (s, m) -> throws_arithmetic (sE s) -> throws_shift (sE s) -> sP s = Automatic ->
  binary D' Shl t' u' x y = Some (s', m') ->
  0 <= lim_lo D t -> 0 < lim_hi D t -> 0 <= lim_lo D u ->
  lim_hi D t * 2 ^ lim_hi D u <= (if csigned D (base_ty t) then hi D (intmax D) else hi D (uintmax D)) ->
  m' = m /\ returns m (x * 2 ^ y).
Proof.
  intros D D' t u t' u' x y s m s' m' Ct Cu Wt Wu Wt' Wu' Hx Hy H E1 E2 P H' A1 A2 A3 A4.
  destruct (corr_policies D D' t t' u u' Ct Cu) as (QP & QE).
  assert (EQ : sP s' = sP s /\ sE s' = sE s).
  { destruct (binary_inv _ _ _ _ _ _ _ _ H) as (p & e & ? & ? & B1 & B2 & _ & _ & -> & _).
    destruct (binary_inv _ _ _ _ _ _ _ _ H') as (p' & e' & ? & ? & B1' & B2' & _ & _ & -> & _).
    cbn [sP sE]. rewrite QP, B1 in B1'. rewrite QE, B2 in B2'. split; congruence. }
  destruct EQ as [EQ1 EQ2].
  destruct Ct as (L1 & L2 & L3 & _), Cu as (K1 & K2 & K3 & _).
  destruct (C78_shl_lemma D t u x y s m Wt Wu Hx Hy H E1 E2 P A1 A2 A3 A4) as (R & _).
  destruct (C78_shl_lemma D' t' u' x y s' m' Wt' Wu' ltac:(unfold holds in *; lia) ltac:(unfold holds in *; lia)
    H' ltac:(rewrite EQ2; exact E1) ltac:(rewrite EQ2; exact E2) ltac:(congruence) ltac:(lia) ltac:(lia) ltac:(lia)) as (R' & _).
  - rewrite <- L2, <- K2, <- L3. rewrite (widest_same D' D). exact A4.
  - unfold returns in *. split; [congruence|exact R].
Qed.

Lemma port_right_shift : forall D D' t u t' u' x y s m s' m',
  corresponds D D' t t' -> corresponds D D' u u' ->
  wf_operand D t -> wf_operand D u -> wf_operand D' t' -> wf_operand D' u' ->
  holds D t x -> holds D u y ->
  binary D Shr t u x y = Some (s, m) -> throws_arithmetic (sE s) -> throws_shift (sE s) -> sP s = Automatic ->
  binary D' Shr t' u' x y = Some (s', m') ->
  0 <= lim_lo D t -> lim_lo D u = 0 -> y < digits D (st s) -> y < digits D' (st s') ->
  m' = m /\ returns m (x / 2 ^ y).
Proof.
  intros D D' t u t' u' x y s m s' m' Ct Cu Wt Wu Wt' Wu' Hx Hy H E1 E2 P H' A1 A2 A3 A4.
  destruct (corr_policies D D' t t' u u' Ct Cu) as (QP & QE).
  assert (EQ : sP s' = sP s /\ sE s' = sE s).
  { destruct (binary_inv _ _ _ _ _ _ _ _ H) as (p & e & ? & ? & B1 & B2 & _ & _ & -> & _).
    destruct (binary_inv _ _ _ _ _ _ _ _ H') as (p' & e' & ? & ? & B1' & B2' & _ & _ & -> & _).
    cbn [sP sE]. rewrite QP, B1 in B1'. rewrite QE, B2 in B2'. split; congruence. }
  destruct EQ as [EQ1 EQ2].
  destruct Ct as (L1 & L2 & L3 & _), Cu as (K1 & K2 & K3 & _).
  destruct (C78_shr_lemma D t u x y s m Wt Wu Hx Hy H E1 E2 P A1 A2 A3) as (R & _).
  destruct (C78_shr_lemma D' t' u' x y s' m' Wt' Wu' ltac:(unfold holds in *; lia) ltac:(unfold holds in *; lia)
    H' ltac:(rewrite EQ2; exact E1) ltac:(rewrite EQ2; exact E2) ltac:(congruence) ltac:(lia) ltac:(lia) A4) as (R' & _).
  unfold returns in *. split; [congruence|exact R].
Qed.
