(** PortProofs.v -- the lemmas PropsPort.v names. Proofs only. *)
From Coq Require Import ZArith Bool List Lia.
From Verif Require Import Base CType Spec ExceptionPolicy Promotion SafeBase SafeSpec
  SafePortFacts SafePortMoreFacts SafePortDivFacts SafePortModFacts.
Import ListNotations.
Local Open Scope Z_scope.

Lemma port_comparisons : forall D D' t u t' u' x y m,
  corresponds D D' t t' -> corresponds D D' u u' ->
  wf_operand D t -> wf_operand D u -> wf_operand D' t' -> wf_operand D' u' ->
  holds D t x -> holds D u y ->
  common_pp t u = Some Automatic -> operand_throws t -> operand_throws u ->
  (s_lt D t u x y = Some m -> s_lt D' t' u' x y = Some m)
  /\ (s_gt D t u x y = Some m -> s_gt D' t' u' x y = Some m)
  /\ (s_le D t u x y = Some m -> s_le D' t' u' x y = Some m)
  /\ (s_ge D t u x y = Some m -> s_ge D' t' u' x y = Some m)
  /\ (s_eq D t u x y = Some m -> s_eq D' t' u' x y = Some m)
  /\ (s_ne D t u x y = Some m -> s_ne D' t' u' x y = Some m).
Proof.
  intros D D' t u t' u' x y m Ct Cu Wt Wu Wt' Wu' Hx Hy HP Tt Tu.
  assert (K : forall k f, nth_error (six D) k = Some f -> forall r, f t u x y = Some r ->
     exists f', nth_error (six D') k = Some f' /\ f' t' u' x y = Some r)
    by (intros; eapply compare_port_all with (D := D); eassumption).
  split; [|split; [|split; [|split; [|split]]]]; intros H.
  - destruct (K 0%nat _ eq_refl _ H) as (f' & [= <-] & R). exact R.
  - destruct (K 1%nat _ eq_refl _ H) as (f' & [= <-] & R). exact R.
  - destruct (K 2%nat _ eq_refl _ H) as (f' & [= <-] & R). exact R.
  - destruct (K 3%nat _ eq_refl _ H) as (f' & [= <-] & R). exact R.
  - destruct (K 4%nat _ eq_refl _ H) as (f' & [= <-] & R). exact R.
  - destruct (K 5%nat _ eq_refl _ H) as (f' & [= <-] & R). exact R.
Qed.
Lemma port_division : forall D D' t u t' u' x y s m,
  corresponds D D' t t' -> corresponds D D' u u' ->
  wf_operand D t -> wf_operand D u -> wf_operand D' t' -> wf_operand D' u' ->
  holds D t x -> holds D u y ->
  binary D Div t u x y = Some (s, m) -> sP s = Automatic -> throws_arithmetic (sE s) ->
  fits_in D (st s) t -> fits_in D (st s) u ->
  exists s', binary D' Div t' u' x y = Some (s', m)
    /\ smin s' = smin s /\ smax s' = smax s
    /\ lo D (st s) = lo D' (st s') /\ hi D (st s) = hi D' (st s').
Proof.
  intros D D' t u t' u' x y s m Ct Cu Wt Wu Wt' Wu' Hx Hy H HP HE Ft Fu.
  destruct (div_same D D' t u t' u' Ct Cu Wt Wu Wt' Wu' x y s m Hx Hy H HP HE Ft Fu) as (s' & A & B & C & [E F]).
  exists s'. auto.
Qed.
Lemma port_modulus : forall D D' t u t' u' x y s m,
  corresponds D D' t t' -> corresponds D D' u u' ->
  wf_operand D t -> wf_operand D u -> wf_operand D' t' -> wf_operand D' u' ->
  holds D t x -> holds D u y ->
  binary D Mod t u x y = Some (s, m) -> sP s = Automatic -> throws_arithmetic (sE s) ->
  fits_in D (st s) t -> fits_in D (st s) u ->
  ~ (x = lo D (st s) /\ (y = lo D (st s) \/ y = -1)) ->
  exists s', binary D' Mod t' u' x y = Some (s', m)
    /\ smin s' = smin s /\ smax s' = smax s
    /\ lo D (st s) = lo D' (st s') /\ hi D (st s) = hi D' (st s').
Proof.
  intros D D' t u t' u' x y s m Ct Cu Wt Wu Wt' Wu' Hx Hy H HP HE Ft Fu Hne.
  destruct (mod_same D D' t u t' u' Ct Cu Wt Wu Wt' Wu' x y s m Hx Hy H HP HE Ft Fu Hne) as (s' & A & B & C & [E F]).
  exists s'. auto.
Qed.
