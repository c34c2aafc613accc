(** PropsPortBits.v -- property C45 for the bitwise operators and the shifts, on operands that
    are not negative. *)
From Coq Require Import ZArith Bool List.
From Verif Require Import Base CType Spec ExceptionPolicy Promotion SafeBase SafeSpec PortBitFacts.
Import ListNotations.
Local Open Scope Z_scope.

(** & | ^ of two values that are not negative: if the expression compiles on both data models,
    the result and its declared range are the same (missing: negative values, for which it is
    false) *)
Theorem C45_bitwise_partial : forall D D' b t u t' u' x y s m s' m',
  corresponds D D' t t' -> corresponds D D' u u' ->
  wf_operand D t -> wf_operand D u -> wf_operand D' t' -> wf_operand D' u' ->
  holds D t x -> holds D u y -> 0 <= x -> 0 <= y ->
  bitwise D b t u x y = Some (s, m) -> sP s = Native \/ sP s = Automatic ->
  bitwise D' b t' u' x y = Some (s', m') ->
  m' = m /\ smin s' = smin s /\ smax s' = smax s.
Proof. exact port_bitwise. Qed.
Print Assumptions C45_bitwise_partial.

(** a << b if the declared ranges are not negative and the greatest result fits the widest type
    (missing: the others, for which it is false) *)
Theorem C45_left_shift_partial : forall D D' t u t' u' x y s m s' m',
  corresponds D D' t t' -> corresponds D D' u u' ->
  wf_operand D t -> wf_operand D u -> wf_operand D' t' -> wf_operand D' u' ->
  holds D t x -> holds D u y ->
  binary D Shl t u x y = Some (s, m) -> throws_arithmetic (sE s) -> throws_shift (sE s) -> sP s = Automatic ->
  binary D' Shl t' u' x y = Some (s', m') ->
  0 <= lim_lo D t -> 0 < lim_hi D t -> 0 <= lim_lo D u ->
  lim_hi D t * 2 ^ lim_hi D u <= (if csigned D (base_ty t) then hi D (intmax D) else hi D (uintmax D)) ->
  m' = m /\ returns m (x * 2 ^ y).
Proof. exact port_left_shift. Qed.
Print Assumptions C45_left_shift_partial.

(** a >> b if a is not negative, the range of b begins at 0 and b is less than the number of
    value bits of the result type on both data models *)
Theorem C45_right_shift_partial : forall D D' t u t' u' x y s m s' m',
  corresponds D D' t t' -> corresponds D D' u u' ->
  wf_operand D t -> wf_operand D u -> wf_operand D' t' -> wf_operand D' u' ->
  holds D t x -> holds D u y ->
  binary D Shr t u x y = Some (s, m) -> throws_arithmetic (sE s) -> throws_shift (sE s) -> sP s = Automatic ->
  binary D' Shr t' u' x y = Some (s', m') ->
  0 <= lim_lo D t -> lim_lo D u = 0 -> y < digits D (st s) -> y < digits D' (st s') ->
  m' = m /\ returns m (x / 2 ^ y).
Proof. exact port_right_shift. Qed.
Print Assumptions C45_right_shift_partial.

(** 32-bit ranges held in int on LP64 and in long where int has 16 bits *)
Definition pb (mn mx : Z) (T : ctype) : otype := OSafe (mkSafe T mn mx Automatic (mkEP HThrow HThrow HThrow HThrow)).
Definition pb_r (T : ctype) (mn mx : Z) : safe_t := mkSafe T mn mx Automatic (mkEP HThrow HThrow HThrow HThrow).
Example C45_bits_nonvacuous :
  corresponds LP64 IP16 (pb 0 100000 Int) (pb 0 100000 Long) /\ corresponds LP64 IP16 (pb 0 9 Int) (pb 0 9 Long)
  /\ wf_operand LP64 (pb 0 100000 Int) /\ wf_operand IP16 (pb 0 100000 Long)
  /\ wf_operand LP64 (pb 0 9 Int) /\ wf_operand IP16 (pb 0 9 Long)
  /\ holds LP64 (pb 0 100000 Int) 70001 /\ holds LP64 (pb 0 9 Int) 6
  /\ bitwise LP64 Xor (pb 0 100000 Int) (pb 0 9 Int) 70001 6 = Some (pb_r Int 0 131071, ([], Ret 70007))
  /\ bitwise IP16 Xor (pb 0 100000 Long) (pb 0 9 Long) 70001 6 = Some (pb_r Long 0 131071, ([], Ret 70007))
  /\ 100000 * 2 ^ 9 <= hi LP64 (intmax LP64)
  /\ (exists s, binary LP64 Shl (pb 0 100000 Int) (pb 0 9 Int) 70001 6 = Some (s, ([], Ret 4480064)))
  /\ (exists s, binary IP16 Shl (pb 0 100000 Long) (pb 0 9 Long) 70001 6 = Some (s, ([], Ret 4480064)))
  /\ (exists s, binary LP64 Shr (pb 0 100000 Int) (pb 0 9 Int) 70001 6 = Some (s, ([], Ret 1093))
                /\ (6 <? digits LP64 (st s)) = true)
  /\ (exists s, binary IP16 Shr (pb 0 100000 Long) (pb 0 9 Long) 70001 6 = Some (s, ([], Ret 1093))
                /\ (6 <? digits IP16 (st s)) = true).
Proof.
  repeat (split; [vm_compute; intuition congruence|]).
  split; [eexists; vm_compute; reflexivity|]. split; [eexists; vm_compute; reflexivity|].
  split; (eexists; split; [vm_compute; reflexivity|vm_compute; reflexivity]).
Qed.
