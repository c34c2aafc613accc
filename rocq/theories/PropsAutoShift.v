(** PropsAutoShift.v -- property C78: shifts under automatic promotion. *)
From Coq Require Import ZArith Bool List.
From Verif Require Import Base CType Spec ExceptionPolicy Promotion SafeBase SafeSpec AutoShiftFacts.
Import ListNotations.
Local Open Scope Z_scope.

Definition as_sr (mn mx : Z) (T : ctype) : otype := OSafe (mkSafe T mn mx Automatic default_exception_policy).

(** C78: under automatic promotion the type of a << b and a >> b is signed exactly
    if the type of a is. *)
Theorem C78_signedness : forall D op t u x y s m, op = Shl \/ op = Shr ->
  binary D op t u x y = Some (s, m) -> sP s = Automatic -> csigned D (st s) = csigned D (base_ty t).
Proof. exact C78_sign_lemma. Qed.
Print Assumptions C78_signedness.

(** Left shift: if the largest operand shifted by the largest count fits the widest
    type of that signedness, the exact result is returned, never an exception, and it
    is in the declared range (missing: negative values and counts, see C26). *)
Theorem C78_left_shift_partial : forall D t u x y s m,
  wf_operand D t -> wf_operand D u -> holds D t x -> holds D u y ->
  binary D Shl t u x y = Some (s, m) -> throws_arithmetic (sE s) -> throws_shift (sE s) -> sP s = Automatic ->
  0 <= lim_lo D t -> 0 < lim_hi D t -> 0 <= lim_lo D u ->
  lim_hi D t * 2 ^ lim_hi D u <= (if csigned D (base_ty t) then hi D (intmax D) else hi D (uintmax D)) ->
  returns m (x * 2 ^ y) /\ holds D (OSafe s) (x * 2 ^ y) /\ wf_operand D (OSafe s).
Proof. exact C78_shl_lemma. Qed.
Print Assumptions C78_left_shift_partial.

(** Right shift: if the declared range of the count begins at 0 and the count is less
    than the number of value bits of the result type, the exact result is returned
    and is in the declared range (missing: other counts, which is false, see below). *)
Theorem C78_right_shift_partial : forall D t u x y s m,
  wf_operand D t -> wf_operand D u -> holds D t x -> holds D u y ->
  binary D Shr t u x y = Some (s, m) -> throws_arithmetic (sE s) -> throws_shift (sE s) -> sP s = Automatic ->
  0 <= lim_lo D t -> lim_lo D u = 0 -> y < digits D (st s) ->
  returns m (x / 2 ^ y) /\ holds D (OSafe s) (x / 2 ^ y) /\ wf_operand D (OSafe s).
Proof. exact C78_shr_lemma. Qed.
Print Assumptions C78_right_shift_partial.

Example C78_nonvacuous :
  wf_operand LP64 (as_sr 0 1000 UShort) /\ wf_operand LP64 (as_sr 0 40 SChar)
  /\ holds LP64 (as_sr 0 1000 UShort) 1000 /\ holds LP64 (as_sr 0 40 SChar) 40
  /\ 1000 * 2 ^ 40 <= hi LP64 (uintmax LP64)
  /\ binary LP64 Shl (as_sr 0 1000 UShort) (as_sr 0 40 SChar) 1000 40
     = Some (mkSafe ULong 0 1099511627776000 Automatic default_exception_policy, ([], Ret 1099511627776000))
  /\ binary LP64 Shr (as_sr 0 1000 UShort) (as_sr 0 40 SChar) 1000 4
     = Some (mkSafe UShort 0 1000 Automatic default_exception_policy, ([], Ret 62)).
Proof. vm_compute. intuition congruence. Qed.

(** range<0,1000>(1000) >> range<4,4>(4), which is 62, throws: it is computed in
    unsigned char, the type of the results, which does not hold 1000. And
    range<0,1000>(1000) >> range<0,20>(20), which is 0, throws: 20 is too large a
    count for unsigned short. *)
Theorem C78_right_shift_refuted : exists D t u u' x y y' s s' m m',
  wf_operand D t /\ wf_operand D u /\ wf_operand D u' /\ holds D t x /\ holds D u y /\ holds D u' y'
  /\ 0 <= lim_lo D t /\ 0 <= lim_lo D u /\ 0 <= lim_lo D u'
  /\ binary D Shr t u x y = Some (s, m) /\ sP s = Automatic /\ (exists e, snd m = Throw e)
  /\ binary D Shr t u' x y' = Some (s', m') /\ sP s' = Automatic /\ (exists e, snd m' = Throw e).
Proof.
  exists LP64, (as_sr 0 1000 UShort), (as_sr 4 4 SChar), (as_sr 0 20 SChar), 1000, 4, 20.
  exists (mkSafe UChar 0 255 Automatic default_exception_policy), (mkSafe UShort 0 1000 Automatic default_exception_policy).
  exists ([(arithmetic_error, positive_overflow_error)], Throw positive_overflow_error).
  exists ([(implementation_defined_behavior, shift_too_large)], Throw shift_too_large).
  vm_compute. intuition (try congruence); eexists; reflexivity.
Qed.
Print Assumptions C78_right_shift_refuted.
