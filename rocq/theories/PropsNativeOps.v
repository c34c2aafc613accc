(** PropsNativeOps.v -- property C70: under native promotion the remainder and the
    shifts are those of the built-in types. *)
From Coq Require Import ZArith Bool List.
From Verif Require Import Base CType Spec ExceptionPolicy Promotion SafeBase SafeSpec SafeIgnoreFacts.
Import ListNotations.
Local Open Scope Z_scope.

Definition no_safe (T : ctype) : otype := OSafe (safe LP64 T Native default_exception_policy).

(** every operator: the result is stored in the type of the built-in expression *)
Theorem C70_type : forall D op t u x y s m, binary D op t u x y = Some (s, m) -> sP s = Native ->
  st s = built_in_type D op (base_ty t) (base_ty u).
Proof. exact native_type. Qed.
Print Assumptions C70_type.

(** << and >>, any policy: if the built-in shift is defined, the safe one returns
    its value without a report, or calls exactly one handler, the one for
    implementation-defined behaviour, and throws or (if the handler returns) returns
    the value of the built-in shift *)
Theorem C70_shifts : forall D op t u x y s m v, op = Shl \/ op = Shr ->
  wf_operand D t -> wf_operand D u -> holds D t x -> holds D u y ->
  binary D op t u x y = Some (s, m) -> sP s = Native ->
  built_in D op (base_ty t) (base_ty u) x y = Ok v ->
  returns m v
  \/ exists e, shift_err e
     /\ ((throws_shift (sE s) /\ m = ([(implementation_defined_behavior, e)], Throw e))
         \/ (on_implementation_defined_behavior (sE s) = HIgnore
             /\ m = ([(implementation_defined_behavior, e)], Ret v))).
Proof. exact native_shift. Qed.
Print Assumptions C70_shifts.

(** %: the built-in remainder, or an exception if an operand is changed by the
    conversion to the common type (missing, and false: minimum % minimum) *)
Theorem C70_modulus_partial : forall D t u x y s m v,
  wf_operand D t -> wf_operand D u -> holds D t x -> holds D u y ->
  binary D Mod t u x y = Some (s, m) -> sP s = Native -> throws_arithmetic (sE s) ->
  ~ (lo D (st s) < 0 /\ x = lo D (st s) /\ y = lo D (st s)) ->
  built_in D Mod (base_ty t) (base_ty u) x y = Ok v ->
  (in_type D (st s) x /\ in_type D (st s) y /\ returns m v)
  \/ ((~ in_type D (st s) x \/ ~ in_type D (st s) y) /\ throws_arith m).
Proof. exact native_mod. Qed.
Print Assumptions C70_modulus_partial.

(** INT_MIN % INT_MIN is INT_MIN for safe<int>, 0 for int *)
Theorem C70_modulus_refuted : exists D t u x y s m v,
  wf_operand D t /\ wf_operand D u /\ holds D t x /\ holds D u y
  /\ binary D Mod t u x y = Some (s, m) /\ sP s = Native /\ throws_arithmetic (sE s)
  /\ built_in D Mod (base_ty t) (base_ty u) x y = Ok v /\ returns m x /\ v <> x.
Proof.
  exists LP64, (no_safe Int), (no_safe Int), (-2147483648), (-2147483648).
  do 3 eexists. vm_compute. intuition congruence.
Qed.
Print Assumptions C70_modulus_refuted.

(** short << long is an int; -7 % 2 is -1; -1 % 2u throws; 0 << 31 throws although
    the built-in shift is 0 *)
Example C70_nonvacuous :
  wf_operand LP64 (no_safe Short) /\ holds LP64 (no_safe Short) 5
  /\ binary LP64 Shl (no_safe Short) (no_safe Long) 5 20
     = Some (mkSafe Int (-2147483648) 2147483647 Native default_exception_policy, ([], Ret 5242880))
  /\ built_in LP64 Shl Short Long 5 20 = Ok 5242880
  /\ (exists s, binary LP64 Mod (no_safe Int) (no_safe Int) (-7) 2 = Some (s, ([], Ret (-1))))
  /\ built_in LP64 Mod Int Int (-7) 2 = Ok (-1)
  /\ (exists s, binary LP64 Mod (no_safe Int) (no_safe UInt) (-1) 2
      = Some (s, ([(arithmetic_error, domain_error)], Throw domain_error)))
  /\ built_in LP64 Mod Int UInt (-1) 2 = Ok 1
  /\ (exists s, binary LP64 Shl (no_safe Int) (no_safe Int) 0 31
      = Some (s, ([(implementation_defined_behavior, shift_too_large)], Throw shift_too_large)))
  /\ built_in LP64 Shl Int Int 0 31 = Ok 0.
Proof. repeat split; try (eexists; vm_compute; reflexivity); vm_compute; intuition congruence. Qed.
