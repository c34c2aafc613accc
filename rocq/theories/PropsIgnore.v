(** PropsIgnore.v -- property C43 for the shifts and the bitwise operators. *)
From Coq Require Import ZArith Bool List Lia.
From Verif Require Import Base CType Spec ExceptionPolicy Promotion SafeBase SafeSpec SafeIgnoreFacts.
Import ListNotations.
Local Open Scope Z_scope.

Definition ig_ep : ep := mkEP HIgnore HIgnore HIgnore HIgnore.
Definition ig_safe (T : ctype) : otype := OSafe (safe LP64 T Native ig_ep).

(** << and >>: a policy that ignores implementation-defined behaviour gives the
    built-in result whenever the built-in shift is defined *)
Theorem C43_ignoring_shifts : forall D op t u x y s m v, op = Shl \/ op = Shr ->
  wf_operand D t -> wf_operand D u -> holds D t x -> holds D u y ->
  binary D op t u x y = Some (s, m) -> sP s = Native ->
  on_implementation_defined_behavior (sE s) = HIgnore ->
  built_in D op (base_ty t) (base_ty u) x y = Ok v -> snd m = Ret v.
Proof. exact ignore_shift. Qed.
Print Assumptions C43_ignoring_shifts.

(** | & ^ : the same value as the built-in operator, under any policy *)
Theorem C43_bitwise : forall D b t u x y s m,
  wf_operand D t -> wf_operand D u -> holds D t x -> holds D u y ->
  bitwise D b t u x y = Some (s, m) -> sP s = Native ->
  snd m = Ret (built_in_bit D b (base_ty t) (base_ty u) x y).
Proof. exact ignore_bitwise. Qed.
Print Assumptions C43_bitwise.

(** -8 >> 1 is an ignored error and then -4; 1u << 31 is no error; 6 | 5u is 7
    *)
Example C43_more_nonvacuous :
  (exists s, binary LP64 Shr (ig_safe Int) (ig_safe Int) (-8) 1
             = Some (s, ([(implementation_defined_behavior, negative_value_shift)], Ret (-4)))
             /\ sP s = Native /\ on_implementation_defined_behavior (sE s) = HIgnore)
  /\ built_in LP64 Shr Int Int (-8) 1 = Ok (-4)
  /\ built_in LP64 Shl UInt Int 1 31 = Ok 2147483648
  /\ (exists s, bitwise LP64 Or (ig_safe Int) (ig_safe UInt) 6 5 = Some (s, ([], Ret 7)))
  /\ wf_operand LP64 (ig_safe Int) /\ holds LP64 (ig_safe Int) (-8).
Proof.
  split; [eexists; vm_compute; intuition congruence|].
  split; [reflexivity|]. split; [reflexivity|].
  split; [eexists; vm_compute; reflexivity|]. vm_compute. intuition congruence.
Qed.
