(** PropsPolicy.v -- properties C36, C40-C43, C45, C47, C48 and C51: exception
    policies, promotion policies, portability. *)
From Coq Require Import ZArith Bool List.
From Verif Require Import Base CType Spec CheckedInteger CheckedResultOps Interval ExceptionPolicy
  Promotion SafeBase SafeSpec PropsPolicyProofs.
Import ListNotations.
Local Open Scope Z_scope.

(** types used in the examples *)
Definition ex_ep : ep := default_exception_policy.
Definition ex_safe (T : ctype) (P : pp) (E : ep) : otype := OSafe (safe LP64 T P E).
Definition ex_sr (mn mx : Z) (T : ctype) (P : pp) (E : ep) : otype := OSafe (mkSafe T mn mx P E).

(** C36: no binary operator that compiles under a trapping policy calls a handler *)
Theorem C36_no_handler_called : forall op D t u x y s m, traps (sE s) ->
  eval_binop D op t u x y = Some (s, m) -> silent m.
Proof. exact C36_silent. Qed.
Print Assumptions C36_no_handler_called.

(** + - * that compile are exact for all operand values *)
Theorem C36_arithmetic : forall op D t u x y s m, op = Add \/ op = Sub \/ op = Mul ->
  wf_operand D t -> wf_operand D u -> holds D t x -> holds D u y -> traps (sE s) ->
  binary D op t u x y = Some (s, m) ->
  wf_operand D (OSafe s) /\ returns m (exact op x y) /\ smin s <= exact op x y <= smax s.
Proof. exact C36_arith. Qed.
Print Assumptions C36_arithmetic.

Theorem C36_comparison : forall D t u x y,
  wf_operand D t -> wf_operand D u -> holds D t x -> holds D u y ->
  (forall E, get_ep t = Some E \/ get_ep u = Some E -> traps E) ->
  (forall m, s_lt D t u x y = Some m -> returns m (x <? y))
  /\ (forall m, s_gt D t u x y = Some m -> returns m (x >? y))
  /\ (forall m, s_le D t u x y = Some m -> returns m (x <=? y))
  /\ (forall m, s_ge D t u x y = Some m -> returns m (x >=? y))
  /\ (forall m, s_eq D t u x y = Some m -> returns m (x =? y))
  /\ (forall m, s_ne D t u x y = Some m -> returns m (negb (x =? y))).
Proof. exact C36_compare. Qed.
Print Assumptions C36_comparison.

Theorem C36_construction : forall D s o x m,
  wf_operand D (OSafe s) -> wf_operand D o -> traps (sE s) -> holds D o x ->
  construct D s o x = Some m -> smin s <= x <= smax s /\ returns m x.
Proof. exact C36_construct. Qed.
Print Assumptions C36_construction.

Theorem C36_conversion : forall D R s x m, in_type D (st s) x -> traps (sE s) ->
  to_builtin D R s x = Some m -> in_type D R x /\ returns m x.
Proof. exact C36_to_builtin. Qed.
Print Assumptions C36_conversion.

(** under strict_trap_policy int8 + int8 compiles, int + int does not *)
Example C36_nonvacuous :
  traps strict_trap_policy
  /\ binary LP64 Add (ex_safe SChar Native strict_trap_policy) (ex_safe SChar Native strict_trap_policy) 100 100
     = Some (mkSafe Int (-256) 254 Native strict_trap_policy, ([], Ret 200))
  /\ binary LP64 Add (ex_safe Int Native strict_trap_policy) (ex_safe Int Native strict_trap_policy) 1 1 = None
  /\ s_lt LP64 (ex_safe Int Native strict_trap_policy) (ORaw Long) 1 2 = Some ([], Ret true)
  /\ s_lt LP64 (ex_safe Int Native strict_trap_policy) (ORaw UInt) 1 2 = None
  /\ construct LP64 (safe LP64 Int Native strict_trap_policy) (ORaw Short) 12 = Some ([], Ret 12)
  /\ construct LP64 (safe LP64 Short Native strict_trap_policy) (ORaw Int) 12 = None
  /\ to_builtin LP64 Long (safe LP64 Int Native strict_trap_policy) (-7) = Some ([], Ret (-7)).
Proof. vm_compute. intuition congruence. Qed.

(** C40: the host's own widths. On LP64 (either signedness of char), for every
    operator but the shifts, cpp<8,16,32,64,64> chooses the type native chooses,
    except when an operand is an unsigned type narrower than int, or when the
    operands are unsigned long and long long (missing: those cases and the other
    data models, for which it is false) *)
Theorem C40_cpp_as_native_partial : forall D op T U, D = LP64 \/ D = LP64u ->
  op <> PArith Shl -> op <> PArith Shr ->
  width D T >= width D Int \/ csigned D T = true ->
  width D U >= width D Int \/ csigned D U = true ->
  ~ (T = ULong /\ U = LLong) -> ~ (T = LLong /\ U = ULong) ->
  cpp_result D 8 16 (width D Int) (width D Long) (width D LLong) T U = Some (native_result D op T U).
Proof. exact C40_lp64. Qed.
Print Assumptions C40_cpp_as_native_partial.

(** signed operands other than long, on every data model with 32-bit int *)
Theorem C40_cpp_signed_partial : forall D op T U, D <> IP16 ->
  op <> PArith Shl -> op <> PArith Shr ->
  In T [SChar; Short; Int; LLong] -> In U [SChar; Short; Int; LLong] ->
  cpp_result D 8 16 (width D Int) (width D Long) (width D LLong) T U = Some (native_result D op T U).
Proof. exact C40_signed. Qed.
Print Assumptions C40_cpp_signed_partial.

(** unsigned char + unsigned char is unsigned int instead of int; long + long long
    on LLP64 is the 32-bit long; int << long is long; unsigned long + long long
    does not compile *)
Theorem C40_cpp_as_native_refuted :
  cpp_result LP64 8 16 32 64 64 UChar UChar = Some UInt
  /\ native_result LP64 (PArith Add) UChar UChar = Int
  /\ cpp_result LLP64 8 16 32 32 64 Long LLong = Some Long
  /\ native_result LLP64 (PArith Add) Long LLong = LLong
  /\ result_base_type LP64 (Cpp 8 16 32 64 64) (PArith Shl) (ORaw Int) (ORaw Long) = Some Long
  /\ native_result LP64 (PArith Shl) Int Long = Int
  /\ cpp_result LP64 8 16 32 64 64 ULong LLong = None
  /\ native_result LP64 (PArith Add) ULong LLong = ULLong.
Proof. vm_compute. tauto. Qed.
Print Assumptions C40_cpp_as_native_refuted.

Example C40_nonvacuous :
  width LP64 UInt >= width LP64 Int /\ csigned LP64 Short = true
  /\ cpp_result LP64 8 16 32 64 64 Short UInt = Some UInt
  /\ cpp_result LLP64 8 16 32 32 64 Short LLong = Some LLong.
Proof. vm_compute. intuition congruence. Qed.

(** C41 *)
Theorem C41_operators : forall D op t u x y s m, operand_throws t -> operand_throws u ->
  eval_binop D op t u x y = Some (s, m) -> one_report m.
Proof. exact SafeTraceFacts.eval_binop_one. Qed.
Print Assumptions C41_operators.

Theorem C41_comparisons : forall D c t u x y m, operand_throws t -> operand_throws u ->
  compare D c t u x y = Some m -> one_report m.
Proof. exact C41_compare. Qed.
Print Assumptions C41_comparisons.

Theorem C41_construction : forall D s o x m, throws_arithmetic (sE s) -> throws_shift (sE s) ->
  construct D s o x = Some m -> one_report m.
Proof. exact SafeTraceFacts.construct_one. Qed.
Print Assumptions C41_construction.

Theorem C41_conversion : forall D R s x m, throws_arithmetic (sE s) -> throws_shift (sE s) ->
  to_builtin D R s x = Some m -> one_report m.
Proof. exact SafeTraceFacts.to_builtin_one. Qed.
Print Assumptions C41_conversion.

(** t op= u for all ten operators; ++ and -- are the case of += 1 and -= 1 *)
Theorem C41_compound_assignment : forall D op tgt u x y m, operand_throws tgt -> operand_throws u ->
  compound D op tgt u x y = Some m -> one_report m.
Proof. exact SafeTraceFacts.compound_one. Qed.
Print Assumptions C41_compound_assignment.

Example C41_nonvacuous :
  throws_arithmetic ex_ep /\ throws_shift ex_ep
  /\ (exists s, eval_binop LP64 (BA Shl) (ex_safe Int Native ex_ep) (ex_safe Int Native ex_ep) 1 40
       = Some (s, ([(implementation_defined_behavior, shift_too_large)], Throw shift_too_large)))
  /\ (exists s, eval_binop LP64 (BA Mod) (ex_safe Int Native ex_ep) (ex_safe Int Native ex_ep) 1 0
       = Some (s, ([(arithmetic_error, domain_error)], Throw domain_error)))
  /\ compound LP64 (BA Add) (ex_sr 0 10 SChar Native ex_ep) (ORaw Int) 7 5
     = Some ([(arithmetic_error, positive_overflow_error)], Throw positive_overflow_error)
  /\ class_of shift_too_large = implementation_defined_behavior.
Proof. vm_compute. intuition (first [congruence | eexists; reflexivity]). Qed.

(** C42 (missing: precision_overflow_error, for which it is false) *)
Theorem C42_action_of_error : forall e, make_safe_numerics_action e = class_of e.
Proof. exact C42_action. Qed.
Print Assumptions C42_action_of_error.

Theorem C42_equivalence_partial : forall e a, e <> precision_overflow_error ->
  (equivalent e a = true <-> class_of e = a).
Proof. exact C42_lemma. Qed.
Print Assumptions C42_equivalence_partial.

Theorem C42_equivalence_refuted : exists e,
  make_safe_numerics_action e = arithmetic_error /\ (forall a, equivalent e a = false).
Proof. exists precision_overflow_error. split; [reflexivity|]. destruct a; reflexivity. Qed.
Print Assumptions C42_equivalence_refuted.

Example C42_nonvacuous : shift_too_large <> precision_overflow_error
  /\ equivalent shift_too_large implementation_defined_behavior = true
  /\ equivalent shift_too_large arithmetic_error = false.
Proof. vm_compute. intuition congruence. Qed.

(** C43: + * / (missing: - when the difference is not representable, for which
    it is false; the shifts; operands changed by the usual conversions, for which
    it is false) *)
Theorem C43_ignoring_partial : forall D op t u x y s m v, op = Add \/ op = Mul \/ op = Div ->
  wf_operand D t -> wf_operand D u -> holds D t x -> holds D u y ->
  binary D op t u x y = Some (s, m) -> sP s = Native -> ignores_arithmetic (sE s) ->
  in_type D (st s) x -> in_type D (st s) y ->
  built_in D op (base_ty t) (base_ty u) x y = Ok v -> snd m = Ret v.
Proof. exact C43_lemma. Qed.
Print Assumptions C43_ignoring_partial.

Theorem C43_ignoring_subtract_partial : forall D t u x y s m v,
  wf_operand D t -> wf_operand D u -> holds D t x -> holds D u y ->
  binary D Sub t u x y = Some (s, m) -> sP s = Native -> ignores_arithmetic (sE s) ->
  in_type D (st s) x -> in_type D (st s) y -> in_type D (st s) (x - y) ->
  built_in D Sub (base_ty t) (base_ty u) x y = Ok v -> snd m = Ret v.
Proof. exact C43_sub. Qed.
Print Assumptions C43_ignoring_subtract_partial.

Theorem C43_ignoring_modulus_partial : forall D t u x y s m v,
  wf_operand D t -> wf_operand D u -> holds D t x -> holds D u y ->
  binary D Mod t u x y = Some (s, m) -> sP s = Native ->
  in_type D (st s) x -> in_type D (st s) y ->
  ~ (lo D (st s) < 0 /\ x = lo D (st s) /\ y = lo D (st s)) ->
  built_in D Mod (base_ty t) (base_ty u) x y = Ok v -> snd m = Ret v.
Proof. exact C43_mod. Qed.
Print Assumptions C43_ignoring_modulus_partial.

Definition ex_ignore : ep := mkEP HIgnore HIgnore HIgnore HIgnore.

(** unsigned 1 - 2: the built-in result is UINT_MAX, the safe one is 1 + 2 *)
Theorem C43_ignoring_refuted : exists D t u x y s m v,
  wf_operand D t /\ wf_operand D u /\ holds D t x /\ holds D u y
  /\ binary D Sub t u x y = Some (s, m) /\ sP s = Native /\ ignores_arithmetic (sE s)
  /\ in_type D (st s) x /\ in_type D (st s) y
  /\ built_in D Sub (base_ty t) (base_ty u) x y = Ok v /\ snd m = Ret (x + y) /\ v <> x + y.
Proof.
  exists LP64, (ex_safe UInt Native ex_ignore), (ex_safe UInt Native ex_ignore), 1, 2.
  do 3 eexists. vm_compute. intuition congruence.
Qed.
Print Assumptions C43_ignoring_refuted.

(** safe<int>(-1) + 1u: the built-in result is 0; the ignored error of the
    conversion to unsigned reads a value that is not there *)
Theorem C43_ignoring_undefined_refuted : exists D t u x y s m,
  wf_operand D t /\ wf_operand D u /\ holds D t x /\ holds D u y
  /\ binary D Add t u x y = Some (s, m) /\ sP s = Native /\ ignores_arithmetic (sE s)
  /\ built_in D Add (base_ty t) (base_ty u) x y = Ok 0 /\ snd m = Undef.
Proof.
  exists LP64, (ex_safe Int Native ex_ignore), (ORaw UInt), (-1), 1.
  do 2 eexists. vm_compute. intuition congruence.
Qed.
Print Assumptions C43_ignoring_undefined_refuted.

Example C43_nonvacuous :
  binary LP64 Add (ex_safe UInt Native ex_ignore) (ex_safe UInt Native ex_ignore) 4294967295 2
  = Some (mkSafe UInt 0 4294967295 Native ex_ignore, ([(arithmetic_error, positive_overflow_error)], Ret 1))
  /\ built_in LP64 Add UInt UInt 4294967295 2 = Ok 1
  /\ built_in LP64 Div Int Int (-7) 2 = Ok (-3).
Proof. vm_compute. intuition congruence. Qed.

(** C45, for + - * (missing: the other operators) *)
Theorem C45_portable_partial : forall D D' t u t' u' op x y s m, op = Add \/ op = Sub \/ op = Mul ->
  corresponds D D' t t' -> corresponds D D' u u' ->
  wf_operand D t -> wf_operand D u -> wf_operand D' t' -> wf_operand D' u' ->
  holds D t x -> holds D u y ->
  binary D op t u x y = Some (s, m) -> sP s = Automatic -> throws_arithmetic (sE s) ->
  exists s', binary D' op t' u' x y = Some (s', m)
    /\ smin s' = smin s /\ smax s' = smax s
    /\ lo D (st s) = lo D' (st s') /\ hi D (st s) = hi D' (st s').
Proof. exact C45_lemma. Qed.
Print Assumptions C45_portable_partial.

(** a 32-bit type is int on LP64 and long on the 16-bit model *)
Example C45_nonvacuous :
  corresponds LP64 IP16 (ex_sr (-5) 100000 Int Automatic ex_ep) (ex_sr (-5) 100000 Long Automatic ex_ep)
  /\ wf_operand IP16 (ex_sr (-5) 100000 Long Automatic ex_ep)
  /\ binary LP64 Mul (ex_sr (-5) 100000 Int Automatic ex_ep) (ex_sr (-5) 100000 Int Automatic ex_ep) (-5) 99999
     = Some (mkSafe Long (-500000) 10000000000 Automatic ex_ep, ([], Ret (-499995)))
  /\ binary IP16 Mul (ex_sr (-5) 100000 Long Automatic ex_ep) (ex_sr (-5) 100000 Long Automatic ex_ep) (-5) 99999
     = Some (mkSafe LLong (-500000) 10000000000 Automatic ex_ep, ([], Ret (-499995))).
Proof. vm_compute. intuition congruence. Qed.

(** C47: native and automatic promotion (missing: cpp, for which it is false) *)
Theorem C47_commutative_partial : forall D op t u x y s m s' m', op = Add \/ op = Mul ->
  wf_operand D t -> wf_operand D u -> holds D t x -> holds D u y ->
  binary D op t u x y = Some (s, m) -> binary D op u t y x = Some (s', m') ->
  sP s = Native \/ sP s = Automatic -> throws_arithmetic (sE s) ->
  s = s' /\ ((exists v, returns m v /\ returns m' v) \/ (throws_arith m /\ throws_arith m')).
Proof. exact C47_lemma. Qed.
Print Assumptions C47_commutative_partial.

(** under cpp<8,8,16,16,16> int and long have the same rank: int + long is int,
    long + int is long *)
Theorem C47_commutative_refuted : exists D t u x y s m s' m',
  wf_operand D t /\ wf_operand D u /\ holds D t x /\ holds D u y
  /\ binary D Add t u x y = Some (s, m) /\ binary D Add u t y x = Some (s', m')
  /\ throws_arithmetic (sE s) /\ throws_arith m /\ returns m' (x + y).
Proof.
  exists LP64, (ex_safe Int (Cpp 8 8 16 16 16) ex_ep), (ex_safe Long (Cpp 8 8 16 16 16) ex_ep), 5, 3000000000.
  do 4 eexists. vm_compute.
  repeat split; try congruence. exists positive_overflow_error. split; [left; reflexivity|reflexivity].
Qed.
Print Assumptions C47_commutative_refuted.

Example C47_nonvacuous :
  binary LP64 Mul (ex_safe Int Native ex_ep) (ex_safe Long Native ex_ep) (-3) 5
  = Some (mkSafe Long (-9223372036854775808) 9223372036854775807 Native ex_ep, ([], Ret (-15)))
  /\ binary LP64 Mul (ex_safe Long Native ex_ep) (ex_safe Int Native ex_ep) 5 (-3)
  = Some (mkSafe Long (-9223372036854775808) 9223372036854775807 Native ex_ep, ([], Ret (-15))).
Proof. vm_compute. intuition congruence. Qed.

(** C48: default construction always reports; it throws if that handler throws,
    and does not compile if it traps *)
Theorem C48_uninitialized_reported : forall s,
  match default_ctor s with
  | Some m => fst m = [(act_uninitialized_value, uninitialized_value)]
              /\ (on_uninitialized_value (sE s) = HThrow -> snd m = Throw uninitialized_value)
  | None => on_uninitialized_value (sE s) = HTrap
  end.
Proof. exact C48_lemma. Qed.
Print Assumptions C48_uninitialized_reported.

Example C48_nonvacuous :
  default_ctor (safe LP64 Int Native ex_ep) = Some ([(act_uninitialized_value, uninitialized_value)], Ret tt)
  /\ default_ctor (safe LP64 Int Native strict_trap_policy) = None.
Proof. vm_compute. intuition congruence. Qed.

(** C51: an operation that calls no handler returns the same value under every
    other exception policy under which it compiles *)
Theorem C51_policy_independent : forall op F D t u x y s m s' m' v,
  eval_binop D op t u x y = Some (s, m) ->
  eval_binop D op (with_policy F t) (with_policy F u) x y = Some (s', m') ->
  returns m v -> returns m' v /\ OSafe s' = with_policy F (OSafe s).
Proof. exact C51_binop. Qed.
Print Assumptions C51_policy_independent.

Theorem C51_policy_independent_comparison : forall D c F t u x y m m' v,
  compare D c t u x y = Some m ->
  compare D c (with_policy F t) (with_policy F u) x y = Some m' ->
  returns m v -> returns m' v.
Proof. exact SafeTraceFacts.compare_with. Qed.
Print Assumptions C51_policy_independent_comparison.

Theorem C51_policy_independent_construction : forall F D s o x m m' v,
  construct D s o x = Some m ->
  construct D (mkSafe (st s) (smin s) (smax s) (sP s) F) o x = Some m' ->
  returns m v -> returns m' v.
Proof. exact C51_construct. Qed.
Print Assumptions C51_policy_independent_construction.

Example C51_nonvacuous :
  eval_binop LP64 (BA Sub) (ex_safe Int Native ex_ep) (ORaw Int) 5 7
  = Some (mkSafe Int (-2147483648) 2147483647 Native ex_ep, ([], Ret (-2)))
  /\ eval_binop LP64 (BA Sub) (with_policy ex_ignore (ex_safe Int Native ex_ep)) (ORaw Int) 5 7
  = Some (mkSafe Int (-2147483648) 2147483647 Native ex_ignore, ([], Ret (-2))).
Proof. vm_compute. intuition congruence. Qed.
