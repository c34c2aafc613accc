(** PropsArith.v -- properties C21-C27, C37-C39 and C49: the binary operators
    + - * / % << >> of safe types. [binary D op t u x y = Some (s, m)] reads: on
    data model D the expression "x op y" for operands of types t and u holding x
    and y compiles, has result type s, and its evaluation is m. *)
From Coq Require Import ZArith Bool List.
From Verif Require Import Base CType Spec CheckedInteger CheckedResultOps Interval ExceptionPolicy
  Promotion SafeBase SafeSpec PropsArithProofs.
Import ListNotations.
Local Open Scope Z_scope.

(** types used in the examples *)
Definition ex_ep : ep := default_exception_policy.
Definition ex_safe (T : ctype) : otype := OSafe (safe LP64 T Native ex_ep).
Definition ex_auto (T : ctype) : otype := OSafe (safe LP64 T Automatic ex_ep).
Definition ex_sr (mn mx : Z) (T : ctype) (P : pp) : otype := OSafe (mkSafe T mn mx P ex_ep).

(** C21 *)
Theorem C21_safe_add : forall D t u x y s m,
  wf_operand D t -> wf_operand D u -> holds D t x -> holds D u y ->
  binary D Add t u x y = Some (s, m) -> throws_arithmetic (sE s) ->
  wf_operand D (OSafe s) /\ exact_or_throws m (smin s) (smax s) (x + y).
Proof. exact C21_lemma. Qed.
Print Assumptions C21_safe_add.

(** C22 *)
Theorem C22_safe_subtract : forall D t u x y s m,
  wf_operand D t -> wf_operand D u -> holds D t x -> holds D u y ->
  binary D Sub t u x y = Some (s, m) -> throws_arithmetic (sE s) ->
  wf_operand D (OSafe s) /\ exact_or_throws m (smin s) (smax s) (x - y).
Proof. exact C22_lemma. Qed.
Print Assumptions C22_safe_subtract.

(** C23 *)
Theorem C23_safe_multiply : forall D t u x y s m,
  wf_operand D t -> wf_operand D u -> holds D t x -> holds D u y ->
  binary D Mul t u x y = Some (s, m) -> throws_arithmetic (sE s) ->
  wf_operand D (OSafe s) /\ exact_or_throws m (smin s) (smax s) (x * y).
Proof. exact C23_lemma. Qed.
Print Assumptions C23_safe_multiply.

(** safe<int>, a mixed expression, a range, a literal; values and errors *)
Example C21_nonvacuous :
  wf_operand LP64 (ex_safe Int) /\ holds LP64 (ex_safe Int) 2147483647
  /\ throws_arithmetic ex_ep
  /\ binary LP64 Add (ex_safe Int) (ORaw UInt) 5 7
     = Some (mkSafe UInt 0 4294967295 Native ex_ep, ([], Ret 12))
  /\ binary LP64 Add (ex_safe Int) (ex_safe Int) 2147483647 1
     = Some (mkSafe Int (-2147483648) 2147483647 Native ex_ep,
             ([(arithmetic_error, positive_overflow_error)], Throw positive_overflow_error))
  /\ binary LP64 Add (ex_sr 1 10 SChar Native) (OLit SChar 5 None None) 3 5
     = Some (mkSafe Int 6 15 Native ex_ep, ([], Ret 8))
  /\ binary LP64 Sub (ex_auto UInt) (ex_auto UInt) 1 2
     = Some (mkSafe Long (-4294967295) 4294967295 Automatic ex_ep, ([], Ret (-1)))
  /\ binary LP64 Sub (ex_safe UInt) (ex_safe UInt) 1 2
     = Some (mkSafe UInt 0 4294967295 Native ex_ep,
             ([(arithmetic_error, negative_overflow_error)], Throw negative_overflow_error))
  /\ binary LP64 Mul (ex_auto Int) (ex_auto Int) 65536 65536
     = Some (mkSafe Long (-4611686016279904256) 4611686018427387904 Automatic ex_ep, ([], Ret 4294967296))
  /\ binary LP64 Mul (ex_safe Int) (ORaw UInt) (-1) 7
     = Some (mkSafe UInt 0 4294967295 Native ex_ep, ([(arithmetic_error, domain_error)], Throw domain_error)).
Proof. vm_compute. intuition congruence. Qed.

(** C24: truncated division. Under native promotion the full property holds. *)
Theorem C24_safe_divide_native : forall D t u x y s m,
  wf_operand D t -> wf_operand D u -> holds D t x -> holds D u y ->
  binary D Div t u x y = Some (s, m) -> throws_arithmetic (sE s) -> sP s = Native ->
  wf_operand D (OSafe s)
  /\ (y = 0 -> throws_arith m)
  /\ (y <> 0 -> exact_or_throws m (smin s) (smax s) (Z.quot x y)).
Proof. exact C24_native. Qed.
Print Assumptions C24_safe_divide_native.

(** For the other policies it needs a result type that is large enough for the
    operands (missing: result types smaller than the operand types). *)
Theorem C24_safe_divide_partial : forall D t u x y s m,
  wf_operand D t -> wf_operand D u -> holds D t x -> holds D u y ->
  binary D Div t u x y = Some (s, m) -> throws_arithmetic (sE s) -> result_large_enough D s t u ->
  wf_operand D (OSafe s)
  /\ (y = 0 -> throws_arith m)
  /\ (y <> 0 -> exact_or_throws m (smin s) (smax s) (Z.quot x y)).
Proof. exact C24_lemma. Qed.
Print Assumptions C24_safe_divide_partial.

(** Without it the property is false: automatic promotion computes
    range<0,60000> / range<50000,60000> in unsigned char, 1000 / 50000 = 2, and
    1000 / 51200 divides by zero. *)
Theorem C24_safe_divide_refuted : exists D t u x y s m m0,
  wf_operand D t /\ wf_operand D u /\ holds D t x /\ holds D u y /\ y <> 0
  /\ binary D Div t u x y = Some (s, m) /\ throws_arithmetic (sE s)
  /\ ~ exact_or_throws m (smin s) (smax s) (Z.quot x y)
  /\ holds D u 51200 /\ binary D Div t u x 51200 = Some (s, m0) /\ m0 = ([], Undef).
Proof.
  exists LP64, (ex_sr 0 60000 UShort Automatic), (ex_sr 50000 60000 UShort Automatic), 1000, 50000.
  exists (mkSafe UChar 0 0 Automatic ex_ep), ([], Ret 2), ([], Undef).
  vm_compute. repeat split; try congruence. intros [[H _]|(e & _ & H)]; discriminate.
Qed.
Print Assumptions C24_safe_divide_refuted.

Example C24_nonvacuous :
  result_large_enough LP64 (mkSafe Int (-2147483648) 2147483647 Native ex_ep) (ex_safe Int) (ex_safe Int)
  /\ (exists r, binary LP64 Div (ex_safe Int) (ex_safe Int) (-7) 2 = Some (r, ([], Ret (-3))) /\ sP r = Native)
  /\ (exists r, binary LP64 Div (ex_safe Int) (ex_safe Int) 7 0
       = Some (r, ([(arithmetic_error, domain_error)], Throw domain_error)))
  /\ (exists r, binary LP64 Div (ex_safe Int) (ex_safe Int) (-2147483648) (-1)
       = Some (r, ([(arithmetic_error, positive_overflow_error)], Throw positive_overflow_error))).
Proof.
  split; [left; reflexivity|].
  split; [eexists; split; [vm_compute; reflexivity|reflexivity]|]. split; eexists; vm_compute; reflexivity.
Qed.

(** C25: remainder. The full statement is that of C24 with [remainder] for
    Z.quot. Proved: the value is exact and inside the built-in type of the result
    (missing: inside the declared range; dividend MIN with divisor MIN or -1;
    result types smaller than the operand types). *)
Theorem C25_safe_modulus_partial : forall D t u x y s m,
  wf_operand D t -> wf_operand D u -> holds D t x -> holds D u y ->
  binary D Mod t u x y = Some (s, m) -> throws_arithmetic (sE s) -> result_large_enough D s t u ->
  ~ (lo D (st s) < 0 /\ x = lo D (st s) /\ (y = lo D (st s) \/ y = -1)) ->
  (y = 0 -> throws_arith m)
  /\ (y <> 0 -> exact_or_throws m (lo D (st s)) (hi D (st s)) (remainder x y)).
Proof. exact C25_lemma. Qed.
Print Assumptions C25_safe_modulus_partial.

(** The declared range of safe<short> % safe<short> is [-1, 32767], -7 % 5 is
    -2; MIN % -1 executes the undefined built-in operation when the divisor's
    range excludes zero; MIN % MIN is MIN. *)
Theorem C25_safe_modulus_refuted : exists D t u x y s m,
  wf_operand D t /\ wf_operand D u /\ holds D t x /\ holds D u y /\ y <> 0
  /\ binary D Mod t u x y = Some (s, m) /\ throws_arithmetic (sE s) /\ sP s = Native
  /\ ~ exact_or_throws m (smin s) (smax s) (remainder x y).
Proof.
  exists LP64, (ex_safe Short), (ex_safe Short), (-7), 5.
  exists (mkSafe Int (-1) 32767 Native ex_ep), ([], Ret (-2)).
  vm_compute. repeat split; try congruence. intros [[_ [H _]]|(e & _ & H)]; congruence.
Qed.
Print Assumptions C25_safe_modulus_refuted.

Theorem C25_safe_modulus_undefined_refuted : exists D t u x y s,
  wf_operand D t /\ wf_operand D u /\ holds D t x /\ holds D u y /\ y <> 0
  /\ binary D Mod t u x y = Some (s, ([], Undef)) /\ throws_arithmetic (sE s) /\ sP s = Native.
Proof.
  exists LP64, (ex_safe Int), (ex_sr (-2) (-1) SChar Native), (-2147483648), (-1).
  exists (mkSafe Int 0 1 Native ex_ep). vm_compute. intuition congruence.
Qed.
Print Assumptions C25_safe_modulus_undefined_refuted.

Theorem C25_safe_modulus_min_refuted : exists D t u x s m,
  wf_operand D t /\ wf_operand D u /\ holds D t x /\ holds D u x /\ x <> 0
  /\ binary D Mod t u x x = Some (s, m) /\ throws_arithmetic (sE s) /\ sP s = Native
  /\ remainder x x = 0 /\ returns m x.
Proof.
  exists LP64, (ex_safe Int), (ex_safe Int), (-2147483648).
  exists (mkSafe Int (-2147483648) 2147483647 Native ex_ep), ([], Ret (-2147483648)).
  vm_compute. intuition congruence.
Qed.
Print Assumptions C25_safe_modulus_min_refuted.

Example C25_nonvacuous : exists r r',
  binary LP64 Mod (ex_safe Int) (ex_safe Int) (-7) 5 = Some (r, ([], Ret (-2)))
  /\ result_large_enough LP64 r (ex_safe Int) (ex_safe Int)
  /\ binary LP64 Mod (ex_safe Int) (ex_safe Int) 7 0
     = Some (r', ([(arithmetic_error, domain_error)], Throw domain_error)).
Proof. do 2 eexists. split; [vm_compute; reflexivity|]. split; [left; reflexivity|vm_compute; reflexivity]. Qed.

(** C26: left shift. Proved for non-negative operands of a type with a positive
    value. *)
Theorem C26_safe_left_shift_partial : forall D t u x y s m,
  wf_operand D t -> wf_operand D u -> holds D t x -> holds D u y ->
  binary D Shl t u x y = Some (s, m) -> throws_arithmetic (sE s) -> throws_shift (sE s) ->
  0 <= x -> 0 <= y -> 0 < lim_hi D t ->
  wf_operand D (OSafe s) /\ exact_or_throws_shift m (smin s) (smax s) (x * 2 ^ y).
Proof. exact C26_nonneg. Qed.
Print Assumptions C26_safe_left_shift_partial.

(** All operand values, when the type of the count includes a count that is too
    large; this is so for every safe<T> << safe<U>. *)
Theorem C26_safe_left_shift_wide_partial : forall D t u x y s m,
  wf_operand D t -> wf_operand D u -> holds D t x -> holds D u y ->
  binary D Shl t u x y = Some (s, m) -> throws_arithmetic (sE s) -> throws_shift (sE s) ->
  0 < lim_hi D t -> digits D (st s) <= lim_hi D u ->
  wf_operand D (OSafe s) /\ exact_or_throws_shift m (smin s) (smax s) (x * 2 ^ y)
  /\ (y < 0 -> throws_arith m \/ throws_impl m).
Proof. exact C26_wide. Qed.
Print Assumptions C26_safe_left_shift_wide_partial.

(** A non-negative count never gives a wrong value (missing: it may be undefined). *)
Theorem C26_safe_left_shift_never_wrong_partial : forall D t u x y s m,
  wf_operand D t -> wf_operand D u -> holds D t x -> holds D u y ->
  binary D Shl t u x y = Some (s, m) -> throws_arithmetic (sE s) -> throws_shift (sE s) ->
  0 <= y ->
  exact_or_throws_shift m (smin s) (smax s) (x * 2 ^ y) \/ m = ([], Undef).
Proof. exact C26_never_wrong. Qed.
Print Assumptions C26_safe_left_shift_never_wrong_partial.

(** Otherwise the built-in shift is executed unchecked: -1 << 1 with ranges
    [-4,4] and [0,2], and 2 << -1 with ranges [1,4] and [-2,2], are undefined,
    and 5 << -4294967295 with ranges [0,70000] and [-4294967295,2] is 10. *)
Theorem C26_safe_left_shift_refuted : exists D t u x y s,
  wf_operand D t /\ wf_operand D u /\ holds D t x /\ holds D u y /\ 0 <= y
  /\ binary D Shl t u x y = Some (s, ([], Undef)) /\ throws_arithmetic (sE s) /\ throws_shift (sE s).
Proof.
  exists LP64, (ex_sr (-4) 4 SChar Native), (ex_sr 0 2 UChar Native), (-1), 1.
  exists (mkSafe Int (-16) 16 Native ex_ep). vm_compute. intuition congruence.
Qed.
Print Assumptions C26_safe_left_shift_refuted.

Theorem C26_negative_count_refuted : exists D t u x y s m t' u' x' y' s',
  wf_operand D t /\ wf_operand D u /\ holds D t x /\ holds D u y /\ y < 0
  /\ binary D Shl t u x y = Some (s, m) /\ throws_arithmetic (sE s) /\ throws_shift (sE s)
  /\ returns m (2 * x)
  /\ wf_operand D t' /\ wf_operand D u' /\ holds D t' x' /\ holds D u' y' /\ y' < 0
  /\ binary D Shl t' u' x' y' = Some (s', ([], Undef)) /\ throws_arithmetic (sE s') /\ throws_shift (sE s').
Proof.
  exists LP64, (ex_sr 0 70000 UInt Native), (ex_sr (-4294967295) 2 Long Native), 5, (-4294967295).
  exists (mkSafe UInt 0 280000 Native ex_ep), ([], Ret 10).
  exists (ex_sr 1 4 SChar Native), (ex_sr (-2) 2 SChar Native), 2, (-1).
  exists (mkSafe Int 0 16 Native ex_ep). vm_compute. intuition congruence.
Qed.
Print Assumptions C26_negative_count_refuted.

Example C26_nonvacuous :
  throws_shift ex_ep
  /\ (exists r, binary LP64 Shl (ex_safe Int) (ex_safe Int) 5 3 = Some (r, ([], Ret 40))
      /\ digits LP64 (st r) <= lim_hi LP64 (ex_safe Int))
  /\ (exists r, binary LP64 Shl (ex_safe Int) (ex_safe Int) 5 (-3)
       = Some (r, ([(implementation_defined_behavior, negative_shift)], Throw negative_shift)))
  /\ (exists r, binary LP64 Shl (ex_safe Int) (ex_safe Int) 5 30
       = Some (r, ([(implementation_defined_behavior, shift_too_large)], Throw shift_too_large)))
  /\ (exists r, binary LP64 Shl (ex_sr 0 4 UChar Native) (ex_sr 0 2 UChar Native) 4 2 = Some (r, ([], Ret 16))
      /\ smin r = 0 /\ smax r = 16).
Proof.
  split; [reflexivity|]. split; [eexists; split; [vm_compute; reflexivity|vm_compute; congruence]|].
  split; [eexists; vm_compute; reflexivity|]. split; [eexists; vm_compute; reflexivity|].
  eexists; split; [vm_compute; reflexivity|]. split; reflexivity.
Qed.

(** C27: right shift. Proved for signed result types, and for unsigned ones when
    the count type has no negative values and the count is not the number of
    bits (missing: the other cases with an unsigned result type). *)
Theorem C27_safe_right_shift_partial : forall D t u x y s m,
  wf_operand D t -> wf_operand D u -> holds D t x -> holds D u y ->
  binary D Shr t u x y = Some (s, m) -> throws_arithmetic (sE s) -> throws_shift (sE s) ->
  csigned D (st s) = true \/ (0 <= lim_lo D u /\ y <> digits D (st s)) ->
  wf_operand D (OSafe s) /\ exact_or_throws_shift m (smin s) (smax s) (x / 2 ^ y)
  /\ (x < 0 \/ y < 0 -> throws_arith m \/ throws_impl m).
Proof. exact C27_lemma. Qed.
Print Assumptions C27_safe_right_shift_partial.

(** The value is exact for every count type that includes too large a count
    (missing: inside the declared range). *)
Theorem C27_safe_right_shift_value_partial : forall D t u x y s m,
  wf_operand D t -> wf_operand D u -> holds D t x -> holds D u y ->
  binary D Shr t u x y = Some (s, m) -> throws_arithmetic (sE s) -> throws_shift (sE s) ->
  digits D (st s) < lim_hi D u -> y <> digits D (st s) ->
  exact_or_throws_shift m (lo D (st s)) (hi D (st s)) (x / 2 ^ y)
  /\ (x < 0 \/ y < 0 -> throws_arith m \/ throws_impl m).
Proof. exact C27_value. Qed.
Print Assumptions C27_safe_right_shift_value_partial.

(** safe<unsigned>(5) >> 1 is 2 in a type whose declared range is [0, 0]. *)
Theorem C27_safe_right_shift_refuted : exists D t u x y s m,
  wf_operand D t /\ wf_operand D u /\ holds D t x /\ holds D u y /\ 0 <= x /\ 0 <= y
  /\ binary D Shr t u x y = Some (s, m) /\ throws_arithmetic (sE s) /\ throws_shift (sE s)
  /\ returns m (x / 2 ^ y) /\ ~ smin s <= x / 2 ^ y <= smax s.
Proof.
  exists LP64, (ex_safe UInt), (ORaw Int), 5, 1.
  exists (mkSafe UInt 0 0 Native ex_ep), ([], Ret 2). vm_compute. intuition congruence.
Qed.
Print Assumptions C27_safe_right_shift_refuted.

(** safe<unsigned>(5) >> -1 with the count in [-2, 2], and safe<unsigned>(5) >>
    safe<unsigned>(32), are undefined. *)
Theorem C27_safe_right_shift_undefined_refuted : exists D t u x y s u' y' s',
  wf_operand D t /\ wf_operand D u /\ wf_operand D u' /\ holds D t x /\ holds D u y /\ holds D u' y'
  /\ y < 0 /\ 0 <= y'
  /\ binary D Shr t u x y = Some (s, ([], Undef)) /\ throws_arithmetic (sE s) /\ throws_shift (sE s)
  /\ binary D Shr t u' x y' = Some (s', ([], Undef)) /\ throws_arithmetic (sE s') /\ throws_shift (sE s').
Proof.
  exists LP64, (ex_safe UInt), (ex_sr (-2) 2 SChar Native), 5, (-1).
  exists (mkSafe UInt 0 1073741823 Native ex_ep).
  exists (ex_safe UInt), 32, (mkSafe UInt 0 4294967295 Native ex_ep).
  vm_compute. intuition congruence.
Qed.
Print Assumptions C27_safe_right_shift_undefined_refuted.

Example C27_nonvacuous :
  (exists r, binary LP64 Shr (ex_safe Int) (ex_safe Int) 40 3 = Some (r, ([], Ret 5)) /\ csigned LP64 (st r) = true)
  /\ (exists r, binary LP64 Shr (ex_safe Int) (ex_safe Int) (-40) 3
       = Some (r, ([(implementation_defined_behavior, negative_value_shift)], Throw negative_value_shift)))
  /\ (exists r, binary LP64 Shr (ex_safe UInt) (ex_sr 0 10 UChar Native) 4294967295 10 = Some (r, ([], Ret 4194303))
      /\ 0 <= lim_lo LP64 (ex_sr 0 10 UChar Native)).
Proof.
  split; [eexists; split; [vm_compute; reflexivity|reflexivity]|]. split; [eexists; vm_compute; reflexivity|].
  eexists; split; [vm_compute; reflexivity|vm_compute; congruence].
Qed.

(** C37: [oi_checked] is the library's compile-time decision to check; any
    policies *)
Theorem C37_elided_add_sub_mul : forall op D t u oi x y, op = Add \/ op = Sub \/ op = Mul ->
  wf_operand D t -> wf_operand D u -> holds D t x -> holds D u y ->
  op_static D op t u = Some oi -> oi_checked oi = false ->
  smin (oi_type oi) <= exact op x y <= smax (oi_type oi)
  /\ in_type D (oi_R oi) (exact op x y)
  /\ exists m, binary D op t u x y = Some (oi_type oi, m) /\ returns m (exact op x y).
Proof. exact C37_arith. Qed.
Print Assumptions C37_elided_add_sub_mul.

Theorem C37_elided_div : forall D t u oi x y,
  wf_operand D t -> wf_operand D u -> holds D t x -> holds D u y ->
  op_static D Div t u = Some oi -> oi_checked oi = false -> sP (oi_type oi) = Native ->
  y <> 0 /\ smin (oi_type oi) <= Z.quot x y <= smax (oi_type oi)
  /\ in_type D (oi_R oi) (Z.quot x y)
  /\ exists m, binary D Div t u x y = Some (oi_type oi, m) /\ returns m (Z.quot x y).
Proof. exact C37_div_lemma. Qed.
Print Assumptions C37_elided_div.

Example C37_nonvacuous :
  (exists oi, op_static LP64 Add (ex_sr 0 100 SChar Native) (ex_sr 0 100 SChar Native) = Some oi /\ oi_checked oi = false)
  /\ (exists oi, op_static LP64 Div (ex_safe Int) (ex_sr 1 100 SChar Native) = Some oi
      /\ oi_checked oi = false /\ sP (oi_type oi) = Native)
  /\ (exists oi, op_static LP64 Add (ex_safe Int) (ex_safe Int) = Some oi /\ oi_checked oi = true).
Proof.
  split; [|split]; eexists; split; try (vm_compute; reflexivity). split; reflexivity.
Qed.

(** C38: under automatic promotion + - * never throw if the results fit the
    widest type and (missing otherwise) the operands fit the result type *)
Theorem C38_automatic_partial : forall op D t u x y s m, op = Add \/ op = Sub \/ op = Mul ->
  wf_operand D t -> wf_operand D u -> holds D t x -> holds D u y ->
  binary D op t u x y = Some (s, m) -> throws_arithmetic (sE s) -> sP s = Automatic ->
  in_type D (widest D op t u) x -> in_type D (widest D op t u) y ->
  in_type D (widest D op t u) (exact op x y) ->
  in_type D (st s) x -> in_type D (st s) y ->
  returns m (exact op x y).
Proof. exact C38_lemma. Qed.
Print Assumptions C38_automatic_partial.

(** so a sum of ranges that include 0 never throws, nor a product of ranges
    that include 1 *)
Theorem C38_automatic_add_partial : forall D t u x y s m,
  wf_operand D t -> wf_operand D u -> holds D t x -> holds D u y ->
  binary D Add t u x y = Some (s, m) -> throws_arithmetic (sE s) -> sP s = Automatic ->
  holds D t 0 -> holds D u 0 ->
  (forall a b, holds D t a -> holds D u b -> in_type D (widest D Add t u) (a + b)) ->
  returns m (x + y).
Proof. exact C38_add_lemma. Qed.
Print Assumptions C38_automatic_add_partial.

Theorem C38_automatic_mul_partial : forall D t u x y s m,
  wf_operand D t -> wf_operand D u -> holds D t x -> holds D u y ->
  binary D Mul t u x y = Some (s, m) -> throws_arithmetic (sE s) -> sP s = Automatic ->
  holds D t 1 -> holds D u 1 ->
  (forall a b, holds D t a -> holds D u b -> in_type D (widest D Mul t u) (a * b)) ->
  returns m (x * y).
Proof. exact C38_mul_lemma. Qed.
Print Assumptions C38_automatic_mul_partial.

(** range<100,200> - range<100,200> is computed in signed char: 200 - 150 throws *)
Theorem C38_automatic_refuted : exists D t u x y s m,
  wf_operand D t /\ wf_operand D u /\ holds D t x /\ holds D u y
  /\ binary D Sub t u x y = Some (s, m) /\ throws_arithmetic (sE s) /\ sP s = Automatic
  /\ (forall a b, holds D t a -> holds D u b -> in_type D (widest D Sub t u) (a - b))
  /\ throws_arith m.
Proof.
  exists LP64, (ex_sr 100 200 Short Automatic), (ex_sr 100 200 Short Automatic), 200, 150.
  exists (mkSafe SChar (-128) 127 Automatic ex_ep), ([(arithmetic_error, positive_overflow_error)], Throw positive_overflow_error).
  split; [vm_compute; intuition congruence|]. split; [vm_compute; intuition congruence|].
  split; [vm_compute; intuition congruence|]. split; [vm_compute; intuition congruence|].
  split; [vm_compute; reflexivity|]. split; [reflexivity|]. split; [reflexivity|]. split.
  - intros a b [H1 H2] [H3 H4]. exact (sub_100_200 a b H1 H2 H3 H4).
  - eexists. split; [left; reflexivity|reflexivity].
Qed.
Print Assumptions C38_automatic_refuted.

Example C38_nonvacuous :
  holds LP64 (ex_sr (-100) 100 SChar Automatic) 0
  /\ binary LP64 Add (ex_sr (-100) 100 SChar Automatic) (ex_sr 0 200 UChar Automatic) 100 200
     = Some (mkSafe Short (-100) 300 Automatic ex_ep, ([], Ret 300))
  /\ binary LP64 Mul (ex_sr (-100) 100 SChar Automatic) (ex_sr 0 200 UChar Automatic) (-100) 200
     = Some (mkSafe Short (-20000) 20000 Automatic ex_ep, ([], Ret (-20000))).
Proof. vm_compute. intuition congruence. Qed.

(** C39: native promotion *)
Theorem C39_native_as_built_in : forall op D t u x y s m v, op = Add \/ op = Sub \/ op = Mul \/ op = Div ->
  wf_operand D t -> wf_operand D u -> holds D t x -> holds D u y ->
  binary D op t u x y = Some (s, m) -> throws_arithmetic (sE s) -> sP s = Native ->
  st s = built_in_type D op (base_ty t) (base_ty u)
  /\ (returns m v -> built_in D op (base_ty t) (base_ty u) x y = Ok v).
Proof. exact C39_lemma. Qed.
Print Assumptions C39_native_as_built_in.

Example C39_nonvacuous :
  binary LP64 Add (ex_safe Short) (ex_safe UInt) 5 7 = Some (mkSafe UInt 0 4294967295 Native ex_ep, ([], Ret 12))
  /\ built_in LP64 Add Short UInt 5 7 = Ok 12
  /\ built_in_type LP64 Add Short UInt = UInt
  /\ built_in LP64 Add Int Int 2147483647 1 = UB.
Proof. vm_compute. intuition congruence. Qed.

(** C49: no spurious failure; this holds for all promotion policies *)
Theorem C49_no_spurious_failure : forall op D t u x y s m, op = Add \/ op = Sub \/ op = Mul ->
  wf_operand D t -> wf_operand D u -> holds D t x -> holds D u y ->
  binary D op t u x y = Some (s, m) -> throws_arithmetic (sE s) ->
  in_type D (st s) x -> in_type D (st s) y -> in_type D (st s) (exact op x y) ->
  returns m (exact op x y).
Proof. exact C49_lemma. Qed.
Print Assumptions C49_no_spurious_failure.

Example C49_nonvacuous :
  binary LP64 Mul (ex_safe Int) (ex_safe Int) 46340 46340
    = Some (mkSafe Int (-2147483648) 2147483647 Native ex_ep, ([], Ret 2147395600))
  /\ in_type LP64 Int 2147395600.
Proof. vm_compute. intuition congruence. Qed.
