(** PropsChecked.v -- properties C01-C12: the checked operations on built-in
    integers, safe_compare, and the stored types of ranges. *)
From Coq Require Import ZArith Bool List.
From Verif Require Import Base CType Spec Utility SafeCompare CheckedInteger
  ExceptionPolicy Promotion SafeBase UtilityFacts CheckedIntegerFacts PropsCheckedProofs.
Local Open Scope Z_scope.

(** C01: checked::add<R>(t,u) *)
Theorem C01_checked_add : forall D R t u,
  in_type D R t -> in_type D R u -> exact_or_overflow D R (t + u) (add D R t u).
Proof. exact add_spec. Qed.
Print Assumptions C01_checked_add.

Example C01_nonvacuous :
  in_type LP64 Int 2147483647 /\ in_type LP64 Int 1
  /\ add LP64 Int 2147483647 1 = Ok (CErr positive_overflow_error)
  /\ add LP64 Int 2147483647 (-1) = Ok (CVal 2147483646).
Proof. vm_compute. intuition congruence. Qed.

(** C02: checked::subtract<R>(t,u) *)
Theorem C02_checked_subtract : forall D R t u,
  in_type D R t -> in_type D R u -> exact_or_overflow D R (t - u) (subtract D R t u).
Proof. exact subtract_spec. Qed.
Print Assumptions C02_checked_subtract.

Example C02_nonvacuous :
  in_type LLP64 ULong 3 /\ in_type LLP64 ULong 5
  /\ subtract LLP64 ULong 3 5 = Ok (CErr negative_overflow_error)
  /\ subtract LLP64 ULong 5 3 = Ok (CVal 2).
Proof. vm_compute. intuition congruence. Qed.

(** C03: checked::multiply<R>(t,u) *)
Theorem C03_checked_multiply : forall D R t u,
  in_type D R t -> in_type D R u -> exact_or_overflow D R (t * u) (multiply D R t u).
Proof. exact multiply_spec. Qed.
Print Assumptions C03_checked_multiply.

Example C03_nonvacuous :
  in_type LP64 Long (-9223372036854775808)
  /\ multiply LP64 Long (-9223372036854775808) (-1) = Ok (CErr positive_overflow_error)
  /\ multiply LP64 Long (-3037000499) 3037000499 = Ok (CVal (-9223372030926249001))
  /\ multiply LP64 UShort 65535 65535 = Ok (CErr positive_overflow_error).
Proof. vm_compute. intuition congruence. Qed.

(** C04: checked::divide<R>(t,u) *)
Theorem C04_checked_divide : forall D R t u,
  in_type D R t -> in_type D R u ->
  (u = 0 -> divide D R t u = Ok (CErr domain_error))
  /\ (u <> 0 -> exact_or_overflow D R (Z.quot t u) (divide D R t u)).
Proof. exact divide_spec. Qed.
Print Assumptions C04_checked_divide.

(** ... and the one unrepresentable quotient is minimum / -1 of a signed type *)
Theorem C04_unrepresentable_quotient : forall D R t u,
  in_type D R t -> in_type D R u -> u <> 0 ->
  (in_type D R (Z.quot t u) <-> ~ (lo D R < 0 /\ t = lo D R /\ u = -1)).
Proof. exact C04_quot_iff. Qed.
Print Assumptions C04_unrepresentable_quotient.

Example C04_nonvacuous :
  in_type LP64 Int (-2147483648) /\ in_type LP64 Int (-1)
  /\ divide LP64 Int (-2147483648) (-1) = Ok (CErr positive_overflow_error)
  /\ divide LP64 Int (-7) 2 = Ok (CVal (-3))
  /\ divide LP64 SChar (-128) (-1) = Ok (CErr positive_overflow_error).
Proof. vm_compute. intuition congruence. Qed.

(** C05: checked::modulus<R>(t,u). The full statement is
      forall D R t u, in_type D R t -> in_type D R u ->
        (u = 0 -> modulus D R t u = Ok (CErr domain_error))
        /\ (u <> 0 -> modulus D R t u = Ok (CVal (remainder t u))).
    It is false for minimum % minimum of every signed type. *)
Theorem C05_checked_modulus_refuted :
  exists D R t u, in_type D R t /\ in_type D R u /\ u <> 0
    /\ remainder t u = 0 /\ modulus D R t u = Ok (CVal t) /\ t <> 0.
Proof. exact C05_witness. Qed.
Print Assumptions C05_checked_modulus_refuted.

Theorem C05_checked_modulus_partial : forall D R t u,
  in_type D R t -> in_type D R u ->
  (u = 0 -> modulus D R t u = Ok (CErr domain_error))
  /\ (u <> 0 -> ~ (lo D R < 0 /\ t = lo D R /\ u = lo D R) ->
      modulus D R t u = Ok (CVal (remainder t u)))
  /\ (lo D R < 0 -> t = lo D R -> u = lo D R -> modulus D R t u = Ok (CVal (lo D R))).
Proof. exact C05_full. Qed.
Print Assumptions C05_checked_modulus_partial.

Example C05_nonvacuous :
  in_type LP64 Int (-7) /\ modulus LP64 Int (-7) (-3) = Ok (CVal (-1))
  /\ modulus LP64 Int (-2147483648) (-1) = Ok (CVal 0)
  /\ modulus LP64 Int 7 0 = Ok (CErr domain_error).
Proof. vm_compute. intuition congruence. Qed.

(** C06: checked::left_shift<R>(t,u) *)
Theorem C06_checked_left_shift : forall D R t u,
  in_type D R t -> in_type D R u ->
  exists c, left_shift D R t u = Ok c
    /\ (forall v, c = CVal v -> 0 <= u /\ v = t * 2 ^ u)
    /\ (u < 0 -> c = CErr negative_shift)
    /\ (t < 0 -> u > 0 -> c = CErr negative_shift \/ c = CErr shift_too_large)
    /\ (t > 0 -> u > 0 -> in_type D R (t * 2 ^ u) -> c = CVal (t * 2 ^ u))
    /\ (t > 0 -> u > 0 -> ~ in_type D R (t * 2 ^ u) -> c = CErr shift_too_large).
Proof. exact C06_full. Qed.
Print Assumptions C06_checked_left_shift.

Example C06_nonvacuous :
  in_type LP64 Int 1 /\ left_shift LP64 Int 1 30 = Ok (CVal 1073741824)
  /\ left_shift LP64 Int 1 31 = Ok (CErr shift_too_large)
  /\ left_shift LP64 Int (-1) 1 = Ok (CErr negative_shift)
  /\ left_shift LP64 Int 5 (-1) = Ok (CErr negative_shift).
Proof. vm_compute. intuition congruence. Qed.

(** C07: checked::right_shift<R>(t,u). The full statement says that no operands
    lead to undefined behaviour; it is false when the count equals the width of
    an unsigned type that is not promoted to a wider one. *)
Theorem C07_checked_right_shift_refuted :
  exists D R t u, in_type D R t /\ in_type D R u /\ right_shift D R t u = UB.
Proof. exact C07_witness. Qed.
Print Assumptions C07_checked_right_shift_refuted.

Theorem C07_checked_right_shift_partial : forall D R t u,
  in_type D R t -> in_type D R u ->
  ~ (lo D R = 0 /\ width D (promote D R) = width D R /\ u = width D R) ->
  exists c, right_shift D R t u = Ok c
    /\ (forall v, c = CVal v -> 0 <= u /\ v = t / 2 ^ u)
    /\ (u < 0 -> c = CErr negative_shift)
    /\ (0 <= u <= digits D R -> t < 0 -> c = CErr negative_value_shift)
    /\ (u > digits D R -> c = CErr shift_too_large)
    /\ (0 <= u <= digits D R -> 0 <= t -> c = CVal (t / 2 ^ u)).
Proof. exact C07_full. Qed.
Print Assumptions C07_checked_right_shift_partial.

(** ... and in the excluded case the library does execute undefined behaviour *)
Theorem C07_right_shift_ub_exact : forall D R t u,
  in_type D R t -> in_type D R u ->
  (right_shift D R t u = UB <-> lo D R = 0 /\ width D (promote D R) = width D R /\ u = width D R).
Proof. exact C07_ub_iff. Qed.
Print Assumptions C07_right_shift_ub_exact.

Example C07_nonvacuous :
  in_type LP64 Int 100 /\ right_shift LP64 Int 100 3 = Ok (CVal 12)
  /\ right_shift LP64 UChar 100 8 = Ok (CVal 0)
  /\ right_shift LP64 Int (-1) 1 = Ok (CErr negative_value_shift)
  /\ right_shift LP64 UInt 5 32 = UB.
Proof. vm_compute. intuition congruence. Qed.

(** C08: bitwise operations. The complement of an unsigned value is max - t,
    of a signed one -t-1. *)
Theorem C08_checked_bitwise : forall D R t u,
  in_type D R t -> in_type D R u ->
  bitwise_or D R t u = Ok (CVal (Z.lor t u))
  /\ bitwise_and D R t u = Ok (CVal (Z.land t u))
  /\ bitwise_xor D R t u = Ok (CVal (Z.lxor t u))
  /\ bitwise_not D R t = Ok (CVal (if lo D R =? 0 then hi D R - t else - t - 1))
  /\ in_type D R (Z.lor t u) /\ in_type D R (Z.land t u) /\ in_type D R (Z.lxor t u).
Proof. exact C08_full. Qed.
Print Assumptions C08_checked_bitwise.

Example C08_nonvacuous :
  in_type LP64 SChar (-128) /\ bitwise_or LP64 SChar (-128) 5 = Ok (CVal (-123))
  /\ bitwise_not LP64 UChar 5 = Ok (CVal 250).
Proof. vm_compute. intuition congruence. Qed.

(** C09: checked::cast<R>(t) for t of type T *)
Theorem C09_checked_cast : forall D R T t, in_type D T t ->
  (in_type D R t -> cast D R T t = CVal t)
  /\ (t > hi D R -> cast D R T t = CErr positive_overflow_error)
  /\ (t < lo D R -> cast D R T t =
        CErr (if lo D R =? 0 then domain_error else negative_overflow_error)).
Proof. exact C09_full. Qed.
Print Assumptions C09_checked_cast.

Example C09_nonvacuous :
  in_type LP64 Long (-1) /\ cast LP64 ULong Long (-1) = CErr domain_error
  /\ cast LP64 SChar Int 128 = CErr positive_overflow_error
  /\ cast LP64 SChar Int (-128) = CVal (-128)
  /\ cast LP64 Int ULong 4294967296 = CErr positive_overflow_error.
Proof. vm_compute. intuition congruence. Qed.

(** C10: checked::minus<R>(t) *)
Theorem C10_checked_minus : forall D R t,
  in_type D R t -> exact_or_overflow D R (- t) (minus D R t).
Proof. exact minus_spec. Qed.
Print Assumptions C10_checked_minus.

Example C10_nonvacuous :
  in_type LP64 Int (-2147483648)
  /\ minus LP64 Int (-2147483648) = Ok (CErr positive_overflow_error)
  /\ minus LP64 UInt 5 = Ok (CErr negative_overflow_error)
  /\ minus LP64 Int 5 = Ok (CVal (-5)).
Proof. vm_compute. intuition congruence. Qed.

(** C11: safe_compare *)
Theorem C11_safe_compare : forall D T U t u,
  in_type D T t -> in_type D U u ->
  (less_than D T U t u = true <-> t < u)
  /\ (greater_than D T U t u = true <-> t > u)
  /\ (less_than_equal D T U t u = true <-> t <= u)
  /\ (greater_than_equal D T U t u = true <-> t >= u)
  /\ (equal D T U t u = true <-> t = u)
  /\ (not_equal D T U t u = true <-> t <> u).
Proof. exact C11_full. Qed.
Print Assumptions C11_safe_compare.

Example C11_nonvacuous :
  in_type LP64 Int (-1) /\ in_type LP64 UInt 4294967295
  /\ less_than LP64 Int UInt (-1) 4294967295 = true
  /\ equal LP64 Int UInt (-1) 4294967295 = false
  /\ c_eq LP64 Int UInt (-1) 4294967295 = true.
Proof. vm_compute. intuition congruence. Qed.

(** C12: safe_signed_range<mn,mx> and safe_unsigned_range<mn,mx> *)
Theorem C12_signed_range_narrowest : forall D mn mx P E,
  - 2 ^ 63 <= mn <= mx -> mx <= 2 ^ 63 - 1 ->
  exists s, safe_signed_range D mn mx P E = Some s
    /\ smin s = mn /\ smax s = mx /\ lo D (st s) < 0
    /\ in_type D (st s) mn /\ in_type D (st s) mx
    /\ (forall T, lo D T < 0 -> in_type D T mn -> in_type D T mx ->
        width D (st s) <= width D T).
Proof. exact C12_signed. Qed.
Print Assumptions C12_signed_range_narrowest.

Theorem C12_unsigned_range_narrowest : forall D mn mx P E,
  0 <= mn <= mx -> mx <= 2 ^ 64 - 1 ->
  exists s, safe_unsigned_range D mn mx P E = Some s
    /\ smin s = mn /\ smax s = mx /\ lo D (st s) = 0
    /\ in_type D (st s) mn /\ in_type D (st s) mx
    /\ (forall T, lo D T = 0 -> in_type D T mx -> width D (st s) <= width D T).
Proof. exact C12_unsigned. Qed.
Print Assumptions C12_unsigned_range_narrowest.

Example C12_nonvacuous :
  safe_signed_range LP64 (-129) 127 Native strict_exception_policy
    = Some (mkSafe Short (-129) 127 Native strict_exception_policy)
  /\ safe_unsigned_range ILP32 0 4294967296 Native strict_exception_policy
    = Some (mkSafe ULLong 0 4294967296 Native strict_exception_policy).
Proof. vm_compute. auto. Qed.
