(** PropsFloat.v -- property C77: checked::cast from floating point types. *)
From Coq Require Import ZArith Bool Lia.
From Verif Require Import Base CType Spec CheckedInteger IntervalFacts FloatCast FloatSpec FloatFacts.
Local Open Scope Z_scope.

(** C77: checked::cast<R>(t) of a finite floating point number whose integer part
    is a value of R succeeds with that integer part. Missing: an error for every
    other t, which is false, see below. *)
Theorem C77_float_cast_partial : forall D R m e z,
  integer_part m e z -> in_type D R z -> float_cast D R (FNum m e) = Ok (CVal z).
Proof. exact C77_lemma. Qed.
Print Assumptions C77_float_cast_partial.

(** every finite number has an integer part *)
Theorem C77_integer_part : forall m e, exists z, integer_part m e z.
Proof. exact C77_part_lemma. Qed.
Print Assumptions C77_integer_part.

(** -7.75 to signed char *)
Example C77_example : integer_part (-31) (-2) (-7) /\ in_type LP64 SChar (-7).
Proof. vm_compute. intuition congruence. Qed.

(** 3e9, infinity and NaN to int: undefined behaviour instead of an error *)
Theorem C77_range_refuted : exists D R,
  integer_part 3000000000 0 3000000000 /\ ~ in_type D R 3000000000
  /\ float_cast D R (FNum 3000000000 0) = UB
  /\ float_cast D R (FInf false) = UB /\ float_cast D R FNan = UB.
Proof.
  exists LP64, Int. split; [vm_compute; intuition congruence|].
  split; [unfold in_type; vm_compute; intuition congruence|]. vm_compute. auto.
Qed.
Print Assumptions C77_range_refuted.

(** it never reports an error: no t gives an exceptional result *)
Theorem C77_never_reports : forall D R v er, float_cast D R v <> Ok (CErr er).
Proof. exact C77_no_error_lemma. Qed.
Print Assumptions C77_never_reports.

(** and a fraction is lost without an error: 1.5 gives 1 *)
Theorem C77_fraction_refuted : exists D R m e z,
  float_cast D R (FNum m e) = Ok (CVal z) /\ m <> z * 2 ^ (- e) /\ e < 0.
Proof. exists LP64, Int, 3, (-1), 1. vm_compute. intuition congruence. Qed.
Print Assumptions C77_fraction_refuted.

(** A safe integer cannot be constructed from a floating point value at all: the library
    converts the greatest finite number of the type to the integer type in a constant
    expression, which is undefined, so the program is rejected, whatever the value. *)
Theorem C77_construct : forall D R mn mx fmin m e z v,
  integer_part m e z -> 2 ^ 64 <= z -> construct_float D R mn mx fmin (FNum m e) v = None.
Proof. exact C77_construct_lemma. Qed.
Print Assumptions C77_construct.

(** float (24 bits, up to 2^128) and double (53 bits, up to 2^1024) *)
Example C77_construct_example :
  integer_part (2 ^ 24 - 1) 104 ((2 ^ 24 - 1) * 2 ^ 104) /\ 2 ^ 64 <= (2 ^ 24 - 1) * 2 ^ 104
  /\ integer_part (2 ^ 53 - 1) 971 ((2 ^ 53 - 1) * 2 ^ 971) /\ 2 ^ 64 <= (2 ^ 53 - 1) * 2 ^ 971
  /\ construct_float LP64 Int (-2147483648) 2147483647 (FNum 1 (-126)) (FNum (2 ^ 24 - 1) 104) (FNum 3 0) = None
  /\ construct_float LP64 Int (-2147483648) 2147483647 (FNum 1 (-126)) (FNum 100 0) (FNum 3 0) <> None.
Proof. vm_compute. intuition congruence. Qed.
