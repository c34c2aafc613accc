(** PropsCheckedShift.v -- properties C67 (shifts, negation and bitwise operators of
    checked results), C68 (overflow is reported on the right side) and C69
    (remainder of checked results). *)
From Coq Require Import ZArith Bool List Lia.
From Verif Require Import Base CType Spec CheckedInteger CheckedResultOps CheckedShiftSpec CheckedShiftFacts.
Local Open Scope Z_scope.

(** C67: a << b of two values reports x shifted by y *)
Theorem C67_shl_values : forall D R t u, in_type D R t -> in_type D R u ->
  exists c, cr_shl D R (CVal t) (CVal u) = Ok c /\ cr_ok D R c /\ reports D R c (shifted t u).
Proof. exact shl_values. Qed.
Print Assumptions C67_shl_values.

(** ... and a value obtained from any operands is the exact one, but for an unsigned
    type shifted by "less than 0" *)
Theorem C67_shl : forall D R a b, cr_ok D R a -> cr_ok D R b ->
  exists c, cr_shl D R a b = Ok c /\ cr_ok D R c
    /\ forall x y, stands_for D R a x -> stands_for D R b y ->
         side D R c (shifted x y)
         /\ forall v, c = CVal v -> v = shifted x y \/ (v = 0 /\ lo D R = 0 /\ b = CErr negative_overflow_error).
Proof. exact shl_sound. Qed.
Print Assumptions C67_shl.

(** the same for a >> b, except for the shift by the width of an unsigned type ... *)
Theorem C67_shr_partial : forall D R a b, cr_ok D R a -> cr_ok D R b ->
  ~ (exists t, 0 < t /\ a = CVal t /\ lo D R = 0 /\ width D (promote D R) = width D R /\ b = CVal (width D R)) ->
  exists c, cr_shr D R a b = Ok c /\ cr_ok D R c
    /\ forall x y, stands_for D R a x -> stands_for D R b y ->
         side D R c (shifted x (- y)) /\ forall v, c = CVal v -> v = shifted x (- y).
Proof. exact shr_sound. Qed.
Print Assumptions C67_shr_partial.

Theorem C67_shr_by_a_count : forall D R t u, in_type D R t -> in_type D R u -> 0 <= u ->
  ~ (0 < t /\ lo D R = 0 /\ width D (promote D R) = width D R /\ u = width D R) ->
  cr_shr D R (CVal t) (CVal u) = Ok (CVal (Z.quot t (2 ^ u))).
Proof. exact shr_nonneg_count. Qed.
Print Assumptions C67_shr_by_a_count.

Theorem C67_shr_by_a_negative_count : forall D R t u, in_type D R t -> in_type D R u -> u < 0 ->
  exists c, cr_shr D R (CVal t) (CVal u) = Ok c /\ cr_ok D R c /\ reports D R c (t * 2 ^ - u).
Proof. exact shr_neg_count. Qed.
Print Assumptions C67_shr_by_a_negative_count.

(** ... which is undefined behaviour *)
Theorem C67_shr_refuted : forall D R t u, in_type D R t -> in_type D R u ->
  0 < t /\ lo D R = 0 /\ width D (promote D R) = width D R /\ u = width D R ->
  cr_shr D R (CVal t) (CVal u) = UB.
Proof. exact shr_by_width. Qed.
Print Assumptions C67_shr_refuted.

Theorem C67_unary_minus : forall D R a, cr_ok D R a ->
  exists c, cr_neg D R a = Ok c /\ cr_ok D R c
    /\ forall x, stands_for D R a x -> side D R c (- x) /\ forall v, c = CVal v -> v = - x.
Proof. exact neg_sound. Qed.
Print Assumptions C67_unary_minus.

Theorem C67_bitwise : forall D R a b, cr_ok D R a -> cr_ok D R b ->
  (forall x y, a = CVal x -> b = CVal y ->
     cr_or D R a b = Ok (CVal (Z.lor x y)) /\ cr_and D R a b = Ok (CVal (Z.land x y))
     /\ cr_xor D R a b = Ok (CVal (Z.lxor x y)))
  /\ (~ (exists x y, a = CVal x /\ b = CVal y) ->
     cr_or D R a b = Ok (CErr range_error) /\ cr_and D R a b = Ok (CErr range_error)
     /\ cr_xor D R a b = Ok (CErr range_error)).
Proof. exact bitwise_sound. Qed.
Print Assumptions C67_bitwise.

Example C67_nonvacuous :
  cr_shl LP64 SChar (CVal (-5)) (CVal 3) = Ok (CVal (-40))
  /\ cr_shl LP64 SChar (CVal (-40)) (CVal (-3)) = Ok (CVal (-5))
  /\ cr_shl LP64 SChar (CVal 5) (CVal 5) = Ok (CErr positive_overflow_error)
  /\ cr_shl LP64 SChar (CVal (-64)) (CVal 1) = Ok (CErr negative_overflow_error)
  /\ cr_shl LP64 SChar (CVal 5) (CVal (-128)) = Ok (CVal 0)
  /\ cr_shr LP64 SChar (CVal (-7)) (CVal 1) = Ok (CVal (-3))
  /\ cr_shr LP64 SChar (CVal 7) (CVal (-3)) = Ok (CVal 56)
  /\ cr_shr LP64 UInt (CVal 7) (CVal 32) = UB
  /\ cr_shr LP64 UChar (CVal 7) (CVal 8) = Ok (CVal 0)
  /\ cr_neg LP64 SChar (CVal (-128)) = Ok (CErr positive_overflow_error)
  /\ cr_xor LP64 Int (CVal (-1)) (CVal 6) = Ok (CVal (-7)).
Proof. vm_compute. intuition congruence. Qed.

(** C68: no arithmetic operator reports an overflow on the wrong side *)
Theorem C68_overflow_side : forall D R a b c x y, cr_ok D R a -> cr_ok D R b ->
  stands_for D R a x -> stands_for D R b y ->
  (cr_add D R a b = Ok c -> side D R c (x + y))
  /\ (cr_sub D R a b = Ok c -> side D R c (x - y))
  /\ (cr_mul D R a b = Ok c -> side D R c (x * y))
  /\ (cr_div D R a b = Ok c -> y <> 0 -> side D R c (Z.quot x y)).
Proof.
  exact (fun D R a b c x y Ha Hb Hx Hy =>
    conj (fun E => add_side D R a b c x y Ha Hb E Hx Hy)
   (conj (fun E => sub_side D R a b c x y Ha Hb E Hx Hy)
   (conj (fun E => mul_side D R a b c x y Ha Hb E Hx Hy)
         (fun E => div_side D R a b c x y Ha Hb E Hx Hy)))).
Qed.
Print Assumptions C68_overflow_side.

(** ... and of two values the result is exact or the overflow real *)
Theorem C68_values : forall D R x y, in_type D R x -> in_type D R y ->
  (exists c, cr_add D R (CVal x) (CVal y) = Ok c /\ cr_ok D R c /\ exact D R c (x + y))
  /\ (exists c, cr_sub D R (CVal x) (CVal y) = Ok c /\ cr_ok D R c /\ exact D R c (x - y))
  /\ (exists c, cr_mul D R (CVal x) (CVal y) = Ok c /\ cr_ok D R c /\ exact D R c (x * y))
  /\ (y <> 0 -> exists c, cr_div D R (CVal x) (CVal y) = Ok c /\ cr_ok D R c /\ exact D R c (Z.quot x y))
  /\ (exists c, cr_neg D R (CVal x) = Ok c /\ cr_ok D R c /\ exact D R c (- x)).
Proof. exact values_exact. Qed.
Print Assumptions C68_values.

Example C68_nonvacuous :
  cr_add LP64 Int (CErr positive_overflow_error) (CVal (-5)) = Ok (CErr positive_overflow_error)
  /\ stands_for LP64 Int (CErr positive_overflow_error) 2147483648
  /\ cr_add LP64 Int (CErr positive_overflow_error) (CErr negative_overflow_error) = Ok (CErr range_error)
  /\ cr_mul LP64 Int (CVal (-5)) (CErr positive_overflow_error) = Ok (CErr negative_overflow_error)
  /\ cr_div LP64 Int (CErr positive_overflow_error) (CVal (-5)) = Ok (CErr negative_overflow_error)
  /\ cr_mul LP64 Int (CVal 65536) (CVal 65536) = Ok (CErr positive_overflow_error)
  /\ cr_div LP64 Int (CVal 7) (CVal 0) = Ok (CErr positive_overflow_error).
Proof. vm_compute. intuition congruence. Qed.

(** C69: remainder of values; the remainder of MIN by MIN is wrong as in C05 *)
Theorem C69_values_partial : forall D R t u, in_type D R t -> in_type D R u ->
  (u = 0 -> cr_mod D R (CVal t) (CVal u) = Ok (CErr range_error))
  /\ (u <> 0 -> ~ (lo D R < 0 /\ t = lo D R /\ u = lo D R) ->
      cr_mod D R (CVal t) (CVal u) = Ok (CVal (remainder t u)))
  /\ (lo D R < 0 -> t = lo D R -> u = lo D R -> cr_mod D R (CVal t) (CVal u) = Ok (CVal (lo D R))).
Proof. exact mod_values. Qed.
Print Assumptions C69_values_partial.

Theorem C69_by_overflow : forall D R t b, in_type D R t ->
  b = CErr positive_overflow_error \/ b = CErr negative_overflow_error ->
  cr_mod D R (CVal t) b = Ok (CVal t)
  /\ forall y, stands_for D R b y -> ~ (t = lo D R /\ y = - lo D R) ->
       lo D R < 0 \/ b = CErr positive_overflow_error -> t = remainder t y.
Proof. exact mod_by_overflow. Qed.
Print Assumptions C69_by_overflow.

(** an overflow's remainder is not known; the value returned is a bound of its size *)
Theorem C69_of_overflow_partial : forall D R a u, in_type D R u ->
  a = CErr positive_overflow_error \/ a = CErr negative_overflow_error ->
  (u = 0 -> cr_mod D R a (CVal u) = Ok (CErr range_error))
  /\ (u <> 0 -> exists c, cr_mod D R a (CVal u) = Ok c /\ cr_ok D R c
       /\ (forall v x, c = CVal v -> Z.abs (remainder x u) <= Z.abs v)
       /\ ((exists v, c = CVal v) \/ u <= lo D R + 1 \/ lo D R = 0)).
Proof. exact mod_of_overflow. Qed.
Print Assumptions C69_of_overflow_partial.

(** so % does invent values: an overflow % 5 is 4, whatever overflowed *)
Theorem C69_refuted : exists D R a b v x y,
  cr_ok D R a /\ cr_ok D R b /\ cr_mod D R a b = Ok (CVal v)
  /\ stands_for D R a x /\ stands_for D R b y /\ y <> 0 /\ v <> remainder x y.
Proof. exact mod_refuted. Qed.
Print Assumptions C69_refuted.

Example C69_nonvacuous :
  cr_mod LP64 Int (CVal (-7)) (CVal 3) = Ok (CVal (-1))
  /\ cr_mod LP64 Int (CVal (-7)) (CErr positive_overflow_error) = Ok (CVal (-7))
  /\ cr_mod LP64 Int (CErr negative_overflow_error) (CVal 5) = Ok (CVal (-4))
  /\ cr_mod LP64 UInt (CErr negative_overflow_error) (CVal 5) = Ok (CErr negative_overflow_error).
Proof. vm_compute. intuition congruence. Qed.
