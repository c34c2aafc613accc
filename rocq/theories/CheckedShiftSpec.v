(** CheckedShiftSpec.v -- the meaning of shifts of checked results. *)
From Coq Require Import ZArith.
From Verif Require Import Base CType Spec.
Local Open Scope Z_scope.

(** x shifted left by y: x * 2^y, and for a negative count x divided by 2^-y,
    rounded towards zero *)
Definition shifted (x y : Z) : Z := if 0 <=? y then x * 2 ^ y else Z.quot x (2 ^ (- y)).

(** a checked result reports z: the value z, or an overflow in the direction of z.
    The minimum may be reported as overflow. *)
Definition reports (D : dmodel) (R : ctype) (c : checked) (z : Z) : Prop :=
  match c with
  | CVal v => v = z
  | CErr positive_overflow_error => z > hi D R
  | CErr negative_overflow_error => z <= lo D R
  | CErr _ => False
  end.

(** an overflow is never reported on the wrong side: what is reported as a positive
    (negative) overflow is not below (above) the type's range *)
Definition side (D : dmodel) (R : ctype) (c : checked) (z : Z) : Prop :=
  match c with
  | CErr positive_overflow_error => lo D R <= z
  | CErr negative_overflow_error => z <= hi D R
  | _ => True
  end.

(** exactly the value z, or exactly the overflow of z *)
Definition exact (D : dmodel) (R : ctype) (c : checked) (z : Z) : Prop :=
  match c with
  | CVal v => v = z
  | CErr positive_overflow_error => z > hi D R
  | CErr negative_overflow_error => z < lo D R
  | CErr _ => False
  end.
