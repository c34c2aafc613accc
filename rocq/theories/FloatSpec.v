(** FloatSpec.v -- the integer part of a floating point number. *)
From Coq Require Import ZArith Bool.
From Verif Require Import Base CType FloatCast.
Local Open Scope Z_scope.

(** z is m * 2^e without its fraction: z = 0 or z has the sign of m, and
    |z| <= |m * 2^e| < |z| + 1. For e < 0 both sides are multiplied by 2^-e. *)
Definition integer_part (m e z : Z) : Prop :=
  (z = 0 \/ Z.sgn z = Z.sgn m)
  /\ let up := 2 ^ Z.max 0 (- e) in
     Z.abs z * up <= Z.abs m * 2 ^ Z.max 0 e < (Z.abs z + 1) * up.
