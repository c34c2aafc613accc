(** StaticSpec.v -- specification vocabulary of the properties C56-C63. *)
From Coq Require Import ZArith List Bool.
From Verif Require Import Base CType Utility Spec ExceptionPolicy Promotion SafeSpec.
Import ListNotations.
Local Open Scope Z_scope.

(** a full-range operand: T itself, or safe<T> with native promotion and the
    exception policy E *)
Definition plain (D : dmodel) (E : ep) (T : ctype) (o : otype) : Prop :=
  o = ORaw T \/ o = OSafe (mkSafe T (lo D T) (hi D T) Native E).

(** The operands for which "x op y" on operands of built-in types T and U is
    meaningful: both are representable in the type R of the built-in expression
    and so is the result; the divisor is not zero; a shift count is in range and
    a shifted value not negative. *)
Definition meaningful (D : dmodel) (op : aop) (T U : ctype) (x y : Z) : Prop :=
  let R := built_in_type D op T U in
  in_type D R x /\ in_type D R y
  /\ match op with
     | Add | Sub | Mul => in_type D R (exact op x y)
     | Div => y <> 0 /\ in_type D R (Z.quot x y)
     | Mod => y <> 0
     | Shl => y = 0 \/ (0 < y < digits D R /\ 0 <= x /\ in_type D R (x * 2 ^ y))
     | Shr => 0 <= x /\ 0 <= y <= digits D R
     end.

(** the exception policies of the two operands, if both have one, agree *)
Definition same_policy (t u : otype) : Prop :=
  forall E F, get_ep t = Some E -> get_ep u = Some F -> E = F.
