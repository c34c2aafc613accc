(** ConstSpec.v -- constant expressions over safe types (property C92). *)
From Coq Require Import ZArith Bool List.
From Verif Require Import Base CType Spec ExceptionPolicy Promotion SafeBase SafeSpec Program.
Local Open Scope Z_scope.

(** The constructors, operators and conversions are constexpr functions
    (safe_base.hpp:172-275, safe_base_operations.hpp). Evaluated in a constant expression they
    give their value; an evaluation that calls throw_exception::operator()
    (exception_policies.hpp:68, not constexpr) or that is undefined in the language is not a
    constant expression, and the program is rejected: None. *)
Definition constant {A : Type} (m : M A) : option A :=
  match snd m with Ret a => Some a | _ => None end.

(** The operands excluded below: a negative count, the lowest value of the result's type modulo
    itself, negative operands of & | ^. *)
Definition constant_operands (D : dmodel) (op : binop) (R : ctype) (x y : Z) : Prop :=
  match op with
  | BA Shl | BA Shr => 0 <= y
  | BA Mod => ~ (lo D R < 0 /\ x = lo D R /\ y = lo D R)
  | BB _ => 0 <= x /\ 0 <= y
  | _ => True
  end.
(** / % & | ^ are considered with native promotion, the other operators with every policy *)
Definition constant_policy (op : binop) (P : pp) : Prop :=
  match op with BA Div | BA Mod | BB _ => P = Native | _ => True end.
(** a value that the program may use as a constant: the operands and the result are values of the
    result's type R; a shifted value is not negative and the count is less than the number of
    value bits; the quotient of the operands of % is a value of R too. *)
Definition representable (D : dmodel) (op : binop) (R : ctype) (x y z : Z) : Prop :=
  in_type D R x /\ in_type D R y /\ in_type D R z
  /\ match op with
     | BA Shl | BA Shr => 0 <= x /\ y < digits D R
     | BA Mod => in_type D R (Z.quot x y)
     | _ => True
     end.
