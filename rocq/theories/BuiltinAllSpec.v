(** BuiltinAllSpec.v -- specification for programs with all ten operators compared
    with the same programs over built-in types: conditions on the shifts. *)
From Coq Require Import ZArith List Bool.
From Verif Require Import Base CType Spec ExceptionPolicy Promotion SafeBase SafeSpec Program ProgramSpec BuiltinSpec.
Import ListNotations.
Local Open Scope Z_scope.

(** [Q op t u] holds of every operator in an expression or program, t and u being
    the types of its operands *)
Fixpoint every_op (Q : binop -> otype -> otype -> Prop) (D : dmodel) (G : tenv) (e : expr) : Prop :=
  match e with
  | EConst _ _ | EVar _ => True
  | EBin op _ a b =>
      every_op Q D G a /\ every_op Q D G b
      /\ forall t u, type_of D G a = Some t -> type_of D G b = Some u -> Q op t u
  | ENeg a | EPos a | ECast _ a => every_op Q D G a
  end.
Definition every_op_cond (Q : binop -> otype -> otype -> Prop) (D : dmodel) (G : tenv) (c : cond) : Prop :=
  let 'Cond _ _ a b := c in every_op Q D G a /\ every_op Q D G b.
Fixpoint every_op_cmd (Q : binop -> otype -> otype -> Prop) (D : dmodel) (G : tenv) (c : cmd) : Prop :=
  match c with
  | CSkip | CInc _ | CDec _ | CPost _ _ _ | CDefault _ => True
  | CAssign _ e => every_op Q D G e
  | CCompound op v e => every_op Q D G e /\ forall u, type_of D G e = Some u -> Q op (G v) u
  | CSeq a b | CTry a b => every_op_cmd Q D G a /\ every_op_cmd Q D G b
  | CIf c a b => every_op_cond Q D G c /\ every_op_cmd Q D G a /\ every_op_cmd Q D G b
  | CWhile c a => every_op_cond Q D G c /\ every_op_cmd Q D G a
  end.

(** The left operand of << is never negative: the built-in shift of a negative value
    is undefined (C++14 [expr.shift]). *)
Definition shl_defined (D : dmodel) (op : binop) (t _ : otype) : Prop :=
  op = BA Shl -> 0 <= lim_lo D t.
(** no operand of a shift is ever negative, and the count is always less than the
    number of value bits of the promoted left operand *)
Definition shift_bounded (D : dmodel) (op : binop) (t u : otype) : Prop :=
  op = BA Shl \/ op = BA Shr ->
  0 <= lim_lo D t /\ 0 <= lim_lo D u /\ lim_hi D u < digits D (promote D (base_ty t)).
