(** ElemIntervalSpec.v -- the specification of intervals over built-in and safe elements. *)
From Coq Require Import ZArith Bool.
From Verif Require Import Base CType ExceptionPolicy Promotion SafeBase SafeSpec Program ElemInterval.
Local Open Scope Z_scope.

(** the members of an interval *)
Definition inside (i : ival) (x : Z) : Prop := vl i <= x <= vu i.
(** an interval of elements of type o that is not empty *)
Definition ival_ok (D : dmodel) (o : otype) (i : ival) : Prop := holds D o (vl i) /\ holds D o (vu i) /\ vl i <= vu i.
(** r is the smallest interval that contains f x y for all members x of t and y of u *)
Definition hull (f : Z -> Z -> Z) (t u r : ival) : Prop :=
  (forall x y, inside t x -> inside u y -> inside r (f x y))
  /\ (exists x y, inside t x /\ inside u y /\ f x y = vl r)
  /\ (exists x y, inside t x /\ inside u y /\ f x y = vu r).

(** element types: built-in types, and safe types with a policy that throws on arithmetic errors
    and native or automatic promotion *)
Definition elem_ok (D : dmodel) (o : otype) : Prop :=
  match o with
  | ORaw _ => True
  | OSafe s => wf_operand D o /\ throws_arithmetic (sE s) /\ (sP s = Native \/ sP s = Automatic)
  | OLit _ _ _ _ => False
  end.
(** the operators whose results at the ends of the operands bound all results *)
Definition op_monotone (o : otype) (op : aop) : Prop :=
  op = Add \/ op = Sub \/ op = Mul \/ (op = Div /\ forall s, o = OSafe s -> sP s = Native).
