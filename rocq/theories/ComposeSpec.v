(** ComposeSpec.v -- specification of expressions and programs that use all ten
    operators. An operator may be used anywhere when its declared result range is
    right ([exact_operator]); the remainder and the bitwise operators may otherwise
    be used where the result goes directly into an object that takes every value of
    the result's underlying type ([storable], [absorbs]). Of the model it uses the
    syntax of programs and the type of an expression only. *)
From Coq Require Import ZArith List Bool.
From Verif Require Import Base CType Spec ExceptionPolicy Promotion SafeBase SafeSpec Program ProgramSpec.
Import ListNotations.
Local Open Scope Z_scope.

(** an exception for an arithmetic error or for a bad shift *)
Definition fails {A : Type} (m : M A) : Prop := throws_arith m \/ throws_impl m.

(** as [type_ok], and the policy also throws on shift errors *)
Definition type_fine (nat : bool) (D : dmodel) (o : otype) : Prop :=
  type_ok nat D o /\ (forall E, get_ep o = Some E -> throws_shift E).

(** Conditions on the operand types t, u and on the result type s under which the
    operator is exact. + - * : none. / : native promotion. Left shift: the shifted
    range has a positive value, and no operand can be negative or the count can be
    too large (then the shift is checked). Right shift: the result is signed, or the
    count is never negative and never the width of the result. Bitwise: no operand
    can be negative. *)
Definition exact_operator (nat : bool) (D : dmodel) (op : binop) (t u : otype) (s : safe_t) : Prop :=
  match op with
  | BA Add | BA Sub | BA Mul => True
  | BA Div => nat = true
  | BA Mod => False
  | BA Shl => 0 < lim_hi D t
              /\ ((0 <= lim_lo D t /\ 0 <= lim_lo D u) \/ digits D (st s) <= lim_hi D u)
  | BA Shr => csigned D (st s) = true
              \/ (0 <= lim_lo D u /\ (lim_hi D u < digits D (st s) \/ digits D (st s) < lim_lo D u))
  | BB _ => 0 <= lim_lo D t /\ 0 <= lim_lo D u /\ (sP s = Native \/ sP s = Automatic)
  end.

(** Conditions under which % and the bitwise operators give the right value, maybe
    outside the declared result range: the result type is large enough, and MIN % -1
    and MIN % MIN cannot happen *)
Definition storable (D : dmodel) (op : binop) (t u : otype) (s : safe_t) : Prop :=
  match op with
  | BA Mod => result_large_enough D s t u
              /\ (lo D (st s) < lim_lo D t \/ 0 <= lim_lo D u \/ 0 <= lo D (st s))
  | BB _ => fits_in D (st s) t /\ fits_in D (st s) u /\ (sP s = Native \/ sP s = Automatic)
  | _ => False
  end.
(** the object that the result is converted to takes every value of the underlying
    type, or is of a built-in type *)
Definition absorbs (D : dmodel) (tgt : option otype) (s : safe_t) : Prop :=
  match tgt with
  | Some (ORaw _) => True
  | Some (OSafe w) => smin w <= lo D (st s) /\ hi D (st s) <= smax w
  | _ => False
  end.

Definition operator_fine (nat : bool) (D : dmodel) (tgt : option otype) (op : binop) (t u : otype) : Prop :=
  forall s m, eval_binop D op t u 0 0 = Some (s, m) ->
  exact_operator nat D op t u s \/ (storable D op t u s /\ absorbs D tgt s).

(** the expression meets these conditions everywhere; [tgt] is what its value is
    converted to, if anything *)
Fixpoint expr_fine (nat : bool) (D : dmodel) (G : tenv) (tgt : option otype) (e : expr) : Prop :=
  match e with
  | EConst o z => type_fine nat D o /\ holds D o z
  | EVar _ => True
  | EBin op _ a b =>
      expr_fine nat D G None a /\ expr_fine nat D G None b
      /\ forall t u, type_of D G a = Some t -> type_of D G b = Some u -> operator_fine nat D tgt op t u
  | ENeg a | EPos a => expr_fine nat D G None a
  | ECast o a => type_fine nat D o /\ expr_fine nat D G (Some o) a
  end.

Definition cond_fine (nat : bool) (D : dmodel) (G : tenv) (c : cond) : Prop :=
  let 'Cond _ _ a b := c in expr_fine nat D G None a /\ expr_fine nat D G None b.

Fixpoint cmd_fine (nat : bool) (D : dmodel) (G : tenv) (c : cmd) : Prop :=
  match c with
  | CSkip | CInc _ | CDec _ | CPost _ _ _ => True
  | CDefault v => forall E, get_ep (G v) = Some E -> on_uninitialized_value E <> HIgnore
  | CAssign v e => expr_fine nat D G (Some (G v)) e
  | CCompound op v e =>
      expr_fine nat D G None e
      /\ forall t, type_of D G e = Some t -> operator_fine nat D (Some (G v)) op (G v) t
  | CSeq a b | CTry a b => cmd_fine nat D G a /\ cmd_fine nat D G b
  | CIf c a b => cond_fine nat D G c /\ cmd_fine nat D G a /\ cmd_fine nat D G b
  | CWhile c a => cond_fine nat D G c /\ cmd_fine nat D G a
  end.
