(** ProgramSpec.v -- the specification of programs over safe variables: their
    meaning in exact integer arithmetic, where every step may also raise an
    exception, which leaves the variables as they are. Of the model it uses the
    syntax of programs only. *)
From Coq Require Import ZArith List Bool Arith.
From Verif Require Import Base CType Spec ExceptionPolicy Promotion SafeBase SafeSpec Program.
Import ListNotations.
Local Open Scope Z_scope.

(** the mathematical value of an operator; division by zero has none *)
Definition math_op (op : binop) (x y : Z) : option Z :=
  match op with
  | BA Div => if y =? 0 then None else Some (Z.quot x y)
  | BA Mod => if y =? 0 then None else Some (Z.rem x y)
  | BA o => Some (exact o x y)
  | BB b => Some (bit_op b x y)
  end.

(** the exact integer value of an expression when the variables have the values i *)
Fixpoint value (i : nat -> Z) (e : expr) : option Z :=
  match e with
  | EConst _ z => Some z
  | EVar v => Some (i v)
  | EBin op _ a b =>
      match value i a, value i b with
      | Some x, Some y => math_op op x y
      | _, _ => None
      end
  | ENeg a => option_map Z.opp (value i a)
  | EPos a => value i a
  | ECast _ a => value i a
  end.

Definition math_rel (r : relop) (x y : Z) : bool :=
  match r with
  | RLt => x <? y | RGt => x >? y | RLe => x <=? y
  | RGe => x >=? y | REq => x =? y | RNe => negb (x =? y)
  end.

Definition truth (i : nat -> Z) (c : cond) : option bool :=
  let 'Cond r _ a b := c in
  match value i a, value i b with
  | Some x, Some y => Some (math_rel r x y)
  | _, _ => None
  end.

(** Ideal execution: [ideal i c i' r]. Assignments store the exact value, or
    raise and store nothing; a condition has its mathematical truth value, or
    raises. *)
Inductive ideal : (nat -> Z) -> cmd -> (nat -> Z) -> bool -> Prop :=
(* the last argument: true = completed, false = raised an exception *)
| I_skip : forall i, ideal i CSkip i true
| I_default_raise : forall i v, ideal i (CDefault v) i false
| I_assign : forall i v e z, value i e = Some z -> ideal i (CAssign v e) (upd i v z) true
| I_assign_raise : forall i v e, ideal i (CAssign v e) i false
| I_compound : forall i op v e y z, value i e = Some y -> math_op op (i v) y = Some z ->
    ideal i (CCompound op v e) (upd i v z) true
| I_compound_raise : forall i op v e, ideal i (CCompound op v e) i false
| I_inc : forall i v, ideal i (CInc v) (upd i v (i v + 1)) true
| I_inc_raise : forall i v, ideal i (CInc v) i false
| I_dec : forall i v, ideal i (CDec v) (upd i v (i v - 1)) true
| I_dec_raise : forall i v, ideal i (CDec v) i false
| I_post : forall i (inc : bool) w v,
    ideal i (CPost inc w v) (upd (upd i v (if inc then i v + 1 else i v - 1)) w (i v)) true
| I_post_raise1 : forall i inc w v, ideal i (CPost inc w v) i false
| I_post_raise2 : forall i (inc : bool) w v,  (* the assignment to w raises *)
    ideal i (CPost inc w v) (upd i v (if inc then i v + 1 else i v - 1)) false
| I_seq : forall i a i1 b i2 r, ideal i a i1 true -> ideal i1 b i2 r -> ideal i (CSeq a b) i2 r
| I_seq_raise : forall i a i1 b, ideal i a i1 false -> ideal i (CSeq a b) i1 false
| I_if : forall i c t a b i1 r, truth i c = Some t ->
    ideal i (if t then a else b) i1 r -> ideal i (CIf c a b) i1 r
| I_if_raise : forall i c a b, ideal i (CIf c a b) i false
| I_while_end : forall i c a, truth i c = Some false -> ideal i (CWhile c a) i true
| I_while : forall i c a i1 i2 r, truth i c = Some true -> ideal i a i1 true ->
    ideal i1 (CWhile c a) i2 r -> ideal i (CWhile c a) i2 r
| I_while_body_raise : forall i c a i1, truth i c = Some true -> ideal i a i1 false ->
    ideal i (CWhile c a) i1 false
| I_while_raise : forall i c a, ideal i (CWhile c a) i false
| I_try : forall i a b i1, ideal i a i1 true -> ideal i (CTry a b) i1 true
| I_try_catch : forall i a b i1 i2 r, ideal i a i1 false -> ideal i1 b i2 r -> ideal i (CTry a b) i2 r.

(** Types: the declared range is inside the underlying type, the policy throws on
    arithmetic errors, and, if [nat], promotion is native. *)
Definition type_ok (nat : bool) (D : dmodel) (o : otype) : Prop :=
  wf_operand D o
  /\ (forall E, get_ep o = Some E -> throws_arithmetic E)
  /\ (nat = true -> forall P, get_pp o = Some P -> P = Native).

(** the operators that are exact: + - *, and / if promotion is native *)
Definition op_ok (nat : bool) (op : binop) : Prop :=
  op = BA Add \/ op = BA Sub \/ op = BA Mul \/ (op = BA Div /\ nat = true).

Fixpoint expr_ok (nat : bool) (D : dmodel) (e : expr) : Prop :=
  match e with
  | EConst o z => type_ok nat D o /\ holds D o z
  | EVar _ => True
  | EBin op _ a b => op_ok nat op /\ expr_ok nat D a /\ expr_ok nat D b
  | ENeg a => expr_ok nat D a
  | EPos a => expr_ok nat D a
  | ECast o a => type_ok nat D o /\ expr_ok nat D a
  end.

Definition cond_ok (nat : bool) (D : dmodel) (c : cond) : Prop :=
  let 'Cond _ _ a b := c in expr_ok nat D a /\ expr_ok nat D b.

(** default construction only where the policy throws (or traps) on it *)
Fixpoint cmd_ok (nat : bool) (D : dmodel) (G : tenv) (c : cmd) : Prop :=
  match c with
  | CSkip | CInc _ | CDec _ | CPost _ _ _ => True
  | CDefault v => forall E, get_ep (G v) = Some E -> on_uninitialized_value E <> HIgnore
  | CAssign _ e => expr_ok nat D e
  | CCompound op _ e => op_ok nat op /\ expr_ok nat D e
  | CSeq a b | CTry a b => cmd_ok nat D G a /\ cmd_ok nat D G b
  | CIf c a b => cond_ok nat D c /\ cmd_ok nat D G a /\ cmd_ok nat D G b
  | CWhile c a => cond_ok nat D c /\ cmd_ok nat D G a
  end.

(** every variable has the value i gives it, inside its declared range *)
Definition store_ok (D : dmodel) (G : tenv) (s : store) (i : nat -> Z) : Prop :=
  forall v, s v = Some (i v) /\ holds D (G v) (i v).

(** the commands that update one variable *)
Definition updates (c : cmd) : Prop :=
  (exists v e, c = CAssign v e) \/ (exists op v e, c = CCompound op v e)
  \/ (exists v, c = CInc v) \/ (exists v, c = CDec v).

(** the program default-constructs only variables whose policy throws (or does not
    compile) on that *)
Fixpoint no_silent_default (G : tenv) (c : cmd) : Prop :=
  match c with
  | CDefault v => forall E, get_ep (G v) = Some E -> on_uninitialized_value E <> HIgnore
  | CSeq a b | CTry a b | CIf _ a b => no_silent_default G a /\ no_silent_default G b
  | CWhile _ a => no_silent_default G a
  | _ => True
  end.

(** no variable is indeterminate *)
Definition initialized (s : store) : Prop := forall v, s v <> None.
