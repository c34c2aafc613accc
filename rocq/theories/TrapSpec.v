(** TrapSpec.v -- the specification of programs whose variables all have a trap
    policy: the program run in exact integer arithmetic by a deterministic
    interpreter. Of the model it uses the syntax of programs only. *)
From Coq Require Import ZArith List Bool Arith.
From Verif Require Import Base CType Spec ExceptionPolicy Promotion SafeBase SafeSpec Program ProgramSpec.
Local Open Scope Z_scope.

(** How a program over the mathematical integers ends *)
Inductive ending : Type :=
| Finished (i : nat -> Z)        (* the final values of the variables *)
| Unfinished                     (* a loop made more iterations than allowed *)
| Meaningless.                   (* division by zero, or an uninitialised variable *)

Fixpoint math_loop (test : (nat -> Z) -> option bool) (body : (nat -> Z) -> ending)
  (n : nat) (i : nat -> Z) : ending :=
  match n with
  | O => Unfinished
  | S n' =>
      match test i with
      | Some true =>
          match body i with
          | Finished i' => math_loop test body n' i'
          | r => r
          end
      | Some false => Finished i
      | None => Meaningless
      end
  end.

Fixpoint math_exec (fuel : nat) (i : nat -> Z) (c : cmd) {struct c} : ending :=
  match c with
  | CSkip => Finished i
  | CDefault _ => Meaningless
  | CAssign v e =>
      match value i e with Some z => Finished (upd i v z) | None => Meaningless end
  | CCompound op v e =>
      match value i e with
      | Some y => match math_op op (i v) y with Some z => Finished (upd i v z) | None => Meaningless end
      | None => Meaningless
      end
  | CInc v => Finished (upd i v (i v + 1))
  | CDec v => Finished (upd i v (i v - 1))
  | CPost inc w v => Finished (upd (upd i v (if inc then i v + 1 else i v - 1)) w (i v))
  | CSeq a b =>
      match math_exec fuel i a with
      | Finished i' => math_exec fuel i' b
      | r => r
      end
  | CIf c a b =>
      match truth i c with
      | Some true => math_exec fuel i a
      | Some false => math_exec fuel i b
      | None => Meaningless
      end
  | CWhile c a => math_loop (fun i => truth i c) (fun i => math_exec fuel i a) fuel i
  | CTry a _ => math_exec fuel i a     (* nothing is ever raised *)
  end.

(** Types: the declared range is inside the underlying type, arithmetic errors do
    not compile, and, if [nat], promotion is native. Built-in types qualify. *)
Definition type_trap (nat : bool) (D : dmodel) (o : otype) : Prop :=
  wf_operand D o
  /\ (forall E, get_ep o = Some E -> traps E)
  /\ (nat = true -> forall P, get_pp o = Some P -> P = Native).

Fixpoint expr_trap (nat : bool) (D : dmodel) (e : expr) : Prop :=
  match e with
  | EConst o z => type_trap nat D o /\ holds D o z
  | EVar _ => True
  | EBin op _ a b => op_ok nat op /\ expr_trap nat D a /\ expr_trap nat D b
  | ENeg a => expr_trap nat D a
  | EPos a => expr_trap nat D a
  | ECast o a => type_trap nat D o /\ expr_trap nat D a
  end.

Definition cond_trap (nat : bool) (D : dmodel) (c : cond) : Prop :=
  let 'Cond _ _ a b := c in expr_trap nat D a /\ expr_trap nat D b.

(** default construction only where the policy traps on it *)
Fixpoint cmd_trap (nat : bool) (D : dmodel) (G : tenv) (c : cmd) : Prop :=
  match c with
  | CSkip | CInc _ | CDec _ | CPost _ _ _ => True
  | CDefault v => forall E, get_ep (G v) = Some E -> on_uninitialized_value E = HTrap
  | CAssign _ e => expr_trap nat D e
  | CCompound op _ e => op_ok nat op /\ expr_trap nat D e
  | CSeq a b | CTry a b => cmd_trap nat D G a /\ cmd_trap nat D G b
  | CIf c a b => cond_trap nat D c /\ cmd_trap nat D G a /\ cmd_trap nat D G b
  | CWhile c a => cond_trap nat D c /\ cmd_trap nat D G a
  end.

(** ------------------------------------------------------------------ *)
(** The same program with every exception policy replaced by F *)
Fixpoint expr_with (F : ep) (e : expr) : expr :=
  match e with
  | EConst o z => EConst (with_policy F o) z
  | EVar v => EVar v
  | EBin op first a b => EBin op first (expr_with F a) (expr_with F b)
  | ENeg a => ENeg (expr_with F a)
  | EPos a => EPos (expr_with F a)
  | ECast o a => ECast (with_policy F o) (expr_with F a)
  end.
Definition cond_with (F : ep) (c : cond) : cond :=
  let 'Cond r first a b := c in Cond r first (expr_with F a) (expr_with F b).
Fixpoint cmd_with (F : ep) (c : cmd) : cmd :=
  match c with
  | CAssign v e => CAssign v (expr_with F e)
  | CCompound op v e => CCompound op v (expr_with F e)
  | CSeq a b => CSeq (cmd_with F a) (cmd_with F b)
  | CTry a b => CTry (cmd_with F a) (cmd_with F b)
  | CIf c a b => CIf (cond_with F c) (cmd_with F a) (cmd_with F b)
  | CWhile c a => CWhile (cond_with F c) (cmd_with F a)
  | _ => c
  end.

(** every policy in the program traps arithmetic errors; no default construction *)
Definition type_traps (o : otype) : Prop := forall E, get_ep o = Some E -> traps E.
Fixpoint expr_traps (e : expr) : Prop :=
  match e with
  | EConst o _ => type_traps o
  | EVar _ => True
  | EBin _ _ a b => expr_traps a /\ expr_traps b
  | ENeg a | EPos a => expr_traps a
  | ECast o a => type_traps o /\ expr_traps a
  end.
Definition cond_traps (c : cond) : Prop := let 'Cond _ _ a b := c in expr_traps a /\ expr_traps b.
Fixpoint cmd_traps (c : cmd) : Prop :=
  match c with
  | CSkip | CInc _ | CDec _ | CPost _ _ _ => True
  | CDefault _ => False
  | CAssign _ e | CCompound _ _ e => expr_traps e
  | CSeq a b | CTry a b => cmd_traps a /\ cmd_traps b
  | CIf c a b => cond_traps c /\ cmd_traps a /\ cmd_traps b
  | CWhile c a => cond_traps c /\ cmd_traps a
  end.
