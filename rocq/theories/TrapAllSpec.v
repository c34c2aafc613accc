(** TrapAllSpec.v -- which programs with all ten operators property C79 is about: as
    ComposeSpec.v, with policies that turn arithmetic errors into compile-time errors.
    What the programs mean is in TrapSpec.v ([math_exec]). *)
From Coq Require Import ZArith List Bool.
From Verif Require Import Base CType Spec ExceptionPolicy Promotion SafeBase SafeSpec Program ProgramSpec
  ComposeSpec TrapSpec.
Local Open Scope Z_scope.

(** every constant and cast has a trap policy, and every operator is one of those that
    are exact for its operand types; [tgt] is what the value is converted to, if
    anything *)
Fixpoint expr_quiet (nat : bool) (D : dmodel) (G : tenv) (tgt : option otype) (e : expr) : Prop :=
  match e with
  | EConst o z => type_trap nat D o /\ holds D o z
  | EVar _ => True
  | EBin op _ a b =>
      expr_quiet nat D G None a /\ expr_quiet nat D G None b
      /\ forall t u, type_of D G a = Some t -> type_of D G b = Some u -> operator_fine nat D tgt op t u
  | ENeg a | EPos a => expr_quiet nat D G None a
  | ECast o a => type_trap nat D o /\ expr_quiet nat D G (Some o) a
  end.

Definition cond_quiet (nat : bool) (D : dmodel) (G : tenv) (c : cond) : Prop :=
  let 'Cond _ _ a b := c in expr_quiet nat D G None a /\ expr_quiet nat D G None b.

Fixpoint cmd_quiet (nat : bool) (D : dmodel) (G : tenv) (c : cmd) : Prop :=
  match c with
  | CSkip | CInc _ | CDec _ | CPost _ _ _ => True
  | CDefault v => forall E, get_ep (G v) = Some E -> on_uninitialized_value E = HTrap
  | CAssign v e => expr_quiet nat D G (Some (G v)) e
  | CCompound op v e =>
      expr_quiet nat D G None e
      /\ forall t, type_of D G e = Some t -> operator_fine nat D (Some (G v)) op (G v) t
  | CSeq a b | CTry a b => cmd_quiet nat D G a /\ cmd_quiet nat D G b
  | CIf c a b => cond_quiet nat D G c /\ cmd_quiet nat D G a /\ cmd_quiet nat D G b
  | CWhile c a => cond_quiet nat D G c /\ cmd_quiet nat D G a
  end.
