(** ToldMoreSpec.v -- vocabulary of C100 for programs that switch streams between bases and for
    assignments that are operands of assignments. Definitions only. *)
From Coq Require Import ZArith List.
From Verif Require Import Base ExceptionPolicy Promotion SafeBase SafeSpec Program BaseStream BaseProgram
  ChainProgram ToldSpec.
Import ListNotations.

Fixpoint occurs_base (G : tenv) (c : bcmd) (E : ep) : Prop :=
  match c with
  | BPDo c => occurs_cmd G c E
  | BPRead v => get_ep (G v) = Some E
  | BPWrite _ | BPIn _ | BPOut _ => False
  | BPSeq a b | BPTry a b => occurs_base G a E \/ occurs_base G b E
  | BPIf c a b => occurs_cond G c E \/ occurs_base G a E \/ occurs_base G b E
  | BPWhile c a => occurs_cond G c E \/ occurs_base G a E
  end.

(** in an assignment *)
Fixpoint occurs_asg (G : tenv) (l : asg) (E : ep) : Prop :=
  match l with
  | LVar v => get_ep (G v) = Some E
  | LPure e => occurs G e E
  | LSet _ l r | LOp _ _ l r => occurs_asg G l E \/ occurs_asg G r E
  | LStep _ l => occurs_asg G l E
  end.
