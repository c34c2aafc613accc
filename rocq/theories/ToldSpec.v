(** ToldSpec.v -- vocabulary of C57 (expressions) and C100: which policies are told about
    errors, and what they make of them. Definitions only. *)
From Coq Require Import ZArith List.
From Verif Require Import Base ExceptionPolicy Promotion SafeBase SafeSpec Program.
Import ListNotations.

(** what a policy does with an error: throw, return, or not compile *)
Definition answers (E : ep) (e : err) (h : handler) : Prop :=
  match class_of e with
  | arithmetic_error => on_arithmetic_error E = h
  | implementation_defined_behavior => on_implementation_defined_behavior E = h
  | undefined_behavior => on_undefined_behavior E = h
  | act_uninitialized_value => on_uninitialized_value E = h
  | no_action => False
  end.

(** the call of a handler of one of the policies [Es] that returned *)
Definition let_pass (Es : ep -> Prop) (ev : event) : Prop :=
  fst ev = class_of (snd ev) /\ exists E, Es E /\ answers E (snd ev) HIgnore.

(** All handlers called belong to policies in [Es]. The computation goes on after each
    call that returns, and ends with the first one that throws; nothing else throws. *)
Definition told {A : Type} (Es : ep -> Prop) (m : M A) : Prop :=
  match snd m with
  | Ret _ | Undef => Forall (let_pass Es) (fst m)
  | Throw e => exists l, fst m = l ++ [(class_of e, e)] /\ Forall (let_pass Es) l
                 /\ exists E, Es E /\ answers E e HThrow
  | Trapped => False
  end.

(** the exception policies that occur in an expression *)
Fixpoint occurs (G : tenv) (e : expr) (E : ep) : Prop :=
  match e with
  | EConst o _ => get_ep o = Some E
  | EVar v => get_ep (G v) = Some E
  | EBin _ _ a b => occurs G a E \/ occurs G b E
  | ENeg a | EPos a => occurs G a E
  | ECast o a => get_ep o = Some E \/ occurs G a E
  end.
(** those that occur outside explicit casts; the same for promotion policies *)
Fixpoint occurs_outside (G : tenv) (e : expr) (E : ep) : Prop :=
  match e with
  | EConst o _ => get_ep o = Some E
  | EVar v => get_ep (G v) = Some E
  | EBin _ _ a b => occurs_outside G a E \/ occurs_outside G b E
  | ENeg a | EPos a => occurs_outside G a E
  | ECast o _ => get_ep o = Some E
  end.
Fixpoint promotes (G : tenv) (e : expr) (P : pp) : Prop :=
  match e with
  | EConst o _ => get_pp o = Some P
  | EVar v => get_pp (G v) = Some P
  | EBin _ _ a b => promotes G a P \/ promotes G b P
  | ENeg a | EPos a => promotes G a P
  | ECast o _ => get_pp o = Some P
  end.

(** the exception policies that occur in a program *)
Definition occurs_cond (G : tenv) (c : cond) (E : ep) : Prop :=
  let 'Cond _ _ a b := c in occurs G a E \/ occurs G b E.
Fixpoint occurs_cmd (G : tenv) (c : cmd) (E : ep) : Prop :=
  match c with
  | CSkip => False
  | CDefault v | CInc v | CDec v => get_ep (G v) = Some E
  | CAssign v e | CCompound _ v e => get_ep (G v) = Some E \/ occurs G e E
  | CPost _ w v => get_ep (G w) = Some E \/ get_ep (G v) = Some E
  | CSeq a b | CTry a b => occurs_cmd G a E \/ occurs_cmd G b E
  | CIf c a b => occurs_cond G c E \/ occurs_cmd G a E \/ occurs_cmd G b E
  | CWhile c a => occurs_cond G c E \/ occurs_cmd G a E
  end.

(** an expression without explicit casts *)
Fixpoint cast_free (e : expr) : Prop :=
  match e with
  | EConst _ _ | EVar _ => True
  | EBin _ _ a b => cast_free a /\ cast_free b
  | ENeg a | EPos a => cast_free a
  | ECast _ _ => False
  end.

(** conversions are checked by the policy of the target if it is a safe type, else by that of the
    source *)
Definition checker (tgt src : otype) (E : ep) : Prop :=
  match tgt with OSafe s => E = sE s | _ => get_ep src = Some E end.
