(** ToldProgSpec.v -- vocabulary of C100 for programs with input and output, arrays and
    functions: the exception policies that occur in them. Definitions only. *)
From Coq Require Import ZArith List.
From Verif Require Import Base ExceptionPolicy Promotion SafeBase SafeSpec Program Stream IOProgram
  ArrayProgram FunProgram ToldSpec.
Import ListNotations.

Fixpoint occurs_io (G : tenv) (c : iocmd) (E : ep) : Prop :=
  match c with
  | IODo c => occurs_cmd G c E
  | IORead v => get_ep (G v) = Some E
  | IOWrite v => False
  | IOSeq a b | IOTry a b => occurs_io G a E \/ occurs_io G b E
  | IOIf c a b => occurs_cond G c E \/ occurs_io G a E \/ occurs_io G b E
  | IOWhile c a => occurs_cond G c E \/ occurs_io G a E
  end.

Fixpoint occurs_array (G : tenv) (A : aenv) (c : acmd) (E : ep) : Prop :=
  match c with
  | ADo c => occurs_cmd G c E
  | AGet v a e => get_ep (G v) = Some E \/ get_ep (fst (A a)) = Some E \/ occurs G e E
  | ASet a _ e d => get_ep (fst (A a)) = Some E \/ occurs G e E \/ occurs G d E
  | ASeq x y | ATry x y => occurs_array G A x E \/ occurs_array G A y E
  | AIf c x y => occurs_cond G c E \/ occurs_array G A x E \/ occurs_array G A y E
  | AWhile c x => occurs_cond G c E \/ occurs_array G A x E
  end.

Fixpoint occurs_fcond (G : tenv) (c : fcond) (E : ep) : Prop :=
  match c with
  | FRel c => occurs_cond G c E
  | FNot a => occurs_fcond G a E
  | FAnd a b | FOr a b => occurs_fcond G a E \/ occurs_fcond G b E
  end.
Fixpoint occurs_fcmd (G : tenv) (c : fcmd) (E : ep) : Prop :=
  match c with
  | FDo c => occurs_cmd G c E
  | FCall v _ args => get_ep (G v) = Some E \/ exists e, In e args /\ occurs G e E
  | FSeq a b | FTry a b => occurs_fcmd G a E \/ occurs_fcmd G b E
  | FIf c a b => occurs_fcond G c E \/ occurs_fcmd G a E \/ occurs_fcmd G b E
  | FWhile c a => occurs_fcond G c E \/ occurs_fcmd G a E
  end.
(** in a function: its parameters, result type, operand of return and body *)
Definition occurs_function (d : fundef) (E : ep) : Prop :=
  (exists p, In p (f_params d) /\ get_ep (f_env d p) = Some E)
  \/ get_ep (f_type d) = Some E \/ occurs (f_env d) (f_result d) E \/ occurs_fcmd (f_env d) (f_body d) E.
