(** NamedSpec.v -- vocabulary of C57 for policies with an identity. Definitions only. *)
From Coq Require Import ZArith List.
From Verif Require Import Base ExceptionPolicy Promotion SafeBase Program NamedPolicy.

(** the policies of the operands of an expression that are not inside an explicit cast *)
Fixpoint named_outside (G : nat -> ntype) (e : nexpr) (n : nat) : Prop :=
  match e with
  | NConst o _ => policy_name o = Some n
  | NVar v => policy_name (G v) = Some n
  | NBin _ _ a b => named_outside G a n \/ named_outside G b n
  | NNeg a | NPos a => named_outside G a n
  | NCast o _ => policy_name o = Some n
  end.
(** no operator, inside casts or outside, has operands of two different policies *)
Fixpoint unmixed (G : nat -> ntype) (e : nexpr) : Prop :=
  match e with
  | NConst _ _ | NVar _ => True
  | NBin op f a b => unmixed G a /\ unmixed G b
      /\ forall n m, named_outside G (NBin op f a b) n -> named_outside G (NBin op f a b) m -> n = m
  | NNeg a | NPos a | NCast _ a => unmixed G a
  end.
