(** PortIOSpec.v -- programs with input and output or arrays, without try, that are the same up to the
    types of constants and casts and the evaluation order of operands. *)
From Coq Require Import ZArith List Bool.
From Verif Require Import Base CType Program ProgramSpec RetypeSpec IOProgram ArrayProgram.

Inductive same_io : iocmd -> iocmd -> Prop :=
| SI_do : forall c c', same_cmd c c' -> same_io (IODo c) (IODo c')
| SI_read : forall v, same_io (IORead v) (IORead v)
| SI_write : forall v, same_io (IOWrite v) (IOWrite v)
| SI_seq : forall a a' b b', same_io a a' -> same_io b b' -> same_io (IOSeq a b) (IOSeq a' b')
| SI_if : forall c c' a a' b b', same_cond c c' -> same_io a a' -> same_io b b' -> same_io (IOIf c a b) (IOIf c' a' b')
| SI_while : forall c c' a a', same_cond c c' -> same_io a a' -> same_io (IOWhile c a) (IOWhile c' a').

(** the same for programs with arrays; the order in which the two sides of an assignment to an
    element are evaluated may differ too *)
Inductive same_acmd : acmd -> acmd -> Prop :=
| SA_do : forall c c', same_cmd c c' -> same_acmd (ADo c) (ADo c')
| SA_get : forall v a e e', same_expr e e' -> same_acmd (AGet v a e) (AGet v a e')
| SA_set : forall a f f' e e' d d', same_expr e e' -> same_expr d d' -> same_acmd (ASet a f e d) (ASet a f' e' d')
| SA_seq : forall x x' y y', same_acmd x x' -> same_acmd y y' -> same_acmd (ASeq x y) (ASeq x' y')
| SA_if : forall c c' x x' y y', same_cond c c' -> same_acmd x x' -> same_acmd y y' -> same_acmd (AIf c x y) (AIf c' x' y')
| SA_while : forall c c' x x', same_cond c c' -> same_acmd x x' -> same_acmd (AWhile c x) (AWhile c' x').
