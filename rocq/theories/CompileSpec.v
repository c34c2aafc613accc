(** CompileSpec.v -- specification vocabulary of property C72. *)
From Coq Require Import ZArith.
From Verif Require Import Base CType Spec ExceptionPolicy Promotion SafeSpec.
Local Open Scope Z_scope.

(** the operands have the promotion policy P and the exception policy E: each of
    them that has policies has these, and one of them has *)
Definition policies_agree (P : pp) (E : ep) (t u : otype) : Prop :=
  (forall Q, get_pp t = Some Q \/ get_pp u = Some Q -> Q = P)
  /\ (get_pp t = Some P \/ get_pp u = Some P)
  /\ (forall F, get_ep t = Some F \/ get_ep u = Some F -> F = E)
  /\ (get_ep t = Some E \/ get_ep u = Some E).

(** a literal operand (safe_signed_literal, safe_unsigned_literal) is a value of
    type R; no condition on other operands *)
Definition literal_fits (D : dmodel) (R : ctype) (o : otype) : Prop :=
  match o with OLit _ N _ _ => in_type D R N | _ => True end.
