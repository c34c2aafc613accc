(** LawSpec.v -- vocabulary of C81: a sequence of objects of one safe type in which no
    element is less than its predecessor according to the operator < of that type, as
    std::is_sorted decides. *)
From Coq Require Import ZArith List.
From Verif Require Import Base CType ExceptionPolicy Promotion SafeBase.
Import ListNotations.
Local Open Scope Z_scope.

Fixpoint ordered (D : dmodel) (o : otype) (l : list Z) : Prop :=
  match l with
  | [] => True
  | x :: r =>
      match r with [] => True | y :: _ => s_lt D o o y x = Some (mret false) end /\ ordered D o r
  end.
