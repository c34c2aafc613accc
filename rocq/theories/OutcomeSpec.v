(** OutcomeSpec.v -- vocabulary for the complete descriptions of shifts: when the library
    decides at compile time that a shift needs no check at run time. *)
From Coq Require Import ZArith.
From Verif Require Import Base CType Spec ExceptionPolicy Promotion SafeBase SafeSpec.
Local Open Scope Z_scope.

(** t >> u with a result of type R: the ranges of the operands make it unnecessary (first
    alternative), or the lower bound of the count is not a value of the unsigned type R
    and the comparison with it is undecided (second alternative, a defect) *)
Definition shr_unchecked (D : dmodel) (R : ctype) (t u : otype) : Prop :=
  lim_hi D u <= digits D R /\ 0 <= lim_lo D t
  /\ ((0 <= lim_lo D u /\ in_type D R (lim_hi D t))
      \/ (csigned D R = false /\ lim_lo D t = 0 /\ lim_lo D u < 0
          /\ (in_type D R (lim_hi D t) \/ lim_hi D u < 0))).

(** the type in which a checked division or remainder of a T by a U with a result of type R
    is carried out: signed as R is, and the smallest such type with at least as many digits
    as R, T and U, or the largest such type when there is none *)
Definition div_work (D : dmodel) (R T U W : ctype) : Prop :=
  let wanted := Z.max (digits D R) (Z.max (digits D T) (digits D U)) in
  csigned D W = csigned D R
  /\ (wanted <= digits D W \/ (forall W', csigned D W' = csigned D R -> digits D W' <= digits D W))
  /\ (forall W', csigned D W' = csigned D R -> wanted <= digits D W' -> digits D W <= digits D W').
