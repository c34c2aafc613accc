(** IvOrderSpec.v -- specification for C98: intervals whose ends may be infinite. An end that is the
    error "negative overflow" ("positive overflow") of a checked result stands for -oo (+oo). *)
From Coq Require Import ZArith.
From Verif Require Import Base CType Spec CheckedInteger Interval.
Local Open Scope Z_scope.

(** the integers in an interval *)
Definition member (i : interval) (x : Z) : Prop :=
  (il i = CErr negative_overflow_error \/ exists a, il i = CVal a /\ a <= x)
  /\ (iu i = CErr positive_overflow_error \/ exists b, iu i = CVal b /\ x <= b).

(** an interval with finite ends of type R, or infinite ends, that is not empty *)
Definition interval_ok (D : dmodel) (R : ctype) (i : interval) : Prop :=
  (il i = CErr negative_overflow_error \/ exists a, il i = CVal a /\ in_type D R a)
  /\ (iu i = CErr positive_overflow_error \/ exists b, iu i = CVal b /\ in_type D R b)
  /\ exists x, member i x.

(** both intervals are infinite on the same side *)
Definition same_infinite (i j : interval) : Prop :=
  (il i = CErr negative_overflow_error /\ il j = CErr negative_overflow_error)
  \/ (iu i = CErr positive_overflow_error /\ iu j = CErr positive_overflow_error).
