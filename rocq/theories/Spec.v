(** Spec.v -- the small, independent specification used by the property
    statements. It mentions only mathematical integers and the ranges of the
    C++ types; it does not mention any function of the library model. *)
From Coq Require Import ZArith Bool List.
From Verif Require Import Base CType.
Local Open Scope Z_scope.

(** z is a value of the built-in type T *)
Definition in_type (D : dmodel) (T : ctype) (z : Z) : Prop := lo D T <= z <= hi D T.

(** "exact or the right overflow": the library's answer [r] for the exact
    mathematical result [z] in result type [R] *)
Definition exact_or_overflow (D : dmodel) (R : ctype) (z : Z) (r : res checked) : Prop :=
  (in_type D R z -> r = Ok (CVal z))
  /\ (z > hi D R -> r = Ok (CErr positive_overflow_error))
  /\ (z < lo D R -> r = Ok (CErr negative_overflow_error)).

(** C++ remainder of truncated division: the r with t = u * trunc(t/u) + r *)
Definition remainder (t u : Z) : Z := t - u * Z.quot t u.

(** The integers a checked result of type R can stand for: a value stands for
    itself, an overflow for every integer beyond that end of R, any other error
    for any integer. *)
Definition stands_for (D : dmodel) (R : ctype) (c : checked) (z : Z) : Prop :=
  match c with
  | CVal v => z = v
  | CErr positive_overflow_error => z > hi D R
  | CErr negative_overflow_error => z < lo D R
  | CErr _ => True
  end.

(** A checked_result<R> object: its value, if any, is a value of R. *)
Definition cr_ok (D : dmodel) (R : ctype) (c : checked) : Prop :=
  match c with CVal v => in_type D R v | CErr _ => True end.

(** An error bound of an interval as a constraint: a negative (positive)
    overflow as lower (upper) bound is no constraint; a positive (negative)
    overflow as lower (upper) bound says that all members are beyond R. *)
Definition at_least (D : dmodel) (R : ctype) (c : checked) (z : Z) : Prop :=
  match c with
  | CVal v => v <= z
  | CErr negative_overflow_error => True
  | CErr positive_overflow_error => z > hi D R
  | CErr _ => False
  end.
Definition at_most (D : dmodel) (R : ctype) (c : checked) (z : Z) : Prop :=
  match c with
  | CVal v => z <= v
  | CErr positive_overflow_error => True
  | CErr negative_overflow_error => z < lo D R
  | CErr _ => False
  end.

(** The weaker reading used by the library: any error bound is no constraint. *)
Definition above (c : checked) (z : Z) : Prop :=
  match c with CVal v => v <= z | CErr _ => True end.
Definition below (c : checked) (z : Z) : Prop :=
  match c with CVal v => z <= v | CErr _ => True end.

(** A usable end of an interval: a value, or unbounded on that side. *)
Definition lower_end (D : dmodel) (R : ctype) (c : checked) : Prop :=
  (exists v, in_type D R v /\ c = CVal v) \/ c = CErr negative_overflow_error.
Definition upper_end (D : dmodel) (R : ctype) (c : checked) : Prop :=
  (exists v, in_type D R v /\ c = CVal v) \/ c = CErr positive_overflow_error.

(** The answer of a decision procedure for the proposition P. *)
Definition decides (r : tribool) (P : Prop) : Prop :=
  (r = TTrue /\ P) \/ (r = TFalse /\ ~ P).
