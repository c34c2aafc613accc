(** PropsTight.v -- theorems that complete C06, C29, C57 and C61: every case of a left shift of
    checked integers; all six comparisons answer when the promoted types can hold the operands;
    comparisons that compile have exactly one policy of each kind; and the declared ranges of
    shifts. Theorem statements only. *)
From Coq Require Import ZArith List Bool.
From Verif Require Import Base CType Spec CheckedInteger ExceptionPolicy Promotion SafeBase SafeSpec
  SafeCompare TightFacts.
Local Open Scope Z_scope.

(** C06: t << u on every pair of values of a type. Shifting by zero bits gives the value back,
    also a negative one; other shifts of a non-negative value give t * 2^u if u is less than the
    number of value bits and the result is a value of the type. *)
Theorem C06_every_case : forall D R t u, in_type D R t -> in_type D R u ->
  let good := u = 0 \/ (0 < u < digits D R /\ 0 <= t /\ t * 2 ^ u <= hi D R) in
  (good -> left_shift D R t u = Ok (CVal (t * 2 ^ u)))
  /\ (u < 0 \/ (0 < u <= digits D R /\ t < 0) -> left_shift D R t u = Ok (CErr negative_shift))
  /\ (digits D R < u \/ (0 < u /\ 0 <= t /\ ~ good) -> left_shift D R t u = Ok (CErr shift_too_large)).
Proof. exact left_shift_table. Qed.
Print Assumptions C06_every_case.

Example C06_every_case_nonvacuous :
  left_shift LP64 Int 5 28 = Ok (CVal 1342177280) /\ left_shift LP64 Int 0 31 = Ok (CErr shift_too_large)
  /\ left_shift LP64 Int (-5) 0 = Ok (CVal (-5)) /\ left_shift LP64 Int (-5) 31 = Ok (CErr negative_shift).
Proof. exact left_shift_nonvacuous_lemma. Qed.

(** C29: all six comparisons answer. Native promotion, and the usual arithmetic conversions
    keep both values *)
Theorem C29_native_all_answer : forall D t u x y,
  wf_operand D t -> wf_operand D u -> holds D t x -> holds D u y ->
  (forall E, get_ep t = Some E \/ get_ep u = Some E -> throws_arithmetic E) ->
  (forall P, get_pp t = Some P \/ get_pp u = Some P -> P = Native) ->
  in_type D (uac D (base_ty t) (base_ty u)) x -> in_type D (uac D (base_ty t) (base_ty u)) y ->
  (forall m, s_lt D t u x y = Some m -> returns m (x <? y))
  /\ (forall m, s_gt D t u x y = Some m -> returns m (x >? y))
  /\ (forall m, s_le D t u x y = Some m -> returns m (x <=? y))
  /\ (forall m, s_ge D t u x y = Some m -> returns m (x >=? y))
  /\ (forall m, s_eq D t u x y = Some m -> returns m (x =? y))
  /\ (forall m, s_ne D t u x y = Some m -> returns m (negb (x =? y))).
Proof. exact native_answers_lemma. Qed.
Print Assumptions C29_native_all_answer.

(** automatic promotion, and a 64-bit type holds both declared ranges *)
Theorem C29_automatic_all_answer : forall D t u x y,
  wf_operand D t -> wf_operand D u -> holds D t x -> holds D u y ->
  (forall E, get_ep t = Some E \/ get_ep u = Some E -> throws_arithmetic E) ->
  (forall P, get_pp t = Some P \/ get_pp u = Some P -> P = Automatic) ->
  fits_in D (widest D Add t u) t -> fits_in D (widest D Add t u) u ->
  (forall m, s_lt D t u x y = Some m -> returns m (x <? y))
  /\ (forall m, s_gt D t u x y = Some m -> returns m (x >? y))
  /\ (forall m, s_le D t u x y = Some m -> returns m (x <=? y))
  /\ (forall m, s_ge D t u x y = Some m -> returns m (x >=? y))
  /\ (forall m, s_eq D t u x y = Some m -> returns m (x =? y))
  /\ (forall m, s_ne D t u x y = Some m -> returns m (negb (x =? y))).
Proof. exact automatic_answers_lemma. Qed.
Print Assumptions C29_automatic_all_answer.

(** C57: a comparison compiles only if the operands have a promotion policy between them, and
    only one, and likewise for exception policies *)
Theorem C57_comparison_policies : forall D c t u x y m, compare D c t u x y = Some m ->
  (exists P, (get_pp t = Some P \/ get_pp u = Some P) /\ forall Q, get_pp t = Some Q \/ get_pp u = Some Q -> Q = P)
  /\ (exists E, (get_ep t = Some E \/ get_ep u = Some E) /\ forall F, get_ep t = Some F \/ get_ep u = Some F -> F = E).
Proof. exact comparison_policies_lemma. Qed.
Print Assumptions C57_comparison_policies.

(** the comparisons have instances that answer; two literals without policies do not compile *)
Example C57_comparison_nonvacuous :
  let E := strict_exception_policy in let t := OSafe (safe LP64 Int Native E) in let u := OSafe (safe LP64 UInt Native E) in
  (exists m, s_le LP64 t u 5 7 = Some m /\ returns m true) /\ in_type LP64 (uac LP64 Int UInt) 5
  /\ compare LP64 CLt (OLit SChar 1 None None) (OLit SChar 2 None None) 1 2 = None.
Proof. exact comparison_nonvacuous_lemma. Qed.

(** C61: the declared range of a shift of operands that are never negative *)
Theorem C61_shifts : forall D op t u oi, wf_operand D t -> wf_operand D u -> op_static D op t u = Some oi ->
  let s := oi_type oi in
  (forall x, holds D t x -> in_type D (st s) x) -> (forall y, holds D u y -> in_type D (st s) y) ->
  0 <= lim_lo D t -> 0 <= lim_lo D u ->
  (op = Shl -> lim_lo D t * 2 ^ lim_lo D u <= hi D (st s) ->
     smin s = lim_lo D t * 2 ^ lim_lo D u /\ smax s = Z.min (hi D (st s)) (lim_hi D t * 2 ^ lim_hi D u))
  /\ (op = Shr -> smin s = lim_lo D t / 2 ^ lim_hi D u /\ smax s = lim_hi D t / 2 ^ lim_lo D u).
Proof. exact tight_shifts_lemma. Qed.
Print Assumptions C61_shifts.

Example C61_shifts_nonvacuous :
  let a := OSafe (mkSafe Int 3 100 Native strict_exception_policy) in
  let b := OSafe (mkSafe Int 1 4 Native strict_exception_policy) in
  exists oi oi', op_static LP64 Shl a b = Some oi /\ op_static LP64 Shr a b = Some oi'
    /\ smin (oi_type oi) = 6 /\ smax (oi_type oi) = 1600 /\ smin (oi_type oi') = 0 /\ smax (oi_type oi') = 50.
Proof. exact shifts_nonvacuous_lemma. Qed.
