(** PropsInterval.v -- properties C13-C20: arithmetic and comparison of checked
    results, and interval arithmetic. *)
From Coq Require Import ZArith Bool List.
From Verif Require Import Base CType Spec CheckedInteger CheckedResultOps Interval
  PropsIntervalProofs.
Import ListNotations.
Local Open Scope Z_scope.

(** C13: a value is only produced when it is the result for all integers the
    operands stand for *)
Theorem C13_checked_result_add : forall D R a b, cr_ok D R a -> cr_ok D R b ->
  exists c, cr_add D R a b = Ok c /\ cr_ok D R c
    /\ forall v x y, c = CVal v -> stands_for D R a x -> stands_for D R b y -> v = x + y.
Proof. exact C13_add. Qed.
Print Assumptions C13_checked_result_add.

Theorem C13_checked_result_sub : forall D R a b, cr_ok D R a -> cr_ok D R b ->
  exists c, cr_sub D R a b = Ok c /\ cr_ok D R c
    /\ forall v x y, c = CVal v -> stands_for D R a x -> stands_for D R b y -> v = x - y.
Proof. exact C13_sub. Qed.
Print Assumptions C13_checked_result_sub.

Theorem C13_checked_result_mul : forall D R a b, cr_ok D R a -> cr_ok D R b ->
  exists c, cr_mul D R a b = Ok c /\ cr_ok D R c
    /\ forall v x y, c = CVal v -> stands_for D R a x -> stands_for D R b y -> v = x * y.
Proof. exact C13_mul. Qed.
Print Assumptions C13_checked_result_mul.

Theorem C13_checked_result_div : forall D R a b, cr_ok D R a -> cr_ok D R b ->
  exists c, cr_div D R a b = Ok c /\ cr_ok D R c
    /\ forall v x y, c = CVal v -> stands_for D R a x -> stands_for D R b y ->
         v = Z.quot x y
         \/ (v = 0 /\ (b = CErr positive_overflow_error \/ b = CErr negative_overflow_error)).
Proof. exact C13_div. Qed.
Print Assumptions C13_checked_result_div.

(** for signed types the 0 of x / overflow is right but for one pair *)
Theorem C13_checked_result_div_signed : forall D R a b v x y,
  lo D R < 0 -> cr_ok D R a -> cr_ok D R b ->
  cr_div D R a b = Ok (CVal v) -> stands_for D R a x -> stands_for D R b y ->
  ~ (x = lo D R /\ y = - lo D R) -> v = Z.quot x y.
Proof. exact C13_div_signed. Qed.
Print Assumptions C13_checked_result_div_signed.

Example C13_nonvacuous :
  cr_ok LP64 Int (CVal 2147483647)
  /\ cr_add LP64 Int (CVal 2147483647) (CVal 1) = Ok (CErr positive_overflow_error)
  /\ cr_add LP64 Int (CVal 40) (CVal 2) = Ok (CVal 42)
  /\ cr_sub LP64 Int (CErr positive_overflow_error) (CErr positive_overflow_error) = Ok (CErr range_error)
  /\ cr_mul LP64 Int (CVal 0) (CErr positive_overflow_error) = Ok (CVal 0)
  /\ cr_div LP64 Int (CVal 7) (CErr positive_overflow_error) = Ok (CVal 0)
  /\ cr_div LP64 Int (CVal (-7)) (CVal 2) = Ok (CVal (-3)).
Proof. vm_compute. intuition congruence. Qed.

(** C14: a definite answer is right for all integers the operands stand for *)
Theorem C14_comparisons_sound : forall D R a b x y, cr_ok D R a -> cr_ok D R b ->
  stands_for D R a x -> stands_for D R b y ->
  (cr_lt D R a b = TTrue -> x < y) /\ (cr_lt D R a b = TFalse -> ~ x < y)
  /\ (cr_gt D R a b = TTrue -> x > y) /\ (cr_gt D R a b = TFalse -> ~ x > y)
  /\ (cr_le D R a b = TTrue -> x <= y) /\ (cr_le D R a b = TFalse -> ~ x <= y)
  /\ (cr_ge D R a b = TTrue -> x >= y) /\ (cr_ge D R a b = TFalse -> ~ x >= y)
  /\ (cr_eq D R a b = TTrue -> x = y) /\ (cr_eq D R a b = TFalse -> x <> y)
  /\ (cr_ne D R a b = TTrue -> x <> y) /\ (cr_ne D R a b = TFalse -> x = y).
Proof. exact C14_sound. Qed.
Print Assumptions C14_comparisons_sound.

Theorem C14_values_decided : forall D R x y, in_type D R x -> in_type D R y ->
  decides (cr_lt D R (CVal x) (CVal y)) (x < y) /\ decides (cr_gt D R (CVal x) (CVal y)) (x > y)
  /\ decides (cr_le D R (CVal x) (CVal y)) (x <= y) /\ decides (cr_ge D R (CVal x) (CVal y)) (x >= y)
  /\ decides (cr_eq D R (CVal x) (CVal y)) (x = y) /\ decides (cr_ne D R (CVal x) (CVal y)) (x <> y).
Proof. exact C14_values. Qed.
Print Assumptions C14_values_decided.

Theorem C14_strict_order : forall D R a b c, cr_ok D R a -> cr_ok D R b -> cr_ok D R c ->
  cr_lt D R a a <> TTrue
  /\ (cr_lt D R a b = TTrue -> cr_lt D R b a <> TTrue)
  /\ (cr_lt D R a b = TTrue -> cr_lt D R b c = TTrue -> cr_lt D R a c = TTrue).
Proof. exact C14_order. Qed.
Print Assumptions C14_strict_order.

Example C14_nonvacuous :
  cr_lt LP64 Int (CVal 3) (CErr positive_overflow_error) = TTrue
  /\ cr_lt LP64 Int (CErr positive_overflow_error) (CVal 3) = TFalse
  /\ cr_lt LP64 Int (CErr positive_overflow_error) (CErr positive_overflow_error) = TInd
  /\ stands_for LP64 Int (CErr positive_overflow_error) 2147483648
  /\ cr_eq LP64 UInt (CVal 3) (CVal 4) = TFalse.
Proof. vm_compute. intuition congruence. Qed.

(** C15: sum, difference and product of intervals *)
Theorem C15_interval_add_sub_mul : forall D R i j,
  lower_end D R (il i) -> upper_end D R (iu i) -> lower_end D R (il j) -> upper_end D R (iu j) ->
  exists s d p, i_add D R i j = Ok s /\ i_sub D R i j = Ok d /\ i_mul D R i j = Ok p
  /\ forall x y, at_least D R (il i) x -> at_most D R (iu i) x ->
       at_least D R (il j) y -> at_most D R (iu j) y ->
       (at_least D R (il s) (x + y) /\ at_most D R (iu s) (x + y))
       /\ (at_least D R (il d) (x - y) /\ at_most D R (iu d) (x - y))
       /\ (at_least D R (il p) (x * y) /\ at_most D R (iu p) (x * y)).
Proof. exact C15_full. Qed.
Print Assumptions C15_interval_add_sub_mul.

Example C15_nonvacuous :
  let i := mkI (CVal (-3)) (CVal 100) in
  let j := mkI (CErr negative_overflow_error) (CVal 2) in
  lower_end LP64 SChar (il i) /\ upper_end LP64 SChar (iu i)
  /\ lower_end LP64 SChar (il j) /\ upper_end LP64 SChar (iu j)
  /\ at_least LP64 SChar (il j) (-1000) /\ at_most LP64 SChar (iu j) (-1000)
  /\ i_add LP64 SChar i j = Ok (mkI (CErr negative_overflow_error) (CVal 102))
  /\ i_mul LP64 SChar i (mkI (CVal (-1)) (CVal 1)) = Ok (mkI (CVal (-100)) (CVal 100))
  /\ i_mul LP64 SChar i j = Ok (mkI (CErr negative_overflow_error) (CErr positive_overflow_error)).
Proof.
  cbv zeta. repeat split; try (vm_compute; congruence).
  - left. exists (-3). vm_compute. intuition congruence.
  - left. exists 100. vm_compute. intuition congruence.
  - right. reflexivity.
  - left. exists 2. vm_compute. intuition congruence.
Qed.

(** C16: quotient of intervals *)
Theorem C16_interval_div : forall D R a b c d,
  in_type D R a -> in_type D R b -> in_type D R c -> in_type D R d -> a <= b -> c <= d ->
  ~ (c <= 0 <= d) ->
  exists k, i_div D R (mkI (CVal a) (CVal b)) (mkI (CVal c) (CVal d)) = Ok k
    /\ forall x y, a <= x <= b -> c <= y <= d ->
         at_least D R (il k) (Z.quot x y) /\ at_most D R (iu k) (Z.quot x y).
Proof. exact C16_full. Qed.
Print Assumptions C16_interval_div.

Example C16_nonvacuous :
  i_div LP64 Int (mkI (CVal (-100)) (CVal 50)) (mkI (CVal (-7)) (CVal (-2)))
    = Ok (mkI (CVal (-25)) (CVal 50))
  /\ i_div LP64 SChar (mkI (CVal (-128)) (CVal 50)) (mkI (CVal (-7)) (CVal (-1)))
    = Ok (mkI (CVal (-50)) (CErr positive_overflow_error)).
Proof. vm_compute. intuition congruence. Qed.

(** C17: remainder of intervals. The full statement is that of C16 with
    [remainder] for Z.quot and i_mod for i_div. It is false of the code. *)
Theorem C17_interval_mod_refuted : exists D R a b c d k x y,
  in_type D R a /\ in_type D R b /\ in_type D R c /\ in_type D R d /\ a <= x <= b /\ c <= y <= d
  /\ ~ (c <= 0 <= d)
  /\ i_mod D R (mkI (CVal a) (CVal b)) (mkI (CVal c) (CVal d)) = Ok k
  /\ ~ below (iu k) (remainder x y).
Proof. exact C17_witness. Qed.
Print Assumptions C17_interval_mod_refuted.

(** It holds when all pairs have the same quotient, for instance for
    single-point intervals (missing: all other intervals). *)
Theorem C17_interval_mod_partial : forall D R a b c d n,
  in_type D R a -> in_type D R b -> in_type D R c -> in_type D R d -> a <= b -> c <= d ->
  ~ (c <= 0 <= d) ->
  ~ (lo D R < 0 /\ a = lo D R /\ c = lo D R) ->
  (forall x y, a <= x <= b -> c <= y <= d -> Z.quot x y = n) ->
  exists k, i_mod D R (mkI (CVal a) (CVal b)) (mkI (CVal c) (CVal d)) = Ok k
    /\ forall x y, a <= x <= b -> c <= y <= d ->
         at_least D R (il k) (remainder x y) /\ at_most D R (iu k) (remainder x y).
Proof. exact C17_full. Qed.
Print Assumptions C17_interval_mod_partial.

Example C17_nonvacuous :
  (Z.quot 17 5 = 3 /\ Z.quot 19 5 = 3)
  /\ i_mod LP64 Int (mkI (CVal 17) (CVal 19)) (mkI (CVal 5) (CVal 5)) = Ok (mkI (CVal 2) (CVal 4)).
Proof. vm_compute. intuition congruence. Qed.

(** C18: shifts of intervals by legal counts *)
Theorem C18_interval_shl : forall D R a b c d,
  in_type D R a -> in_type D R b -> in_type D R c -> in_type D R d -> a <= b -> 0 <= c <= d ->
  exists k, i_shl D R (mkI (CVal a) (CVal b)) (mkI (CVal c) (CVal d)) = Ok k
    /\ forall x y, a <= x <= b -> c <= y <= d ->
         above (il k) (x * 2 ^ y) /\ below (iu k) (x * 2 ^ y).
Proof. exact C18_shl. Qed.
Print Assumptions C18_interval_shl.

Theorem C18_interval_shr : forall D R a b c d,
  in_type D R a -> in_type D R b -> in_type D R c -> in_type D R d -> a <= b -> 0 <= c <= d ->
  (lo D R < 0 \/ d < digits D R) ->
  exists k, i_shr D R (mkI (CVal a) (CVal b)) (mkI (CVal c) (CVal d)) = Ok k
    /\ forall x y, a <= x <= b -> c <= y <= d -> 0 <= x ->
         above (il k) (x / 2 ^ y) /\ below (iu k) (x / 2 ^ y).
Proof. exact C18_shr. Qed.
Print Assumptions C18_interval_shr.

(** the count that equals the width of an unsigned type is not computed *)
Theorem C18_interval_shr_by_width : exists D R a b c d,
  in_type D R a /\ in_type D R b /\ in_type D R c /\ in_type D R d /\ a <= b /\ 0 <= c <= d
  /\ d <= width D R /\ i_shr D R (mkI (CVal a) (CVal b)) (mkI (CVal c) (CVal d)) = UB.
Proof. exact C18_witness. Qed.
Print Assumptions C18_interval_shr_by_width.

Example C18_nonvacuous :
  i_shl LP64 Int (mkI (CVal (-3)) (CVal 5)) (mkI (CVal 1) (CVal 4)) = Ok (mkI (CVal (-48)) (CVal 80))
  /\ i_shl LP64 Int (mkI (CVal 0) (CVal 5)) (mkI (CVal 1) (CVal 40))
     = Ok (mkI (CVal 0) (CErr positive_overflow_error))
  /\ i_shr LP64 Int (mkI (CVal (-9)) (CVal 80)) (mkI (CVal 1) (CVal 4)) = Ok (mkI (CVal (-4)) (CVal 40)).
Proof. vm_compute. intuition congruence. Qed.

(** C19: relations between intervals *)
Theorem C19_point_membership : forall D R a b t, in_type D R a -> in_type D R b -> in_type D R t ->
  decides (includes_pt D R (mkI (CVal a) (CVal b)) (CVal t)) (a <= t <= b)
  /\ decides (excludes_pt D R (mkI (CVal a) (CVal b)) (CVal t)) (~ (a <= t <= b)).
Proof. exact C19_membership. Qed.
Print Assumptions C19_point_membership.

Theorem C19_includes_excludes : forall D R a b c d,
  in_type D R a -> in_type D R b -> in_type D R c -> in_type D R d -> a <= b -> c <= d ->
  decides (includes D R (mkI (CVal a) (CVal b)) (mkI (CVal c) (CVal d)))
          (forall t, c <= t <= d -> a <= t <= b)
  /\ decides (excludes D R (mkI (CVal a) (CVal b)) (mkI (CVal c) (CVal d)))
          (forall t, ~ (c <= t <= d /\ a <= t <= b)).
Proof. exact C19_includes. Qed.
Print Assumptions C19_includes_excludes.

Theorem C19_less_greater : forall D R a b c d,
  in_type D R a -> in_type D R b -> in_type D R c -> in_type D R d -> a <= b -> c <= d ->
  (i_lt D R (mkI (CVal a) (CVal b)) (mkI (CVal c) (CVal d)) = TTrue <->
     forall x y, a <= x <= b -> c <= y <= d -> x < y)
  /\ (i_lt D R (mkI (CVal a) (CVal b)) (mkI (CVal c) (CVal d)) = TFalse <->
     forall x y, a <= x <= b -> c <= y <= d -> x > y)
  /\ (i_gt D R (mkI (CVal a) (CVal b)) (mkI (CVal c) (CVal d)) = TTrue <->
     forall x y, a <= x <= b -> c <= y <= d -> x > y)
  /\ (i_gt D R (mkI (CVal a) (CVal b)) (mkI (CVal c) (CVal d)) = TFalse <->
     forall x y, a <= x <= b -> c <= y <= d -> x < y).
Proof. exact C19_order. Qed.
Print Assumptions C19_less_greater.

Theorem C19_equal : forall D R a b c d,
  in_type D R a -> in_type D R b -> in_type D R c -> in_type D R d -> a <= b -> c <= d ->
  (i_eq D R (mkI (CVal a) (CVal b)) (mkI (CVal c) (CVal d)) = true <->
     forall t, a <= t <= b <-> c <= t <= d)
  /\ i_ne D R (mkI (CVal a) (CVal b)) (mkI (CVal c) (CVal d))
     = negb (i_eq D R (mkI (CVal a) (CVal b)) (mkI (CVal c) (CVal d))).
Proof. exact C19_eq. Qed.
Print Assumptions C19_equal.

Theorem C19_union_hull : forall D R a b c d,
  in_type D R a -> in_type D R b -> in_type D R c -> in_type D R d -> a <= b -> c <= d ->
  exists l u, i_union D R (mkI (CVal a) (CVal b)) (mkI (CVal c) (CVal d)) = mkI (CVal l) (CVal u)
    /\ (forall t, a <= t <= b \/ c <= t <= d -> l <= t <= u)
    /\ (forall l' u', (forall t, a <= t <= b \/ c <= t <= d -> l' <= t <= u') -> l' <= l /\ u <= u').
Proof. exact C19_hull. Qed.
Print Assumptions C19_union_hull.

Theorem C19_intersection : forall D R a b c d,
  in_type D R a -> in_type D R b -> in_type D R c -> in_type D R d ->
  exists l u, i_inter D R (mkI (CVal a) (CVal b)) (mkI (CVal c) (CVal d)) = mkI (CVal l) (CVal u)
    /\ (forall t, l <= t <= u <-> a <= t <= b /\ c <= t <= d).
Proof. exact C19_meet. Qed.
Print Assumptions C19_intersection.

Example C19_nonvacuous :
  includes LP64 Int (mkI (CVal 0) (CVal 9)) (mkI (CVal 2) (CVal 5)) = TTrue
  /\ includes LP64 Int (mkI (CVal 0) (CVal 9)) (mkI (CVal 2) (CVal 15)) = TFalse
  /\ excludes LP64 Int (mkI (CVal 0) (CVal 9)) (mkI (CVal 12) (CVal 15)) = TTrue
  /\ i_lt LP64 Int (mkI (CVal 0) (CVal 9)) (mkI (CVal 12) (CVal 15)) = TTrue
  /\ i_lt LP64 Int (mkI (CVal 0) (CVal 13)) (mkI (CVal 12) (CVal 15)) = TInd
  /\ i_union LP64 Int (mkI (CVal 0) (CVal 1)) (mkI (CVal 12) (CVal 15)) = mkI (CVal 0) (CVal 15)
  /\ i_inter LP64 Int (mkI (CVal 0) (CVal 13)) (mkI (CVal 12) (CVal 15)) = mkI (CVal 12) (CVal 13).
Proof. vm_compute. intuition congruence. Qed.

(** C20: intersect(i,j). The full statement is
      decides (intersect D R i j) (exists t, t in i and in j)
    for non-empty i and j. It is false of the code, which answers true always. *)
Theorem C20_intersect_refuted : exists D R a b c d,
  in_type D R a /\ in_type D R b /\ in_type D R c /\ in_type D R d /\ a <= b /\ c <= d
  /\ intersect D R (mkI (CVal a) (CVal b)) (mkI (CVal c) (CVal d)) = TTrue
  /\ ~ exists t, a <= t <= b /\ c <= t <= d.
Proof. exact C20_witness. Qed.
Print Assumptions C20_intersect_refuted.

Theorem C20_intersect_always_true : forall D R a b c d,
  in_type D R a -> in_type D R b -> in_type D R c -> in_type D R d -> a <= b -> c <= d ->
  intersect D R (mkI (CVal a) (CVal b)) (mkI (CVal c) (CVal d)) = TTrue.
Proof. exact C20_always. Qed.
Print Assumptions C20_intersect_always_true.

(** missing: the converse *)
Theorem C20_intersect_partial : forall D R a b c d,
  in_type D R a -> in_type D R b -> in_type D R c -> in_type D R d ->
  (exists t, a <= t <= b /\ c <= t <= d) ->
  intersect D R (mkI (CVal a) (CVal b)) (mkI (CVal c) (CVal d)) = TTrue.
Proof. exact C20_full. Qed.
Print Assumptions C20_intersect_partial.

Example C20_nonvacuous :
  intersect LP64 Int (mkI (CVal 0) (CVal 13)) (mkI (CVal 12) (CVal 15)) = TTrue.
Proof. reflexivity. Qed.
