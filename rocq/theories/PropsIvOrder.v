(** PropsIvOrder.v -- property C98: relations between intervals with infinite ends, and the weak
    comparisons of intervals. Theorem statements only. *)
From Coq Require Import ZArith List Bool.
From Verif Require Import Base CType Spec CheckedInteger Interval ExceptionPolicy Promotion SafeBase SafeSpec
  ElemInterval ElemIntervalSpec IvOrderSpec IvOrderFacts.
Local Open Scope Z_scope.

(** a value is a member or not *)
Theorem C98_members : forall D R i x, interval_ok D R i -> in_type D R x ->
  decides (includes_pt D R i (CVal x)) (member i x) /\ decides (excludes_pt D R i (CVal x)) (~ member i x).
Proof. exact inf_member_lemma. Qed.
Print Assumptions C98_members.

(** < > <= >= : true exactly if it is true strictly for all members, false exactly if the
    opposite is *)
Theorem C98_order : forall D R i j, interval_ok D R i -> interval_ok D R j ->
  (i_lt D R i j = TTrue <-> forall x y, member i x -> member j y -> x < y)
  /\ (i_lt D R i j = TFalse <-> forall x y, member i x -> member j y -> x > y)
  /\ (i_gt D R i j = TTrue <-> forall x y, member i x -> member j y -> x > y)
  /\ (i_gt D R i j = TFalse <-> forall x y, member i x -> member j y -> x < y)
  /\ (i_le D R i j = TTrue <-> forall x y, member i x -> member j y -> x < y)
  /\ (i_le D R i j = TFalse <-> forall x y, member i x -> member j y -> x > y)
  /\ (i_ge D R i j = TTrue <-> forall x y, member i x -> member j y -> x > y)
  /\ (i_ge D R i j = TFalse <-> forall x y, member i x -> member j y -> x < y).
Proof. exact inf_order_lemma. Qed.
Print Assumptions C98_order.

(** so <= and >= are not true of intervals all of whose members are in that order: [3,3] <= [3,3] *)
Theorem C98_weak_order_refuted : exists D R a b c d,
  in_type D R a /\ in_type D R b /\ in_type D R c /\ in_type D R d /\ a <= b /\ c <= d
  /\ (forall x y, a <= x <= b -> c <= y <= d -> x <= y /\ y <= x)
  /\ i_le D R (mkI (CVal a) (CVal b)) (mkI (CVal c) (CVal d)) <> TTrue
  /\ i_ge D R (mkI (CVal a) (CVal b)) (mkI (CVal c) (CVal d)) <> TTrue.
Proof. exact weak_refuted. Qed.
Print Assumptions C98_weak_order_refuted.

Theorem C98_excludes : forall D R i j, interval_ok D R i -> interval_ok D R j ->
  decides (excludes D R i j) (forall x, ~ (member i x /\ member j x)).
Proof. exact inf_excludes_lemma. Qed.
Print Assumptions C98_excludes.

(** inclusion is never answered wrongly, and is answered unless both intervals are infinite on
    the same side. The full statement is: includes D R i j = TTrue <-> every member of j is one of i *)
Theorem C98_includes_partial : forall D R i j, interval_ok D R i -> interval_ok D R j ->
  (includes D R i j = TTrue -> forall x, member j x -> member i x)
  /\ (includes D R i j = TFalse -> ~ forall x, member j x -> member i x)
  /\ (includes D R i j = TInd -> same_infinite i j)
  /\ (same_infinite i j -> includes D R i j <> TTrue).
Proof. exact inf_includes_lemma. Qed.
Print Assumptions C98_includes_partial.

(** equality: intervals that are infinite on the same side are never equal, not even to
    themselves. The full statement is: i_eq D R i j = true <-> they have the same members *)
Theorem C98_equal_partial : forall D R i j, interval_ok D R i -> interval_ok D R j ->
  (i_eq D R i j = true -> forall x, member i x <-> member j x)
  /\ (~ same_infinite i j -> (forall x, member i x <-> member j x) -> i_eq D R i j = true)
  /\ (same_infinite i j -> i_eq D R i j = false)
  /\ i_ne D R i j = negb (i_eq D R i j).
Proof. exact inf_eq_lemma. Qed.
Print Assumptions C98_equal_partial.

(** | is the smallest interval that contains both, & the common members *)
Theorem C98_union : forall D R i j, interval_ok D R i -> interval_ok D R j ->
  forall z, member (i_union D R i j) z <->
    exists x y, (member i x \/ member j x) /\ (member i y \/ member j y) /\ x <= z <= y.
Proof. exact inf_union_lemma. Qed.
Print Assumptions C98_union.

Theorem C98_intersection : forall D R i j, interval_ok D R i -> interval_ok D R j ->
  forall z, member (i_inter D R i j) z <-> member i z /\ member j z.
Proof. exact inf_inter_lemma. Qed.
Print Assumptions C98_intersection.

(** intervals of safe or built-in integers (finite ends): <= and >= *)
Theorem C98_elements_order : forall D o t u, elem_ok D o -> ival_ok D o t -> ival_ok D o u ->
  (exists b, returns (v_le D o t u) b /\ (b = TTrue <-> forall x y, inside t x -> inside u y -> x < y)
     /\ (b = TFalse <-> forall x y, inside t x -> inside u y -> y < x))
  /\ (exists b, returns (v_ge D o t u) b /\ (b = TTrue <-> forall x y, inside t x -> inside u y -> y < x)
     /\ (b = TFalse <-> forall x y, inside t x -> inside u y -> x < y)).
Proof. exact weak_elem_lemma. Qed.
Print Assumptions C98_elements_order.

(** no interval is known to be <= or >= itself *)
Theorem C98_self_refuted : forall D o t, elem_ok D o -> ival_ok D o t ->
  returns (v_le D o t t) TInd /\ returns (v_ge D o t t) TInd.
Proof. exact self_elem_lemma. Qed.
Print Assumptions C98_self_refuted.

Example C98_nonvacuous :
  in_type LP64 Int 5 /\ interval_ok LP64 Int (mkI (CVal 5) (CErr positive_overflow_error))
  /\ interval_ok LP64 Int (mkI (CErr negative_overflow_error) (CVal 3)).
Proof. exact from_ok. Qed.

(** [from 5] is [5,+oo), [upto 3] is (-oo,3] *)
Example C98_answers :
  i_lt LP64 Int (upto 3) (from 5) = TTrue /\ i_gt LP64 Int (from 5) (upto 3) = TTrue /\ i_lt LP64 Int (upto 3) (from 2) = TInd
  /\ includes LP64 Int (from 5) (mkI (CVal 6) (CVal 9)) = TTrue /\ includes LP64 Int (mkI (CVal 6) (CVal 9)) (from 5) = TFalse
  /\ excludes LP64 Int (from 5) (upto 3) = TTrue /\ excludes LP64 Int (from 3) (upto 3) = TFalse
  /\ i_union LP64 Int (from 5) (mkI (CVal 1) (CVal 2)) = from 1 /\ i_inter LP64 Int (from 5) (mkI (CVal 1) (CVal 7)) = mkI (CVal 5) (CVal 7)
  /\ includes LP64 Int (from 5) (from 5) = TInd /\ i_eq LP64 Int (from 5) (from 5) = false /\ same_infinite (from 5) (from 5).
Proof. exact inf_examples. Qed.
