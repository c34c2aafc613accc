(** IvOrderFacts.v -- lemmas for PropsIvOrder.v. *)
From Coq Require Import ZArith List Bool Lia.
From Verif Require Import Base CType Spec CTypeFacts CheckedInteger CheckedResultOps CheckedResultFacts Interval IntervalFacts IntervalOpsFacts
  PropsIntervalProofs ExceptionPolicy Promotion SafeBase SafeSpec ElemInterval ElemIntervalSpec ElemIntervalFacts IvOrderSpec.
Import ListNotations.
Local Open Scope Z_scope.

Lemma tri_not_true : forall a, tri_not a = TTrue <-> a = TFalse.
Proof. intros []; split; cbn; congruence. Qed.
Lemma tri_not_false : forall a, tri_not a = TFalse <-> a = TTrue.
Proof. intros []; split; cbn; congruence. Qed.

Lemma weak_order_lemma : forall D R a b c d,
  in_type D R a -> in_type D R b -> in_type D R c -> in_type D R d -> a <= b -> c <= d ->
  (i_le D R (mkI (CVal a) (CVal b)) (mkI (CVal c) (CVal d)) = TTrue <-> forall x y, a <= x <= b -> c <= y <= d -> x < y)
  /\ (i_le D R (mkI (CVal a) (CVal b)) (mkI (CVal c) (CVal d)) = TFalse <-> forall x y, a <= x <= b -> c <= y <= d -> x > y)
  /\ (i_ge D R (mkI (CVal a) (CVal b)) (mkI (CVal c) (CVal d)) = TTrue <-> forall x y, a <= x <= b -> c <= y <= d -> x > y)
  /\ (i_ge D R (mkI (CVal a) (CVal b)) (mkI (CVal c) (CVal d)) = TFalse <-> forall x y, a <= x <= b -> c <= y <= d -> x < y).
Proof.
  intros D R a b c d Ha Hb Hc Hd Hab Hcd. destruct (C19_order D R a b c d Ha Hb Hc Hd Hab Hcd) as (L1 & L2 & G1 & G2).
  unfold i_le, i_ge. rewrite !tri_not_true, !tri_not_false. tauto.
Qed.

Lemma weak_elem_lemma : forall D o t u, elem_ok D o -> ival_ok D o t -> ival_ok D o u ->
  (exists b, returns (v_le D o t u) b /\ (b = TTrue <-> forall x y, inside t x -> inside u y -> x < y)
     /\ (b = TFalse <-> forall x y, inside t x -> inside u y -> y < x))
  /\ (exists b, returns (v_ge D o t u) b /\ (b = TTrue <-> forall x y, inside t x -> inside u y -> y < x)
     /\ (b = TFalse <-> forall x y, inside t x -> inside u y -> x < y)).
Proof.
  intros D o t u Ho Ht Hu. destruct (order_lemma D o t u Ho Ht Hu) as ((l & L & L1 & L2) & (g & G & G1 & G2) & _).
  split.
  - exists (tri_not g). split; [unfold v_le, returns in *; rewrite G; reflexivity|]. rewrite tri_not_true, tri_not_false. auto.
  - exists (tri_not l). split; [unfold v_ge, returns in *; rewrite L; reflexivity|]. rewrite tri_not_true, tri_not_false. auto.
Qed.

Lemma self_lemma : forall D R a b, in_type D R a -> in_type D R b -> a <= b ->
  i_le D R (mkI (CVal a) (CVal b)) (mkI (CVal a) (CVal b)) = TInd /\ i_ge D R (mkI (CVal a) (CVal b)) (mkI (CVal a) (CVal b)) = TInd.
Proof.
  intros D R a b Ha Hb Hab. unfold i_le, i_ge, i_lt, i_gt, cr_gt. cbn [il iu]. rewrite !cr_lt_val by assumption. rewrite !tri_bool_of.
  destruct (Z.ltb_spec b a); [lia|]. split; reflexivity.
Qed.

Lemma self_elem_lemma : forall D o t, elem_ok D o -> ival_ok D o t -> returns (v_le D o t t) TInd /\ returns (v_ge D o t t) TInd.
Proof.
  intros D o t Ho Ht. destruct (relations_exact D o t t (vl t) Ho Ht Ht (proj1 Ht)) as (_ & _ & _ & _ & _ & _ & _ & _ & C & E & _).
  destruct Ht as (_ & _ & L). destruct (Z.ltb_spec (vu t) (vl t)); [lia|]. auto.
Qed.

(** ** infinite ends *)
Definition lend (f : bool) (a : Z) : checked := if f then CVal a else CErr negative_overflow_error.
Definition uend (f : bool) (a : Z) : checked := if f then CVal a else CErr positive_overflow_error.

Lemma ok_cases : forall D R i, interval_ok D R i ->
  exists f g a b, i = mkI (lend f a) (uend g b) /\ in_type D R a /\ in_type D R b /\ a <= b
    /\ forall x, member i x <-> (if f then a <= x else True) /\ (if g then x <= b else True).
Proof.
  intros D R [l u] (HL & HU & (x & M)). cbn [il iu] in *.
  assert (Q : forall f g a b y, member (mkI (lend f a) (uend g b)) y <-> (if f then a <= y else True) /\ (if g then y <= b else True)).
  { intros f g a b y. unfold member. destruct f, g; cbn; split.
    - intros ([E|(a' & E & L)] & [F|(b' & F & K)]); try discriminate. injection E as <-. injection F as <-. lia.
    - intros [L K]. split; right; eauto.
    - intros ([E|(a' & E & L)] & _); try discriminate. injection E as <-. auto.
    - intros [L _]. split; [right; eauto|left; reflexivity].
    - intros (_ & [F|(b' & F & K)]); try discriminate. injection F as <-. auto.
    - intros [_ K]. split; [left; reflexivity|right; eauto].
    - auto.
    - auto. }
  destruct HL as [->|(a & -> & Ha)], HU as [->|(b & -> & Hb)].
  - exists false, false, 0, 0. splits; auto using zero_in; try lia. apply (Q false false 0 0).
  - exists false, true, b, b. splits; auto; try lia. apply (Q false true b b).
  - exists true, false, a, a. splits; auto; try lia. apply (Q true false a a).
  - exists true, true, a, b. splits; auto; [|apply (Q true true a b)]. apply (Q true true a b) in M. lia.
Qed.

(** comparisons of ends *)
Lemma lt_neg_val : forall D R a, cr_lt D R (CErr negative_overflow_error) (CVal a) = TTrue. Proof. reflexivity. Qed.
Lemma lt_val_neg : forall D R a, cr_lt D R (CVal a) (CErr negative_overflow_error) = TFalse. Proof. reflexivity. Qed.
Lemma lt_pos_val : forall D R a, cr_lt D R (CErr positive_overflow_error) (CVal a) = TFalse. Proof. reflexivity. Qed.
Lemma lt_val_pos : forall D R a, cr_lt D R (CVal a) (CErr positive_overflow_error) = TTrue. Proof. reflexivity. Qed.
Lemma lt_neg_pos : forall D R, cr_lt D R (CErr negative_overflow_error) (CErr positive_overflow_error) = TTrue. Proof. reflexivity. Qed.
Lemma lt_pos_neg : forall D R, cr_lt D R (CErr positive_overflow_error) (CErr negative_overflow_error) = TFalse. Proof. reflexivity. Qed.
Lemma lt_neg_neg : forall D R, cr_lt D R (CErr negative_overflow_error) (CErr negative_overflow_error) = TInd. Proof. reflexivity. Qed.
Lemma lt_pos_pos : forall D R, cr_lt D R (CErr positive_overflow_error) (CErr positive_overflow_error) = TInd. Proof. reflexivity. Qed.
Lemma eq_val_err : forall D R a, cr_eq D R (CVal a) (CErr positive_overflow_error) = TFalse /\ cr_eq D R (CVal a) (CErr negative_overflow_error) = TFalse
  /\ cr_eq D R (CErr positive_overflow_error) (CVal a) = TFalse /\ cr_eq D R (CErr negative_overflow_error) (CVal a) = TFalse.
Proof. repeat split. Qed.

Ltac ends := cbn [il iu]; rewrite ?lt_neg_val, ?lt_val_neg, ?lt_pos_val, ?lt_val_pos, ?lt_neg_pos, ?lt_pos_neg, ?lt_neg_neg, ?lt_pos_pos, ?cr_lt_val, ?cr_eq_val by assumption.
Ltac bools := repeat match goal with |- context [?a <? ?b] => destruct (Z.ltb_spec a b) | |- context [?a =? ?b] => destruct (Z.eqb_spec a b) end.

Ltac cases2 Hi Hj := destruct (ok_cases _ _ _ Hi) as (f & g & a & b & -> & Ha & Hb & L & M);
  destruct (ok_cases _ _ _ Hj) as (h & k & c & d & -> & Hc & Hd & K & N); unfold lend, uend in *.
(** use a statement about all members for some of them *)
Ltac try_at X M N x y := exfalso; assert (Wx : member _ x) by (apply M; lia); assert (Wy : member _ y) by (apply N; lia); pose proof (X x y Wx Wy); lia.

Lemma inf_member_lemma : forall D R i x, interval_ok D R i -> in_type D R x ->
  decides (includes_pt D R i (CVal x)) (member i x) /\ decides (excludes_pt D R i (CVal x)) (~ member i x).
Proof.
  intros D R i x Hi Hx. destruct (ok_cases _ _ _ Hi) as (f & g & a & b & -> & Ha & Hb & L & M).
  unfold includes_pt, excludes_pt, cr_le, cr_gt, decides. rewrite M. unfold lend, uend. clear M.
  destruct f, g; ends; bools; cbn; split; try (left; split; [reflexivity|lia]); right; (split; [reflexivity|lia]).
Qed.

Lemma inf_lt : forall D R i j, interval_ok D R i -> interval_ok D R j ->
  (tri_bool (cr_lt D R (iu i) (il j)) = true <-> forall x y, member i x -> member j y -> x < y).
Proof.
  intros D R i j Hi Hj. cases2 Hi Hj.
  split.
  - intros E x y X Y. apply M in X. apply N in Y. destruct g, h; revert E; ends; rewrite ?tri_bool_of; cbn; rewrite ?Z.ltb_lt; try discriminate. lia.
  - intros X. destruct f, g, h, k; ends; rewrite ?tri_bool_of; cbn; rewrite ?Z.ltb_lt.
    all: first [ pose proof (X b c (proj2 (M b) ltac:(lia)) (proj2 (N c) ltac:(lia))); lia
               | exfalso; pose proof (X b (Z.min b c) (proj2 (M b) ltac:(lia)) (proj2 (N (Z.min b c)) ltac:(lia))); lia
               | exfalso; pose proof (X (Z.max b c) c (proj2 (M (Z.max b c)) ltac:(lia)) (proj2 (N c) ltac:(lia))); lia
               | exfalso; pose proof (X (Z.max b c) (Z.min b c) (proj2 (M (Z.max b c)) ltac:(lia)) (proj2 (N (Z.min b c)) ltac:(lia))); lia ].
Qed.

Lemma both_false : forall (P Q : bool), (if P then TTrue else if Q then TFalse else TInd) = TTrue <-> P = true.
Proof. intros [] []; split; congruence. Qed.
Lemma second_false : forall (P Q : bool), ~ (P = true /\ Q = true) -> ((if P then TTrue else if Q then TFalse else TInd) = TFalse <-> Q = true).
Proof. intros [] [] H; split; try congruence. intros _. exfalso. apply H. auto. Qed.

Lemma inf_order_lemma : forall D R i j, interval_ok D R i -> interval_ok D R j ->
  (i_lt D R i j = TTrue <-> forall x y, member i x -> member j y -> x < y)
  /\ (i_lt D R i j = TFalse <-> forall x y, member i x -> member j y -> x > y)
  /\ (i_gt D R i j = TTrue <-> forall x y, member i x -> member j y -> x > y)
  /\ (i_gt D R i j = TFalse <-> forall x y, member i x -> member j y -> x < y)
  /\ (i_le D R i j = TTrue <-> forall x y, member i x -> member j y -> x < y)
  /\ (i_le D R i j = TFalse <-> forall x y, member i x -> member j y -> x > y)
  /\ (i_ge D R i j = TTrue <-> forall x y, member i x -> member j y -> x > y)
  /\ (i_ge D R i j = TFalse <-> forall x y, member i x -> member j y -> x < y).
Proof.
  intros D R i j Hi Hj. pose proof (inf_lt D R i j Hi Hj) as A. pose proof (inf_lt D R j i Hj Hi) as B.
  assert (B' : tri_bool (cr_lt D R (iu j) (il i)) = true <-> forall x y, member i x -> member j y -> x > y).
  { rewrite B. split; intros F x y X Y; [apply Z.lt_gt|apply Z.gt_lt]; auto. }
  assert (X : ~ (tri_bool (cr_lt D R (iu i) (il j)) = true /\ tri_bool (cr_lt D R (iu j) (il i)) = true)).
  { rewrite A, B'. intros [F G]. destruct Hi as (_ & _ & x & Mx), Hj as (_ & _ & y & My). pose proof (F x y Mx My). pose proof (G x y Mx My). lia. }
  assert (X' : ~ (tri_bool (cr_lt D R (iu j) (il i)) = true /\ tri_bool (cr_lt D R (iu i) (il j)) = true)) by (intros [? ?]; auto).
  unfold i_le, i_ge. rewrite !tri_not_true, !tri_not_false. unfold i_lt, i_gt, cr_gt.
  rewrite !both_false, (second_false _ _ X), (second_false _ _ X'). rewrite A, B'. splits; reflexivity.
Qed.

Lemma inf_excludes_lemma : forall D R i j, interval_ok D R i -> interval_ok D R j ->
  decides (excludes D R i j) (forall x, ~ (member i x /\ member j x)).
Proof.
  intros D R i j Hi Hj. cases2 Hi Hj. unfold excludes, decides.
  destruct f, g, h, k; ends; bools; cbn; first
    [ left; split; [reflexivity|]; intros x [X Y]; apply M in X; apply N in Y; lia
    | right; split; [reflexivity|]; intros F;
      first [ exact (F a (conj (proj2 (M a) ltac:(lia)) (proj2 (N a) ltac:(lia))))
            | exact (F c (conj (proj2 (M c) ltac:(lia)) (proj2 (N c) ltac:(lia))))
            | exact (F b (conj (proj2 (M b) ltac:(lia)) (proj2 (N b) ltac:(lia))))
            | exact (F d (conj (proj2 (M d) ltac:(lia)) (proj2 (N d) ltac:(lia))))
            | exact (F (Z.max a c) (conj (proj2 (M (Z.max a c)) ltac:(lia)) (proj2 (N (Z.max a c)) ltac:(lia))))
            | exact (F (Z.min b d) (conj (proj2 (M (Z.min b d)) ltac:(lia)) (proj2 (N (Z.min b d)) ltac:(lia)))) ] ].
Qed.

Lemma inf_includes_lemma : forall D R i j, interval_ok D R i -> interval_ok D R j ->
  (includes D R i j = TTrue -> forall x, member j x -> member i x)
  /\ (includes D R i j = TFalse -> ~ forall x, member j x -> member i x)
  /\ (includes D R i j = TInd -> same_infinite i j)
  /\ (same_infinite i j -> includes D R i j <> TTrue).
Proof.
  intros D R i j Hi Hj. cases2 Hi Hj. unfold includes, cr_ge, cr_le, same_infinite. cbn [il iu].
  destruct f, g, h, k; ends; bools; cbn; splits; try discriminate; try (intros _; tauto); try (intros [[X Y]|[X Y]]; discriminate);
    try (intros _ x X; apply N in X; apply M; lia).
  all: intros _ F; first
     [ assert (member _ c) as Z1 by (apply N; lia); apply F in Z1; apply M in Z1; lia
     | assert (member _ d) as Z1 by (apply N; lia); apply F in Z1; apply M in Z1; lia
     | assert (member _ (Z.max d (b + 1))) as Z1 by (apply N; lia); apply F in Z1; apply M in Z1; lia
     | assert (member _ (Z.min c (a - 1))) as Z1 by (apply N; lia); apply F in Z1; apply M in Z1; lia ].
Qed.

Lemma member_ends : forall f g a b y, member (mkI (lend f a) (uend g b)) y <-> (if f then a <= y else True) /\ (if g then y <= b else True).
Proof.
  intros f g a b y. unfold member. destruct f, g; cbn; split.
  - intros ([E|(a' & E & L)] & [F|(b' & F & K)]); try discriminate. injection E as <-. injection F as <-. lia.
  - intros [L K]. split; right; eauto.
  - intros ([E|(a' & E & L)] & _); try discriminate. injection E as <-. auto.
  - intros [L _]. split; [right; eauto|left; reflexivity].
  - intros (_ & [F|(b' & F & K)]); try discriminate. injection F as <-. auto.
  - intros [_ K]. split; [left; reflexivity|right; eauto].
  - auto.
  - auto.
Qed.

Lemma min_lend : forall D R f h a c, in_type D R a -> in_type D R c ->
  std_min D R (lend f a) (lend h c) = lend (f && h) (Z.min a c) /\ std_max D R (lend f a) (lend h c) = lend (f || h) (if f then if h then Z.max a c else a else c).
Proof.
  intros D R f h a c Ha Hc. unfold std_min, std_max, lend. destruct f, h; ends; rewrite ?tri_bool_of; cbn; bools; split; try reflexivity; f_equal; lia.
Qed.
Lemma max_uend : forall D R f h a c, in_type D R a -> in_type D R c ->
  std_max D R (uend f a) (uend h c) = uend (f && h) (Z.max a c) /\ std_min D R (uend f a) (uend h c) = uend (f || h) (if f then if h then Z.min a c else a else c).
Proof.
  intros D R f h a c Ha Hc. unfold std_min, std_max, uend. destruct f, h; ends; rewrite ?tri_bool_of; cbn; bools; split; try reflexivity; f_equal; lia.
Qed.

Lemma inf_union_lemma : forall D R i j, interval_ok D R i -> interval_ok D R j ->
  forall z, member (i_union D R i j) z <->
    exists x y, (member i x \/ member j x) /\ (member i y \/ member j y) /\ x <= z <= y.
Proof.
  intros D R i j Hi Hj z. destruct (ok_cases _ _ _ Hi) as (f & g & a & b & -> & Ha & Hb & L & M).
  destruct (ok_cases _ _ _ Hj) as (h & k & c & d & -> & Hc & Hd & K & N). unfold i_union. cbn [il iu].
  rewrite (proj1 (min_lend D R f h a c Ha Hc)), (proj1 (max_uend D R g k b d Hb Hd)), member_ends. split.
  - intros [P Q].
    assert (X : exists x, (member (mkI (lend f a) (uend g b)) x \/ member (mkI (lend h c) (uend k d)) x) /\ x <= z).
    { destruct f; [destruct h|]; cbn in P.
      - destruct (Z.le_gt_cases a c); [exists a; split; [left; apply M; destruct g; lia|lia]|exists c; split; [right; apply N; destruct k; lia|lia]].
      - exists (Z.min z d). split; [right; apply N; destruct k; lia|lia].
      - exists (Z.min z b). split; [left; apply M; destruct g; lia|lia]. }
    assert (Y : exists y, (member (mkI (lend f a) (uend g b)) y \/ member (mkI (lend h c) (uend k d)) y) /\ z <= y).
    { destruct g; [destruct k|]; cbn in Q.
      - destruct (Z.le_gt_cases d b); [exists b; split; [left; apply M; destruct f; lia|lia]|exists d; split; [right; apply N; destruct h; lia|lia]].
      - exists (Z.max z c). split; [right; apply N; destruct h; lia|lia].
      - exists (Z.max z a). split; [left; apply M; destruct f; lia|lia]. }
    destruct X as (x & X1 & X2), Y as (y & Y1 & Y2). exists x, y. splits; auto.
  - intros (x & y & X & Y & Z1). rewrite !M, !N in X, Y. clear M N. destruct f, g, h, k; cbn; lia.
Qed.

Lemma inf_inter_lemma : forall D R i j, interval_ok D R i -> interval_ok D R j ->
  forall z, member (i_inter D R i j) z <-> member i z /\ member j z.
Proof.
  intros D R i j Hi Hj z. destruct (ok_cases _ _ _ Hi) as (f & g & a & b & -> & Ha & Hb & L & M).
  destruct (ok_cases _ _ _ Hj) as (h & k & c & d & -> & Hc & Hd & K & N). unfold i_inter. cbn [il iu].
  rewrite (proj2 (min_lend D R f h a c Ha Hc)), (proj2 (max_uend D R g k b d Hb Hd)), member_ends, M, N. clear M N.
  destruct f, g, h, k; cbn; lia.
Qed.

Lemma inf_eq_lemma : forall D R i j, interval_ok D R i -> interval_ok D R j ->
  (i_eq D R i j = true -> forall x, member i x <-> member j x)
  /\ (~ same_infinite i j -> (forall x, member i x <-> member j x) -> i_eq D R i j = true)
  /\ (same_infinite i j -> i_eq D R i j = false)
  /\ i_ne D R i j = negb (i_eq D R i j).
Proof.
  intros D R i j Hi Hj. cases2 Hi Hj. unfold i_ne, i_eq, same_infinite. cbn [il iu]. splits; [| | |reflexivity].
  - intros E x. rewrite M, N. clear M N. revert E. destruct f, g, h, k; ends; cbn; bools; cbn; try discriminate; intros; lia.
  - intros S F.
    assert (F' : forall x, (if f then a <= x else True) /\ (if g then x <= b else True) <-> (if h then c <= x else True) /\ (if k then x <= d else True)) by (intros x; rewrite <- M, <- N; apply F).
    clear M N F Hi Hj. pose proof (F' a). pose proof (F' b). pose proof (F' c). pose proof (F' d).
    pose proof (F' (Z.min a c - 1)). pose proof (F' (Z.max b d + 1)). clear F'.
    destruct f, g, h, k; cbn in S; try (exfalso; apply S; tauto); ends; bools; cbn; try reflexivity; exfalso; lia.
  - intros S. destruct f, g, h, k; cbn in S; try (exfalso; destruct S as [[? ?]|[? ?]]; discriminate); ends; bools; reflexivity.
Qed.

(** ** non-vacuity and refutations *)
Definition from (a : Z) : interval := mkI (CVal a) (CErr positive_overflow_error).
Definition upto (b : Z) : interval := mkI (CErr negative_overflow_error) (CVal b).

Lemma ex_member : forall i x, member i x -> (exists y, member i y). Proof. eauto. Qed.
Lemma from_ok : in_type LP64 Int 5 /\ interval_ok LP64 Int (from 5) /\ interval_ok LP64 Int (upto 3).
Proof.
  assert (A : in_type LP64 Int 5) by (vm_compute; intuition congruence). assert (B : in_type LP64 Int 3) by (vm_compute; intuition congruence).
  splits; [assumption| |]; unfold interval_ok, from, upto; cbn [il iu]; splits; eauto.
  - exists 7. split; cbn; [right; exists 5; split; [reflexivity|lia]|auto].
  - exists 0. split; cbn; [auto|right; exists 3; split; [reflexivity|lia]].
Qed.

Lemma inf_examples :
  i_lt LP64 Int (upto 3) (from 5) = TTrue /\ i_gt LP64 Int (from 5) (upto 3) = TTrue /\ i_lt LP64 Int (upto 3) (from 2) = TInd
  /\ includes LP64 Int (from 5) (mkI (CVal 6) (CVal 9)) = TTrue /\ includes LP64 Int (mkI (CVal 6) (CVal 9)) (from 5) = TFalse
  /\ excludes LP64 Int (from 5) (upto 3) = TTrue /\ excludes LP64 Int (from 3) (upto 3) = TFalse
  /\ i_union LP64 Int (from 5) (mkI (CVal 1) (CVal 2)) = from 1 /\ i_inter LP64 Int (from 5) (mkI (CVal 1) (CVal 7)) = mkI (CVal 5) (CVal 7)
  /\ includes LP64 Int (from 5) (from 5) = TInd /\ i_eq LP64 Int (from 5) (from 5) = false /\ same_infinite (from 5) (from 5).
Proof. splits; try (vm_compute; reflexivity). right. split; reflexivity. Qed.

Lemma weak_refuted : exists D R a b c d, in_type D R a /\ in_type D R b /\ in_type D R c /\ in_type D R d /\ a <= b /\ c <= d
  /\ (forall x y, a <= x <= b -> c <= y <= d -> x <= y /\ y <= x)
  /\ i_le D R (mkI (CVal a) (CVal b)) (mkI (CVal c) (CVal d)) <> TTrue /\ i_ge D R (mkI (CVal a) (CVal b)) (mkI (CVal c) (CVal d)) <> TTrue.
Proof.
  exists LP64, Int, 3, 3, 3, 3. splits; try (vm_compute; intuition congruence). intros; lia.
Qed.
