(** CheckedShiftFacts.v -- shifts, remainder and bitwise operators of checked results. *)
From Coq Require Import ZArith Bool List Lia.
From Verif Require Import Base CType Spec CTypeFacts Utility UtilityFacts SafeCompare
  CheckedInteger CheckedIntegerFacts CheckedResultOps CheckedResultFacts Interval IntervalFacts
  IntervalOpsFacts SafeShiftFacts PropsCheckedProofs CheckedShiftSpec.
Local Open Scope Z_scope.
Local Open Scope res_scope.

Lemma rnd_reports : forall D R c z, rnd D R c z -> z < 0 \/ rnd_strict D R c z -> reports D R c z.
Proof.
  intros D R [v|e] z H K; cbn in *; [congruence|]. pose proof (hi_ge_127 D R).
  destruct e; cbn in *; try tauto; destruct K; lia.
Qed.
Lemma quot_pow_small : forall t n, 0 <= n -> Z.abs t < 2 ^ n -> Z.quot t (2 ^ n) = 0.
Proof. intros t n Hn H. apply quot_small_abs. pose proof (pow2_pos n Hn). lia. Qed.
Lemma lt_pow2 : forall n, 0 <= n -> n < 2 ^ n.
Proof. intros n Hn. apply Z.pow_gt_lin_r; lia. Qed.
Lemma abs_bound : forall D R t, in_type D R t -> Z.abs t <= hi D R + 1.
Proof.
  intros D R t H. pose proof (hi_ge_127 D R). unfold in_type in *.
  destruct (Z_lt_ge_dec t 0) as [L|L]; [|lia].
  pose proof (hi_pos_lo D R (signed_of_neg D R t H L)). lia.
Qed.
(** beyond the counts of the type everything is shifted out *)
Lemma shifted_out : forall D R t u, in_type D R t -> u > hi D R -> Z.quot t (2 ^ u) = 0.
Proof.
  intros D R t u Ht Hu. pose proof (hi_ge_127 D R). pose proof (abs_bound D R t Ht).
  apply quot_pow_small; [lia|]. pose proof (lt_pow2 u). lia.
Qed.
Lemma shifted_over : forall D R t u, u > hi D R ->
  (0 < t -> t * 2 ^ u > hi D R) /\ (t < 0 -> t * 2 ^ u < lo D R).
Proof.
  intros D R t u Hu. pose proof (hi_ge_127 D R). pose proof (lt_pow2 u ltac:(lia)).
  split; intros Ht; [nia|].
  destruct (csigned D R) eqn:S; [pose proof (hi_pos_lo D R S); nia|].
  assert (lo D R = 0) by (unfold lo; rewrite S; reflexivity). nia.
Qed.

Lemma shr_nonneg_signed : forall n D R t u, in_type D R t -> in_type D R u -> 0 <= t -> 0 <= u -> csigned D R = true ->
  cr_shift (S n) false D R (CVal t) (CVal u) = Ok (CVal (Z.quot t (2 ^ u))).
Proof.
  intros n D R t u Ht Hu Ht0 Hu0 S.
  rewrite Z.quot_div_nonneg; [|lia|apply pow2_pos; lia].
  destruct (cr_shr_nonneg n D R t u Ht Hu Ht0 Hu0) as [E|(_ & E & _)]; [assumption|congruence].
Qed.

(** values, left shift *)
Lemma shl_values : forall D R t u, in_type D R t -> in_type D R u ->
  exists c, cr_shl D R (CVal t) (CVal u) = Ok c /\ cr_ok D R c /\ reports D R c (shifted t u).
Proof.
  intros D R t u Ht Hu. unfold cr_shl, shifted. destruct (Z.leb_spec 0 u) as [Hu0|Hu0].
  - pose proof (pow2_pos u Hu0). destruct (Z_lt_ge_dec t 0) as [L|L].
    + destruct (cr_shl_neg 2 D R t u Ht Hu L Hu0) as (c & -> & O & K). exists c. splits; auto.
      apply rnd_reports; [assumption|]. left. nia.
    + destruct (cr_shl_nonneg 3 D R t u Ht Hu ltac:(lia) Hu0) as (c & -> & O & K). exists c. splits; auto.
      apply rnd_reports; [apply rnd_strict_rnd; assumption|]. right. assumption.
  - pose proof (signed_of_neg D R u Hu Hu0) as S. destruct (cr_neg_val D R u Hu) as (c & Ec & Oc & Kc).
    remember 3%nat as n eqn:En. cbn [cr_shift]. rewrite !to_pflag_val by assumption.
    destruct (Z.ltb_spec u 0); [|lia]. destruct (Z.eq_dec t 0) as [->|N].
    { exists (CVal 0). splits; [reflexivity|apply zero_in|]. unfold reports. rewrite Z.quot_0_l; [reflexivity|].
      pose proof (pow2_pos (- u)). lia. }
    assert (Hi : lookup 0%nat shl_table (pidx (if t <? 0 then less_than_zero else if 0 <? t then greater_than_zero else zero))
                   (pidx less_than_zero) = if t <? 0 then 4%nat else 7%nat).
    { destruct (Z.ltb_spec t 0); [reflexivity|]. destruct (Z.ltb_spec 0 t); [reflexivity|lia]. }
    rewrite Hi.
    assert (G : exists c, (let* nu := cr_neg D R (CVal u) in cr_shift n (negb true) D R (CVal t) nu) = Ok c
               /\ cr_ok D R c /\ reports D R c (Z.quot t (2 ^ - u))).
    { rewrite Ec. cbn [rbind negb]. destruct c as [v|e]; cbn in Kc.
      - subst v. cbn in Oc. exists (CVal (Z.quot t (2 ^ - u))).
        assert (I : in_type D R (Z.quot t (2 ^ - u))).
        { pose proof (pow2_pos (- u) ltac:(lia)). pose proof (lo_le_0 D R). pose proof (hi_ge_127 D R). unfold in_type in *.
          destruct (Z_lt_ge_dec t 0).
          - pose proof (Z.quot_le_mono t 0 (2 ^ - u) ltac:(lia) ltac:(lia)) as Q. rewrite Z.quot_0_l in Q by lia.
            assert (t <= Z.quot t (2 ^ - u)); [|lia].
            replace t with (- (- t)) at 2 by lia. rewrite Z.quot_opp_l by lia.
            pose proof (Z.quot_le_upper_bound (- t) (2 ^ - u) (- t)). nia.
          - pose proof (Z.quot_pos t (2 ^ - u) ltac:(lia) ltac:(lia)).
            pose proof (Z.quot_le_upper_bound t (2 ^ - u) t). nia. }
        splits; [|exact I|reflexivity]. subst n. destruct (Z_lt_ge_dec t 0).
        + apply (cr_shr_neg 1); auto; lia.
        + apply (shr_nonneg_signed 2); auto; lia.
      - pose proof (hi_ge_127 D R). pose proof (lo_le_0 D R). destruct e; try tauto; [|lia].
        exists (CVal 0). splits; [|apply zero_in|].
        + subst n. cbn [cr_shift]. rewrite to_pflag_val by assumption.
          destruct (Z.ltb_spec t 0); [reflexivity|]. destruct (Z.ltb_spec 0 t); [reflexivity|lia].
        + cbn. symmetry. apply (shifted_out D R); assumption. }
    destruct (t <? 0); exact G.
Qed.

Lemma shr_neg_count : forall D R t u, in_type D R t -> in_type D R u -> u < 0 ->
  exists c, cr_shr D R (CVal t) (CVal u) = Ok c /\ cr_ok D R c /\ reports D R c (t * 2 ^ - u).
Proof.
  intros D R t u Ht Hu Hu0. unfold cr_shr.
  pose proof (signed_of_neg D R u Hu Hu0) as S. destruct (cr_neg_val D R u Hu) as (c & Ec & Oc & Kc).
  remember 3%nat as n eqn:En. cbn [cr_shift]. rewrite !to_pflag_val by assumption.
  destruct (Z.ltb_spec u 0); [|lia]. destruct (Z.eq_dec t 0) as [->|N].
  { exists (CVal 0). splits; [reflexivity|apply zero_in|reflexivity]. }
  assert (Hi : lookup 0%nat shr_table (pidx (if t <? 0 then less_than_zero else if 0 <? t then greater_than_zero else zero))
                 (pidx less_than_zero) = if t <? 0 then 4%nat else 7%nat).
  { destruct (Z.ltb_spec t 0); [reflexivity|]. destruct (Z.ltb_spec 0 t); [reflexivity|lia]. }
  rewrite Hi.
  assert (G : exists c, (let* nu := cr_neg D R (CVal u) in cr_shift n (negb false) D R (CVal t) nu) = Ok c
             /\ cr_ok D R c /\ reports D R c (t * 2 ^ - u)).
  { rewrite Ec. cbn [rbind negb]. pose proof (pow2_pos (- u) ltac:(lia)). destruct c as [v|e]; cbn in Kc.
    - subst v. cbn in Oc. subst n. destruct (Z_lt_ge_dec t 0) as [L|L].
      + destruct (cr_shl_neg 1 D R t (- u) Ht Oc L ltac:(lia)) as (c & -> & O & K). exists c. splits; auto.
        apply rnd_reports; [assumption|]. left. nia.
      + destruct (cr_shl_nonneg 2 D R t (- u) Ht Oc ltac:(lia) ltac:(lia)) as (c & -> & O & K). exists c. splits; auto.
        apply rnd_reports; [apply rnd_strict_rnd; assumption|]. right. assumption.
    - pose proof (hi_ge_127 D R). pose proof (lo_le_0 D R). destruct e; try tauto; [|lia].
      destruct (shifted_over D R t (- u) ltac:(lia)) as [P Q].
      subst n. cbn [cr_shift]. rewrite to_pflag_val by assumption.
      destruct (Z.ltb_spec t 0); [|destruct (Z.ltb_spec 0 t); [|lia]]; (eexists; split; [reflexivity|]; split; [exact Logic.I|]; cbn; lia). }
  destruct (t <? 0); exact G.
Qed.

Lemma shr_nonneg_count : forall D R t u, in_type D R t -> in_type D R u -> 0 <= u ->
  ~ (0 < t /\ lo D R = 0 /\ width D (promote D R) = width D R /\ u = width D R) ->
  cr_shr D R (CVal t) (CVal u) = Ok (CVal (Z.quot t (2 ^ u))).
Proof.
  intros D R t u Ht Hu Hu0 Hn. unfold cr_shr. destruct (Z_lt_ge_dec t 0) as [L|L].
  - apply (cr_shr_neg 2); assumption.
  - rewrite Z.quot_div_nonneg; [|lia|apply pow2_pos; lia].
    destruct (cr_shr_nonneg 3 D R t u Ht Hu ltac:(lia) Hu0) as [E|(E & Ns & E2)]; [assumption|].
    exfalso. apply Hn. revert E. cbn [cr_shift]. rewrite !to_pflag_val by assumption.
    destruct (Z.ltb_spec t 0); [lia|]. destruct (Z.ltb_spec u 0); [lia|].
    pose proof (digits_pos D R). destruct (Z.ltb_spec 0 u); [|lia].
    destruct (Z.ltb_spec 0 t) as [T0|T0]; unfold lookup; cbn [pidx nth shr_table rbind cr_value]; [|discriminate].
    intros E. assert (K : right_shift D R t u = UB) by (destruct (right_shift D R t u) as [[v|[]]|]; cbn in E; congruence).
    apply C07_ub_iff in K; [|assumption|assumption]. tauto.
Qed.
Lemma shr_by_width : forall D R t u, in_type D R t -> in_type D R u ->
  0 < t /\ lo D R = 0 /\ width D (promote D R) = width D R /\ u = width D R ->
  cr_shr D R (CVal t) (CVal u) = UB.
Proof.
  intros D R t u Ht Hu (T0 & K). pose proof (digits_pos D R) as P. pose proof (width_cases D R) as W.
  unfold cr_shr. remember 3%nat as n. cbn [cr_shift]. rewrite !to_pflag_val by assumption.
  destruct (Z.ltb_spec t 0); [lia|]. destruct (Z.ltb_spec u 0); [lia|].
  destruct (Z.ltb_spec 0 u); [|lia]. destruct (Z.ltb_spec 0 t); [|lia].
  unfold lookup. cbn [pidx nth shr_table rbind cr_value].
  rewrite (proj2 (C07_ub_iff D R t u Ht Hu)) by tauto. reflexivity.
Qed.

(** operands that are errors *)
Lemma mul_pos : forall x p, 0 < x -> 0 < p -> 0 < x * p. Proof. intros. nia. Qed.
Lemma quot_sign : forall x p, 0 < p -> (0 <= x -> 0 <= Z.quot x p) /\ (x <= 0 -> Z.quot x p <= 0).
Proof.
  intros x p Hp. split; intros H; [apply Z.quot_pos; lia|].
  pose proof (Z.quot_pos (- x) p ltac:(lia) Hp) as Q. rewrite Z.quot_opp_l in Q by lia. lia.
Qed.
Lemma shifted_sign : forall x y, (0 <= x -> 0 <= shifted x y) /\ (x <= 0 -> shifted x y <= 0).
Proof.
  intros x y. unfold shifted. destruct (Z.leb_spec 0 y).
  - pose proof (pow2_pos y). nia.
  - apply quot_sign. apply pow2_pos. lia.
Qed.
Lemma shifted_0 : forall y, shifted 0 y = 0.
Proof. intros y. pose proof (shifted_sign 0 y). lia. Qed.
Lemma shifted_far : forall D R t y, in_type D R t -> lo D R < 0 -> y < lo D R -> shifted t y = 0.
Proof.
  intros D R t y Ht Hs Hy. unfold shifted. destruct (Z.leb_spec 0 y); [lia|].
  apply (shifted_out D R); auto. pose proof (hi_pos_lo D R (signed_of_neg D R (lo D R) (lo_in D R) Hs)). lia.
Qed.
Lemma shifted_far_right : forall D R t y, in_type D R t -> y > hi D R -> shifted t (- y) = 0.
Proof.
  intros D R t y Ht Hy. unfold shifted. pose proof (hi_ge_127 D R).
  destruct (Z.leb_spec 0 (- y)); [lia|]. apply (shifted_out D R); auto. lia.
Qed.

Ltac sides := repeat match goal with
  | H : stands_for _ _ (CVal _) _ |- _ => cbn in H; subst
  | H : stands_for _ _ (CErr _) _ |- _ => cbn in H end.

Lemma shl_sound : forall D R a b, cr_ok D R a -> cr_ok D R b ->
  exists c, cr_shl D R a b = Ok c /\ cr_ok D R c
    /\ forall x y, stands_for D R a x -> stands_for D R b y ->
         side D R c (shifted x y)
         /\ forall v, c = CVal v -> v = shifted x y \/ (v = 0 /\ lo D R = 0 /\ b = CErr negative_overflow_error).
Proof.
  intros D R a b Ha Hb. pose proof (hi_ge_127 D R) as P1. pose proof (lo_le_0 D R) as P2.
  assert (V : (exists t u, a = CVal t /\ b = CVal u) \/ ~ (exists t u, a = CVal t /\ b = CVal u)).
  { destruct a, b; [left; eauto|right; intros (t & u & X & Y); discriminate..]. }
  destruct V as [(t & u & -> & ->)|V].
  { destruct (shl_values D R t u Ha Hb) as (c & E & O & K). exists c. splits; auto.
    intros x y Hx Hy. cbn in Hx, Hy. subst x y. split.
    - destruct c as [v|e]; cbn in *; [trivial|]. destruct e; cbn in *; lia.
    - intros v ->. left. exact K. }
  unfold cr_shl. remember 3%nat as n. cbn [cr_shift]. clear Heqn.
  pflag a Ha; pflag b Hb; try (exfalso; apply V; eauto; fail);
  unfold lookup; cbn [pidx nth shl_table rbind cr_value];
  eexists; (split; [reflexivity|split; [first [exact Logic.I|apply zero_in]|]]);
  intros x y Hx Hy; sides;
  (split; [cbn [side]; try exact Logic.I; try (match goal with |- context [shifted ?x ?y] => pose proof (shifted_sign x y) end; lia)
          |intros w Hw; try discriminate; injection Hw as <-]);
  try (left; symmetry; apply shifted_0; fail).
  all: try (destruct (Z.eq_dec (lo D R) 0) as [Z0|Z0];
    [right; splits; auto; fail|left; symmetry; apply (shifted_far D R); auto; lia]).
Qed.

Lemma shr_sound : forall D R a b, cr_ok D R a -> cr_ok D R b ->
  ~ (exists t, 0 < t /\ a = CVal t /\ lo D R = 0 /\ width D (promote D R) = width D R /\ b = CVal (width D R)) ->
  exists c, cr_shr D R a b = Ok c /\ cr_ok D R c
    /\ forall x y, stands_for D R a x -> stands_for D R b y ->
         side D R c (shifted x (- y)) /\ forall v, c = CVal v -> v = shifted x (- y).
Proof.
  intros D R a b Ha Hb Hn. pose proof (hi_ge_127 D R) as P1. pose proof (lo_le_0 D R) as P2.
  assert (V : (exists t u, a = CVal t /\ b = CVal u) \/ ~ (exists t u, a = CVal t /\ b = CVal u)).
  { destruct a, b; [left; eauto|right; intros (t & u & X & Y); discriminate..]. }
  destruct V as [(t & u & -> & ->)|V].
  { cbn in Ha, Hb. destruct (Z_lt_ge_dec u 0) as [L|L].
    - destruct (shr_neg_count D R t u Ha Hb L) as (c & E & O & K). exists c. splits; auto.
      intros x y Hx Hy. cbn in Hx, Hy. subst x y.
      replace (shifted t (- u)) with (t * 2 ^ - u) by (unfold shifted; destruct (Z.leb_spec 0 (- u)); [reflexivity|lia]).
      split.
      + destruct c as [v|e]; cbn in *; [trivial|]. destruct e; cbn in *; lia.
      + intros v ->. exact K.
    - rewrite (shr_nonneg_count D R t u Ha Hb ltac:(lia)).
      2: { intros (T0 & L0 & W & ->). apply Hn. exists t. splits; auto. }
      eexists. split; [reflexivity|]. assert (Q : Z.quot t (2 ^ u) = shifted t (- u)).
      { unfold shifted. destruct (Z.leb_spec 0 (- u)); [|rewrite Z.opp_involutive; reflexivity].
        replace u with 0 by lia. cbn. rewrite Z.quot_1_r. lia. }
      split.
      + cbn. pose proof (pow2_pos u ltac:(lia)). unfold in_type in *.
        pose proof (Z.quot_abs t (2 ^ u) ltac:(lia)) as A. rewrite (Z.abs_eq (2 ^ u)) in A by lia.
        pose proof (Z.quot_le_upper_bound (Z.abs t) (2 ^ u) (Z.abs t) ltac:(lia) ltac:(nia)).
        pose proof (quot_sign t (2 ^ u) ltac:(lia)). lia.
      + intros x y Hx Hy. cbn in Hx, Hy. subst x y. split; [exact Logic.I|]. intros v Hv. injection Hv as <-. exact Q. }
  unfold cr_shr. remember 3%nat as n. cbn [cr_shift]. clear Heqn.
  pflag a Ha; pflag b Hb; try (exfalso; apply V; eauto; fail);
  unfold lookup; cbn [pidx nth shr_table rbind cr_value];
  eexists; (split; [reflexivity|split; [first [exact Logic.I|apply zero_in]|]]);
  intros x y Hx Hy; sides;
  (split; [cbn [side]; try exact Logic.I; try (match goal with |- context [shifted ?x ?y] => pose proof (shifted_sign x y) end; lia)
          |intros w Hw; try discriminate; injection Hw as <-]);
  try (symmetry; apply shifted_0; fail); symmetry; apply (shifted_far_right D R); auto.
Qed.

(** the direction reported by + - * / *)
Lemma add_side : forall D R a b c x y, cr_ok D R a -> cr_ok D R b -> cr_add D R a b = Ok c ->
  stands_for D R a x -> stands_for D R b y -> side D R c (x + y).
Proof.
  intros D R a b c x y Ha Hb E Hx Hy. pose proof (hi_ge_127 D R) as P1. pose proof (lo_le_0 D R) as P2.
  destruct a as [v|e], b as [w|f].
  - cbn in Ha, Hb, Hx, Hy. subst. unfold cr_add in E. cbn in E.
    destruct (eoo_cases _ _ _ _ (add_spec D R v w Ha Hb)) as [[Hi K]|[[Hi K]|[Hi K]]]; rewrite K in E; injection E as <-; cbn; lia.
  - cbn in Ha, Hx. subst x. unfold in_type in Ha. destruct f; cbn in E, Hy; injection E as <-; cbn; try lia; trivial.
  - cbn in Hb, Hy. subst y. unfold in_type in Hb. destruct e; cbn in E, Hx; injection E as <-; cbn; try lia; trivial.
  - destruct e, f; cbn in E, Hx, Hy; injection E as <-; cbn; try lia; trivial.
Qed.
Lemma sub_side : forall D R a b c x y, cr_ok D R a -> cr_ok D R b -> cr_sub D R a b = Ok c ->
  stands_for D R a x -> stands_for D R b y -> side D R c (x - y).
Proof.
  intros D R a b c x y Ha Hb E Hx Hy. pose proof (hi_ge_127 D R) as P1. pose proof (lo_le_0 D R) as P2.
  destruct a as [v|e], b as [w|f].
  - cbn in Ha, Hb, Hx, Hy. subst. unfold cr_sub in E. cbn in E.
    destruct (eoo_cases _ _ _ _ (subtract_spec D R v w Ha Hb)) as [[Hi K]|[[Hi K]|[Hi K]]]; rewrite K in E; injection E as <-; cbn; lia.
  - cbn in Ha, Hx. subst x. unfold in_type in Ha. destruct f; cbn in E, Hy; injection E as <-; cbn; try lia; trivial.
  - cbn in Hb, Hy. subst y. unfold in_type in Hb. destruct e; cbn in E, Hx; injection E as <-; cbn; try lia; trivial.
  - destruct e, f; cbn in E, Hx, Hy; injection E as <-; cbn; try lia; trivial.
Qed.
Lemma mul_side : forall D R a b c x y, cr_ok D R a -> cr_ok D R b -> cr_mul D R a b = Ok c ->
  stands_for D R a x -> stands_for D R b y -> side D R c (x * y).
Proof.
  intros D R a b c x y Ha Hb E Hx Hy. pose proof (hi_ge_127 D R) as P1. pose proof (lo_le_0 D R) as P2.
  revert E. unfold cr_mul.
  pflag a Ha; pflag b Hb; unfold lookup; cbn [pidx nth mul_table rbind cr_value];
  try (match goal with |- context [multiply D R ?p ?q] =>
        destruct (eoo_cases _ _ _ _ (multiply_spec D R p q ltac:(assumption) ltac:(assumption)))
          as [[? ->]|[[? ->]|[? ->]]] end);
  intros E; injection E as <-; sides; cbn; try exact Logic.I; try lia; nia.
Qed.
Lemma quot_signs : forall x y, y <> 0 ->
  (0 <= x -> 0 < y -> 0 <= Z.quot x y) /\ (x <= 0 -> 0 < y -> Z.quot x y <= 0)
  /\ (0 <= x -> y < 0 -> Z.quot x y <= 0) /\ (x <= 0 -> y < 0 -> 0 <= Z.quot x y).
Proof.
  intros x y Hy. pose proof (quot_sign x y) as A.
  assert (B : y < 0 -> Z.quot x y = - Z.quot x (- y)) by (intros; rewrite Z.quot_opp_r by lia; lia).
  pose proof (quot_sign x (- y)) as C. splits; intros; try (rewrite B by assumption); lia.
Qed.
Lemma div_side : forall D R a b c x y, cr_ok D R a -> cr_ok D R b -> cr_div D R a b = Ok c ->
  stands_for D R a x -> stands_for D R b y -> y <> 0 -> side D R c (Z.quot x y).
Proof.
  intros D R a b c x y Ha Hb E Hx Hy Hy0. pose proof (hi_ge_127 D R) as P1. pose proof (lo_le_0 D R) as P2.
  pose proof (quot_signs x y Hy0) as (Q1 & Q2 & Q3 & Q4).
  revert E. unfold cr_div.
  pflag a Ha; pflag b Hb; unfold lookup; cbn [pidx nth div_table rbind cr_value];
  try (match goal with |- context [divide D R ?p ?q] =>
        destruct (divide_spec D R p q ltac:(assumption) ltac:(assumption)) as [_ Hd];
        destruct (eoo_cases _ _ _ _ (Hd ltac:(lia)))
          as [[? ->]|[[? ->]|[? ->]]]; clear Hd end);
  intros E; injection E as <-; sides; cbn; try exact Logic.I; try lia.
Qed.

(** unary minus *)
Lemma neg_sound : forall D R a, cr_ok D R a ->
  exists c, cr_neg D R a = Ok c /\ cr_ok D R c
    /\ forall x, stands_for D R a x -> side D R c (- x) /\ forall v, c = CVal v -> v = - x.
Proof.
  intros D R a Ha. destruct (cr_sub_total D R (CVal 0) a (zero_in D R) Ha) as (c & E & O & K).
  exists c. splits; auto. intros x Hx. split.
  - change (- x) with (0 - x). apply (sub_side D R (CVal 0) a); auto; [apply zero_in|reflexivity].
  - intros v ->. destruct (K v eq_refl) as (p & q & P & -> & V). injection P as <-. cbn in Hx. lia.
Qed.

(** bitwise operators *)
Lemma bitwise_sound : forall D R a b, cr_ok D R a -> cr_ok D R b ->
  (forall x y, a = CVal x -> b = CVal y ->
     cr_or D R a b = Ok (CVal (Z.lor x y)) /\ cr_and D R a b = Ok (CVal (Z.land x y))
     /\ cr_xor D R a b = Ok (CVal (Z.lxor x y)))
  /\ (~ (exists x y, a = CVal x /\ b = CVal y) ->
     cr_or D R a b = Ok (CErr range_error) /\ cr_and D R a b = Ok (CErr range_error)
     /\ cr_xor D R a b = Ok (CErr range_error)).
Proof.
  intros D R a b Ha Hb. split.
  - intros x y -> ->. destruct (C08_full D R x y Ha Hb) as (A & B & C & _). splits; assumption.
  - intros N. destruct a, b; try (splits; reflexivity). exfalso. eauto.
Qed.

(** remainder *)
Lemma mod_values : forall D R t u, in_type D R t -> in_type D R u ->
  (u = 0 -> cr_mod D R (CVal t) (CVal u) = Ok (CErr range_error))
  /\ (u <> 0 -> ~ (lo D R < 0 /\ t = lo D R /\ u = lo D R) ->
      cr_mod D R (CVal t) (CVal u) = Ok (CVal (remainder t u)))
  /\ (lo D R < 0 -> t = lo D R -> u = lo D R -> cr_mod D R (CVal t) (CVal u) = Ok (CVal (lo D R))).
Proof.
  intros D R t u Ht Hu. destruct (C05_full D R t u Ht Hu) as (_ & B & C).
  assert (K : u <> 0 -> cr_mod D R (CVal t) (CVal u) = if t =? 0 then Ok (CVal 0) else modulus D R t u).
  { intros U. unfold cr_mod. rewrite !to_pflag_val by assumption.
    destruct (Z.eqb_spec t 0), (Z.ltb_spec t 0), (Z.ltb_spec 0 t), (Z.ltb_spec u 0), (Z.ltb_spec 0 u); try lia; reflexivity. }
  splits.
  - intros ->. unfold cr_mod. rewrite !to_pflag_val by assumption.
    destruct (Z.ltb_spec t 0), (Z.ltb_spec 0 t); try lia; reflexivity.
  - intros U N. rewrite K by assumption. destruct (Z.eqb_spec t 0) as [->|T].
    + rewrite remainder_rem by assumption. rewrite Z.rem_0_l by assumption. reflexivity.
    + apply B; assumption.
  - intros L -> ->. rewrite K by lia. destruct (Z.eqb_spec (lo D R) 0); [lia|]. apply C; auto.
Qed.
Lemma mod_by_overflow : forall D R t b, in_type D R t ->
  b = CErr positive_overflow_error \/ b = CErr negative_overflow_error ->
  cr_mod D R (CVal t) b = Ok (CVal t)
  /\ forall y, stands_for D R b y -> ~ (t = lo D R /\ y = - lo D R) -> lo D R < 0 \/ b = CErr positive_overflow_error ->
       t = remainder t y.
Proof.
  intros D R t b Ht Hb. pose proof (hi_ge_127 D R) as P1. pose proof (lo_le_0 D R) as P2. split.
  - unfold cr_mod. rewrite to_pflag_val by assumption.
    destruct Hb as [->| ->]; destruct (Z.ltb_spec t 0), (Z.ltb_spec 0 t); try lia; try reflexivity;
    (replace t with 0 by lia; reflexivity).
  - intros y Hy N S.
    assert (A : Z.abs t < Z.abs y /\ y <> 0).
    { unfold in_type in Ht. destruct (Z.eq_dec (lo D R) 0) as [L|L].
      - destruct Hb as [->| ->]; [cbn in Hy; lia|]. destruct S as [S|S]; [lia|discriminate].
      - assert (Sg : lo D R < 0) by lia.
        pose proof (hi_pos_lo D R (signed_of_neg D R (lo D R) (lo_in D R) Sg)).
        destruct Hb as [->| ->]; cbn in Hy; lia. }
    rewrite remainder_rem by tauto. symmetry. apply Z.rem_small_iff; tauto.
Qed.
Lemma rem_bound : forall x u, u <> 0 -> Z.abs (Z.rem x u) <= Z.abs u - 1.
Proof. intros x u Hu. pose proof (Z.rem_bound_abs x u Hu). lia. Qed.
Lemma mod_of_overflow : forall D R a u, in_type D R u ->
  a = CErr positive_overflow_error \/ a = CErr negative_overflow_error ->
  (u = 0 -> cr_mod D R a (CVal u) = Ok (CErr range_error))
  /\ (u <> 0 -> exists c, cr_mod D R a (CVal u) = Ok c /\ cr_ok D R c
       /\ (forall v x, c = CVal v -> Z.abs (remainder x u) <= Z.abs v)
       /\ ((exists v, c = CVal v) \/ u <= lo D R + 1 \/ lo D R = 0)).
Proof.
  intros D R a u Hu Ha. pose proof (hi_ge_127 D R) as P1. pose proof (lo_le_0 D R) as P2. split.
  - intros ->. destruct Ha as [->| ->]; unfold cr_mod; rewrite to_pflag_val by assumption; reflexivity.
  - intros U. assert (O1 : in_type D R 1) by (unfold in_type; lia).
    assert (K : cr_mod D R a (CVal u) = if (match a with CErr positive_overflow_error => true | _ => false end)
                then subtract D R u 1 else subtract D R 1 u).
    { destruct Ha as [->| ->]; unfold cr_mod; rewrite to_pflag_val by assumption;
      destruct (Z.ltb_spec u 0), (Z.ltb_spec 0 u); try lia; reflexivity. }
    rewrite K. pose proof (subtract_spec D R u 1 Hu O1) as E1. pose proof (subtract_spec D R 1 u O1 Hu) as E2.
    pose proof (fun x => rem_bound x u U) as B. pose proof (fun x => remainder_rem x u U) as B2. unfold in_type in *.
    assert (S : lo D R < 0 -> lo D R = - hi D R - 1).
    { intros Sg. apply hi_pos_lo. apply (signed_of_neg D R (lo D R) (lo_in D R) Sg). }
    destruct Ha as [->| ->].
    + destruct (eoo_cases _ _ _ _ E1) as [[Hi ->]|[[Hi ->]|[Hi ->]]]; eexists; (split; [reflexivity|]); splits; cbn [cr_ok]; trivial.
      all: try (intros v x Hv; try discriminate; injection Hv as <-; rewrite B2; specialize (B x); lia).
      all: try (left; eexists; reflexivity). all: try (unfold in_type; lia). all: right; lia.
    + destruct (eoo_cases _ _ _ _ E2) as [[Hi ->]|[[Hi ->]|[Hi ->]]]; eexists; (split; [reflexivity|]); splits; cbn [cr_ok]; trivial.
      all: try (intros v x Hv; try discriminate; assert (v = 1 - u) by congruence; subst v; rewrite B2; specialize (B x); lia).
      all: try (left; eexists; reflexivity). all: try (unfold in_type; lia). all: right; lia.
Qed.

Lemma exact_of_strict : forall D R r z, (exists c, r = Ok c /\ cr_ok D R c /\ rnd_strict D R c z) ->
  exists c, r = Ok c /\ cr_ok D R c /\ exact D R c z.
Proof.
  intros D R r z (c & E & O & K). exists c. splits; auto. destruct c; cbn in *; [congruence|exact K].
Qed.
Lemma values_exact : forall D R x y, in_type D R x -> in_type D R y ->
  (exists c, cr_add D R (CVal x) (CVal y) = Ok c /\ cr_ok D R c /\ exact D R c (x + y))
  /\ (exists c, cr_sub D R (CVal x) (CVal y) = Ok c /\ cr_ok D R c /\ exact D R c (x - y))
  /\ (exists c, cr_mul D R (CVal x) (CVal y) = Ok c /\ cr_ok D R c /\ exact D R c (x * y))
  /\ (y <> 0 -> exists c, cr_div D R (CVal x) (CVal y) = Ok c /\ cr_ok D R c /\ exact D R c (Z.quot x y))
  /\ (exists c, cr_neg D R (CVal x) = Ok c /\ cr_ok D R c /\ exact D R c (- x)).
Proof.
  intros D R x y Hx Hy. splits.
  - apply exact_of_strict. exact (rnd_strict_of_eoo _ _ _ _ (add_spec D R x y Hx Hy)).
  - apply exact_of_strict. exact (rnd_strict_of_eoo _ _ _ _ (subtract_spec D R x y Hx Hy)).
  - apply exact_of_strict. unfold cr_mul. rewrite !to_pflag_val by assumption.
    destruct (Z.ltb_spec x 0), (Z.ltb_spec 0 x), (Z.ltb_spec y 0), (Z.ltb_spec 0 y); try lia;
    unfold lookup; cbn [pidx nth mul_table rbind cr_value];
    try exact (rnd_strict_of_eoo _ _ _ _ (multiply_spec D R x y Hx Hy));
    (eexists; split; [reflexivity|split; [apply zero_in|cbn; nia]]).
  - intros Hy0. apply exact_of_strict. unfold cr_div. rewrite !to_pflag_val by assumption.
    destruct (Z.ltb_spec x 0), (Z.ltb_spec 0 x), (Z.ltb_spec y 0), (Z.ltb_spec 0 y); try lia;
    unfold lookup; cbn [pidx nth div_table rbind cr_value];
    try exact (rnd_strict_of_eoo _ _ _ _ (proj2 (divide_spec D R x y Hx Hy) Hy0));
    (eexists; split; [reflexivity|split; [apply zero_in|]]; unfold rnd_strict; replace x with 0 by lia;
     apply Z.quot_0_l; assumption).
  - apply exact_of_strict. apply cr_neg_val. assumption.
Qed.
Lemma mod_refuted : exists D R a b v x y,
  cr_ok D R a /\ cr_ok D R b /\ cr_mod D R a b = Ok (CVal v)
  /\ stands_for D R a x /\ stands_for D R b y /\ y <> 0 /\ v <> remainder x y.
Proof.
  exists LP64, Int, (CErr positive_overflow_error), (CVal 5), 4, 2147483650, 5. vm_compute. intuition congruence.
Qed.
