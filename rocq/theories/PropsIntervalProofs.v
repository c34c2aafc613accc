(** PropsIntervalProofs.v -- proofs for PropsInterval.v. *)
From Coq Require Import ZArith Bool List Lia.
From Verif Require Import Base CType Spec CTypeFacts Utility UtilityFacts SafeCompare
  CheckedInteger CheckedIntegerFacts CheckedResultOps CheckedResultFacts Interval IntervalFacts
  IntervalOpsFacts.
Import ListNotations.
Local Open Scope Z_scope.

Lemma C13_add : forall D R a b, cr_ok D R a -> cr_ok D R b ->
  exists c, cr_add D R a b = Ok c /\ cr_ok D R c
    /\ forall v x y, c = CVal v -> stands_for D R a x -> stands_for D R b y -> v = x + y.
Proof.
  intros D R a b Ha Hb. destruct (cr_add_total D R a b Ha Hb) as (c & E & O & H).
  exists c. split; [assumption|split; [assumption|]]. intros v x y Hv Hx Hy.
  destruct (H v Hv) as (p & q & -> & -> & ->). cbn in Hx, Hy. lia.
Qed.
Lemma C13_sub : forall D R a b, cr_ok D R a -> cr_ok D R b ->
  exists c, cr_sub D R a b = Ok c /\ cr_ok D R c
    /\ forall v x y, c = CVal v -> stands_for D R a x -> stands_for D R b y -> v = x - y.
Proof.
  intros D R a b Ha Hb. destruct (cr_sub_total D R a b Ha Hb) as (c & E & O & H).
  exists c. split; [assumption|split; [assumption|]]. intros v x y Hv Hx Hy.
  destruct (H v Hv) as (p & q & -> & -> & ->). cbn in Hx, Hy. lia.
Qed.
Lemma C13_mul : forall D R a b, cr_ok D R a -> cr_ok D R b ->
  exists c, cr_mul D R a b = Ok c /\ cr_ok D R c
    /\ forall v x y, c = CVal v -> stands_for D R a x -> stands_for D R b y -> v = x * y.
Proof.
  intros D R a b Ha Hb. destruct (cr_mul_total D R a b Ha Hb) as (c & E & O & H).
  exists c. split; [assumption|split; [assumption|]]. intros v x y Hv. apply H. assumption.
Qed.

Lemma C13_div : forall D R a b, cr_ok D R a -> cr_ok D R b ->
  exists c, cr_div D R a b = Ok c /\ cr_ok D R c
    /\ forall v x y, c = CVal v -> stands_for D R a x -> stands_for D R b y ->
         v = Z.quot x y
         \/ (v = 0 /\ (b = CErr positive_overflow_error \/ b = CErr negative_overflow_error)).
Proof.
  intros D R a b Ha Hb. destruct (cr_div_total D R a b Ha Hb) as (c & E & O & H).
  exists c. split; [assumption|split; [assumption|]]. intros v x y Hv Hx Hy.
  destruct (H v Hv) as [(p & q & -> & -> & _ & ->)|(-> & p & -> & Hb')]; [left|right; auto].
  cbn in Hx, Hy. congruence.
Qed.

(** the truncated 0 is right for signed R but for minimum / -minimum *)
Lemma C13_div_signed : forall D R a b v x y, lo D R < 0 -> cr_ok D R a -> cr_ok D R b ->
  cr_div D R a b = Ok (CVal v) -> stands_for D R a x -> stands_for D R b y ->
  ~ (x = lo D R /\ y = - lo D R) -> v = Z.quot x y.
Proof.
  intros D R a b v x y Hl Ha Hb E Hx Hy Hn.
  destruct (cr_div_total D R a b Ha Hb) as (c & E' & O & H). rewrite E in E'. injection E' as <-.
  destruct (H v eq_refl) as [(p & q & -> & -> & _ & ->)|(-> & p & -> & Hb')].
  - cbn in Hx, Hy. congruence.
  - cbn in Hx, Ha. subst x. symmetry. apply quot_small_abs.
    pose proof (signed_of_neg D R (lo D R) (lo_in D R) Hl) as Hs. pose proof (hi_pos_lo D R Hs) as Hp.
    destruct Hb' as [->| ->]; cbn in Hy; unfold in_type in *; lia.
Qed.

(** the six comparisons *)
Lemma C14_sound : forall D R a b x y, cr_ok D R a -> cr_ok D R b ->
  stands_for D R a x -> stands_for D R b y ->
  (cr_lt D R a b = TTrue -> x < y) /\ (cr_lt D R a b = TFalse -> ~ x < y)
  /\ (cr_gt D R a b = TTrue -> x > y) /\ (cr_gt D R a b = TFalse -> ~ x > y)
  /\ (cr_le D R a b = TTrue -> x <= y) /\ (cr_le D R a b = TFalse -> ~ x <= y)
  /\ (cr_ge D R a b = TTrue -> x >= y) /\ (cr_ge D R a b = TFalse -> ~ x >= y)
  /\ (cr_eq D R a b = TTrue -> x = y) /\ (cr_eq D R a b = TFalse -> x <> y)
  /\ (cr_ne D R a b = TTrue -> x <> y) /\ (cr_ne D R a b = TFalse -> x = y).
Proof.
  intros D R a b x y Ha Hb Hx Hy.
  destruct (cr_lt_sound D R a b Ha Hb) as [A1 A2]. destruct (cr_lt_sound D R b a Hb Ha) as [B1 B2].
  destruct (cr_eq_sound D R a b Ha Hb) as [E1 E2].
  unfold cr_gt, cr_le, cr_ge, cr_ne.
  specialize (fun h => A1 h x y Hx Hy). specialize (fun h => A2 h x y Hx Hy).
  specialize (fun h => B1 h y x Hy Hx). specialize (fun h => B2 h y x Hy Hx).
  specialize (fun h => E1 h x y Hx Hy). specialize (fun h => E2 h x y Hx Hy).
  destruct (cr_lt D R a b), (cr_lt D R b a), (cr_eq D R a b); cbn [tri_not];
  splits; intros Hh; try discriminate;
  try specialize (A1 eq_refl); try specialize (A2 eq_refl);
  try specialize (B1 eq_refl); try specialize (B2 eq_refl);
  try specialize (E1 eq_refl); try specialize (E2 eq_refl); lia.
Qed.

Lemma C14_values : forall D R x y, in_type D R x -> in_type D R y ->
  decides (cr_lt D R (CVal x) (CVal y)) (x < y) /\ decides (cr_gt D R (CVal x) (CVal y)) (x > y)
  /\ decides (cr_le D R (CVal x) (CVal y)) (x <= y) /\ decides (cr_ge D R (CVal x) (CVal y)) (x >= y)
  /\ decides (cr_eq D R (CVal x) (CVal y)) (x = y) /\ decides (cr_ne D R (CVal x) (CVal y)) (x <> y).
Proof.
  intros D R x y Hx Hy. destruct (cr_cmp_values D R x y Hx Hy) as (-> & -> & -> & -> & -> & ->).
  unfold decides.
  destruct (Z.ltb_spec x y), (Z.ltb_spec y x), (Z.leb_spec x y), (Z.leb_spec y x), (Z.eqb_spec x y);
  try lia; cbn; splits; solve [left; split; [reflexivity|lia] | right; split; [reflexivity|lia]].
Qed.

Lemma C14_order : forall D R a b c, cr_ok D R a -> cr_ok D R b -> cr_ok D R c ->
  cr_lt D R a a <> TTrue
  /\ (cr_lt D R a b = TTrue -> cr_lt D R b a <> TTrue)
  /\ (cr_lt D R a b = TTrue -> cr_lt D R b c = TTrue -> cr_lt D R a c = TTrue).
Proof.
  assert (Hb : forall D R a b, cr_lt D R a b = TTrue -> num a /\ num b).
  { intros D R a b H. destruct (num_dec a); [|rewrite cr_lt_not_num in H by tauto; discriminate].
    destruct (num_dec b); [tauto|rewrite cr_lt_not_num in H by tauto; discriminate]. }
  assert (Ht : forall D R a b, cr_ok D R a -> cr_ok D R b -> num a -> num b ->
     (cr_lt D R a b = TTrue <-> ~ cle b a)).
  { intros D R a b Oa Ob Na Nb. rewrite <- (cr_lt_num D R a b) by assumption.
    destruct (cr_lt D R a b); cbn; split; congruence. }
  intros D R a b c Ha Hb' Hc. splits.
  - intros H. destruct (Hb _ _ _ _ H). apply Ht in H; try assumption. apply H. apply cle_refl. assumption.
  - intros H1 H2. destruct (Hb _ _ _ _ H1) as [Na Nb].
    apply Ht in H1; try assumption. apply Ht in H2; try assumption.
    destruct (cle_total a b Na Nb); tauto.
  - intros H1 H2. destruct (Hb _ _ _ _ H1) as [Na Nb]. destruct (Hb _ _ _ _ H2) as [_ Nc].
    apply Ht in H1; try assumption. apply Ht in H2; try assumption. apply Ht; try assumption.
    intros H3. apply H2. apply cle_trans with a; try assumption.
    destruct (cle_total a b Na Nb); tauto.
Qed.

Lemma lower_end_bound : forall D R c, lower_end D R c -> cr_ok D R c /\ lower_bound c.
Proof. intros D R c [(v & Hv & ->)| ->]; cbn; repeat split; trivial; try apply Hv; discriminate. Qed.
Lemma upper_end_bound : forall D R c, upper_end D R c -> cr_ok D R c /\ upper_bound c.
Proof. intros D R c [(v & Hv & ->)| ->]; cbn; repeat split; trivial; try apply Hv; discriminate. Qed.

Lemma C15_full : forall D R i j,
  lower_end D R (il i) -> upper_end D R (iu i) -> lower_end D R (il j) -> upper_end D R (iu j) ->
  exists s d p, i_add D R i j = Ok s /\ i_sub D R i j = Ok d /\ i_mul D R i j = Ok p
  /\ forall x y, at_least D R (il i) x -> at_most D R (iu i) x ->
       at_least D R (il j) y -> at_most D R (iu j) y ->
       (at_least D R (il s) (x + y) /\ at_most D R (iu s) (x + y))
       /\ (at_least D R (il d) (x - y) /\ at_most D R (iu d) (x - y))
       /\ (at_least D R (il p) (x * y) /\ at_most D R (iu p) (x * y)).
Proof.
  intros D R i j A B C E.
  destruct (lower_end_bound _ _ _ A) as [A1 A2], (upper_end_bound _ _ _ B) as [B1 B2],
    (lower_end_bound _ _ _ C) as [C1 C2], (upper_end_bound _ _ _ E) as [E1 E2].
  destruct (i_mul_sound D R i j) as (p & Hp & _ & _ & Sp); try assumption.
  assert (Hw : exists x y, at_least D R (il i) x /\ at_least D R (il j) y) by
   (destruct A as [(a & _ & ->)| ->]; destruct C as [(c & _ & ->)| ->];
    [exists a, c|exists a, 0|exists 0, c|exists 0, 0]; cbn; split; trivial; lia).
  assert (Hs : exists s, i_add D R i j = Ok s).
  { unfold i_add. destruct (cr_add_total D R (il i) (il j) A1 C1) as (c1 & -> & _).
    destruct (cr_add_total D R (iu i) (iu j) B1 E1) as (c2 & -> & _). cbn. eauto. }
  assert (Hd : exists s, i_sub D R i j = Ok s).
  { unfold i_sub. destruct (cr_sub_total D R (il i) (iu j) A1 E1) as (c1 & -> & _).
    destruct (cr_sub_total D R (iu i) (il j) B1 C1) as (c2 & -> & _). cbn. eauto. }
  destruct Hs as (s & Hs), Hd as (d & Hd). exists s, d, p.
  split; [assumption|split; [assumption|split; [assumption|]]]. intros x y X1 X2 Y1 Y2.
  destruct (i_add_sound D R i j x y) as (s' & Hs' & Ss); try assumption.
  destruct (i_sub_sound D R i j x y) as (d' & Hd' & Sd); try assumption.
  rewrite Hs in Hs'. injection Hs' as <-. rewrite Hd in Hd'. injection Hd' as <-.
  split; [assumption|split; [assumption|]]. apply Sp; assumption.
Qed.

Lemma C16_full : forall D R a b c d,
  in_type D R a -> in_type D R b -> in_type D R c -> in_type D R d -> a <= b -> c <= d ->
  ~ (c <= 0 <= d) ->
  exists k, i_div D R (mkI (CVal a) (CVal b)) (mkI (CVal c) (CVal d)) = Ok k
    /\ forall x y, a <= x <= b -> c <= y <= d ->
         at_least D R (il k) (Z.quot x y) /\ at_most D R (iu k) (Z.quot x y).
Proof.
  intros D R a b c d Ha Hb Hc Hd Hab Hcd H0.
  destruct (i_div_sound D R a b c d) as (k & E & _ & _ & _ & _ & H); try assumption; [lia|]. eauto.
Qed.

(** 6 % 7 = 6 is not in [0,10] % [7,7] = [0,3] *)
Lemma C17_witness : exists D R a b c d k x y,
  in_type D R a /\ in_type D R b /\ in_type D R c /\ in_type D R d /\ a <= x <= b /\ c <= y <= d
  /\ ~ (c <= 0 <= d)
  /\ i_mod D R (mkI (CVal a) (CVal b)) (mkI (CVal c) (CVal d)) = Ok k
  /\ ~ below (iu k) (remainder x y).
Proof.
  exists LP64, Int, 0, 10, 7, 7, (mkI (CVal 0) (CVal 3)), 6, 7.
  vm_compute. intuition congruence.
Qed.

Lemma C17_full : forall D R a b c d n,
  in_type D R a -> in_type D R b -> in_type D R c -> in_type D R d -> a <= b -> c <= d ->
  ~ (c <= 0 <= d) ->
  ~ (lo D R < 0 /\ a = lo D R /\ c = lo D R) ->
  (forall x y, a <= x <= b -> c <= y <= d -> Z.quot x y = n) ->
  exists k, i_mod D R (mkI (CVal a) (CVal b)) (mkI (CVal c) (CVal d)) = Ok k
    /\ forall x y, a <= x <= b -> c <= y <= d ->
         at_least D R (il k) (remainder x y) /\ at_most D R (iu k) (remainder x y).
Proof. intros D R a b c d n Ha Hb Hc Hd Hab Hcd H0. apply (i_mod_sound D R a b c d n); auto. lia. Qed.

Lemma C18_shl : forall D R a b c d,
  in_type D R a -> in_type D R b -> in_type D R c -> in_type D R d -> a <= b -> 0 <= c <= d ->
  exists k, i_shl D R (mkI (CVal a) (CVal b)) (mkI (CVal c) (CVal d)) = Ok k
    /\ forall x y, a <= x <= b -> c <= y <= d ->
         above (il k) (x * 2 ^ y) /\ below (iu k) (x * 2 ^ y).
Proof.
  intros D R a b c d Ha Hb Hc Hd Hab Hcd.
  destruct (i_shl_sound D R a b c d) as (k & E & _ & _ & _ & _ & H); try assumption; try lia. eauto.
Qed.

Lemma C18_shr : forall D R a b c d,
  in_type D R a -> in_type D R b -> in_type D R c -> in_type D R d -> a <= b -> 0 <= c <= d ->
  (lo D R < 0 \/ d < digits D R) ->
  exists k, i_shr D R (mkI (CVal a) (CVal b)) (mkI (CVal c) (CVal d)) = Ok k
    /\ forall x y, a <= x <= b -> c <= y <= d -> 0 <= x ->
         above (il k) (x / 2 ^ y) /\ below (iu k) (x / 2 ^ y).
Proof.
  intros D R a b c d Ha Hb Hc Hd Hab Hcd Hw.
  destruct (i_shr_total D R a b c d) as (k & E); try assumption; try lia.
  { destruct Hw as [Hl|]; [left; apply (signed_of_neg D R (lo D R) (lo_in D R) Hl)|right; lia]. }
  exists k. split; [assumption|].
  destruct (i_shr_sound D R a b c d k) as (_ & _ & _ & _ & H); try assumption; try lia.
  intros x y Hx Hy Hx0. specialize (H x y Hx Hy).
  pose proof (pow2_pos y ltac:(lia)). rewrite Z.quot_div_nonneg in H by lia. assumption.
Qed.

Lemma C18_witness : exists D R a b c d,
  in_type D R a /\ in_type D R b /\ in_type D R c /\ in_type D R d /\ a <= b /\ 0 <= c <= d
  /\ d <= width D R /\ i_shr D R (mkI (CVal a) (CVal b)) (mkI (CVal c) (CVal d)) = UB.
Proof. exists LP64, UInt, 0, 5, 0, 32. vm_compute. intuition congruence. Qed.

Ltac ivals := unfold cr_le, cr_ge, cr_gt; rewrite !cr_lt_val by assumption;
  rewrite ?tri_not_of, ?tri_and_of, ?tri_or_of.

Lemma decides_iff : forall b P, (b = true <-> P) -> decides (tri_of_bool b) P.
Proof. intros [] P H; unfold decides; cbn; intuition congruence. Qed.

Lemma C19_membership : forall D R a b t, in_type D R a -> in_type D R b -> in_type D R t ->
  decides (includes_pt D R (mkI (CVal a) (CVal b)) (CVal t)) (a <= t <= b)
  /\ decides (excludes_pt D R (mkI (CVal a) (CVal b)) (CVal t)) (~ (a <= t <= b)).
Proof.
  intros D R a b t Ha Hb Ht. unfold includes_pt, excludes_pt. cbn [il iu]. ivals.
  split; apply decides_iff; lia.
Qed.

Lemma C19_includes : forall D R a b c d,
  in_type D R a -> in_type D R b -> in_type D R c -> in_type D R d -> a <= b -> c <= d ->
  decides (includes D R (mkI (CVal a) (CVal b)) (mkI (CVal c) (CVal d)))
          (forall t, c <= t <= d -> a <= t <= b)
  /\ decides (excludes D R (mkI (CVal a) (CVal b)) (mkI (CVal c) (CVal d)))
          (forall t, ~ (c <= t <= d /\ a <= t <= b)).
Proof.
  intros D R a b c d Ha Hb Hc Hd Hab Hcd. unfold includes, excludes. cbn [il iu]. ivals.
  split; apply decides_iff; split.
  - intros H t Ht. lia.
  - intros H. pose proof (H c). pose proof (H d). lia.
  - intros H t Ht. lia.
  - intros H. pose proof (H c). pose proof (H a). lia.
Qed.

Lemma C19_order : forall D R a b c d,
  in_type D R a -> in_type D R b -> in_type D R c -> in_type D R d -> a <= b -> c <= d ->
  (i_lt D R (mkI (CVal a) (CVal b)) (mkI (CVal c) (CVal d)) = TTrue <->
     forall x y, a <= x <= b -> c <= y <= d -> x < y)
  /\ (i_lt D R (mkI (CVal a) (CVal b)) (mkI (CVal c) (CVal d)) = TFalse <->
     forall x y, a <= x <= b -> c <= y <= d -> x > y)
  /\ (i_gt D R (mkI (CVal a) (CVal b)) (mkI (CVal c) (CVal d)) = TTrue <->
     forall x y, a <= x <= b -> c <= y <= d -> x > y)
  /\ (i_gt D R (mkI (CVal a) (CVal b)) (mkI (CVal c) (CVal d)) = TFalse <->
     forall x y, a <= x <= b -> c <= y <= d -> x < y).
Proof.
  intros D R a b c d Ha Hb Hc Hd Hab Hcd. unfold i_lt, i_gt, cr_gt. cbn [il iu].
  rewrite !cr_lt_val by assumption. rewrite !tri_bool_of.
  destruct (Z.ltb_spec b c), (Z.ltb_spec d a); try lia;
  (splits; split; intros H1; try discriminate; try reflexivity;
   try (intros x y Hx Hy; lia);
   try (pose proof (H1 b c ltac:(lia) ltac:(lia)); lia);
   try (pose proof (H1 a d ltac:(lia) ltac:(lia)); lia)).
Qed.

Lemma C19_le_ge : forall D R i j,
  i_le D R i j = tri_not (i_gt D R i j) /\ i_ge D R i j = tri_not (i_lt D R i j).
Proof. split; reflexivity. Qed.

Lemma C19_hull : forall D R a b c d,
  in_type D R a -> in_type D R b -> in_type D R c -> in_type D R d -> a <= b -> c <= d ->
  exists l u, i_union D R (mkI (CVal a) (CVal b)) (mkI (CVal c) (CVal d)) = mkI (CVal l) (CVal u)
    /\ (forall t, a <= t <= b \/ c <= t <= d -> l <= t <= u)
    /\ (forall l' u', (forall t, a <= t <= b \/ c <= t <= d -> l' <= t <= u') -> l' <= l /\ u <= u').
Proof.
  intros D R a b c d Ha Hb Hc Hd Hab Hcd. unfold i_union, std_min, std_max. cbn [il iu].
  rewrite !cr_lt_val by assumption. rewrite !tri_bool_of.
  destruct (Z.ltb_spec c a), (Z.ltb_spec b d); do 2 eexists; (split; [reflexivity|]);
  (split; [intros; lia|intros l' u' H1];
   pose proof (H1 a); pose proof (H1 b); pose proof (H1 c); pose proof (H1 d); lia).
Qed.

Lemma C19_meet : forall D R a b c d,
  in_type D R a -> in_type D R b -> in_type D R c -> in_type D R d ->
  exists l u, i_inter D R (mkI (CVal a) (CVal b)) (mkI (CVal c) (CVal d)) = mkI (CVal l) (CVal u)
    /\ (forall t, l <= t <= u <-> a <= t <= b /\ c <= t <= d).
Proof.
  intros D R a b c d Ha Hb Hc Hd. unfold i_inter, std_min, std_max. cbn [il iu].
  rewrite !cr_lt_val by assumption. rewrite !tri_bool_of.
  destruct (Z.ltb_spec a c), (Z.ltb_spec d b); do 2 eexists; (split; [reflexivity|]);
  intros; lia.
Qed.

Lemma C19_eq : forall D R a b c d,
  in_type D R a -> in_type D R b -> in_type D R c -> in_type D R d -> a <= b -> c <= d ->
  (i_eq D R (mkI (CVal a) (CVal b)) (mkI (CVal c) (CVal d)) = true <->
     forall t, a <= t <= b <-> c <= t <= d)
  /\ i_ne D R (mkI (CVal a) (CVal b)) (mkI (CVal c) (CVal d))
     = negb (i_eq D R (mkI (CVal a) (CVal b)) (mkI (CVal c) (CVal d))).
Proof.
  intros D R a b c d Ha Hb Hc Hd Hab Hcd. split; [|reflexivity]. unfold i_eq. cbn [il iu].
  rewrite !cr_eq_val, tri_and_of, tri_bool_of by assumption. split.
  - intros H t. lia.
  - intros H. pose proof (H a). pose proof (H b). pose proof (H c). pose proof (H d). lia.
Qed.

Lemma C20_witness : exists D R a b c d,
  in_type D R a /\ in_type D R b /\ in_type D R c /\ in_type D R d /\ a <= b /\ c <= d
  /\ intersect D R (mkI (CVal a) (CVal b)) (mkI (CVal c) (CVal d)) = TTrue
  /\ ~ exists t, a <= t <= b /\ c <= t <= d.
Proof.
  exists LP64, Int, 0, 1, 5, 6.
  split; [vm_compute; intuition congruence|]. split; [vm_compute; intuition congruence|].
  split; [vm_compute; intuition congruence|]. split; [vm_compute; intuition congruence|].
  split; [lia|]. split; [lia|]. split; [reflexivity|]. intros (t & H1 & H2). lia.
Qed.

Lemma C20_always : forall D R a b c d,
  in_type D R a -> in_type D R b -> in_type D R c -> in_type D R d -> a <= b -> c <= d ->
  intersect D R (mkI (CVal a) (CVal b)) (mkI (CVal c) (CVal d)) = TTrue.
Proof.
  intros D R a b c d Ha Hb Hc Hd Hab Hcd. unfold intersect. cbn [il iu]. ivals.
  assert (negb (b <? c) || negb (d <? a) = true) as -> by lia. reflexivity.
Qed.

Lemma C20_full : forall D R a b c d,
  in_type D R a -> in_type D R b -> in_type D R c -> in_type D R d ->
  (exists t, a <= t <= b /\ c <= t <= d) ->
  intersect D R (mkI (CVal a) (CVal b)) (mkI (CVal c) (CVal d)) = TTrue.
Proof. intros D R a b c d Ha Hb Hc Hd (t & H1 & H2). apply C20_always; try assumption; lia. Qed.
