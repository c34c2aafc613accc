(** IntervalOpsFacts.v -- soundness of interval + - * / % << >>. Proofs only. *)
From Coq Require Import ZArith Bool List Lia.
From Verif Require Import Base CType Spec CTypeFacts Utility UtilityFacts SafeCompare
  CheckedInteger CheckedIntegerFacts CheckedResultOps CheckedResultFacts Interval IntervalFacts.
Import ListNotations.
Local Open Scope Z_scope.

(** bounds that are a value or unbounded *)
Definition lower_bound (c : checked) : Prop := num c /\ c <> CErr positive_overflow_error.
Definition upper_bound (c : checked) : Prop := num c /\ c <> CErr negative_overflow_error.

Lemma lower_cases : forall c, lower_bound c -> (exists v, c = CVal v) \/ c = CErr negative_overflow_error.
Proof. intros [v|e] [Hn Hp]; [eauto|]. destruct e; cbn in Hn; try tauto; congruence. Qed.
Lemma upper_cases : forall c, upper_bound c -> (exists v, c = CVal v) \/ c = CErr positive_overflow_error.
Proof. intros [v|e] [Hn Hp]; [eauto|]. destruct e; cbn in Hn; try tauto; congruence. Qed.

Lemma i_add_sound : forall D R i j x y,
  cr_ok D R (il i) -> cr_ok D R (iu i) -> cr_ok D R (il j) -> cr_ok D R (iu j) ->
  lower_bound (il i) -> upper_bound (iu i) -> lower_bound (il j) -> upper_bound (iu j) ->
  at_least D R (il i) x -> at_most D R (iu i) x -> at_least D R (il j) y -> at_most D R (iu j) y ->
  exists k, i_add D R i j = Ok k /\ at_least D R (il k) (x + y) /\ at_most D R (iu k) (x + y).
Proof.
  intros D R [a b] [c d] x y. cbn [il iu]. intros Oa Ob Oc Od La Ub Lc Ud.
  unfold i_add. cbn [il iu].
  destruct (lower_cases a La) as [[va ->]| ->], (lower_cases c Lc) as [[vc ->]| ->],
           (upper_cases b Ub) as [[vb ->]| ->], (upper_cases d Ud) as [[vd ->]| ->];
  cbn [cr_ok at_least at_most] in *; unfold cr_add; cbn [to_sflag sidx lookup nth add_table cr_value rbind];
  repeat match goal with |- context [add D R ?p ?q] =>
    destruct (rnd_strict_of_eoo _ _ _ _ (add_spec D R p q ltac:(assumption) ltac:(assumption)))
      as (? & -> & ? & ?) end;
  cbn [rbind]; intros; eexists; (split; [reflexivity|]); cbn [il iu at_least at_most]; split; trivial;
  try (eapply rnd_at_least; [eassumption|lia]); try (eapply rnd_at_most; [eassumption|lia]).
Qed.

Lemma i_sub_sound : forall D R i j x y,
  cr_ok D R (il i) -> cr_ok D R (iu i) -> cr_ok D R (il j) -> cr_ok D R (iu j) ->
  lower_bound (il i) -> upper_bound (iu i) -> lower_bound (il j) -> upper_bound (iu j) ->
  at_least D R (il i) x -> at_most D R (iu i) x -> at_least D R (il j) y -> at_most D R (iu j) y ->
  exists k, i_sub D R i j = Ok k /\ at_least D R (il k) (x - y) /\ at_most D R (iu k) (x - y).
Proof.
  intros D R [a b] [c d] x y. cbn [il iu]. intros Oa Ob Oc Od La Ub Lc Ud.
  unfold i_sub. cbn [il iu].
  destruct (lower_cases a La) as [[va ->]| ->], (lower_cases c Lc) as [[vc ->]| ->],
           (upper_cases b Ub) as [[vb ->]| ->], (upper_cases d Ud) as [[vd ->]| ->];
  cbn [cr_ok at_least at_most] in *; unfold cr_sub; cbn [to_sflag sidx lookup nth sub_table cr_value rbind];
  repeat match goal with |- context [subtract D R ?p ?q] =>
    destruct (rnd_strict_of_eoo _ _ _ _ (subtract_spec D R p q ltac:(assumption) ltac:(assumption)))
      as (? & -> & ? & ?) end;
  cbn [rbind]; intros; eexists; (split; [reflexivity|]); cbn [il iu at_least at_most]; split; trivial;
  try (eapply rnd_at_least; [eassumption|lia]); try (eapply rnd_at_most; [eassumption|lia]).
Qed.

(** ------------------------------------------------------------------ *)
(** products, with overflows as infinities *)
Inductive ext : Type := MI | Fi (z : Z) | PI.

Definition ele (a b : ext) : Prop :=
  match a, b with
  | MI, _ => True
  | _, PI => True
  | Fi x, Fi y => x <= y
  | _, _ => False
  end.

Definition esgn (s : Z) : ext := if s <? 0 then MI else if s =? 0 then Fi 0 else PI.
Definition emul (a b : ext) : ext :=
  match a, b with
  | Fi x, Fi y => Fi (x * y)
  | Fi x, PI | PI, Fi x => esgn x
  | Fi x, MI | MI, Fi x => esgn (- x)
  | PI, PI | MI, MI => PI
  | PI, MI | MI, PI => MI
  end.

Lemma ele_trans : forall a b c, ele a b -> ele b c -> ele a c.
Proof. intros [|x|] [|y|] [|z|]; cbn; try tauto; lia. Qed.
Lemma ele_refl : forall a, ele a a.
Proof. intros [|x|]; cbn; try tauto; lia. Qed.

Ltac esgn_cases := unfold esgn; repeat match goal with
  | |- context [?p <? ?q] => destruct (Z.ltb_spec p q)
  | |- context [?p =? ?q] => destruct (Z.eqb_spec p q) end.

Lemma emul_comm : forall a b, emul a b = emul b a.
Proof. intros [|x|] [|y|]; cbn; try reflexivity. f_equal. lia. Qed.
Lemma emul_mono : forall p q y, ele p q -> ele (Fi 0) y -> ele (emul p y) (emul q y).
Proof. intros [|p|] [|q|] [|y|]; cbn; try tauto; intros; esgn_cases; cbn; try tauto; try lia; nia. Qed.
Lemma emul_anti : forall p q y, ele p q -> ele y (Fi 0) -> ele (emul q y) (emul p y).
Proof. intros [|p|] [|q|] [|y|]; cbn; try tauto; intros; esgn_cases; cbn; try tauto; try lia; nia. Qed.
Lemma ele_sign : forall a, ele (Fi 0) a \/ ele a (Fi 0).
Proof. intros [|x|]; cbn; try tauto; lia. Qed.

Lemma emul_corner : forall a b c d x y,
  ele a x -> ele x b -> ele c y -> ele y d ->
  exists p q p' q', (p = a \/ p = b) /\ (q = c \/ q = d) /\ (p' = a \/ p' = b) /\ (q' = c \/ q' = d)
    /\ ele (emul p q) (emul x y) /\ ele (emul x y) (emul p' q').
Proof.
  intros a b c d x y Hax Hxb Hcy Hyd.
  assert (Hp : exists p p', (p = a \/ p = b) /\ (p' = a \/ p' = b)
     /\ ele (emul p y) (emul x y) /\ ele (emul x y) (emul p' y)).
  { destruct (ele_sign y); [exists a, b|exists b, a]; repeat split; auto using emul_mono, emul_anti. }
  destruct Hp as (p & p' & Hp & Hp' & Hl & Hu).
  assert (Hq : exists q, (q = c \/ q = d) /\ ele (emul p q) (emul p y)).
  { destruct (ele_sign p); [exists c|exists d]; rewrite !(emul_comm p);
    split; auto using emul_mono, emul_anti. }
  assert (Hq' : exists q, (q = c \/ q = d) /\ ele (emul p' y) (emul p' q)).
  { destruct (ele_sign p'); [exists d|exists c]; rewrite !(emul_comm p');
    split; auto using emul_mono, emul_anti. }
  destruct Hq as (q & ? & ?), Hq' as (q' & ? & ?). exists p, q, p', q'.
  repeat split; try assumption; eapply ele_trans; eassumption.
Qed.

Definition to_ext (c : checked) : ext :=
  match c with
  | CVal v => Fi v
  | CErr negative_overflow_error => MI
  | CErr _ => PI
  end.

(** how an extended product is reported *)
Definition ernd (D : dmodel) (R : ctype) (c : checked) (e : ext) : Prop :=
  match c with
  | CVal v => e = Fi v
  | CErr positive_overflow_error => match e with PI => True | Fi z => z > hi D R | MI => False end
  | CErr negative_overflow_error => match e with MI => True | Fi z => z < lo D R | PI => False end
  | CErr _ => False
  end.
Lemma ernd_num : forall D R c e, ernd D R c e -> num c.
Proof. intros D R [v|e] x; cbn; [trivial|destruct e; cbn; tauto]. Qed.
Lemma ernd_at_least : forall D R c e z, ernd D R c e -> ele e (Fi z) -> at_least D R c z.
Proof.
  intros D R [v|f] [|x|] z; cbn; try tauto; try discriminate.
  - intros H Hz. injection H as <-. assumption.
  - destruct f; cbn; tauto.
  - destruct f; cbn; try tauto; lia.
Qed.
Lemma ernd_at_most : forall D R c e z, ernd D R c e -> ele (Fi z) e -> at_most D R c z.
Proof.
  intros D R [v|f] [|x|] z; cbn; try tauto; try discriminate.
  - intros H Hz. injection H as <-. assumption.
  - destruct f; cbn; try tauto; lia.
  - destruct f; cbn; tauto.
Qed.

Lemma rnd_ernd : forall D R c z, rnd_strict D R c z -> ernd D R c (Fi z).
Proof. intros D R [v|e] z; cbn; [congruence|]. destruct e; tauto. Qed.

Lemma cr_mul_ext : forall D R a b, cr_ok D R a -> cr_ok D R b -> num a -> num b ->
  exists c, cr_mul D R a b = Ok c /\ cr_ok D R c /\ ernd D R c (emul (to_ext a) (to_ext b)).
Proof.
  intros D R a b Ha Hb Na Nb. unfold cr_mul.
  pflag a Ha; pflag b Hb; unfold lookup; cbn [pidx nth mul_table rbind cr_value];
  try (exfalso; match goal with H : num (CErr ?e) |- _ => destruct e; cbn in H; tauto end);
  try (match goal with |- context [multiply D R ?p ?q] =>
        destruct (rnd_strict_of_eoo _ _ _ _ (multiply_spec D R p q ltac:(assumption) ltac:(assumption)))
          as (? & -> & ? & ?); eexists; (split; [reflexivity|split; [assumption|cbn; apply rnd_ernd; assumption]]) end);
  eexists; (split; [reflexivity|split; [cbn; trivial; apply zero_in|]]);
  cbn; esgn_cases; cbn; try tauto; try lia; f_equal; lia.
Qed.

Lemma i_mul_sound : forall D R i j,
  cr_ok D R (il i) -> cr_ok D R (iu i) -> cr_ok D R (il j) -> cr_ok D R (iu j) ->
  lower_bound (il i) -> upper_bound (iu i) -> lower_bound (il j) -> upper_bound (iu j) ->
  exists k, i_mul D R i j = Ok k /\ cr_ok D R (il k) /\ cr_ok D R (iu k)
    /\ forall x y, at_least D R (il i) x -> at_most D R (iu i) x ->
         at_least D R (il j) y -> at_most D R (iu j) y ->
         at_least D R (il k) (x * y) /\ at_most D R (iu k) (x * y).
Proof.
  intros D R [a b] [c d]. cbn [il iu]. intros Oa Ob Oc Od [Na La] [Nb Ub] [Nc Lc] [Nd Ud].
  unfold i_mul, minmax_of, corners. cbn [il iu].
  destruct (cr_mul_ext D R a c Oa Oc Na Nc) as (r1 & E1 & O1 & R1).
  destruct (cr_mul_ext D R a d Oa Od Na Nd) as (r2 & E2 & O2 & R2).
  destruct (cr_mul_ext D R b c Ob Oc Nb Nc) as (r3 & E3 & O3 & R3).
  destruct (cr_mul_ext D R b d Ob Od Nb Nd) as (r4 & E4 & O4 & R4).
  rewrite E1, E2, E3, E4. cbn [seq_res rbind].
  assert (Hall : Forall (cr_ok D R) [r1; r2; r3; r4]) by (repeat constructor; assumption).
  destruct (minmax_spec D R r1 [r2; r3; r4] Hall) as (i & -> & Hs). exists i. split; [reflexivity|].
  destruct Hs as [[Hn _]|(N1 & N2 & K1 & K2 & _ & _ & _ & _ & Hin)];
    [apply ernd_num in R1; tauto|].
  split; [assumption|split; [assumption|]]. intros x y Hax Hxb Hcy Hyd.
  assert (Hc : forall p q, (p = to_ext a \/ p = to_ext b) -> (q = to_ext c \/ q = to_ext d) ->
     exists r, In r [r1; r2; r3; r4] /\ ernd D R r (emul p q)).
  { intros p0 q0 [->| ->] [->| ->];
    [exists r1|exists r2|exists r3|exists r4]; (split; [cbn; tauto|assumption]). }
  destruct (emul_corner (to_ext a) (to_ext b) (to_ext c) (to_ext d) (Fi x) (Fi y))
    as (p & q & p' & q' & Hp & Hq & Hp' & Hq' & Hlo & Hup).
  { destruct (lower_cases a (conj Na La)) as [[v ->]| ->]; cbn in *; tauto. }
  { destruct (upper_cases b (conj Nb Ub)) as [[v ->]| ->]; cbn in *; tauto. }
  { destruct (lower_cases c (conj Nc Lc)) as [[v ->]| ->]; cbn in *; tauto. }
  { destruct (upper_cases d (conj Nd Ud)) as [[v ->]| ->]; cbn in *; tauto. }
  cbn [emul] in Hlo, Hup. split.
  - destruct (Hc p q Hp Hq) as (r & Hr & Rr).
    destruct (Hin r Hr (ernd_num _ _ _ _ Rr)) as [Hle _].
    apply (at_least_cle D R (il i) r); auto. apply (ernd_num _ _ _ _ Rr).
    apply (ernd_at_least D R r _ _ Rr). assumption.
  - destruct (Hc p' q' Hp' Hq') as (r & Hr & Rr).
    destruct (Hin r Hr (ernd_num _ _ _ _ Rr)) as [_ Hle].
    apply (at_most_cle D R r (iu i)); auto. apply (ernd_num _ _ _ _ Rr).
    apply (ernd_at_most D R r _ _ Rr). assumption.
Qed.

(** ------------------------------------------------------------------ *)
(** quotients *)
Lemma quot_mono_l : forall x1 x2 y, 0 < y -> x1 <= x2 -> Z.quot x1 y <= Z.quot x2 y.
Proof. intros. apply Z.quot_le_mono; lia. Qed.
Lemma quot_anti_l : forall x1 x2 y, y < 0 -> x1 <= x2 -> Z.quot x2 y <= Z.quot x1 y.
Proof.
  intros x1 x2 y Hy Hx. replace y with (- (- y)) by lia.
  rewrite (Z.quot_opp_r x2), (Z.quot_opp_r x1) by lia.
  pose proof (quot_mono_l x1 x2 (- y) ltac:(lia) Hx). lia.
Qed.
(** in the divisor, on one side of zero *)
Lemma quot_r_nonneg : forall x y1 y2, 0 <= x -> 0 < y1 -> y1 <= y2 -> Z.quot x y2 <= Z.quot x y1.
Proof.
  intros x y1 y2 Hx H1 H2. rewrite !Z.quot_div_nonneg by lia. apply Z.div_le_compat_l; lia.
Qed.
Lemma quot_mono_r : forall x c d, (0 < c \/ d < 0) -> mono_on (Z.quot x) c d.
Proof.
  intros x c d Hcd. destruct (Z_le_gt_dec 0 x) as [Hx|Hx]; destruct Hcd as [Hc|Hd].
  - right. intros y1 y2 H1 H2 H3. apply quot_r_nonneg; lia.
  - right. intros y1 y2 H1 H2 H3.
    replace y2 with (- (- y2)) by lia. replace y1 with (- (- y1)) by lia.
    rewrite (Z.quot_opp_r x (- y2)), (Z.quot_opp_r x (- y1)) by lia.
    pose proof (quot_r_nonneg x (- y2) (- y1)). lia.
  - left. intros y1 y2 H1 H2 H3.
    replace x with (- (- x)) by lia. rewrite (Z.quot_opp_l (- x) y1), (Z.quot_opp_l (- x) y2) by lia.
    pose proof (quot_r_nonneg (- x) y1 y2). lia.
  - left. intros y1 y2 H1 H2 H3.
    replace (Z.quot x y1) with (Z.quot (- x) (- y1)) by (apply Z.quot_opp_opp; lia).
    replace (Z.quot x y2) with (Z.quot (- x) (- y2)) by (apply Z.quot_opp_opp; lia).
    pose proof (quot_r_nonneg (- x) (- y2) (- y1)). lia.
Qed.
Lemma quot_mono_x : forall y a b, y <> 0 -> mono_on (fun x => Z.quot x y) a b.
Proof.
  intros y a b Hy. destruct (Z_lt_le_dec 0 y).
  - left. intros; apply quot_mono_l; lia.
  - right. intros; apply quot_anti_l; lia.
Qed.

Lemma cr_div_vals : forall D R p q, in_type D R p -> in_type D R q -> q <> 0 ->
  exists c, cr_div D R (CVal p) (CVal q) = Ok c /\ cr_ok D R c /\ rnd_strict D R c (Z.quot p q).
Proof.
  intros D R p q Hp Hq H0. unfold cr_div. rewrite !to_pflag_val by assumption.
  destruct (divide_spec D R p q Hp Hq) as [_ Hd]. specialize (Hd H0).
  destruct (rnd_strict_of_eoo _ _ _ _ Hd) as (c & Ec & Oc & Rc).
  destruct (Z.ltb_spec p 0); [|destruct (Z.ltb_spec 0 p)];
  (destruct (Z.ltb_spec q 0); [|destruct (Z.ltb_spec 0 q); [|lia]]);
  unfold lookup; cbn [pidx nth div_table rbind cr_value];
  try (rewrite Ec; exists c; auto; fail).
  - assert (p = 0) by lia. subst. exists (CVal 0). rewrite Z.quot_0_l by lia. cbn. auto using zero_in.
  - assert (p = 0) by lia. subst. exists (CVal 0). rewrite Z.quot_0_l by lia. cbn. auto using zero_in.
Qed.

Lemma excludes_zero_val : forall D R c d, in_type D R c -> in_type D R d -> c <= d ->
  (tri_bool (excludes_pt D R (mkI (CVal c) (CVal d)) (CVal 0)) = true <-> 0 < c \/ d < 0).
Proof.
  intros D R c d Hc Hd Hcd. unfold excludes_pt, cr_gt. cbn [il iu].
  rewrite !cr_lt_val by auto using zero_in.
  destruct (Z.ltb_spec 0 c), (Z.ltb_spec d 0); cbn; intuition (try lia; try discriminate).
Qed.

Lemma i_div_total : forall D R a b c d,
  in_type D R a -> in_type D R b -> in_type D R c -> in_type D R d -> a <= b -> c <= d ->
  0 < c \/ d < 0 ->
  exists k, i_div D R (mkI (CVal a) (CVal b)) (mkI (CVal c) (CVal d)) = Ok k.
Proof.
  intros D R a b c d Ha Hb Hc Hd Hab Hcd H0. unfold i_div.
  rewrite (proj2 (excludes_zero_val D R c d Hc Hd Hcd) H0).
  unfold minmax_of, corners. cbn [il iu].
  destruct (cr_div_vals D R a c Ha Hc ltac:(lia)) as (r1 & -> & O1 & R1).
  destruct (cr_div_vals D R a d Ha Hd ltac:(lia)) as (r2 & -> & O2 & R2).
  destruct (cr_div_vals D R b c Hb Hc ltac:(lia)) as (r3 & -> & O3 & R3).
  destruct (cr_div_vals D R b d Hb Hd ltac:(lia)) as (r4 & -> & O4 & R4).
  cbn [seq_res rbind].
  destruct (minmax_spec D R r1 [r2; r3; r4]) as (i & -> & _); [repeat constructor; assumption|]. eauto.
Qed.

Lemma i_div_sound : forall D R a b c d,
  in_type D R a -> in_type D R b -> in_type D R c -> in_type D R d -> a <= b -> c <= d ->
  0 < c \/ d < 0 ->
  exists k, i_div D R (mkI (CVal a) (CVal b)) (mkI (CVal c) (CVal d)) = Ok k
    /\ num (il k) /\ num (iu k) /\ cr_ok D R (il k) /\ cr_ok D R (iu k)
    /\ forall x y, a <= x <= b -> c <= y <= d ->
         at_least D R (il k) (Z.quot x y) /\ at_most D R (iu k) (Z.quot x y).
Proof.
  intros D R a b c d Ha Hb Hc Hd Hab Hcd H0.
  destruct (i_div_total D R a b c d Ha Hb Hc Hd Hab Hcd H0) as (k & Hk). exists k. split; [assumption|].
  unfold i_div in Hk. rewrite (proj2 (excludes_zero_val D R c d Hc Hd Hcd) H0) in Hk.
  apply (minmax_corners_strict D R (cr_div D R) Z.quot a b c d k Hab Hcd) in Hk; [assumption| | |].
  - intros p q r Hp Hq E.
    destruct (cr_div_vals D R p q) as (c' & E' & O' & R');
      [destruct Hp as [->| ->]; assumption|destruct Hq as [->| ->]; assumption|destruct Hq; lia|].
    rewrite E in E'. injection E' as ->. auto.
  - intros y0 Hy0. apply quot_mono_x. lia.
  - intros x0 Hx0. apply quot_mono_r. assumption.
Qed.

(** ------------------------------------------------------------------ *)
(** shifts *)
Lemma cr_neg_val : forall D R v, in_type D R v ->
  exists c, cr_neg D R (CVal v) = Ok c /\ cr_ok D R c /\ rnd_strict D R c (- v).
Proof.
  intros D R v Hv. unfold cr_neg, cr_sub, lookup. cbn [to_sflag sidx nth sub_table cr_value rbind].
  destruct (rnd_strict_of_eoo _ _ _ _ (subtract_spec D R 0 v (zero_in D R) Hv)) as (c & -> & Oc & Rc).
  exists c. repeat split; auto.
Qed.

Lemma cr_sub_vals : forall D R a b, in_type D R a -> in_type D R b ->
  exists c, cr_sub D R (CVal a) (CVal b) = Ok c /\ cr_ok D R c /\ rnd_strict D R c (a - b).
Proof.
  intros D R a b Ha Hb. unfold cr_sub, lookup. cbn [to_sflag sidx nth sub_table cr_value rbind].
  exact (rnd_strict_of_eoo _ _ _ _ (subtract_spec D R a b Ha Hb)).
Qed.

Lemma pow2_pos : forall u, 0 <= u -> 0 < 2 ^ u.
Proof. intros. apply Z.pow_pos_nonneg; lia. Qed.

(** non-negative value, non-negative count *)
Lemma cr_shl_nonneg : forall n D R t u, in_type D R t -> in_type D R u -> 0 <= t -> 0 <= u ->
  exists c, cr_shift (S n) true D R (CVal t) (CVal u) = Ok c /\ cr_ok D R c
    /\ rnd_strict D R c (t * 2 ^ u).
Proof.
  intros n D R t u Ht Hu Ht0 Hu0. cbn [cr_shift].
  rewrite !to_pflag_val by assumption.
  destruct (Z.ltb_spec t 0); [lia|]. destruct (Z.ltb_spec u 0); [lia|].
  destruct (Z.ltb_spec 0 t) as [Htp|Htz].
  - destruct (Z.ltb_spec 0 u) as [Hup|Huz]; unfold lookup; cbn [pidx nth shl_table rbind cr_value].
    + rewrite left_shift_spec by assumption. cbn [rbind].
      assert ((u =? 0) = false) as -> by lia. assert ((u <? 0) = false) as -> by lia.
      assert ((t <? 0) = false) as -> by lia. assert ((t =? 0) = false) as -> by lia.
      pose proof (pow_digits D R) as Hpd. pose proof (digits_pos D R). pose proof (lo_le_0 D R).
      destruct (Z.ltb_spec (digits D R) u).
      * exists (CErr positive_overflow_error). repeat split; trivial. cbn.
        pose proof (Z.pow_lt_mono_r 2 (digits D R) u ltac:(lia) ltac:(lia) ltac:(lia)). nia.
      * pose proof (pow2_pos u Hu0).
        destruct (Z.leb_spec (t * 2 ^ u) (hi D R)).
        -- eexists. split; [reflexivity|]. cbn. split; [unfold in_type in *; nia|reflexivity].
        -- eexists. split; [reflexivity|]. cbn. split; [trivial|lia].
    + assert (u = 0) by lia. subst. eexists. split; [reflexivity|]. cbn. split; [assumption|lia].
  - assert (t = 0) by lia. subst. rewrite Z.mul_0_l.
    exists (CVal 0). split; [|cbn; auto using zero_in].
    destruct (Z.ltb_spec 0 u); reflexivity.
Qed.

(** [None] stands for the undefined shift by the full width *)
Lemma cr_shr_nonneg : forall n D R t u, in_type D R t -> in_type D R u -> 0 <= t -> 0 <= u ->
  cr_shift (S n) false D R (CVal t) (CVal u) = Ok (CVal (t / 2 ^ u))
  \/ (cr_shift (S n) false D R (CVal t) (CVal u) = UB /\ csigned D R = false /\ u = digits D R).
Proof.
  intros n D R t u Ht Hu Ht0 Hu0. cbn [cr_shift].
  rewrite !to_pflag_val by assumption.
  destruct (Z.ltb_spec t 0); [lia|]. destruct (Z.ltb_spec u 0); [lia|].
  destruct (Z.ltb_spec 0 t) as [Htp|Htz].
  - destruct (Z.ltb_spec 0 u) as [Hup|Huz]; unfold lookup; cbn [pidx nth shr_table rbind cr_value].
    + rewrite right_shift_spec by assumption.
      assert ((u <? 0) = false) as -> by lia. assert ((t <? 0) = false) as -> by lia.
      pose proof (pow_digits D R) as Hpd. pose proof (digits_pos D R).
      destruct (Z.ltb_spec (digits D R) u).
      * cbn [rbind]. left. do 2 f_equal. symmetry. apply Z.div_small.
        pose proof (Z.pow_lt_mono_r 2 (digits D R) u ltac:(lia) ltac:(lia) ltac:(lia)).
        unfold in_type in *. lia.
      * destruct (Z.ltb_spec u (width D (promote D R))); [left; reflexivity|right].
        pose proof (digits_le_width_promote D R). split; [reflexivity|]. split; [|lia].
        destruct (csigned D R) eqn:E; [|reflexivity].
        pose proof (digits_lt_width_promote D R E). lia.
    + assert (u = 0) by lia. subst. left. change (2 ^ 0) with 1. rewrite Z.div_1_r. reflexivity.
  - assert (t = 0) by lia. subst. left. rewrite Z.div_0_l by (pose proof (pow2_pos u); lia).
    destruct (Z.ltb_spec 0 u); reflexivity.
Qed.

(** a positive overflow shifted left by a non-negative count *)
Lemma cr_shl_pos_overflow : forall n D R u, in_type D R u -> 0 <= u ->
  cr_shift (S n) true D R (CErr positive_overflow_error) (CVal u) = Ok (CErr positive_overflow_error).
Proof.
  intros n D R u Hu Hu0. cbn [cr_shift]. rewrite to_pflag_val by assumption.
  destruct (Z.ltb_spec u 0); [lia|]. destruct (Z.ltb_spec 0 u); reflexivity.
Qed.

Lemma two_in : forall D R, in_type D R 2.
Proof. intros. apply small_in. lia. Qed.
Lemma one_in : forall D R, in_type D R 1.
Proof. intros. apply small_in. lia. Qed.

(** negative value, non-negative count: the product may be reported as
    overflow already when it equals the minimum *)
Lemma cr_shl_neg : forall n D R t u, in_type D R t -> in_type D R u -> t < 0 -> 0 <= u ->
  exists c, cr_shift (S (S n)) true D R (CVal t) (CVal u) = Ok c /\ cr_ok D R c
    /\ rnd D R c (t * 2 ^ u).
Proof.
  intros n D R t u Ht Hu Ht0 Hu0.
  pose proof (signed_of_neg D R t Ht Ht0) as Hsg. pose proof (hi_pos_lo D R Hsg) as Hlh.
  remember (S n) as m eqn:Em. cbn [cr_shift].
  rewrite !to_pflag_val by assumption.
  destruct (Z.ltb_spec t 0); [|lia]. destruct (Z.ltb_spec u 0); [lia|].
  destruct (Z.ltb_spec 0 u) as [Hup|Huz]; unfold lookup; cbn [pidx nth shl_table rbind cr_value].
  - destruct (cr_mul_ext D R (CVal t) (CVal 2) Ht (two_in D R) I I) as (tt_ & -> & Ott & Rtt).
    cbn [to_ext emul] in Rtt. cbn [rbind].
    destruct (cr_sub_vals D R u 1 Hu (one_in D R)) as (tu & -> & Otu & Rtu). cbn [rbind].
    assert (Hu1 : in_type D R (u - 1)) by (pose proof (lo_le_0 D R); unfold in_type in *; lia).
    assert (tu = CVal (u - 1)) as ->.
    { destruct tu as [v|e]; cbn in Rtu; [congruence|]. unfold in_type in *.
      destruct e; cbn in Rtu; try tauto; lia. }
    assert (Hpw : t * 2 ^ u = (2 * t) * 2 ^ (u - 1)).
    { replace u with (1 + (u - 1)) at 1 by lia. rewrite Z.pow_add_r by lia. change (2 ^ 1) with 2. lia. }
    pose proof (pow2_pos (u - 1) ltac:(lia)) as Hp1.
    destruct tt_ as [v|e]; cbn in Rtt.
    + injection Rtt as Rtt. cbn in Ott.
      destruct (cr_neg_val D R v Ott) as (nt & -> & Ont & Rnt). cbn [rbind].
      destruct nt as [w|e]; cbn in Rnt.
      * cbn in Ont. subst m. 
        destruct (cr_shl_nonneg n D R w (u - 1) Ont Hu1 ltac:(lia) ltac:(lia)) as (s & -> & Os & Rs).
        cbn [rbind]. destruct s as [sv|se]; cbn in Rs.
        -- cbn in Os. destruct (cr_neg_val D R sv Os) as (c & -> & Oc & Rc).
           exists c. split; [reflexivity|split; [assumption|]].
           apply rnd_strict_rnd. replace (t * 2 ^ u) with (- sv) by nia. assumption.
        -- destruct se; try tauto; cbn.
           ++ eexists; split; [reflexivity|]. split; [exact I|]. cbn. nia.
           ++ exfalso. pose proof (lo_le_0 D R). nia.
      * pose proof (lo_le_0 D R). destruct e; try tauto; try lia.
        subst m. rewrite cr_shl_pos_overflow by (assumption || lia). cbn.
        eexists; split; [reflexivity|]. split; [exact I|]. cbn. nia.
    + pose proof (hi_ge_127 D R). destruct e; try tauto; [lia|].
      unfold cr_neg at 1. unfold cr_sub, lookup. cbn [to_sflag sidx nth sub_table rbind].
      subst m. rewrite cr_shl_pos_overflow by (assumption || lia). cbn.
      eexists; split; [reflexivity|]. split; [exact I|]. cbn. nia.
  - assert (u = 0) by lia. subst. eexists. split; [reflexivity|]. cbn. split; [assumption|lia].
Qed.

Lemma cr_shr_neg : forall n D R t u, in_type D R t -> in_type D R u -> t < 0 -> 0 <= u ->
  cr_shift (S (S n)) false D R (CVal t) (CVal u) = Ok (CVal (Z.quot t (2 ^ u))).
Proof.
  intros n D R t u Ht Hu Ht0 Hu0.
  pose proof (signed_of_neg D R t Ht Ht0) as Hsg. pose proof (hi_pos_lo D R Hsg) as Hlh.
  remember (S n) as m eqn:Em. cbn [cr_shift].
  rewrite !to_pflag_val by assumption.
  destruct (Z.ltb_spec t 0); [|lia]. destruct (Z.ltb_spec u 0); [lia|].
  destruct (Z.ltb_spec 0 u) as [Hup|Huz]; unfold lookup; cbn [pidx nth shr_table rbind cr_value].
  - destruct (cr_div_vals D R t 2 Ht (two_in D R) ltac:(lia)) as (tt_ & -> & Ott & Rtt). cbn [rbind].
    destruct (cr_sub_vals D R u 1 Hu (one_in D R)) as (tu & -> & Otu & Rtu). cbn [rbind].
    assert (Hu1 : in_type D R (u - 1)) by (pose proof (lo_le_0 D R); unfold in_type in *; lia).
    assert (tu = CVal (u - 1)) as ->.
    { destruct tu as [v|e]; cbn in Rtu; [congruence|]. unfold in_type in *.
      destruct e; cbn in Rtu; try tauto; lia. }
    pose proof (hi_ge_127 D R) as Hh.
    assert (Hq : Z.quot t 2 = - (- t / 2)).
    { replace t with (- (- t)) at 1 by lia. rewrite Z.quot_opp_l by lia.
      rewrite Z.quot_div_nonneg by lia. reflexivity. }
    assert (Hb : 0 <= - t / 2 <= hi D R).
    { unfold in_type in *. split; [apply Z.div_pos; lia|]. apply Z.div_le_upper_bound; lia. }
    assert (tt_ = CVal (Z.quot t 2)) as ->.
    { destruct tt_ as [v|e]; cbn in Rtt; [congruence|]. unfold in_type in *.
      destruct e; cbn in Rtt; try tauto; lia. }
    cbn in Ott. destruct (cr_neg_val D R _ Ott) as (nt & -> & Ont & Rnt). cbn [rbind].
    assert (nt = CVal (- t / 2)) as ->.
    { destruct nt as [v|e]; cbn in Rnt; [f_equal; lia|]. unfold in_type in *.
      destruct e; cbn in Rnt; try tauto; lia. }
    cbn in Ont. subst m.
    destruct (cr_shr_nonneg n D R (- t / 2) (u - 1) Ont Hu1 ltac:(lia) ltac:(lia)) as [->|(_ & Hc & _)];
      [|congruence]. cbn [rbind].
    assert (Hd : - t / 2 / 2 ^ (u - 1) = - t / 2 ^ u).
    { rewrite Z.div_div by (try lia; apply pow2_pos; lia). f_equal.
      change (2 * 2 ^ (u - 1)) with (2 ^ 1 * 2 ^ (u - 1)). rewrite <- Z.pow_add_r by lia. f_equal. lia. }
    rewrite Hd. pose proof (pow2_pos u Hu0) as Hp.
    assert (Hqq : Z.quot t (2 ^ u) = - (- t / 2 ^ u)).
    { replace t with (- (- t)) at 1 by lia. rewrite Z.quot_opp_l by lia.
      rewrite Z.quot_div_nonneg by lia. reflexivity. }
    assert (Hb2 : 0 <= - t / 2 ^ u <= hi D R).
    { rewrite <- Hd. pose proof (pow2_pos (u - 1) ltac:(lia)). split; [apply Z.div_pos; lia|].
      apply Z.div_le_upper_bound; nia. }
    destruct (cr_neg_val D R (- t / 2 ^ u)) as (c & -> & Oc & Rc); [unfold in_type in *; lia|].
    destruct c as [v|e]; cbn in Rc; [do 2 f_equal; lia|]. unfold in_type in *.
    destruct e; cbn in Rc; try tauto; lia.
  - assert (u = 0) by lia. subst. change (2 ^ 0) with 1. rewrite Z.quot_1_r. reflexivity.
Qed.

Lemma mul_pow_mono_x : forall y a b, 0 <= y -> mono_on (fun x => x * 2 ^ y) a b.
Proof. intros y a b Hy. left. intros. pose proof (pow2_pos y Hy). nia. Qed.
Lemma mul_pow_mono_y : forall x c d, 0 <= c -> mono_on (fun y => x * 2 ^ y) c d.
Proof.
  intros x c d Hc. destruct (Z_le_gt_dec 0 x); [left|right]; intros y1 y2 H1 H2 H3;
  pose proof (Z.pow_le_mono_r 2 y1 y2 ltac:(lia) H2); nia.
Qed.

Lemma i_shl_sound : forall D R a b c d,
  in_type D R a -> in_type D R b -> in_type D R c -> in_type D R d -> a <= b -> 0 <= c -> c <= d ->
  exists k, i_shl D R (mkI (CVal a) (CVal b)) (mkI (CVal c) (CVal d)) = Ok k
    /\ num (il k) /\ num (iu k) /\ cr_ok D R (il k) /\ cr_ok D R (iu k)
    /\ forall x y, a <= x <= b -> c <= y <= d -> above (il k) (x * 2 ^ y) /\ below (iu k) (x * 2 ^ y).
Proof.
  intros D R a b c d Ha Hb Hc Hd Hab Hc0 Hcd.
  assert (Hg : forall p q, in_type D R p -> in_type D R q -> 0 <= q ->
    exists r, cr_shl D R (CVal p) (CVal q) = Ok r /\ cr_ok D R r /\ rnd D R r (p * 2 ^ q)).
  { intros p q Hp Hq Hq0. unfold cr_shl. destruct (Z_lt_le_dec p 0).
    - apply cr_shl_neg; assumption.
    - destruct (cr_shl_nonneg 3 D R p q Hp Hq) as (r & -> & Or & Rr); [lia|lia|].
      exists r. auto using rnd_strict_rnd. }
  assert (Htot : exists k, i_shl D R (mkI (CVal a) (CVal b)) (mkI (CVal c) (CVal d)) = Ok k).
  { unfold i_shl, minmax_of, corners. cbn [il iu].
    destruct (Hg a c Ha Hc ltac:(lia)) as (r1 & -> & O1 & R1).
    destruct (Hg a d Ha Hd ltac:(lia)) as (r2 & -> & O2 & R2).
    destruct (Hg b c Hb Hc ltac:(lia)) as (r3 & -> & O3 & R3).
    destruct (Hg b d Hb Hd ltac:(lia)) as (r4 & -> & O4 & R4).
    cbn [seq_res rbind].
    destruct (minmax_spec D R r1 [r2; r3; r4]) as (i & -> & _); [repeat constructor; assumption|]. eauto. }
  destruct Htot as (k & Hk). exists k. split; [assumption|].
  unfold i_shl in Hk.
  apply (minmax_corners D R (cr_shl D R) (fun x y => x * 2 ^ y) a b c d k Hab Hcd) in Hk; [assumption| | |].
  - intros p q r Hp Hq E.
    destruct (Hg p q) as (c' & E' & O' & R');
      [destruct Hp as [->| ->]; assumption|destruct Hq as [->| ->]; assumption|lia|].
    rewrite E in E'. injection E' as ->. auto.
  - intros y0 Hy0. apply mul_pow_mono_x. lia.
  - intros x0 Hx0. apply mul_pow_mono_y. lia.
Qed.

Lemma quot_pow_mono_y : forall x c d, 0 <= c -> mono_on (fun y => Z.quot x (2 ^ y)) c d.
Proof.
  intros x c d Hc.
  destruct (quot_mono_r x (2 ^ c) (2 ^ d)) as [Hm|Hm]; [left; apply pow2_pos; lia| |];
  [left|right]; intros y1 y2 H1 H2 H3; apply Hm; apply Z.pow_le_mono_r; lia.
Qed.

(** [i >> j] of non-negative counts *)
Lemma i_shr_sound : forall D R a b c d k,
  in_type D R a -> in_type D R b -> in_type D R c -> in_type D R d -> a <= b -> 0 <= c -> c <= d ->
  i_shr D R (mkI (CVal a) (CVal b)) (mkI (CVal c) (CVal d)) = Ok k ->
  num (il k) /\ num (iu k) /\ cr_ok D R (il k) /\ cr_ok D R (iu k)
    /\ forall x y, a <= x <= b -> c <= y <= d ->
       above (il k) (Z.quot x (2 ^ y)) /\ below (iu k) (Z.quot x (2 ^ y)).
Proof.
  intros D R a b c d k Ha Hb Hc Hd Hab Hc0 Hcd Hk.
  unfold i_shr in Hk.
  apply (minmax_corners D R (cr_shr D R) (fun x y => Z.quot x (2 ^ y)) a b c d k Hab Hcd) in Hk; [assumption| | |].
  - intros p q r Hp Hq E.
    assert (Hp' : in_type D R p) by (destruct Hp as [->| ->]; assumption).
    assert (Hq' : in_type D R q) by (destruct Hq as [->| ->]; assumption).
    assert (Hq0 : 0 <= q) by lia. pose proof (pow2_pos q Hq0) as Hpw.
    assert (r = CVal (Z.quot p (2 ^ q)) /\ Z.abs (Z.quot p (2 ^ q)) <= Z.abs p) as [-> Hab'].
    { split; [|apply quot_abs; lia].
      unfold cr_shr in E. destruct (Z_lt_le_dec p 0).
      - rewrite cr_shr_neg in E by (assumption || lia). congruence.
      - destruct (cr_shr_nonneg 3 D R p q Hp' Hq') as [E1|(E1 & _)]; [lia|lia| |]; rewrite E1 in E; [|discriminate].
        rewrite Z.quot_div_nonneg by lia. congruence. }
    cbn. split; [|reflexivity].
    unfold in_type in *. destruct (Z_lt_le_dec p 0).
    + pose proof (signed_of_neg D R p Hp' ltac:(lia)) as Hsg.
      pose proof (Z.quot_le_mono p 0 (2 ^ q) ltac:(lia) ltac:(lia)).
      rewrite Z.quot_0_l in * by lia. pose proof (hi_ge_127 D R). lia.
    + pose proof (Z.quot_pos p (2 ^ q) ltac:(lia) ltac:(lia)). pose proof (lo_le_0 D R). lia.
  - intros y0 Hy0. apply quot_mono_x. pose proof (pow2_pos y0). lia.
  - intros x0 Hx0. apply quot_pow_mono_y. lia.
Qed.

Lemma i_shr_total : forall D R a b c d,
  in_type D R a -> in_type D R b -> in_type D R c -> in_type D R d -> 0 <= c -> 0 <= d ->
  (csigned D R = true \/ (c <> digits D R /\ d <> digits D R)) ->
  exists k, i_shr D R (mkI (CVal a) (CVal b)) (mkI (CVal c) (CVal d)) = Ok k.
Proof.
  intros D R a b c d Ha Hb Hc Hd Hc0 Hd0 Hok.
  assert (Hg : forall p q, in_type D R p -> in_type D R q -> 0 <= q ->
    (csigned D R = true \/ q <> digits D R) ->
    exists r, cr_shr D R (CVal p) (CVal q) = Ok (CVal r) /\ in_type D R r).
  { intros p q Hp Hq Hq0 Hw. unfold cr_shr. pose proof (pow2_pos q Hq0).
    destruct (Z_lt_le_dec p 0).
    - rewrite cr_shr_neg by assumption. eexists; split; [reflexivity|].
      pose proof (Z.quot_le_mono p 0 (2 ^ q) ltac:(lia) ltac:(lia)).
      rewrite Z.quot_0_l in * by lia. pose proof (hi_ge_127 D R).
      pose proof (quot_abs p (2 ^ q) ltac:(lia)). unfold in_type in *. lia.
    - destruct (cr_shr_nonneg 3 D R p q Hp Hq) as [->|(_ & E1 & E2)]; [lia|lia| |].
      + eexists; split; [reflexivity|].
        pose proof (Z.quot_pos p (2 ^ q) ltac:(lia) ltac:(lia)). pose proof (lo_le_0 D R).
        pose proof (quot_abs p (2 ^ q) ltac:(lia)). rewrite <- Z.quot_div_nonneg by lia.
        unfold in_type in *. lia.
      + destruct Hw; [congruence|contradiction]. }
  unfold i_shr, minmax_of, corners. cbn [il iu].
  destruct (Hg a c Ha Hc ltac:(lia) ltac:(tauto)) as (r1 & -> & O1).
  destruct (Hg a d Ha Hd ltac:(lia) ltac:(tauto)) as (r2 & -> & O2).
  destruct (Hg b c Hb Hc ltac:(lia) ltac:(tauto)) as (r3 & -> & O3).
  destruct (Hg b d Hb Hd ltac:(lia) ltac:(tauto)) as (r4 & -> & O4).
  cbn [seq_res rbind].
  destruct (minmax_spec D R (CVal r1) [CVal r2; CVal r3; CVal r4]) as (i & -> & _);
    [do 4 (apply Forall_cons; [assumption|]); apply Forall_nil|]. eauto.
Qed.

(** ------------------------------------------------------------------ *)
(** remainders *)
Lemma cr_mod_vals : forall D R p q, in_type D R p -> in_type D R q -> q <> 0 ->
  ~ (lo D R < 0 /\ p = lo D R /\ q = lo D R) ->
  cr_mod D R (CVal p) (CVal q) = Ok (CVal (remainder p q)) /\ in_type D R (remainder p q).
Proof.
  intros D R p q Hp Hq H0 Hn.
  assert (Hin : in_type D R (remainder p q)) by (rewrite remainder_rem by assumption; apply rem_in; assumption).
  split; [|assumption].
  assert (Hm : modulus D R p q = Ok (CVal (remainder p q))).
  { apply modulus_spec; auto. intros (A & B & C). apply Hn. pose proof (hi_pos_lo D R A).
    pose proof (hi_ge_127 D R). repeat split; auto; lia. }
  unfold cr_mod. rewrite !to_pflag_val by assumption.
  destruct (Z.ltb_spec p 0); [|destruct (Z.ltb_spec 0 p)];
  (destruct (Z.ltb_spec q 0); [|destruct (Z.ltb_spec 0 q); [|lia]]);
  unfold lookup; cbn [pidx nth mod_table rbind cr_value]; try exact Hm.
  - assert (p = 0) by lia. subst. unfold remainder. rewrite Z.quot_0_l by lia. do 2 f_equal. lia.
  - assert (p = 0) by lia. subst. unfold remainder. rewrite Z.quot_0_l by lia. do 2 f_equal. lia.
Qed.

Lemma i_mod_sound : forall D R a b c d n,
  in_type D R a -> in_type D R b -> in_type D R c -> in_type D R d -> a <= b -> c <= d ->
  0 < c \/ d < 0 ->
  ~ (lo D R < 0 /\ a = lo D R /\ c = lo D R) ->
  (forall x y, a <= x <= b -> c <= y <= d -> Z.quot x y = n) ->
  exists k, i_mod D R (mkI (CVal a) (CVal b)) (mkI (CVal c) (CVal d)) = Ok k
    /\ forall x y, a <= x <= b -> c <= y <= d ->
         at_least D R (il k) (remainder x y) /\ at_most D R (iu k) (remainder x y).
Proof.
  intros D R a b c d n Ha Hb Hc Hd Hab Hcd H0 Hn Hq.
  assert (Hg : forall p q, (p = a \/ p = b) -> (q = c \/ q = d) ->
     cr_mod D R (CVal p) (CVal q) = Ok (CVal (remainder p q)) /\ in_type D R (remainder p q)).
  { intros p q Hp Hq'.
    assert (Hp' : in_type D R p) by (destruct Hp as [->| ->]; assumption).
    assert (Hqi : in_type D R q) by (destruct Hq' as [->| ->]; assumption).
    apply cr_mod_vals; try assumption; [lia|].
    intros (E1 & E2 & E3). unfold in_type in *. lia. }
  assert (Htot : exists k, i_mod D R (mkI (CVal a) (CVal b)) (mkI (CVal c) (CVal d)) = Ok k).
  { unfold i_mod. rewrite (proj2 (excludes_zero_val D R c d Hc Hd Hcd) H0).
    unfold minmax_of, corners. cbn [il iu].
    destruct (Hg a c ltac:(tauto) ltac:(tauto)) as (-> & O1).
    destruct (Hg a d ltac:(tauto) ltac:(tauto)) as (-> & O2).
    destruct (Hg b c ltac:(tauto) ltac:(tauto)) as (-> & O3).
    destruct (Hg b d ltac:(tauto) ltac:(tauto)) as (-> & O4).
    cbn [seq_res rbind]. 
    match goal with |- exists k, minmax D R (?h :: ?l) = _ =>
      destruct (minmax_spec D R h l) as (i & -> & _) end;
    [do 4 (apply Forall_cons; [assumption|]); apply Forall_nil|]. eauto. }
  destruct Htot as (k & Hk). exists k. split; [assumption|].
  unfold i_mod in Hk. rewrite (proj2 (excludes_zero_val D R c d Hc Hd Hcd) H0) in Hk.
  apply (minmax_corners_strict D R (cr_mod D R) (fun x y => x - y * n) a b c d k Hab Hcd) in Hk.
  - destruct Hk as (_ & _ & _ & _ & Hk). intros x y Hx Hy.
    specialize (Hk x y Hx Hy). unfold remainder. rewrite (Hq x y Hx Hy). assumption.
  - intros p q r Hp Hq' E. destruct (Hg p q Hp Hq') as [E1 E2]. rewrite E in E1. injection E1 as ->.
    unfold remainder in *. rewrite (Hq p q) in * by lia. cbn. auto.
  - intros y0 Hy0. left. intros; lia.
  - intros x0 Hx0. destruct (Z_le_gt_dec 0 n); [right|left]; intros; nia.
Qed.

(** ------------------------------------------------------------------ *)
(** relations *)
Lemma tri_bool_of : forall b, tri_bool (tri_of_bool b) = b.
Proof. intros []; reflexivity. Qed.
Lemma tri_not_of : forall b, tri_not (tri_of_bool b) = tri_of_bool (negb b).
Proof. intros []; reflexivity. Qed.
Lemma tri_and_of : forall a b, tri_and (tri_of_bool a) (tri_of_bool b) = tri_of_bool (a && b).
Proof. intros [] []; reflexivity. Qed.
Lemma tri_or_of : forall a b, tri_or (tri_of_bool a) (tri_of_bool b) = tri_of_bool (a || b).
Proof. intros [] []; reflexivity. Qed.
