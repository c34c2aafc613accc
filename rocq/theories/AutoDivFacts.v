(** AutoDivFacts.v -- division under automatic promotion by a divisor whose declared
    range includes zero. Proofs only. *)
From Coq Require Import ZArith Bool List Lia.
From Verif Require Import Base CType Spec CTypeFacts Utility UtilityFacts SafeCompare
  CheckedInteger CheckedIntegerFacts CheckedResultOps CheckedResultFacts Interval IntervalFacts
  IntervalOpsFacts ExceptionPolicy Promotion SafeBase SafeSpec SafeFacts SafeDivFacts SafeConvFacts
  SafeStaticFacts PropsArithProofs AutoFacts.
Import ListNotations.
Local Open Scope Z_scope.

Lemma widest_div : forall D t u, widest D Div t u = auto_temp D (base_ty t) (base_ty u).
Proof. intros. reflexivity. Qed.

(** the divisor's range includes zero: always checked *)
Lemma zero_checked : forall D R u, wf_operand D u -> lim_lo D u <= 0 <= lim_hi D u ->
  (csigned D R = false -> 0 <= lim_lo D u) ->
  includes_pt D R (lim_interval D R u) (CVal 0) = TTrue.
Proof.
  intros D R u (W1 & W2 & _) Hz Hs. unfold includes_pt, cr_le, lim_interval. cbn [il iu].
  pose proof (lo_le_0 D R). pose proof (hi_ge_127 D R).
  assert (Z0 : in_type D R 0) by (unfold in_type; lia).
  assert (A : cr_lt D R (CVal 0) (cast D R (base_ty u) (lim_lo D u)) = TFalse).
  { destruct (cast_cases D R _ _ W1) as [[I ->]|[[I ->]|[(L & I & ->)|(L & I & J & ->)]]].
    - rewrite cr_lt_val by assumption. destruct (Z.ltb_spec 0 (lim_lo D u)); [lia|reflexivity].
    - lia.
    - reflexivity.
    - specialize (Hs J). lia. }
  assert (B : cr_lt D R (cast D R (base_ty u) (lim_hi D u)) (CVal 0) = TFalse).
  { destruct (cast_cases D R _ _ W2) as [[I ->]|[[I ->]|[(L & I & ->)|(L & I & J & ->)]]]; try lia.
    - rewrite cr_lt_val by assumption. destruct (Z.ltb_spec (lim_hi D u) 0); [lia|reflexivity].
    - reflexivity. }
  rewrite A, B. reflexivity.
Qed.

(** the work type holds the operands that the widest type holds *)
Lemma work_holds : forall D R t u W o z, div_temp D R (base_ty t) (base_ty u) = Some W ->
  csigned D R = csigned D (auto_temp D (base_ty t) (base_ty u)) -> o = t \/ o = u ->
  wf_operand D o -> holds D o z -> in_type D (auto_temp D (base_ty t) (base_ty u)) z -> in_type D W z.
Proof.
  intros D R t u W o z HW HS Ho (W1 & W2 & _) Hz Iz.
  assert (Hd : digits D (base_ty o) <= Z.max (digits D R) (Z.max (digits D (base_ty t)) (digits D (base_ty u))))
    by (destruct Ho as [->| ->]; lia).
  assert (Ib : in_type D (base_ty o) z) by (unfold holds, in_type in *; lia).
  unfold div_temp, div_bits in HW. destruct (csigned D R) eqn:ER.
  - apply int_t_least_spec in HW. destruct HW as (SW & HW & _).
    assert (Et : auto_temp D (base_ty t) (base_ty u) = intmax D).
    { destruct (auto_temp_cases D (base_ty t) (base_ty u)) as [E|E]; [|assumption].
      rewrite E, uintmax_unsigned in HS. discriminate. }
    rewrite Et in Iz.
    assert (Du : digits D (uintmax D) = digits D (intmax D) + 1) by (destruct D; reflexivity).
    destruct (Z_le_gt_dec (digits D (base_ty o)) (digits D W)) as [G|G].
    + pose proof (digits_hi_le D _ _ G). pose proof (digits_lo_le D _ _ G SW). unfold in_type in *. lia.
    + assert (G' : digits D (intmax D) <= digits D W) by lia.
      pose proof (digits_hi_le D _ _ G'). pose proof (digits_lo_le D _ _ G' SW). unfold in_type in *. lia.
  - apply uint_t_least_spec in HW. destruct HW as (SW & HW & _).
    symmetry in HS. destruct (auto_temp_unsigned D _ _ HS) as [U1 U2].
    assert (So : csigned D (base_ty o) = false) by (destruct Ho as [->| ->]; assumption).
    pose proof (digits_pos D (base_ty o)).
    assert (Dm : digits D (base_ty o) <= digits D (uintmax D)) by (destruct D, (base_ty o); vm_compute; congruence).
    assert (G : digits D (base_ty o) <= digits D W) by lia.
    pose proof (digits_hi_le D _ _ G). unfold in_type in *.
    rewrite (lo_unsigned D _ SW). rewrite (lo_unsigned D _ So) in Ib. lia.
Qed.

(** the result type holds all quotients that the widest type holds *)
Lemma auto_div_range2 : forall D t u R x y,
  wf_operand D t -> wf_operand D u -> holds D t x -> holds D u y -> y <> 0 ->
  automatic_result D (PArith Div) t u = Some R ->
  fits_in D (widest D Div t u) t -> fits_in D (widest D Div t u) u ->
  in_type D (widest D Div t u) (Z.quot x y) -> in_type D R (Z.quot x y).
Proof.
  intros D t u R x y Ht Hu Hx Hy Hy0 HR Ft Fu Hq. rewrite widest_div in *.
  cbn [automatic_result] in HR. set (tmp := auto_temp D (base_ty t) (base_ty u)) in *.
  unfold auto_type in HR.
  destruct (div_interval D tmp (lim_interval D tmp t) (lim_interval D tmp u)) as [ri|] eqn:Ei; [|discriminate].
  assert (Htmp : tmp = intmax D \/ tmp = uintmax D)
    by (unfold tmp; destruct (auto_temp_cases D (base_ty t) (base_ty u)); auto).
  destruct (div_fits D tmp t u ri Ht Hu (fits_in_fits _ _ _ Ft) (fits_in_fits _ _ _ Fu) Ei) as ((B1 & B2 & B3) & Hs & _).
  destruct (stored_type_spec D tmp _ _ R Htmp B1 B2 B3 HR) as (_ & M1 & M2 & _).
  pose proof (Hs x y Hx Hy ltac:(unfold fits_in, holds, in_type in *; lia)
    ltac:(unfold fits_in, holds, in_type in *; lia) Hy0 Hq).
  unfold in_type in *. lia.
Qed.

Lemma quot_pos_bound : forall x y, 0 < y -> (x < 0 -> x <= Z.quot x y <= 0) /\ (0 <= x -> 0 <= Z.quot x y <= x).
Proof.
  intros x y Hy. split; intros Hx.
  - assert (E : Z.quot x y = - Z.quot (- x) y) by (rewrite Z.quot_opp_l by lia; lia).
    pose proof (Z.quot_pos (- x) y ltac:(lia) ltac:(lia)).
    assert (Z.quot (- x) y <= - x) by (apply Z.quot_le_upper_bound; nia). lia.
  - pose proof (Z.quot_pos x y ltac:(lia) ltac:(lia)).
    assert (Z.quot x y <= x) by (apply Z.quot_le_upper_bound; nia). lia.
Qed.
(** the eight quotients bound all quotients, also when the bounds of the divisor are
    outside the result type *)
Definition low_bound (D : dmodel) (R : ctype) (r : checked) (c : Z) : Prop :=
  c <= 0 /\ ((in_type D R c /\ r = CVal c) \/ (c < lo D R /\ csigned D R = true /\ r = CErr negative_overflow_error)).
Definition high_bound (D : dmodel) (R : ctype) (r : checked) (d : Z) : Prop :=
  0 <= d /\ ((in_type D R d /\ r = CVal d) \/ (hi D R < d /\ r = CErr positive_overflow_error)).

Lemma cr_div_ovf : forall D R p e, in_type D R p -> e = negative_overflow_error \/ e = positive_overflow_error ->
  cr_div D R (CVal p) (CErr e) = Ok (CVal 0).
Proof.
  intros D R p e Hp He. unfold cr_div. rewrite to_pflag_val by assumption.
  destruct He as [->| ->]; destruct (Z.ltb_spec p 0); cbn; try reflexivity;
  destruct (Z.ltb_spec 0 p); reflexivity.
Qed.

Lemma eight_div_sound2 : forall D R a b cl cu c d k,
  in_type D R a -> in_type D R b -> a <= b -> low_bound D R cl c -> high_bound D R cu d ->
  minmax_of D R (eight (cr_div D R) D R (mkI (CVal a) (CVal b)) (mkI cl cu)) = Ok k ->
  k = mkI (CErr range_error) (CErr range_error)
  \/ (num (il k) /\ num (iu k) /\ cr_ok D R (il k) /\ cr_ok D R (iu k) /\ cle (il k) (iu k)
      /\ (forall x y, a <= x <= b -> c <= y <= d -> y <> 0 ->
           at_least D R (il k) (Z.quot x y) /\ at_most D R (iu k) (Z.quot x y))
      /\ at_least D R (il k) a /\ at_most D R (iu k) b).
Proof.
  intros D R a b cl cu c d k Ha Hb Hab [Hc0 Hc] [Hd0 Hd] Hk.
  unfold minmax_of in Hk. destruct (seq_res _) as [vs|] eqn:Es; [|discriminate]. cbn [rbind] in Hk.
  apply seq_res_inv in Es. unfold eight in Es. cbn [il iu] in Es.
  assert (Hm1 : in_type D R (conv D R (-1))) by apply conv_range.
  assert (Hp1 : in_type D R 1) by apply one_in.
  assert (Hok : forall p q, in_type D R p -> in_type D R q -> exists r, cr_div D R (CVal p) (CVal q) = Ok r
     /\ cr_ok D R r /\ (q <> 0 -> rnd_strict D R r (Z.quot p q))).
  { intros p q Hp Hq. destruct (Z.eq_dec q 0) as [->|Hq0].
    - destruct (cr_div_total D R (CVal p) (CVal 0) Hp (zero_in D R)) as (r & E & O & _).
      exists r. split; [assumption|]. split; [assumption|]. congruence.
    - destruct (cr_div_vals D R p q Hp Hq Hq0) as (r & E & O & S). exists r. auto. }
  (* a bound of the divisor: the quotient, or 0 if the bound is outside R *)
  assert (Hlo : forall p, in_type D R p -> exists r, cr_div D R (CVal p) cl = Ok r /\ cr_ok D R r
     /\ (in_type D R c -> c <> 0 -> rnd_strict D R r (Z.quot p c))
     /\ (c < lo D R -> rnd_strict D R r 0)).
  { intros p Hp. destruct Hc as [[Ic ->]|(Ic & _ & ->)].
    - destruct (Hok p c Hp Ic) as (r & E & O & S). exists r. splits; auto. unfold in_type in *; lia.
    - exists (CVal 0). rewrite cr_div_ovf by auto. splits; auto.
      + apply zero_in.
      + unfold in_type; lia.
      + intros _. reflexivity. }
  assert (Hhi : forall p, in_type D R p -> exists r, cr_div D R (CVal p) cu = Ok r /\ cr_ok D R r
     /\ (in_type D R d -> d <> 0 -> rnd_strict D R r (Z.quot p d))
     /\ (hi D R < d -> rnd_strict D R r 0)).
  { intros p Hp. destruct Hd as [[Id ->]|(Id & ->)].
    - destruct (Hok p d Hp Id) as (r & E & O & S). exists r. splits; auto. unfold in_type in *; lia.
    - exists (CVal 0). rewrite cr_div_ovf by auto. splits; auto.
      + apply zero_in.
      + unfold in_type; lia.
      + intros _. reflexivity. }
  destruct (Hlo a Ha) as (r1 & E1 & O1 & S1 & T1).
  destruct (Hok a _ Ha Hm1) as (r2 & E2 & O2 & S2).
  destruct (Hok a 1 Ha Hp1) as (r3 & E3 & O3 & S3).
  destruct (Hhi a Ha) as (r4 & E4 & O4 & S4 & T4).
  destruct (Hlo b Hb) as (r5 & E5 & O5 & S5 & T5).
  destruct (Hok b _ Hb Hm1) as (r6 & E6 & O6 & S6).
  destruct (Hok b 1 Hb Hp1) as (r7 & E7 & O7 & S7).
  destruct (Hhi b Hb) as (r8 & E8 & O8 & S8 & T8).
  rewrite E1, E2, E3, E4, E5, E6, E7, E8 in Es.
  assert (vs = [r1; r2; r3; r4; r5; r6; r7; r8]) as ->.
  { repeat match goal with H : Forall2 _ (_ :: _) ?l |- _ => inversion H; clear H; subst
      | H : Forall2 _ [] ?l |- _ => inversion H; clear H; subst end.
    repeat match goal with H : Ok _ = Ok _ |- _ => injection H as <- end. reflexivity. }
  destruct (minmax_spec D R r1 [r2; r3; r4; r5; r6; r7; r8]) as (i & Hi & Hs).
  { do 8 (apply Forall_cons; [assumption|]); apply Forall_nil. }
  rewrite Hi in Hk. injection Hk as <-.
  destruct Hs as [[Hn ->]|(N1 & N2 & K1 & K2 & Kc & _ & _ & Nh & Hin)].
  - left. destruct Hc as [[Ic ->]|(Ic & _ & ->)].
    + destruct (Z.eq_dec c 0) as [->|Hcn].
      * unfold cr_div in E1. rewrite !to_pflag_val in E1 by auto using zero_in.
        destruct (Z.ltb_spec a 0); [|destruct (Z.ltb_spec 0 a)]; cbn in E1; injection E1 as <-; cbn in Hn; try tauto.
      * exfalso. apply Hn. apply (rnd_strict_num D R r1 _ (S1 Ic Hcn)).
    + exfalso. apply Hn. apply (rnd_strict_num D R r1 _ (T1 Ic)).
  - right. splits; try assumption.
    2:{ specialize (S3 ltac:(lia)). rewrite Z.quot_1_r in S3.
        destruct (Hin r3 ltac:(pick) (rnd_strict_num _ _ _ _ S3)) as [L1 _].
        apply (at_least_cle D R (il i) r3); auto; [apply (rnd_strict_num _ _ _ _ S3)|].
        apply (rnd_at_least D R r3 _ _ S3). lia. }
    2:{ specialize (S7 ltac:(lia)). rewrite Z.quot_1_r in S7.
        destruct (Hin r7 ltac:(pick) (rnd_strict_num _ _ _ _ S7)) as [_ L1].
        apply (at_most_cle D R r7 (iu i)); auto; [apply (rnd_strict_num _ _ _ _ S7)|].
        apply (rnd_at_most D R r7 _ _ S7). lia. }
    intros x y Hx Hy Hy0.
    set (L := [r1; r2; r3; r4; r5; r6; r7; r8]) in *.
    assert (Hb2 : exists z z' rr rr', In rr L /\ In rr' L /\ rnd_strict D R rr z /\ rnd_strict D R rr' z'
       /\ z <= Z.quot x y <= z').
    { destruct (Z_lt_le_dec 0 y) as [Hpos|Hneg].
      - destruct Hd as [[Id ->]|(Id & ->)].
        + destruct (corner_bounds Z.quot a b 1 d x y Hx ltac:(lia)) as (p & q & p' & q' & Hp & Hq & Hp' & Hq' & G).
          { intros y0 Hy1. apply quot_mono_x. lia. }
          { intros x0 Hx1. apply quot_mono_r. left. lia. }
          assert (Hsel : forall p q, (p = a \/ p = b) -> (q = 1 \/ q = d) ->
             exists rr, In rr L /\ rnd_strict D R rr (Z.quot p q)).
          { unfold L. intros p0 q0 [->| ->] [->| ->].
            - exists r3. split; [pick|apply S3; lia].
            - exists r4. split; [pick|apply S4; [assumption|lia]].
            - exists r7. split; [pick|apply S7; lia].
            - exists r8. split; [pick|apply S8; [assumption|lia]]. }
          destruct (Hsel p q Hp Hq) as (rr & I1 & R1). destruct (Hsel p' q' Hp' Hq') as (rr' & I2 & R2).
          exists (Z.quot p q), (Z.quot p' q'), rr, rr'. auto.
        + specialize (S3 ltac:(lia)). specialize (S7 ltac:(lia)). specialize (T4 Id).
          rewrite !Z.quot_1_r in S3, S7.
          pose proof (quot_pos_bound x y Hpos) as [Q1 Q2].
          destruct (Z_lt_le_dec x 0) as [Hx0|Hx0].
          * exists a, 0, r3, r4. unfold L. splits; try pick; auto; lia.
          * exists 0, b, r4, r7. unfold L. splits; try pick; auto; lia.
      - assert (Hcneg : c <= -1) by lia.
        assert (HS : csigned D R = true).
        { destruct Hc as [[Ic _]|(_ & E & _)]; [|assumption]. apply (signed_of_neg D R c); [assumption|lia]. }
        rewrite (conv_id D R (-1)) in * by (apply neg1_in; assumption).
        destruct Hc as [[Ic ->]|(Ic & _ & ->)].
        + destruct (corner_bounds Z.quot a b c (-1) x y Hx ltac:(lia)) as (p & q & p' & q' & Hp & Hq & Hp' & Hq' & G).
          { intros y0 Hy1. apply quot_mono_x. lia. }
          { intros x0 Hx1. apply quot_mono_r. right. lia. }
          assert (Hsel : forall p q, (p = a \/ p = b) -> (q = c \/ q = -1) ->
             exists rr, In rr L /\ rnd_strict D R rr (Z.quot p q)).
          { unfold L. intros p0 q0 [->| ->] [->| ->].
            - exists r1. split; [pick|apply S1; [assumption|lia]].
            - exists r2. split; [pick|apply S2; lia].
            - exists r5. split; [pick|apply S5; [assumption|lia]].
            - exists r6. split; [pick|apply S6; lia]. }
          destruct (Hsel p q Hp Hq) as (rr & I1 & R1). destruct (Hsel p' q' Hp' Hq') as (rr' & I2 & R2).
          exists (Z.quot p q), (Z.quot p' q'), rr, rr'. auto.
        + specialize (S2 ltac:(lia)). specialize (S6 ltac:(lia)). specialize (T1 Ic).
          assert (En : forall z, Z.quot z (-1) = - z)
            by (intros z; change (-1) with (- (1)); rewrite Z.quot_opp_r, Z.quot_1_r by lia; reflexivity).
          rewrite En in S2, S6.
          pose proof (quot_pos_bound x (- y) ltac:(lia)) as [Q1 Q2].
          assert (Eq : Z.quot x y = - Z.quot x (- y)) by (rewrite Z.quot_opp_r by lia; lia).
          destruct (Z_lt_le_dec x 0) as [Hx0|Hx0].
          * exists 0, (- a), r1, r2. unfold L. splits; try pick; auto; lia.
          * exists (- b), 0, r6, r1. unfold L. splits; try pick; auto; lia. }
    destruct Hb2 as (z & z' & rr & rr' & I1 & I2 & R1 & R2 & G1 & G2).
    destruct (Hin rr I1 (rnd_strict_num _ _ _ _ R1)) as [L1 _].
    destruct (Hin rr' I2 (rnd_strict_num _ _ _ _ R2)) as [_ L2].
    split.
    + apply (at_least_cle D R (il i) rr); auto; [apply (rnd_strict_num _ _ _ _ R1)|].
      apply (rnd_at_least D R rr _ _ R1). assumption.
    + apply (at_most_cle D R rr' (iu i)); auto; [apply (rnd_strict_num _ _ _ _ R2)|].
      apply (rnd_at_most D R rr' _ _ R2). assumption.
Qed.

(** the bounds of a divisor that includes zero, in any type of suitable sign *)
Lemma div_bounds : forall D R u, wf_operand D u -> lim_lo D u <= 0 <= lim_hi D u ->
  (csigned D R = false -> 0 <= lim_lo D u) ->
  low_bound D R (cast D R (base_ty u) (lim_lo D u)) (lim_lo D u)
  /\ high_bound D R (cast D R (base_ty u) (lim_hi D u)) (lim_hi D u).
Proof.
  intros D R u (W1 & W2 & _) Hz Hs. pose proof (lo_le_0 D R). pose proof (hi_ge_127 D R).
  unfold low_bound, high_bound. split; (split; [lia|]).
  - destruct (cast_cases D R _ _ W1) as [[I ->]|[[I ->]|[(L & I & ->)|(L & I & J & ->)]]]; try lia; auto.
    + right. splits; try reflexivity; try assumption. apply (signed_of_neg D R (lo D R)); [unfold in_type; lia|lia].
    + exfalso. specialize (Hs J). lia.
  - destruct (cast_cases D R _ _ W2) as [[I ->]|[[I ->]|[(L & I & ->)|(L & I & J & ->)]]]; try lia; auto.
    right. split; [lia|reflexivity].
Qed.

Lemma div_zero_interval : forall D R t u k, wf_operand D t -> wf_operand D u ->
  lim_lo D u <= 0 <= lim_hi D u -> (csigned D R = false -> 0 <= lim_lo D u) -> fits_in D R t ->
  div_interval D R (lim_interval D R t) (lim_interval D R u) = Ok k ->
  k = mkI (CErr range_error) (CErr range_error)
  \/ (num (il k) /\ num (iu k) /\ cr_ok D R (il k) /\ cr_ok D R (iu k) /\ cle (il k) (iu k)
      /\ (forall x y, holds D t x -> holds D u y -> y <> 0 ->
           at_least D R (il k) (Z.quot x y) /\ at_most D R (iu k) (Z.quot x y))
      /\ at_least D R (il k) (lim_lo D t) /\ at_most D R (iu k) (lim_hi D t)).
Proof.
  intros D R t u k Ht Hu Hz Hs Ft Hk.
  destruct (div_bounds D R u Hu Hz Hs) as [Bl Bh].
  destruct Ht as (T1 & T2 & T3). 
  assert (I1 : in_type D R (lim_lo D t)) by (unfold fits_in, in_type in *; lia).
  assert (I2 : in_type D R (lim_hi D t)) by (unfold fits_in, in_type in *; lia).
  unfold div_interval, lim_interval in Hk.
  rewrite (proj1 (cast_spec D R _ _ T1) I1), (proj1 (cast_spec D R _ _ T2) I2) in Hk.
  replace (nonzero_interval _ _ _) with false in Hk.
  - destruct (eight_div_sound2 D R _ _ _ _ _ _ k I1 I2 T3 Bl Bh Hk); auto.
  - symmetry. pose proof (lo_le_0 D R). pose proof (hi_ge_127 D R).
    assert (Z0 : in_type D R 0) by (unfold in_type; lia).
    unfold nonzero_interval, cr_gt. cbn [il iu].
    destruct Bl as [B0 [[I ->]|(I & _ & ->)]], Bh as [B1 [[J ->]|(J & ->)]];
      rewrite ?cr_lt_val by assumption; cbn;
      repeat match goal with |- context [?a <? ?b] => destruct (Z.ltb_spec a b) end; try lia; reflexivity.
Qed.

(** the result type holds the dividends *)
Lemma auto_div_dividend : forall D t u R,
  wf_operand D t -> wf_operand D u -> lim_lo D u <= 0 <= lim_hi D u ->
  automatic_result D (PArith Div) t u = Some R -> fits_in D (widest D Div t u) t ->
  fits_in D (widest D Div t u) u -> fits_in D R t.
Proof.
  intros D t u R Ht Hu Hz HR Ft Fu. rewrite widest_div in *.
  cbn [automatic_result] in HR. set (tmp := auto_temp D (base_ty t) (base_ty u)) in *.
  unfold auto_type in HR.
  destruct (div_interval D tmp (lim_interval D tmp t) (lim_interval D tmp u)) as [ri|] eqn:Ei; [|discriminate].
  assert (Htmp : tmp = intmax D \/ tmp = uintmax D)
    by (unfold tmp; destruct (auto_temp_cases D (base_ty t) (base_ty u)); auto).
  destruct (div_fits D tmp t u ri Ht Hu (fits_in_fits _ _ _ Ft) (fits_in_fits _ _ _ Fu) Ei) as ((B1 & B2 & B3) & _).
  destruct (stored_type_spec D tmp _ _ R Htmp B1 B2 B3 HR) as (_ & M1 & M2 & _).
  assert (Hs : csigned D tmp = false -> 0 <= lim_lo D u).
  { intros S. destruct (auto_temp_unsigned D _ _ S) as [_ U].
    destruct Hu as (W1 & _). unfold in_type in W1. rewrite (lo_unsigned D _ U) in W1. lia. }
  assert (T3 : lim_lo D t <= lim_hi D t) by apply Ht.
  destruct (div_zero_interval D tmp t u ri Ht Hu Hz Hs Ft Ei) as [->|(_ & _ & O1 & O2 & _ & _ & A1 & A2)].
  - cbn [il iu bound_lo bound_hi] in M1, M2. unfold fits_in, in_type in *. lia.
  - apply (at_least_bound D tmp) in A1; [|assumption|unfold fits_in, in_type in *; lia].
    apply (at_most_bound D tmp) in A2; [|assumption|unfold fits_in, in_type in *; lia].
    unfold fits_in, in_type in *. lia.
Qed.

Lemma auto_div_zero : forall D t u x y s m,
  wf_operand D t -> wf_operand D u -> holds D t x -> holds D u y ->
  binary D Div t u x y = Some (s, m) -> throws_arithmetic (sE s) -> sP s = Automatic ->
  fits_in D (widest D Div t u) t -> fits_in D (widest D Div t u) u -> lim_lo D u <= 0 <= lim_hi D u ->
  (y = 0 -> throws_arith m)
  /\ (y <> 0 -> in_type D (widest D Div t u) (Z.quot x y) ->
      returns m (Z.quot x y) /\ in_type D (st s) (Z.quot x y))
  /\ (y <> 0 -> ~ in_type D (widest D Div t u) (Z.quot x y) -> throws_arith m).
Proof.
  intros D t u x y s m Ht Hu Hx Hy Hb HE HA Ft Fu Hz.
  destruct (binary_inv _ _ _ _ _ _ _ _ Hb) as (P & E & R & ri & HP & HEp & HR & Hri & -> & Hm).
  cbn [sE sP st] in *. subst P. cbn [result_base_type] in HR.
  pose proof (auto_signed D Div t u R ltac:(auto) HR) as HS.
  destruct Hm as [[Hx0 _]|[_ (W & casts & HW & Hc & _ & ->)]].
  { exfalso. cbn [exception_possible] in Hx0. rewrite zero_checked in Hx0; [discriminate|assumption..|].
    intros S. rewrite S in HS. symmetry in HS. destruct (auto_temp_unsigned D _ _ HS) as [_ U].
    destruct Hu as (W1 & _). unfold in_type in W1. rewrite (lo_unsigned D _ U) in W1. lia. }
  cbn [work_type] in HW. destruct (work_range D R _ _ W HW) as [R1 R2].
  rewrite widest_div in *.
  assert (Ix : in_type D W x).
  { apply (work_holds D R t u W t x HW HS); auto. unfold fits_in, holds, in_type in *. lia. }
  assert (Iy : in_type D W y).
  { apply (work_holds D R t u W u y HW HS); auto. unfold fits_in, holds, in_type in *. lia. }
  destruct (casting_helper_throws _ _ _ _ _ _ _ _ HE Ht Hu Hx Hy Hc) as [(_ & _ & ->)|[Hn _]]; [|tauto].
  unfold checked_run. rewrite mbind_ret. cbn [fst snd checked_op]. destruct (divide_spec D W x y Ix Iy) as [Hz0 Hnz].
  splits.
  - intros Hy0. rewrite (Hz0 Hy0). cbn [mlift]. rewrite mbind_ret. apply mbind_throws.
    apply dar_arith; [assumption|unfold arithmetic_err; auto].
  - intros Hy0 Hq. pose proof (auto_div_range2 D t u R x y Ht Hu Hx Hy Hy0 HR Ft Fu Hq) as Iq.
    split; [|assumption].
    destruct (eoo_cases _ _ _ _ (Hnz Hy0)) as [[Hi ->]|[[Hi ->]|[Hi ->]]]; try (unfold in_type in *; lia).
    cbn [mlift]. rewrite mbind_ret, dar_val, mbind_ret. unfold returns. rewrite conv_id by assumption. reflexivity.
  - intros Hy0 Hq. destruct (auto_temp_work D R _ _ W HW HS) as [A1 A2].
    destruct (eoo_cases _ _ _ _ (Hnz Hy0)) as [[Hi ->]|[[Hi ->]|[Hi ->]]]; [unfold in_type in *; lia|..];
      cbn [mlift]; rewrite mbind_ret; apply mbind_throws; (apply dar_arith; [assumption|unfold arithmetic_err; auto]).
Qed.

(** the declared range of the result holds the quotients *)
Lemma auto_div_declared : forall D t u x0 y0 s m,
  wf_operand D t -> wf_operand D u ->
  binary D Div t u x0 y0 = Some (s, m) -> sP s = Automatic ->
  fits_in D (widest D Div t u) t -> fits_in D (widest D Div t u) u -> lim_lo D u <= 0 <= lim_hi D u ->
  wf_operand D (OSafe s)
  /\ forall x y, holds D t x -> holds D u y -> y <> 0 -> in_type D (widest D Div t u) (Z.quot x y) ->
      holds D (OSafe s) (Z.quot x y).
Proof.
  intros D t u x0 y0 s m Ht Hu Hb HA Ft Fu Hz.
  destruct (binary_inv _ _ _ _ _ _ _ _ Hb) as (P & E & R & ri & HP & HEp & HR & Hri & -> & _).
  cbn [sP] in HA. subst P. cbn [result_base_type] in HR.
  pose proof (auto_signed D Div t u R ltac:(auto) HR) as HS.
  pose proof (auto_div_dividend D t u R Ht Hu Hz HR Ft Fu) as FR.
  assert (Hs : csigned D R = false -> 0 <= lim_lo D u).
  { intros S. rewrite S in HS. symmetry in HS. destruct (auto_temp_unsigned D _ _ HS) as [_ U].
    destruct Hu as (W1 & _). unfold in_type in W1. rewrite (lo_unsigned D _ U) in W1. lia. }
  cbn [r_type_interval] in Hri.
  assert (G : forall x y, holds D t x -> holds D u y -> y <> 0 -> in_type D (widest D Div t u) (Z.quot x y) ->
     in_type D R (Z.quot x y)) by (intros x y A1 A2 A3 A4; exact (auto_div_range2 D t u R x y Ht Hu A1 A2 A3 HR Ft Fu A4)).
  unfold wf_operand, holds. cbn [lim_lo lim_hi base_ty smin smax st].
  pose proof (lo_le_0 D R). pose proof (hi_ge_127 D R).
  destruct (div_zero_interval D R t u ri Ht Hu Hz Hs FR Hri) as [->|(N1 & N2 & O1 & O2 & Oc & A & _)].
  - cbn [il iu bound_lo bound_hi]. split; [unfold in_type; lia|].
    intros x y Hx Hy Hy0 Hq. exact (G x y Hx Hy Hy0 Hq).
  - split.
    + splits; [apply bound_lo_in|apply bound_hi_in|apply bounds_le_of_cle]; auto.
    + intros x y Hx Hy Hy0 Hq. destruct (A x y Hx Hy Hy0) as [A1 A2]. pose proof (G x y Hx Hy Hy0 Hq).
      split; [apply at_least_bound|apply at_most_bound]; assumption.
Qed.

Lemma C24_auto : forall D t u x y s m,
  wf_operand D t -> wf_operand D u -> holds D t x -> holds D u y ->
  binary D Div t u x y = Some (s, m) -> throws_arithmetic (sE s) -> sP s = Automatic ->
  fits_in D (widest D Div t u) t -> fits_in D (widest D Div t u) u -> holds D u 0 ->
  wf_operand D (OSafe s)
  /\ (y = 0 -> throws_arith m)
  /\ (y <> 0 -> in_type D (widest D Div t u) (Z.quot x y) ->
      returns m (Z.quot x y) /\ holds D (OSafe s) (Z.quot x y))
  /\ (y <> 0 -> ~ in_type D (widest D Div t u) (Z.quot x y) -> throws_arith m).
Proof.
  intros D t u x y s m Ht Hu Hx Hy Hb HE HA Ft Fu Hz.
  destruct (auto_div_declared D t u x y s m Ht Hu Hb HA Ft Fu Hz) as [W G].
  destruct (auto_div_zero D t u x y s m Ht Hu Hx Hy Hb HE HA Ft Fu Hz) as (A & B & C).
  splits; auto. intros Hy0 Hq. split; [apply B; assumption|apply G; assumption].
Qed.

(** the remainder: computed exactly in the work type and then converted to the
    result type *)
Lemma conv_congr : forall D T z, (conv D T z - z) mod 2 ^ width D T = 0.
Proof.
  intros D T z.
  assert (Hw : 0 < 2 ^ width D T) by (apply Z.pow_pos_nonneg; [lia|]; destruct T, D; cbn; lia).
  unfold conv. destruct (csigned D T).
  - pose proof (Z.div_mod (z + 2 ^ digits D T) (2 ^ width D T) ltac:(lia)) as E.
    replace (_ - z) with (- ((z + 2 ^ digits D T) / 2 ^ width D T) * 2 ^ width D T) by lia.
    apply Z.mod_mul. lia.
  - pose proof (Z.div_mod z (2 ^ width D T) ltac:(lia)) as E.
    replace (_ - z) with (- (z / 2 ^ width D T) * 2 ^ width D T) by lia.
    apply Z.mod_mul. lia.
Qed.
Lemma C25_auto : forall D t u x y s m,
  wf_operand D t -> wf_operand D u -> holds D t x -> holds D u y ->
  binary D Mod t u x y = Some (s, m) -> throws_arithmetic (sE s) -> sP s = Automatic ->
  fits_in D (widest D Mod t u) t -> fits_in D (widest D Mod t u) u -> holds D u 0 ->
  (y = 0 -> throws_arith m)
  /\ (y <> 0 -> ~ (exists T, csigned D T = true /\ x = lo D T /\ y = lo D T) ->
      exists v, returns m v /\ in_type D (st s) v /\ (v - remainder x y) mod 2 ^ width D (st s) = 0
      /\ (in_type D (st s) (remainder x y) -> v = remainder x y)).
Proof.
  intros D t u x y s m Ht Hu Hx Hy Hb HE HA Ft Fu Hz. unfold holds in Hz.
  destruct (binary_inv _ _ _ _ _ _ _ _ Hb) as (P & E & R & ri & HP & HEp & HR & Hri & -> & Hm).
  cbn [sE sP st] in *. subst P. cbn [result_base_type] in HR.
  pose proof (auto_signed D Mod t u R ltac:(auto) HR) as HS.
  change (widest D Mod t u) with (auto_temp D (base_ty t) (base_ty u)) in *.
  destruct Hm as [[Hx0 _]|[_ (W & casts & HW & Hc & _ & ->)]].
  { exfalso. cbn [exception_possible] in Hx0. rewrite zero_checked in Hx0; [discriminate|assumption..|].
    intros S. rewrite S in HS. symmetry in HS. destruct (auto_temp_unsigned D _ _ HS) as [_ U].
    destruct Hu as (W1 & _). unfold in_type in W1. rewrite (lo_unsigned D _ U) in W1. lia. }
  cbn [work_type] in HW.
  assert (Ix : in_type D W x).
  { apply (work_holds D R t u W t x HW HS); auto. unfold fits_in, holds, in_type in *. lia. }
  assert (Iy : in_type D W y).
  { apply (work_holds D R t u W u y HW HS); auto. unfold fits_in, holds, in_type in *. lia. }
  destruct (casting_helper_throws _ _ _ _ _ _ _ _ HE Ht Hu Hx Hy Hc) as [(_ & _ & ->)|[Hn _]]; [|tauto].
  unfold checked_run. rewrite mbind_ret. cbn [fst snd checked_op]. split.
  - intros ->. rewrite modulus_zero by assumption. cbn [mlift]. rewrite mbind_ret. apply mbind_throws.
    apply dar_arith; [assumption|unfold arithmetic_err; auto].
  - intros Hy0 Hne. rewrite modulus_spec; auto.
    + cbn [mlift]. rewrite mbind_ret, dar_val, mbind_ret. exists (conv D R (remainder x y)).
      splits; [reflexivity|apply conv_range|apply conv_congr|].
      intros I. apply conv_id. assumption.
    + intros (S1 & S2 & S3). apply Hne. exists W. auto.
Qed.
