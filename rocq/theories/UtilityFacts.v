(** UtilityFacts.v -- facts about utility.hpp and safe_compare.hpp. Proofs only. *)
From Coq Require Import ZArith Bool List Lia.
From Verif Require Import Base CType Spec CTypeFacts Utility SafeCompare.
Import ListNotations.
Local Open Scope Z_scope.

Lemma LogTable256_check :
  forallb (fun n => nth n LogTable256 0 =? Z.log2 (Z.of_nat n)) (seq 1 255) = true.
Proof. vm_compute. reflexivity. Qed.

Lemma LogTable256_spec : forall t, 0 < t < 256 -> nth (Z.to_nat t) LogTable256 0 = Z.log2 t.
Proof.
  intros t Ht. pose proof LogTable256_check as H. rewrite forallb_forall in H.
  specialize (H (Z.to_nat t)). rewrite Z2Nat.id in H by lia.
  apply Z.eqb_eq, H, in_seq. lia.
Qed.

Lemma ilog2_detail_spec : forall k t, 0 < t < 2 ^ (8 * 2 ^ Z.of_nat k) ->
  ilog2_detail k t = Z.log2 t.
Proof.
  induction k as [|k IH]; intros t Ht.
  - cbn [ilog2_detail]. change (2 ^ (8 * 2 ^ Z.of_nat 0)) with 256 in Ht.
    apply LogTable256_spec. assumption.
  - cbn [ilog2_detail]. set (h := 8 * 2 ^ Z.of_nat k).
    assert (Hh : 0 < h) by (unfold h; pose proof (Z.pow_pos_nonneg 2 (Z.of_nat k)); lia).
    assert (Hw : 8 * 2 ^ Z.of_nat (S k) = h + h).
    { unfold h. rewrite Nat2Z.inj_succ, Z.pow_succ_r by lia. lia. }
    rewrite Hw, Z.pow_add_r in Ht by lia. fold h in IH.
    pose proof (Z.pow_pos_nonneg 2 h ltac:(lia) ltac:(lia)) as Hp.
    assert (Hu : 0 <= t / 2 ^ h < 2 ^ h).
    { split; [apply Z.div_pos; lia|apply Z.div_lt_upper_bound; lia]. }
    rewrite (Z.mod_small (t / 2 ^ h)) by assumption.
    destruct (Z.eqb_spec (t / 2 ^ h) 0) as [E|E].
    + apply Z.div_small_iff in E; [|lia].
      rewrite Z.mod_small by lia. apply IH. lia.
    + rewrite IH by lia. rewrite <- (Z.shiftr_div_pow2 t h) by lia.
      rewrite Z.log2_shiftr; [|lia]. 
      assert (h <= Z.log2 t).
      { apply Z.log2_le_pow2; [lia|]. 
        destruct (Z_le_gt_dec (2 ^ h) t); [assumption|].
        exfalso. apply E. apply Z.div_small. lia. }
      lia.
Qed.

Lemma bits_type_width : forall D T, bits_type D T = width D T.
Proof. destruct D, T; reflexivity. Qed.

Lemma ilog2_level_spec : forall D T, 8 * 2 ^ Z.of_nat (ilog2_level (width D T)) = width D T.
Proof. destruct D, T; reflexivity. Qed.

(** ilog2 is floor(log2) *)
Lemma ilog2_spec : forall D T t, in_type D T t -> 0 <= t -> ilog2 D T t = Z.log2 t.
Proof.
  intros D T t Hin Ht. unfold ilog2. destruct (Z.eqb_spec t 0) as [->|Hn]; [reflexivity|].
  rewrite bits_type_width. pose proof (pow_width D T). pose proof (lo_le_0 D T).
  unfold in_type in Hin. rewrite Z.mod_small by lia.
  apply ilog2_detail_spec. rewrite ilog2_level_spec. lia.
Qed.

Lemma c_not_neg : forall D T t, in_type D T t -> t < 0 -> c_not D T t = - t - 1.
Proof.
  intros D T t Hin Hn. unfold c_not. assert (Z.lnot t = - t - 1) as -> by (unfold Z.lnot; lia).
  apply conv_id, promote_in. destruct (csigned D T) eqn:E.
  - pose proof (hi_pos_lo D T E). unfold in_type in *. lia.
  - pose proof (lo_unsigned D T E). unfold in_type in *. lia.
Qed.

Lemma signed_of_neg : forall D T t, in_type D T t -> t < 0 -> csigned D T = true.
Proof.
  intros D T t Hin Hn. destruct (csigned D T) eqn:E; [reflexivity|].
  pose proof (lo_unsigned D T E). unfold in_type in *. lia.
Qed.

Lemma not_in : forall D T t, in_type D T t -> t < 0 -> in_type D T (- t - 1).
Proof.
  intros D T t Hin Hn. pose proof (signed_of_neg D T t Hin Hn) as E.
  pose proof (hi_pos_lo D T E). unfold in_type in *. lia.
Qed.

Definition mag (t : Z) : Z := if t <? 0 then - t - 1 else t.

Lemma significant_bits_spec : forall D T t, in_type D T t ->
  significant_bits D T t = 1 + Z.log2 (mag t).
Proof.
  intros D T t Hin. unfold significant_bits, mag. rewrite c_lt_int_r by (auto; lia).
  destruct (Z.ltb_spec t 0) as [Hn|Hp].
  - rewrite c_not_neg by assumption. rewrite ilog2_spec; [reflexivity| |lia].
    apply promote_in, not_in; assumption.
  - rewrite ilog2_spec by assumption. reflexivity.
Qed.

Lemma mag_bound : forall D T t, in_type D T t -> 0 <= mag t <= hi D T.
Proof.
  intros D T t Hin. unfold mag. destruct (Z.ltb_spec t 0) as [Hn|Hp].
  - pose proof (not_in D T t Hin Hn). unfold in_type in *. lia.
  - unfold in_type in *. lia.
Qed.

Lemma digits_pos : forall D T, 7 <= digits D T <= 64.
Proof. destruct D, T; vm_compute; split; congruence. Qed.

Lemma significant_bits_bound : forall D T t, in_type D T t ->
  1 <= significant_bits D T t <= digits D T.
Proof.
  intros D T t Hin. rewrite significant_bits_spec by assumption.
  pose proof (mag_bound D T t Hin) as Hm. pose proof (Z.log2_nonneg (mag t)).
  pose proof (digits_pos D T). split; [lia|].
  destruct (Z.eq_dec (mag t) 0) as [->|Hz]; [cbn; lia|].
  enough (Z.log2 (mag t) < digits D T) by lia.
  apply Z.log2_lt_pow2; [lia|]. rewrite pow_digits. lia.
Qed.

(** safe_compare *)
Lemma less_than_spec : forall D T U t u, in_type D T t -> in_type D U u ->
  less_than D T U t u = (t <? u).
Proof.
  intros D T U t u Ht Hu. unfold less_than.
  destruct (csigned D T) eqn:ET, (csigned D U) eqn:EU.
  - apply c_lt_spec; auto using uac_signed.
  - rewrite c_lt_int_r by (auto; lia). pose proof (lo_unsigned D U EU).
    destruct (Z.ltb_spec t 0).
    + symmetry. apply Z.ltb_lt. unfold in_type in *. lia.
    + rewrite conv_id by (apply to_unsigned_in; assumption).
      apply c_lt_spec; [apply to_unsigned_in; assumption|assumption|].
      right. unfold in_type in *. lia.
  - rewrite c_lt_int_r by (auto; lia). pose proof (lo_unsigned D T ET).
    destruct (Z.ltb_spec u 0).
    + symmetry. apply Z.ltb_ge. unfold in_type in *. lia.
    + rewrite conv_id by (apply to_unsigned_in; assumption).
      apply c_lt_spec; [assumption|apply to_unsigned_in; assumption|].
      right. unfold in_type in *. lia.
  - pose proof (lo_unsigned D U EU). pose proof (lo_unsigned D T ET).
    apply c_lt_spec; [assumption|assumption|]. right. unfold in_type in *. lia.
Qed.

Lemma equal_spec : forall D T U t u, in_type D T t -> in_type D U u ->
  equal D T U t u = (t =? u).
Proof.
  intros D T U t u Ht Hu. unfold equal.
  destruct (csigned D T) eqn:ET, (csigned D U) eqn:EU.
  - apply c_eq_spec; auto using uac_signed.
  - rewrite c_lt_int_r by (auto; lia). pose proof (lo_unsigned D U EU).
    destruct (Z.ltb_spec t 0).
    + symmetry. apply Z.eqb_neq. unfold in_type in *. lia.
    + rewrite conv_id by (apply to_unsigned_in; assumption).
      apply c_eq_spec; [apply to_unsigned_in; assumption|assumption|].
      right. unfold in_type in *. lia.
  - rewrite c_lt_int_r by (auto; lia). pose proof (lo_unsigned D T ET).
    destruct (Z.ltb_spec u 0).
    + symmetry. apply Z.eqb_neq. unfold in_type in *. lia.
    + rewrite conv_id by (apply to_unsigned_in; assumption).
      apply c_eq_spec; [assumption|apply to_unsigned_in; assumption|].
      right. unfold in_type in *. lia.
  - pose proof (lo_unsigned D U EU). pose proof (lo_unsigned D T ET).
    apply c_eq_spec; [assumption|assumption|]. right. unfold in_type in *. lia.
Qed.

Lemma greater_than_spec : forall D T U t u, in_type D T t -> in_type D U u ->
  greater_than D T U t u = (u <? t).
Proof. intros. unfold greater_than. apply less_than_spec; assumption. Qed.
Lemma less_than_equal_spec : forall D T U t u, in_type D T t -> in_type D U u ->
  less_than_equal D T U t u = (t <=? u).
Proof. intros. unfold less_than_equal. rewrite greater_than_spec, <- Z.leb_antisym by assumption. reflexivity. Qed.
Lemma greater_than_equal_spec : forall D T U t u, in_type D T t -> in_type D U u ->
  greater_than_equal D T U t u = (u <=? t).
Proof. intros. unfold greater_than_equal. rewrite less_than_spec, <- Z.leb_antisym by assumption. reflexivity. Qed.
Lemma not_equal_spec : forall D T U t u, in_type D T t -> in_type D U u ->
  not_equal D T U t u = negb (t =? u).
Proof. intros. unfold not_equal. rewrite equal_spec by assumption. reflexivity. Qed.

(** stored types *)
Lemma intmax_signed : forall D, csigned D (intmax D) = true.
Proof. destruct D; reflexivity. Qed.
Lemma uintmax_unsigned : forall D, csigned D (uintmax D) = false.
Proof. destruct D; reflexivity. Qed.
Lemma intmax_width : forall D, width D (intmax D) = 64.
Proof. destruct D; reflexivity. Qed.
Lemma uintmax_width : forall D, width D (uintmax D) = 64.
Proof. destruct D; reflexivity. Qed.
Lemma intmax_lo : forall D T, lo D (intmax D) <= lo D T.
Proof. destruct D, T; vm_compute; congruence. Qed.
Lemma intmax_hi : forall D T, csigned D T = true -> hi D T <= hi D (intmax D).
Proof. destruct D, T; vm_compute; congruence. Qed.
Lemma uintmax_hi : forall D T, hi D T <= hi D (uintmax D).
Proof. destruct D, T; vm_compute; congruence. Qed.

(** fits in n+1 bits *)
Lemma log2_mag_iff : forall n z, 0 < n -> (1 + Z.log2 (mag z) <= n <-> - 2 ^ n <= z <= 2 ^ n - 1).
Proof.
  intros n z Hn.
  assert (Hm : 0 <= mag z) by (unfold mag; destruct (Z.ltb_spec z 0); lia).
  assert (He : (mag z < 2 ^ n) <-> (- 2 ^ n <= z <= 2 ^ n - 1)).
  { pose proof (Z.pow_pos_nonneg 2 n). unfold mag. destruct (Z.ltb_spec z 0); lia. }
  rewrite <- He. destruct (Z.eq_dec (mag z) 0) as [->|Hz].
  - cbn. pose proof (Z.pow_pos_nonneg 2 n). lia.
  - rewrite Z.log2_lt_pow2 by lia. lia.
Qed.

Lemma util_max_max : forall a b, util_max a b = Z.max a b.
Proof. intros. unfold util_max. destruct (Z.ltb_spec b a); lia. Qed.

Lemma int_t_least_spec : forall D b T, int_t_least D b = Some T ->
  csigned D T = true /\ b - 1 <= digits D T
  /\ (forall T', csigned D T' = true -> b - 1 <= digits D T' -> width D T <= width D T').
Proof.
  intros D b T. unfold int_t_least.
  repeat match goal with |- context [if ?c then _ else _] => destruct c eqn:? end;
  intros H; try discriminate H; injection H as <-;
  rewrite ?Z.leb_le, ?Z.leb_gt in *;
  (split; [reflexivity|split; [assumption|]]);
  destruct D; cbn in *; destruct T'; cbn in *; intros; try discriminate; lia.
Qed.

Lemma uint_t_least_spec : forall D b T, uint_t_least D b = Some T ->
  csigned D T = false /\ b <= digits D T
  /\ (forall T', csigned D T' = false -> b <= digits D T' -> width D T <= width D T').
Proof.
  intros D b T. unfold uint_t_least.
  repeat match goal with |- context [if ?c then _ else _] => destruct c eqn:? end;
  intros H; try discriminate H; injection H as <-;
  rewrite ?Z.leb_le, ?Z.leb_gt in *;
  (split; [reflexivity|split; [assumption|]]);
  destruct D; cbn in *; destruct T'; cbn in *; intros; try discriminate; lia.
Qed.

Lemma int_t_least_total : forall D b, b <= 64 -> exists T, int_t_least D b = Some T.
Proof.
  intros D b Hb. unfold int_t_least. assert (digits D LLong = 63) by (destruct D; reflexivity).
  repeat match goal with |- context [if ?c then _ else _] => destruct c eqn:? end; eauto.
  rewrite ?Z.leb_le, ?Z.leb_gt in *. lia.
Qed.
Lemma uint_t_least_total : forall D b, b <= 64 -> exists T, uint_t_least D b = Some T.
Proof.
  intros D b Hb. unfold uint_t_least. assert (digits D ULLong = 64) by (destruct D; reflexivity).
  repeat match goal with |- context [if ?c then _ else _] => destruct c eqn:? end; eauto.
  rewrite ?Z.leb_le, ?Z.leb_gt in *. lia.
Qed.

Lemma signed_in_iff : forall D T z, csigned D T = true ->
  (in_type D T z <-> 1 + Z.log2 (mag z) <= digits D T).
Proof.
  intros D T z H. pose proof (digits_pos D T). rewrite log2_mag_iff by lia.
  unfold in_type. pose proof (hi_pos_lo D T H). rewrite pow_digits. lia.
Qed.
Lemma unsigned_in_iff : forall D T z, csigned D T = false -> 0 <= z ->
  (in_type D T z <-> 1 + Z.log2 (mag z) <= digits D T).
Proof.
  intros D T z H Hz. pose proof (digits_pos D T). rewrite log2_mag_iff by lia.
  unfold in_type. pose proof (lo_unsigned D T H). rewrite pow_digits.
  pose proof (hi_ge_127 D T). lia.
Qed.

Lemma signed_stored_type_spec : forall D mn mx,
  in_type D (intmax D) mn -> in_type D (intmax D) mx ->
  exists T, signed_stored_type D mn mx = Some T
    /\ csigned D T = true /\ in_type D T mn /\ in_type D T mx
    /\ (forall T', csigned D T' = true -> in_type D T' mn -> in_type D T' mx ->
        width D T <= width D T').
Proof.
  intros D mn mx Hmn Hmx. unfold signed_stored_type.
  pose proof (significant_bits_bound D _ _ Hmn). pose proof (significant_bits_bound D _ _ Hmx).
  assert (digits D (intmax D) = 63) by (destruct D; reflexivity).
  rewrite util_max_max. 
  destruct (int_t_least_total D (Z.max (significant_bits D (intmax D) mn) (significant_bits D (intmax D) mx) + 1) ltac:(lia)) as [T HT].
  exists T. split; [assumption|]. apply int_t_least_spec in HT. destruct HT as (Hs & Hd & Hleast).
  rewrite !significant_bits_spec in Hd, Hleast by assumption.
  split; [assumption|]. rewrite !signed_in_iff by assumption. split; [lia|split; [lia|]].
  intros T' Hs' Ha Hb. rewrite signed_in_iff in Ha, Hb by assumption. apply Hleast; [assumption|lia].
Qed.

Lemma unsigned_stored_type_spec : forall D mn mx,
  0 <= mn <= mx -> in_type D (uintmax D) mx ->
  exists T, unsigned_stored_type D mn mx = Some T
    /\ csigned D T = false /\ in_type D T mn /\ in_type D T mx
    /\ (forall T', csigned D T' = false -> in_type D T' mx ->
        width D T <= width D T').
Proof.
  intros D mn mx Hmn Hmx. unfold unsigned_stored_type.
  pose proof (significant_bits_bound D _ _ Hmx).
  assert (digits D (uintmax D) = 64) by (destruct D; reflexivity).
  destruct (uint_t_least_total D (significant_bits D (uintmax D) mx) ltac:(lia)) as [T HT].
  exists T. split; [assumption|]. apply uint_t_least_spec in HT. destruct HT as (Hs & Hd & Hleast).
  rewrite !significant_bits_spec in Hd, Hleast by assumption.
  split; [assumption|].
  assert (Hin : in_type D T mx) by (apply unsigned_in_iff; [assumption|lia|lia]).
  split; [unfold in_type in *; pose proof (lo_unsigned D T Hs); lia|split; [assumption|]].
  intros T' Hs' Hb. apply unsigned_in_iff in Hb; [|assumption|lia]. apply Hleast; assumption.
Qed.

Lemma intmax_bounds : forall D, lo D (intmax D) = - 2 ^ 63 /\ hi D (intmax D) = 2 ^ 63 - 1.
Proof. destruct D; vm_compute; split; reflexivity. Qed.
Lemma uintmax_bounds : forall D, lo D (uintmax D) = 0 /\ hi D (uintmax D) = 2 ^ 64 - 1.
Proof. destruct D; vm_compute; split; reflexivity. Qed.
