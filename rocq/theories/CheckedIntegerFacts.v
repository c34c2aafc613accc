(** CheckedIntegerFacts.v -- correctness of checked_integer.hpp. Proofs only. *)
From Coq Require Import ZArith Bool List Lia.
From Verif Require Import Base CType Spec CTypeFacts Utility UtilityFacts SafeCompare
  CheckedInteger.
Import ListNotations.
Local Open Scope Z_scope.

Lemma ret_ok : forall D R z, in_type D R z -> ret D R (Ok z) = Ok (CVal z).
Proof. intros. cbn [ret rbind]. rewrite conv_id by assumption. reflexivity. Qed.

(** either a representable result or one side *)
Lemma eoo_intro : forall D R z r,
  (in_type D R z -> r = Ok (CVal z)) ->
  (z > hi D R -> r = Ok (CErr positive_overflow_error)) ->
  (z < lo D R -> r = Ok (CErr negative_overflow_error)) ->
  exact_or_overflow D R z r.
Proof. unfold exact_or_overflow; auto. Qed.

Lemma eoo_cases : forall D R z r,
  exact_or_overflow D R z r ->
  (in_type D R z /\ r = Ok (CVal z)) \/
  (z > hi D R /\ r = Ok (CErr positive_overflow_error)) \/
  (z < lo D R /\ r = Ok (CErr negative_overflow_error)).
Proof.
  intros D R z r (H1 & H2 & H3).
  destruct (Z_lt_dec z (lo D R)); [right; right; auto|].
  destruct (Z_gt_dec z (hi D R)); [right; left; auto|].
  left. assert (in_type D R z) by (unfold in_type; lia). auto.
Qed.

Section Arith.
  Variable D : dmodel.
  Variable R : ctype.

  Let Hlo := lo_le_0 D R.
  Let Hhi := hi_ge_127 D R.
  Let Hplo := promote_lo D R.
  Let Hphi := promote_hi D R.

  Ltac inr := apply promote_in; unfold in_type in *; lia.

  Lemma add_spec : forall t u, in_type D R t -> in_type D R u ->
    exact_or_overflow D R (t + u) (add D R t u).
  Proof.
    intros t u Ht Hu. unfold add.
    assert (Hsum : in_type D R (t + u) -> ret D R (c_add D R R t u) = Ok (CVal (t + u))).
    { intros H. unfold c_add. rewrite c_arith_same by auto using promote_in. apply ret_ok; assumption. }
    destruct (csigned D R) eqn:E.
    - pose proof (hi_pos_lo D R E) as Hs.
      rewrite c_lt_int_l, c_lt_int_r by (auto; lia).
      destruct (Z.ltb_spec 0 u) as [Hu0|Hu0]; [|destruct (Z.ltb_spec u 0) as [Hu1|Hu1]].
      + unfold c_sub. rewrite c_arith_same; [|apply hi_in|assumption|inr].
        cbn [rbind]. rewrite c_lt_pl; [|inr|assumption].
        destruct (Z.ltb_spec (hi D R - u) t).
        * apply eoo_intro; intros; unfold in_type in *; try lia; reflexivity.
        * assert (u <? 0 = false) as -> by lia. cbn [rbind].
          apply eoo_intro; intros; unfold in_type in *; try lia; apply Hsum; unfold in_type in *; lia.
      + cbn [rbind]. unfold c_sub. rewrite c_arith_same; [|apply lo_in|assumption|inr].
        cbn [rbind]. rewrite c_lt_pr; [|assumption|inr].
        destruct (Z.ltb_spec t (lo D R - u)).
        * apply eoo_intro; intros; unfold in_type in *; try lia; reflexivity.
        * apply eoo_intro; intros; unfold in_type in *; try lia; apply Hsum; unfold in_type in *; lia.
      + cbn [rbind]. apply eoo_intro; intros; unfold in_type in *; try lia; apply Hsum; unfold in_type in *; lia.
    - pose proof (lo_unsigned D R E) as Hs.
      unfold c_sub. rewrite c_arith_same; [|apply hi_in|assumption|inr].
      cbn [rbind]. rewrite c_lt_pl; [|inr|assumption].
      destruct (Z.ltb_spec (hi D R - u) t).
      + apply eoo_intro; intros; unfold in_type in *; try lia; reflexivity.
      + apply eoo_intro; intros; unfold in_type in *; try lia; apply Hsum; unfold in_type in *; lia.
  Qed.

  Lemma subtract_spec : forall t u, in_type D R t -> in_type D R u ->
    exact_or_overflow D R (t - u) (subtract D R t u).
  Proof.
    intros t u Ht Hu. unfold subtract.
    assert (Hsum : in_type D R (t - u) -> ret D R (c_sub D R R t u) = Ok (CVal (t - u))).
    { intros H. unfold c_sub. rewrite c_arith_same by auto using promote_in. apply ret_ok; assumption. }
    destruct (csigned D R) eqn:E.
    - pose proof (hi_pos_lo D R E) as Hs.
      rewrite c_lt_int_l, c_lt_int_r by (auto; lia).
      destruct (Z.ltb_spec 0 u) as [Hu0|Hu0]; [|destruct (Z.ltb_spec u 0) as [Hu1|Hu1]].
      + unfold c_add. rewrite c_arith_same; [|apply lo_in|assumption|inr].
        cbn [rbind]. rewrite c_lt_pr; [|assumption|inr].
        destruct (Z.ltb_spec t (lo D R + u)).
        * apply eoo_intro; intros; unfold in_type in *; try lia; reflexivity.
        * assert (u <? 0 = false) as -> by lia. cbn [rbind].
          apply eoo_intro; intros; unfold in_type in *; try lia; apply Hsum; unfold in_type in *; lia.
      + cbn [rbind]. unfold c_add. rewrite c_arith_same; [|apply hi_in|assumption|inr].
        cbn [rbind]. rewrite c_lt_pl; [|inr|assumption].
        destruct (Z.ltb_spec (hi D R + u) t).
        * apply eoo_intro; intros; unfold in_type in *; try lia; reflexivity.
        * apply eoo_intro; intros; unfold in_type in *; try lia; apply Hsum; unfold in_type in *; lia.
      + cbn [rbind]. apply eoo_intro; intros; unfold in_type in *; try lia; apply Hsum; unfold in_type in *; lia.
    - pose proof (lo_unsigned D R E) as Hs.
      rewrite c_lt_same by assumption. destruct (Z.ltb_spec t u).
      + apply eoo_intro; intros; unfold in_type in *; try lia; reflexivity.
      + apply eoo_intro; intros; unfold in_type in *; try lia; apply Hsum; unfold in_type in *; lia.
  Qed.

  Lemma c_neg_ok : forall t, in_type D R (- t) -> c_neg D R t = Ok (- t).
  Proof. intros t H. unfold c_neg. apply fin_ok, promote_in, H. Qed.

  Lemma minus_spec : forall t, in_type D R t ->
    exact_or_overflow D R (- t) (minus D R t).
  Proof.
    intros t Ht. unfold minus. destruct (csigned D R) eqn:E.
    - pose proof (hi_pos_lo D R E) as Hs. rewrite c_eq_same by auto using lo_in.
      destruct (Z.eqb_spec t (lo D R)) as [->|Hn].
      + apply eoo_intro; intros; unfold in_type in *; try lia; reflexivity.
      + assert (in_type D R (- t)) by (unfold in_type in *; lia).
        rewrite c_neg_ok by assumption. rewrite ret_ok by assumption.
        apply eoo_intro; intros; unfold in_type in *; try lia; reflexivity.
    - pose proof (lo_unsigned D R E) as Hs. rewrite c_lt_int_l by (auto; lia).
      destruct (Z.ltb_spec 0 t).
      + apply eoo_intro; intros; unfold in_type in *; try lia; reflexivity.
      + assert (t = 0) as -> by (unfold in_type in *; lia).
        apply eoo_intro; intros; unfold in_type in *; try lia; reflexivity.
  Qed.

  Lemma mul_ok : forall t u, in_type D R t -> in_type D R u -> in_type D R (t * u) ->
    ret D R (c_mul D R R t u) = Ok (CVal (t * u)).
  Proof.
    intros t u Ht Hu H. unfold c_mul. rewrite c_arith_same by auto using promote_in.
    apply ret_ok; assumption.
  Qed.

  Lemma small_signed : csigned D R = true ->
    (width D (uintmax D) / 2 <? width D R) = false -> hi D R <= 2 ^ 31 - 1.
  Proof. destruct D, R; vm_compute; congruence. Qed.
  Lemma small_unsigned : csigned D R = false ->
    (width D (uintmax D) / 2 <? width D R) = false -> hi D R <= 2 ^ 32 - 1.
  Proof. destruct D, R; vm_compute; congruence. Qed.

  Lemma quot_pos_range : forall a b, 0 <= a -> 0 < b -> 0 <= Z.quot a b <= a.
  Proof. intros a b Ha Hb. rewrite Z.quot_div_nonneg by lia. split; [apply Z.div_pos; lia|apply Z.div_le_upper_bound; nia]. Qed.

  (** t <= a quot b  iff  t * b <= a   (a >= 0, b > 0) *)
  Lemma quot_le_iff : forall a b t, 0 <= a -> 0 < b -> (t <= Z.quot a b <-> t * b <= a).
  Proof.
    intros a b t Ha Hb. rewrite Z.quot_div_nonneg by lia.
    pose proof (Z.div_mod a b ltac:(lia)). pose proof (Z.mod_pos_bound a b Hb). nia.
  Qed.

  Lemma multiply_spec : forall t u, in_type D R t -> in_type D R u ->
    exact_or_overflow D R (t * u) (multiply D R t u).
  Proof.
    intros t u Ht Hu. unfold multiply.
    destruct (csigned D R) eqn:E; destruct (width D (uintmax D) / 2 <? width D R) eqn:B.
    - pose proof (hi_pos_lo D R E) as Hs. unfold multiply_signed_big.
      rewrite !c_lt_int_l, c_eq_int_r by (auto; lia).
      destruct (Z.ltb_spec 0 t) as [Ht0|Ht0]; destruct (Z.ltb_spec 0 u) as [Hu0|Hu0].
      + assert (Hq := quot_pos_range (hi D R) u ltac:(lia) ltac:(lia)).
        rewrite c_div_same; [|apply hi_in|assumption|lia|inr].
        cbn [rbind]. rewrite c_lt_pl; [|inr|assumption].
        pose proof (quot_le_iff (hi D R) u t ltac:(lia) ltac:(lia)) as Hq2.
        destruct (Z.ltb_spec (Z.quot (hi D R) u) t).
        * apply eoo_intro; intros; unfold in_type in *; try nia; reflexivity.
        * apply eoo_intro; intros; unfold in_type in *; try nia; apply mul_ok; unfold in_type in *; nia.
      + assert (Hq := quot_pos_range (- lo D R) t ltac:(lia) ltac:(lia)).
        assert (Hopp : Z.quot (lo D R) t = - Z.quot (- lo D R) t)
          by (rewrite Z.quot_opp_l by lia; lia).
        rewrite c_div_same; [|apply lo_in|assumption|lia|rewrite Hopp; inr].
        cbn [rbind]. rewrite c_lt_pr; [|assumption|rewrite Hopp; inr].
        pose proof (quot_le_iff (- lo D R) t (- u) ltac:(lia) ltac:(lia)) as Hq2.
        destruct (Z.ltb_spec u (Z.quot (lo D R) t)).
        * apply eoo_intro; intros; unfold in_type in *; try nia; reflexivity.
        * apply eoo_intro; intros; unfold in_type in *; try nia; apply mul_ok; unfold in_type in *; nia.
      + assert (Hq := quot_pos_range (- lo D R) u ltac:(lia) ltac:(lia)).
        assert (Hopp : Z.quot (lo D R) u = - Z.quot (- lo D R) u)
          by (rewrite Z.quot_opp_l by lia; lia).
        rewrite c_div_same; [|apply lo_in|assumption|lia|rewrite Hopp; inr].
        cbn [rbind]. rewrite c_lt_pr; [|assumption|rewrite Hopp; inr].
        pose proof (quot_le_iff (- lo D R) u (- t) ltac:(lia) ltac:(lia)) as Hq2.
        destruct (Z.ltb_spec t (Z.quot (lo D R) u)).
        * apply eoo_intro; intros; unfold in_type in *; try nia; reflexivity.
        * apply eoo_intro; intros; unfold in_type in *; try nia; apply mul_ok; unfold in_type in *; nia.
      + destruct (Z.eqb_spec t 0) as [->|Htz]; cbn [negb].
        * cbn [rbind]. apply eoo_intro; intros; unfold in_type in *; try lia; apply mul_ok; unfold in_type in *; lia.
        * assert (Hq := quot_pos_range (hi D R) (- t) ltac:(lia) ltac:(lia)).
          assert (Hopp : Z.quot (hi D R) t = - Z.quot (hi D R) (- t))
            by (rewrite Z.quot_opp_r by lia; lia).
          rewrite c_div_same; [|apply hi_in|assumption|lia|rewrite Hopp; inr].
          cbn [rbind]. rewrite c_lt_pr; [|assumption|rewrite Hopp; inr].
          pose proof (quot_le_iff (hi D R) (- t) (- u) ltac:(lia) ltac:(lia)) as Hq2.
          destruct (Z.ltb_spec u (Z.quot (hi D R) t)).
          -- apply eoo_intro; intros; unfold in_type in *; try nia; reflexivity.
          -- apply eoo_intro; intros; unfold in_type in *; try nia; apply mul_ok; unfold in_type in *; nia.
    - pose proof (hi_pos_lo D R E) as Hs. pose proof (small_signed E B) as Hsm.
      destruct (intmax_bounds D) as [Hil Hih]. unfold multiply_signed_small.
      assert (Hconv : forall z, in_type D R z -> in_type D (intmax D) z)
        by (intros z Hz; unfold in_type in *; lia).
      rewrite !conv_id by auto using lo_in, hi_in.
      assert (Hp : in_type D (intmax D) (t * u)) by (unfold in_type in *; nia).
      unfold c_mul at 1. rewrite c_arith_same by auto using promote_in. cbn [rbind].
      rewrite !c_lt_same by auto using lo_in, hi_in.
      destruct (Z.ltb_spec (hi D R) (t * u)); [|destruct (Z.ltb_spec (t * u) (lo D R))].
      + apply eoo_intro; intros; unfold in_type in *; try lia; reflexivity.
      + apply eoo_intro; intros; unfold in_type in *; try lia; reflexivity.
      + apply eoo_intro; intros; unfold in_type in *; try lia; apply mul_ok; unfold in_type in *; lia.
    - pose proof (lo_unsigned D R E) as Hs. unfold multiply_unsigned_big.
      rewrite c_lt_int_l by (auto; lia). destruct (Z.ltb_spec 0 u) as [Hu0|Hu0].
      + assert (Hq := quot_pos_range (hi D R) u ltac:(lia) ltac:(lia)).
        rewrite c_div_same; [|apply hi_in|assumption|lia|inr].
        cbn [rbind]. rewrite c_lt_pl; [|inr|assumption].
        pose proof (quot_le_iff (hi D R) u t ltac:(lia) ltac:(lia)) as Hq2.
        destruct (Z.ltb_spec (Z.quot (hi D R) u) t).
        * apply eoo_intro; intros; unfold in_type in *; try nia; reflexivity.
        * apply eoo_intro; intros; unfold in_type in *; try nia; apply mul_ok; unfold in_type in *; nia.
      + assert (u = 0) as -> by (unfold in_type in *; lia). cbn [rbind].
        apply eoo_intro; intros; unfold in_type in *; try lia; apply mul_ok; unfold in_type in *; lia.
    - pose proof (lo_unsigned D R E) as Hs. pose proof (small_unsigned E B) as Hsm.
      destruct (uintmax_bounds D) as [Hil Hih]. unfold multiply_unsigned_small.
      assert (Hconv : forall z, in_type D R z -> in_type D (uintmax D) z)
        by (intros z Hz; unfold in_type in *; lia).
      rewrite !conv_id by auto using lo_in, hi_in.
      assert (Hp : in_type D (uintmax D) (t * u)) by (unfold in_type in *; nia).
      unfold c_mul at 1. rewrite c_arith_same by auto using promote_in. cbn [rbind].
      rewrite c_lt_spec; [|apply hi_in|assumption|right; unfold in_type in *; lia].
      destruct (Z.ltb_spec (hi D R) (t * u)).
      + apply eoo_intro; intros; unfold in_type in *; try lia; reflexivity.
      + apply eoo_intro; intros; unfold in_type in *; try lia; apply mul_ok; unfold in_type in *; lia.
  Qed.

  Lemma quot_abs : forall t u, u <> 0 -> Z.abs (Z.quot t u) <= Z.abs t.
  Proof.
    intros t u Hu. rewrite <- Z.quot_abs by assumption.
    apply (quot_pos_range (Z.abs t) (Z.abs u)); lia.
  Qed.

  Lemma quot_neg1 : forall t, Z.quot t (-1) = - t.
  Proof. intros. change (-1) with (- (1)). rewrite Z.quot_opp_r, Z.quot_1_r by lia. reflexivity. Qed.

  Lemma quot_sign_pos : forall t u, 0 <= t -> 0 < u -> 0 <= Z.quot t u.
  Proof. intros. apply Z.quot_pos; lia. Qed.

  (** the only unrepresentable quotient is MIN / -1 *)
  Lemma quot_range : forall t u, in_type D R t -> in_type D R u -> u <> 0 ->
    ~ (csigned D R = true /\ t = lo D R /\ u = -1) -> in_type D R (Z.quot t u).
  Proof.
    intros t u Ht Hu H0 Hn. pose proof (quot_abs t u H0) as Ha.
    destruct (csigned D R) eqn:E.
    - pose proof (hi_pos_lo D R E) as Hs.
      destruct (Z.eq_dec t (lo D R)) as [Et|Et]; [|unfold in_type in *; lia].
      destruct (Z.eq_dec u (-1)) as [Eu|Eu]; [tauto|].
      destruct (Z.eq_dec (Z.quot t u) (hi D R + 1)) as [Eq|Eq]; [exfalso|unfold in_type in *; lia].
      pose proof (Z.quot_rem t u H0) as Hqr. pose proof (Z.rem_bound_abs t u H0). nia.
    - pose proof (lo_unsigned D R E) as Hs. unfold in_type in *.
      pose proof (quot_sign_pos t u ltac:(lia) ltac:(lia)). lia.
  Qed.

  Lemma divide_spec : forall t u, in_type D R t -> in_type D R u ->
    (u = 0 -> divide D R t u = Ok (CErr domain_error))
    /\ (u <> 0 -> exact_or_overflow D R (Z.quot t u) (divide D R t u)).
  Proof.
    intros t u Ht Hu. unfold divide. rewrite c_eq_int_r by (auto; lia). split.
    - intros ->. reflexivity.
    - intros H0. pose proof (proj2 (Z.eqb_neq u 0) H0) as H0b. rewrite H0b.
      assert (Hok : in_type D R (Z.quot t u) ->
        exact_or_overflow D R (Z.quot t u) (ret D R (c_div D R R t u))).
      { intros Hin. rewrite c_div_same by auto using promote_in. rewrite ret_ok by assumption.
        apply eoo_intro; intros; unfold in_type in *; try lia; reflexivity. }
      destruct (csigned D R) eqn:E.
      + rewrite c_eq_int_m1, c_eq_same by auto using lo_in.
        destruct (Z.eqb_spec u (-1)) as [E1|E1]; destruct (Z.eqb_spec t (lo D R)) as [E2|E2];
          cbn [andb]; try (apply Hok, quot_range; auto; tauto).
        subst. pose proof (hi_pos_lo D R E) as Hs. rewrite quot_neg1.
        apply eoo_intro; intros; unfold in_type in *; try lia; reflexivity.
      + apply Hok, quot_range; auto. intros [X _]. congruence.
  Qed.

  Lemma rem_in : forall t u, in_type D R t -> in_type D R u -> u <> 0 -> in_type D R (Z.rem t u).
  Proof.
    intros t u Ht Hu H0. pose proof (Z.rem_bound_abs t u H0) as Hb.
    assert (Z.abs (Z.rem t u) <= Z.abs t).
    { destruct (Z.eq_dec t 0) as [->|Htz]; [rewrite Z.rem_0_l by assumption; lia|].
      rewrite <- Z.rem_abs by assumption. apply Z.rem_le; lia. }
    pose proof (Z.rem_sign_nz t u) as Hsg.
    destruct (Z.eq_dec (Z.rem t u) 0) as [->|Hz]; [apply zero_in|].
    specialize (Hsg H0 Hz). unfold in_type in *. destruct (csigned D R) eqn:E.
    - pose proof (hi_pos_lo D R E). destruct (Z.sgn_spec (Z.rem t u)) as [[? X]|[[? X]|[? X]]];
      destruct (Z.sgn_spec t) as [[? Y]|[[? Y]|[? Y]]]; lia.
    - pose proof (lo_unsigned D R E). destruct (Z.sgn_spec (Z.rem t u)) as [[? X]|[[? X]|[? X]]];
      destruct (Z.sgn_spec t) as [[? Y]|[[? Y]|[? Y]]]; lia.
  Qed.

  Lemma remainder_rem : forall t u, u <> 0 -> remainder t u = Z.rem t u.
  Proof. intros t u H. unfold remainder. pose proof (Z.quot_rem t u H). lia. Qed.

  Lemma modulus_zero : forall t, in_type D R t -> modulus D R t 0 = Ok (CErr domain_error).
  Proof. intros t Ht. unfold modulus. rewrite c_eq_int_l by (auto using zero_in; lia). reflexivity. Qed.

  Lemma modulus_spec : forall t u, in_type D R t -> in_type D R u -> u <> 0 ->
    ~ (csigned D R = true /\ t = lo D R /\ u = lo D R) ->
    modulus D R t u = Ok (CVal (remainder t u)).
  Proof.
    intros t u Ht Hu H0 Hn. rewrite remainder_rem by assumption.
    unfold modulus. rewrite c_eq_int_l by (auto; lia).
    assert ((0 =? u) = false) as -> by lia.
    assert (Hok : forall v, in_type D R v -> v <> 0 ->
      ~ (csigned D R = true /\ t = lo D R /\ v = -1) ->
      ret D R (c_rem D R R t v) = Ok (CVal (Z.rem t v))).
    { intros v Hv Hv0 Hvn. rewrite c_rem_same by auto using promote_in, quot_range.
      apply ret_ok, rem_in; assumption. }
    destruct (csigned D R) eqn:E.
    - rewrite c_lt_int_r by (auto; lia). destruct (Z.ltb_spec u 0) as [Hneg|Hpos]; cbn [negb].
      + pose proof (hi_pos_lo D R E) as Hs. pose proof (minus_spec u Hu) as (M1 & M2 & M3).
        destruct (Z.eq_dec u (lo D R)) as [Eu|Eu].
        * rewrite M2 by lia. cbn [rbind].
          assert (t <> lo D R) by tauto.
          assert (Z.rem t u = t) as ->; [|reflexivity].
          apply Z.rem_small_iff; [assumption|]. unfold in_type in *. lia.
        * rewrite M1 by (unfold in_type in *; lia). cbn [rbind].
          rewrite Hok; [|unfold in_type in *; lia|lia|intros (_ & _ & X); lia].
          rewrite Z.rem_opp_r by lia. reflexivity.
      + apply Hok; [assumption|assumption|]. intros (_ & _ & X). lia.
    - apply Hok; [assumption|assumption|]. intros (X & _). congruence.
  Qed.

  Lemma modulus_min_min : csigned D R = true ->
    modulus D R (lo D R) (lo D R) = Ok (CVal (lo D R)).
  Proof.
    intros E. pose proof (hi_pos_lo D R E) as Hs.
    unfold modulus. rewrite E, c_eq_int_l, c_lt_int_r by (auto using lo_in; lia).
    assert ((0 =? lo D R) = false) as -> by lia.
    assert ((lo D R <? 0) = true) as -> by lia. cbn [negb].
    destruct (minus_spec (lo D R) (lo_in D R)) as (_ & M2 & _). rewrite M2 by lia. reflexivity.
  Qed.

  (** shifts *)
  Lemma digits_lt_width_promote : csigned D R = true -> digits D R < width D (promote D R).
  Proof. destruct D, R; vm_compute; congruence. Qed.
  Lemma digits_le_width_promote : digits D R <= width D (promote D R).
  Proof. destruct D, R; vm_compute; congruence. Qed.

  Lemma c_lt_digits : forall u, in_type D R u -> c_lt D Int R (digits D R) u = (digits D R <? u).
  Proof. intros u Hu. pose proof (digits_pos D R). apply c_lt_int_l; [assumption|lia]. Qed.

  Lemma shl_ok : forall t u, in_type D R t -> 0 <= t -> 0 <= u < width D (promote D R) ->
    t * 2 ^ u <= hi D R -> ret D R (c_shl D R R t u) = Ok (CVal (t * 2 ^ u)).
  Proof.
    intros t u Ht Ht0 Hu Hr. unfold c_shl.
    assert ((u <? 0) || (width D (promote D R) <=? u) = false) as -> by lia.
    pose proof (Z.pow_pos_nonneg 2 u ltac:(lia) ltac:(lia)).
    assert (Hin : in_type D R (t * 2 ^ u)) by (unfold in_type in *; nia).
    rewrite conv_id by (apply promote_in; assumption).
    destruct (csigned D (promote D R)).
    - assert ((t <? 0) = false) as -> by lia.
      pose proof (to_unsigned_hi D (promote D R)).
      assert ((t * 2 ^ u <=? hi D (to_unsigned (promote D R))) = true) as -> by lia.
      apply ret_ok; assumption.
    - apply ret_ok; assumption.
  Qed.

  Lemma room_ok : forall t, in_type D R t ->
    c_sub D Int UInt (digits D R) (significant_bits D R t)
    = Ok (digits D R - significant_bits D R t).
  Proof.
    intros t Ht. pose proof (digits_pos D R). pose proof (significant_bits_bound D R t Ht).
    unfold c_sub, c_arith. rewrite !conv_id by (apply small_in; lia).
    apply fin_ok, small_in. lia.
  Qed.

  Lemma sb_shift_iff : forall t u, in_type D R t -> 0 < t -> 0 <= u ->
    (u <= digits D R - significant_bits D R t <-> t * 2 ^ u <= hi D R).
  Proof.
    intros t u Ht Htp Hu. rewrite significant_bits_spec by assumption.
    assert (mag t = t) as -> by (unfold mag; destruct (Z.ltb_spec t 0); lia).
    pose proof (Z.pow_pos_nonneg 2 u ltac:(lia) ltac:(lia)).
    pose proof (pow_digits D R). pose proof (digits_pos D R).
    pose proof (Z.log2_mul_pow2 t u ltac:(lia) ltac:(lia)) as Hl.
    pose proof (Z.log2_lt_pow2 (t * 2 ^ u) (digits D R) ltac:(nia)) as Hp.
    split; intros.
    - enough (t * 2 ^ u < 2 ^ digits D R) by lia. apply Hp. lia.
    - enough (Z.log2 (t * 2 ^ u) < digits D R) by lia. apply Hp. lia.
  Qed.

  (** full behaviour of left_shift *)
  Lemma left_shift_spec : forall t u, in_type D R t -> in_type D R u ->
    left_shift D R t u =
      Ok (if u =? 0 then CVal t
          else if u <? 0 then CErr negative_shift
          else if digits D R <? u then CErr shift_too_large
          else if t <? 0 then CErr negative_shift
          else if t =? 0 then if u <? digits D R then CVal 0 else CErr shift_too_large
          else if t * 2 ^ u <=? hi D R then CVal (t * 2 ^ u)
          else CErr shift_too_large).
  Proof.
    intros t u Ht Hu. unfold left_shift.
    rewrite c_eq_int_r, c_lt_int_r, c_lt_digits by (auto; lia).
    destruct (Z.eqb_spec u 0); [reflexivity|].
    destruct (Z.ltb_spec u 0); [reflexivity|].
    destruct (Z.ltb_spec (digits D R) u); [reflexivity|].
    unfold left_shift_detail. rewrite c_lt_int_r by (auto; lia).
    destruct (Z.ltb_spec t 0) as [Hn|Hp].
    - rewrite (signed_of_neg D R t Ht Hn). reflexivity.
    - rewrite andb_false_r. rewrite room_ok by assumption. cbn [rbind].
      pose proof (significant_bits_bound D R t Ht) as Hsb. pose proof (digits_pos D R).
      rewrite greater_than_spec; [|assumption|apply small_in; lia].
      pose proof digits_le_width_promote.
      destruct (Z.eqb_spec t 0) as [->|Htz].
      + rewrite significant_bits_spec in * by assumption. change (1 + Z.log2 (mag 0)) with 1 in *.
        destruct (Z.ltb_spec (digits D R - 1) u); destruct (Z.ltb_spec u (digits D R)); try lia.
        * reflexivity.
        * rewrite shl_ok; [rewrite Z.mul_0_l; reflexivity|assumption|lia|lia|lia].
      + pose proof (sb_shift_iff t u Ht ltac:(lia) ltac:(lia)) as Hiff.
        destruct (Z.ltb_spec (digits D R - significant_bits D R t) u);
        destruct (Z.leb_spec (t * 2 ^ u) (hi D R)); try lia.
        * reflexivity.
        * apply shl_ok; [assumption|lia|lia|lia].
  Qed.

  (** full behaviour of right_shift *)
  Lemma right_shift_spec : forall t u, in_type D R t -> in_type D R u ->
    right_shift D R t u =
      if u <? 0 then Ok (CErr negative_shift)
      else if digits D R <? u then Ok (CErr shift_too_large)
      else if t <? 0 then Ok (CErr negative_value_shift)
      else if u <? width D (promote D R) then Ok (CVal (t / 2 ^ u))
      else UB.
  Proof.
    intros t u Ht Hu. unfold right_shift.
    rewrite c_lt_int_r, c_lt_digits by (auto; lia).
    destruct (Z.ltb_spec u 0); [reflexivity|].
    destruct (Z.ltb_spec (digits D R) u); [reflexivity|].
    unfold right_shift_detail. rewrite c_lt_int_r by (auto; lia).
    destruct (Z.ltb_spec t 0) as [Hn|Hp].
    - rewrite (signed_of_neg D R t Ht Hn). reflexivity.
    - rewrite andb_false_r. unfold c_shr.
      assert ((u <? 0) = false) as -> by lia. cbn [orb].
      destruct (Z.leb_spec (width D (promote D R)) u);
      destruct (Z.ltb_spec u (width D (promote D R))); try lia; [reflexivity|].
      apply ret_ok. pose proof (Z.pow_pos_nonneg 2 u ltac:(lia) ltac:(lia)).
      unfold in_type in *. split; [pose proof (Z.div_pos t (2 ^ u)); lia|].
      apply Z.le_trans with t; [|lia]. apply Z.div_le_upper_bound; nia.
  Qed.

  (** bitwise operations *)
  Lemma signed_div_iff : forall z, csigned D R = true ->
    (in_type D R z <-> Z.shiftr z (digits D R) = 0 \/ Z.shiftr z (digits D R) = -1).
  Proof.
    intros z E. pose proof (digits_pos D R). rewrite Z.shiftr_div_pow2 by lia.
    pose proof (pow_digits D R). pose proof (hi_pos_lo D R E).
    pose proof (Z.pow_pos_nonneg 2 (digits D R) ltac:(lia) ltac:(lia)).
    pose proof (Z.div_mod z (2 ^ digits D R) ltac:(lia)).
    pose proof (Z.mod_pos_bound z (2 ^ digits D R) ltac:(lia)).
    unfold in_type. nia.
  Qed.
  Lemma unsigned_div_iff : forall z, csigned D R = false ->
    (in_type D R z <-> Z.shiftr z (digits D R) = 0).
  Proof.
    intros z E. pose proof (digits_pos D R). rewrite Z.shiftr_div_pow2 by lia.
    pose proof (pow_digits D R). pose proof (lo_unsigned D R E).
    pose proof (Z.pow_pos_nonneg 2 (digits D R) ltac:(lia) ltac:(lia)).
    pose proof (Z.div_mod z (2 ^ digits D R) ltac:(lia)).
    pose proof (Z.mod_pos_bound z (2 ^ digits D R) ltac:(lia)).
    unfold in_type. nia.
  Qed.

  Lemma bit_in : forall f,
    (forall a b n, Z.shiftr (f a b) n = f (Z.shiftr a n) (Z.shiftr b n)) ->
    f 0 0 = 0 -> (f 0 (-1) = 0 \/ f 0 (-1) = -1) -> (f (-1) 0 = 0 \/ f (-1) 0 = -1) ->
    (f (-1) (-1) = 0 \/ f (-1) (-1) = -1) ->
    forall a b, in_type D R a -> in_type D R b -> in_type D R (f a b).
  Proof.
    intros f Hf H00 H01 H10 H11 a b Ha Hb. destruct (csigned D R) eqn:E.
    - rewrite signed_div_iff in * by assumption. rewrite Hf.
      destruct Ha as [-> | ->], Hb as [-> | ->]; tauto.
    - rewrite unsigned_div_iff in * by assumption. rewrite Hf, Ha, Hb. assumption.
  Qed.

  Lemma lor_in : forall a b, in_type D R a -> in_type D R b -> in_type D R (Z.lor a b).
  Proof. apply bit_in; auto using Z.shiftr_lor. Qed.
  Lemma land_in : forall a b, in_type D R a -> in_type D R b -> in_type D R (Z.land a b).
  Proof. apply bit_in; auto using Z.shiftr_land. Qed.
  Lemma lxor_in : forall a b, in_type D R a -> in_type D R b -> in_type D R (Z.lxor a b).
  Proof. apply bit_in; auto using Z.shiftr_lxor. Qed.

  Lemma bits_ge : forall t, in_type D R t -> significant_bits D R t <= bits_type D R.
  Proof.
    intros t Ht. pose proof (significant_bits_bound D R t Ht).
    unfold bits_type. destruct (csigned D R); lia.
  Qed.

  Lemma bitwise_or_spec : forall t u, in_type D R t -> in_type D R u ->
    bitwise_or D R t u = Ok (CVal (Z.lor t u)).
  Proof.
    intros t u Ht Hu. unfold bitwise_or. pose proof (bits_ge t Ht). pose proof (bits_ge u Hu).
    destruct (Z.ltb_spec (bits_type D R) (Z.max (significant_bits D R t) (significant_bits D R u))); [lia|].
    unfold c_or. rewrite !conv_id by auto using same_in. apply ret_ok, lor_in; assumption.
  Qed.
  Lemma bitwise_xor_spec : forall t u, in_type D R t -> in_type D R u ->
    bitwise_xor D R t u = Ok (CVal (Z.lxor t u)).
  Proof.
    intros t u Ht Hu. unfold bitwise_xor. pose proof (bits_ge t Ht). pose proof (bits_ge u Hu).
    destruct (Z.ltb_spec (bits_type D R) (Z.max (significant_bits D R t) (significant_bits D R u))); [lia|].
    unfold c_xor. rewrite !conv_id by auto using same_in. apply ret_ok, lxor_in; assumption.
  Qed.
  Lemma bitwise_and_spec : forall t u, in_type D R t -> in_type D R u ->
    bitwise_and D R t u = Ok (CVal (Z.land t u)).
  Proof.
    intros t u Ht Hu. unfold bitwise_and. pose proof (bits_ge t Ht). pose proof (bits_ge u Hu).
    destruct (Z.ltb_spec (bits_type D R) (Z.min (significant_bits D R t) (significant_bits D R u))); [lia|].
    unfold c_and. rewrite !conv_id by auto using same_in. apply ret_ok, land_in; assumption.
  Qed.
  Lemma width_promote : width D R <= width D (promote D R).
  Proof. destruct D, R; vm_compute; congruence. Qed.

  Lemma conv_conv_promote : forall z, conv D R (conv D (promote D R) z) = conv D R z.
  Proof.
    intros z. apply conv_unique; [apply conv_range|].
    pose proof (width_pow_pos D R). pose proof (width_pow_pos D (promote D R)).
    pose proof width_promote.
    assert (Hdvd : (2 ^ width D R | 2 ^ width D (promote D R))).
    { exists (2 ^ (width D (promote D R) - width D R)). rewrite <- Z.pow_add_r; [f_equal; lia|lia|].
      destruct (width_cases D R) as [|[|[|]]]; lia. }
    assert (Hm1 : (conv D R z - z) mod 2 ^ width D R = 0).
    { rewrite Zminus_mod, conv_eq_mod, Z.sub_diag. apply Z.mod_0_l. lia. }
    assert (Hm2 : (conv D (promote D R) z - z) mod 2 ^ width D (promote D R) = 0).
    { rewrite Zminus_mod, conv_eq_mod, Z.sub_diag. apply Z.mod_0_l. lia. }
    apply Z.mod_divide in Hm1; [|lia]. apply Z.mod_divide in Hm2; [|lia].
    apply Z.mod_divide; [lia|].
    replace (conv D R z - conv D (promote D R) z) with
      ((conv D R z - z) - (conv D (promote D R) z - z)) by lia.
    apply Z.divide_sub_r; [assumption|]. apply Z.divide_trans with (1 := Hdvd). assumption.
  Qed.

  Lemma bitwise_not_spec : forall t, in_type D R t ->
    bitwise_not D R t = Ok (CVal (if csigned D R then Z.lnot t else hi D R - t)).
  Proof.
    intros t Ht. unfold bitwise_not. pose proof (bits_ge t Ht).
    destruct (Z.ltb_spec (bits_type D R) (significant_bits D R t)); [lia|].
    cbn [ret rbind]. f_equal. f_equal. unfold c_not. rewrite conv_conv_promote.
    destruct (csigned D R) eqn:E.
    - apply conv_id. pose proof (hi_pos_lo D R E). unfold in_type, Z.lnot in *. lia.
    - pose proof (lo_unsigned D R E). pose proof (pow_width D R).
      apply conv_unique; [unfold in_type in *; lia|].
      unfold Z.lnot. replace (hi D R - t - Z.pred (- t)) with (2 ^ width D R) by lia.
      apply Z.mod_same. lia.
  Qed.
End Arith.

(** casts *)
Lemma het_cast_spec : forall D R mn mx T t,
  in_type D R mn -> in_type D R mx -> in_type D T t ->
  (mn <= t <= mx -> het_cast D R mn mx T t = CVal t)
  /\ (~ (mn <= t <= mx) -> exists e, het_cast D R mn mx T t = CErr e
       /\ (t > mx -> mn <= mx -> e = positive_overflow_error)
       /\ (e = domain_error <-> csigned D R = false /\ csigned D T = true /\ t < mn)
       /\ (csigned D R = true -> csigned D T = true -> t < mn -> mn <= mx -> e = negative_overflow_error)
       /\ (e = positive_overflow_error \/ e = negative_overflow_error \/ e = domain_error)).
Proof.
  intros D R mn mx T t Hmn Hmx Ht. unfold het_cast.
  rewrite greater_than_spec, less_than_spec by assumption.
  assert (Hin : mn <= t <= mx -> conv D R t = t)
    by (intros H; apply conv_id; unfold in_type in *; lia).
  destruct (csigned D R) eqn:ER, (csigned D T) eqn:ET;
    destruct (Z.ltb_spec mx t); destruct (Z.ltb_spec t mn);
    (split; [intros Hb; try (exfalso; lia); rewrite Hin by lia; reflexivity
            |intros Hb; try (exfalso; lia); (eexists; split; [reflexivity|]);
             repeat split; intros; try lia; try tauto; try discriminate;
             try (match goal with H : _ /\ _ |- _ => destruct H as (? & ? & ?) end; try discriminate; lia);
             auto]).
Qed.

Lemma cast_spec : forall D R T t, in_type D T t ->
  (in_type D R t -> cast D R T t = CVal t)
  /\ (t > hi D R -> cast D R T t = CErr positive_overflow_error)
  /\ (t < lo D R -> cast D R T t =
        CErr (if csigned D R then negative_overflow_error else domain_error)).
Proof.
  intros D R T t Ht. unfold cast.
  destruct (het_cast_spec D R (lo D R) (hi D R) T t (lo_in D R) (hi_in D R) Ht) as [H1 H2].
  pose proof (lo_le_0 D R). pose proof (hi_ge_127 D R). split; [|split].
  - intros Hx. apply H1. assumption.
  - intros H'. destruct H2 as (e & -> & Hp & _); [lia|]. rewrite Hp by lia. reflexivity.
  - intros H'. destruct H2 as (e & -> & _ & Hd & Hn & _); [lia|]. f_equal.
    assert (Hs : csigned D T = true) by (apply (signed_of_neg D T t Ht); lia).
    destruct (csigned D R) eqn:E; [apply Hn; auto; lia|apply Hd; auto].
Qed.
