(** SafeBitFacts.v -- facts about the bitwise operators of safe types. Proofs only. *)
From Coq Require Import ZArith Bool List Lia.
From Verif Require Import Base CType Spec CTypeFacts Utility UtilityFacts SafeCompare
  CheckedInteger CheckedIntegerFacts CheckedResultOps CheckedResultFacts Interval IntervalFacts
  IntervalOpsFacts ExceptionPolicy Promotion SafeBase SafeSpec SafeFacts SafeDivFacts SafeConvFacts.
Import ListNotations.
Local Open Scope Z_scope.

Lemma uac_uac : forall D T U, uac D (uac D T U) (uac D T U) = uac D T U.
Proof. destruct D, T, U; reflexivity. Qed.
Lemma uac_to_unsigned_hi : forall D T U, hi D T <= hi D (uac D T U) /\ hi D U <= hi D (uac D T U).
Proof. intros. split; [apply uac_hi_l|apply uac_hi_r]. Qed.

(** round_out on an unsigned type: the next number of the form 2^k - 1 *)
Lemma round_out_unsigned : forall D T t, csigned D T = false -> in_type D T t ->
  round_out D T t = Ok (2 ^ (1 + Z.log2 t) - 1).
Proof.
  intros D T t Hs Ht. unfold round_out. pose proof (lo_unsigned D T Hs) as Hl.
  assert (H0 : 0 <= t) by (unfold in_type in Ht; lia).
  rewrite c_lt_int_r by (auto; lia). rewrite (proj2 (Z.ltb_ge t 0)) by lia. cbn [negb].
  assert (Hsb : significant_bits D T t = 1 + Z.log2 t).
  { rewrite significant_bits_spec by assumption. unfold mag.
    destruct (Z.ltb_spec t 0); [lia|reflexivity]. }
  pose proof (significant_bits_bound D T t Ht) as Hb. rewrite Hsb in *. clear Hsb. cbv zeta.
  pose proof (pow_digits D T) as Hd. pose proof (pow_width D T) as Hw.
  assert (Hwd : digits D T = width D T) by (unfold digits; rewrite Hs; lia).
  set (n := 1 + Z.log2 t) in *. clearbody n.
  destruct (Z.ltb_spec n (width D T)) as [Hn|Hn].
  - assert (Hp : 2 ^ n <= 2 ^ (width D T - 1)) by (apply Z.pow_le_mono_r; lia).
    assert (Hp' : 2 ^ width D T = 2 * 2 ^ (width D T - 1)).
    { rewrite <- Z.pow_succ_r by lia. f_equal. lia. }
    pose proof (Z.pow_pos_nonneg 2 n ltac:(lia) ltac:(lia)) as Hpos.
    assert (HP : in_type D (promote D T) (2 ^ n)).
    { pose proof (promote_hi D T). pose proof (promote_lo D T). unfold in_type in *. lia. }
    assert (HP0 : in_type D (promote D T) (2 ^ n - 1)).
    { unfold in_type in *. pose proof (lo_le_0 D (promote D T)). lia. }
    assert (HT : in_type D T (2 ^ n - 1)) by (unfold in_type in *; lia).
    assert (Esh : c_shl D T UChar 1 n = Ok (2 ^ n)).
    { unfold c_shl. cbv zeta. pose proof (width_promote D T).
      rewrite (proj2 (Z.ltb_ge n 0)) by lia. rewrite (proj2 (Z.leb_gt _ n)) by lia. cbn [orb].
      rewrite Z.mul_1_l, conv_id by assumption. change (1 <? 0) with false. cbn iota.
      destruct (csigned D (promote D T)); [|reflexivity].
      rewrite (proj2 (Z.leb_le _ _)); [reflexivity|].
      pose proof (to_unsigned_hi D (promote D T)). unfold in_type in HP. lia. }
    rewrite Esh. cbn [rbind].
    assert (Esub : c_sub D (promote D T) Int (2 ^ n) 1 = Ok (2 ^ n - 1)).
    { unfold c_sub, c_arith. cbv zeta.
      assert (Eu : uac D (promote D T) Int = promote D T) by (destruct D, T; reflexivity).
      rewrite Eu, !conv_id by (try assumption; apply small_in; lia).
      apply fin_ok. assumption. }
    rewrite Esub. cbn [rbind]. rewrite conv_id by assumption. reflexivity.
  - assert (n = width D T) by lia. subst n. f_equal. lia.
Qed.

Lemma built_in_bit_eq : forall D b T U x y,
  built_in_bit D b T U x y = bit_op b (conv D (uac D T U) x) (conv D (uac D T U) y).
Proof. intros D [] T U x y; reflexivity. Qed.
Lemma bit_op_in : forall D b R x y, in_type D R x -> in_type D R y -> in_type D R (bit_op b x y).
Proof. intros D [] R x y Hx Hy; cbn; auto using lor_in, land_in, lxor_in. Qed.

Lemma bitwise_inv : forall D b t u x y s m, bitwise D b t u x y = Some (s, m) ->
  exists mx, common_pp t u = Some (sP s) /\ common_ep t u = Some (sE s)
  /\ result_base_type D (sP s) (PBit b) t u = Some (st s)
  /\ smin s = 0 /\ smax s = mx /\ in_type D (st s) mx
  /\ round_out D (to_unsigned (st s))
       (match b with
        | And => Z.min (conv D (to_unsigned (st s)) (lim_hi D t)) (conv D (to_unsigned (st s)) (lim_hi D u))
        | _ => Z.max (conv D (to_unsigned (st s)) (lim_hi D t)) (conv D (to_unsigned (st s)) (lim_hi D u))
        end) = Ok mx
  /\ m = mret (conv D (st s) (built_in_bit D b (st s) (st s) (conv D (st s) x) (conv D (st s) y))).
Proof.
  intros D b t u x y s m H. unfold bitwise, bitwise_type in H.
  destruct (common_pp t u) as [P|]; [|discriminate].
  destruct (common_ep t u) as [E|]; [|discriminate].
  destruct (result_base_type D P (PBit b) t u) as [R|] eqn:HR; [|discriminate].
  cbv zeta in H. destruct (round_out D (to_unsigned R) _) as [mx|] eqn:Ho; [|discriminate].
  destruct (in_range D R mx) eqn:Hr; [|discriminate]. apply in_range_iff in Hr.
  injection H as <- <-. cbn [sP sE st smin smax]. exists mx. splits; auto.
Qed.

(** native and automatic promotion use the type of the built-in expression *)
Lemma bitwise_value : forall D b t u x y s m,
  bitwise D b t u x y = Some (s, m) -> sP s = Native \/ sP s = Automatic ->
  st s = uac D (base_ty t) (base_ty u)
  /\ returns m (built_in_bit D b (base_ty t) (base_ty u) x y)
  /\ in_type D (st s) (built_in_bit D b (base_ty t) (base_ty u) x y).
Proof.
  intros D b t u x y s m H HP.
  destruct (bitwise_inv _ _ _ _ _ _ _ _ H) as (mx & _ & _ & HR & _ & _ & _ & _ & ->).
  assert (E : st s = uac D (base_ty t) (base_ty u)).
  { destruct HP as [HP|HP]; rewrite HP in HR; cbn in HR; congruence. }
  split; [assumption|]. rewrite E. rewrite !built_in_bit_eq, uac_uac.
  set (R := uac D (base_ty t) (base_ty u)).
  assert (Hb : in_type D R (bit_op b (conv D R x) (conv D R y)))
    by (apply bit_op_in; apply conv_range).
  split; [|assumption]. unfold returns. 
  rewrite (conv_id D R (conv D R x)), (conv_id D R (conv D R y)) by apply conv_range.
  rewrite conv_id by assumption. reflexivity.
Qed.

Lemma bit_op_nonneg : forall b x y, 0 <= x -> 0 <= y -> 0 <= bit_op b x y.
Proof.
  intros [] x y Hx Hy; cbn.
  - apply Z.lor_nonneg. auto.
  - apply Z.land_nonneg. auto.
  - apply Z.lxor_nonneg. tauto.
Qed.
Lemma log2_le_pow : forall z a, 0 <= z -> Z.log2 z <= Z.log2 a -> z <= 2 ^ (1 + Z.log2 a) - 1.
Proof.
  intros z a Hz Hl. pose proof (Z.log2_nonneg a).
  destruct (Z.eq_dec z 0) as [->|Hn].
  - pose proof (Z.pow_pos_nonneg 2 (1 + Z.log2 a)). lia.
  - pose proof (Z.log2_spec z ltac:(lia)) as [_ H1].
    assert (2 ^ Z.succ (Z.log2 z) <= 2 ^ (1 + Z.log2 a)) by (apply Z.pow_le_mono_r; lia). lia.
Qed.
Lemma bit_op_bound : forall b x y a c, 0 <= x <= a -> 0 <= y <= c ->
  bit_op b x y <= 2 ^ (1 + Z.log2 (match b with And => Z.min a c | _ => Z.max a c end)) - 1.
Proof.
  intros b x y a c Hx Hy. apply log2_le_pow; [apply bit_op_nonneg; lia|].
  pose proof (Z.log2_le_mono x a ltac:(lia)). pose proof (Z.log2_le_mono y c ltac:(lia)).
  destruct b; cbn [bit_op].
  - rewrite Z.log2_lor by lia. 
    pose proof (Z.log2_le_mono a (Z.max a c) ltac:(lia)). pose proof (Z.log2_le_mono c (Z.max a c) ltac:(lia)). lia.
  - pose proof (Z.log2_land x y ltac:(lia) ltac:(lia)).
    destruct (Z.min_spec a c) as [[_ ->]|[_ ->]]; lia.
  - pose proof (Z.log2_lxor x y ltac:(lia) ltac:(lia)).
    pose proof (Z.log2_le_mono a (Z.max a c) ltac:(lia)). pose proof (Z.log2_le_mono c (Z.max a c) ltac:(lia)). lia.
Qed.

(** non-negative operands that the result type can represent *)
Lemma bitwise_range : forall D b t u x y s m,
  wf_operand D t -> wf_operand D u -> holds D t x -> holds D u y ->
  bitwise D b t u x y = Some (s, m) -> 0 <= x -> 0 <= y ->
  lim_hi D t <= hi D (st s) -> lim_hi D u <= hi D (st s) ->
  wf_operand D (OSafe s)
  /\ returns m (bit_op b x y) /\ smin s <= bit_op b x y <= smax s.
Proof.
  intros D b t u x y s m Ht Hu Hx Hy H Hx0 Hy0 Lt Lu.
  destruct (bitwise_inv _ _ _ _ _ _ _ _ H) as (mx & _ & _ & _ & H0 & Hm & Hin & Hro & ->).
  unfold holds in *. set (R := st s) in *. set (V := to_unsigned R) in *.
  pose proof (to_unsigned_hi D R) as Hh. fold V in Hh.
  pose proof (lo_unsigned D V (to_unsigned_unsigned D R)) as Hl0. pose proof (lo_le_0 D R).
  assert (A : in_type D V (lim_hi D t)) by (unfold in_type; lia).
  assert (B : in_type D V (lim_hi D u)) by (unfold in_type; lia).
  rewrite !conv_id in Hro by assumption.
  assert (C : in_type D V (match b with And => Z.min (lim_hi D t) (lim_hi D u) | _ => Z.max (lim_hi D t) (lim_hi D u) end))
    by (destruct b; unfold in_type in *; lia).
  assert (Hro' : round_out D V (match b with And => Z.min (lim_hi D t) (lim_hi D u) | _ => Z.max (lim_hi D t) (lim_hi D u) end) = Ok mx)
    by (destruct b; exact Hro).
  rewrite round_out_unsigned in Hro' by (try apply to_unsigned_unsigned; assumption).
  pose proof (f_equal (fun r => match r with Ok v => v | UB => 0 end) Hro') as Emx. cbv beta iota in Emx.
  pose proof (bit_op_bound b x y (lim_hi D t) (lim_hi D u) ltac:(lia) ltac:(lia)) as Hbd.
  rewrite Emx in Hbd.
  pose proof (bit_op_nonneg b x y Hx0 Hy0) as Hnn.
  assert (Ix : in_type D R x) by (unfold in_type; lia).
  assert (Iy : in_type D R y) by (unfold in_type; lia).
  assert (Hmx0 : 0 <= mx) by lia.
  split; [|split].
  - unfold wf_operand. cbn. fold R. rewrite H0, Hm. splits; [apply zero_in|assumption|lia].
  - unfold returns. rewrite (conv_id D R x), (conv_id D R y) by assumption.
    rewrite built_in_bit_eq.
    rewrite (conv_id D (uac D R R) x), (conv_id D (uac D R R) y) by (apply same_in; assumption).
    rewrite conv_id by (apply bit_op_in; assumption). reflexivity.
  - rewrite H0, Hm. lia.
Qed.
Lemma uac_result_fits : forall D b t u s, wf_operand D t -> wf_operand D u ->
  result_base_type D (sP s) (PBit b) t u = Some (st s) -> sP s = Native \/ sP s = Automatic ->
  lim_hi D t <= hi D (st s) /\ lim_hi D u <= hi D (st s).
Proof.
  intros D b t u s (T1 & T2 & T3) (U1 & U2 & U3) HR HP.
  assert (E : st s = uac D (base_ty t) (base_ty u)).
  { destruct HP as [HP|HP]; rewrite HP in HR; cbn in HR; congruence. }
  rewrite E. pose proof (uac_hi_l D (base_ty t) (base_ty u)). pose proof (uac_hi_r D (base_ty t) (base_ty u)).
  unfold in_type in *. lia.
Qed.

(** ~ of a safe type over an unsigned type that is not promoted *)
Lemma complement_unsigned : forall D s x m rs,
  wf_operand D (OSafe s) -> holds D (OSafe s) x ->
  csigned D (st s) = false -> promote D (st s) = st s -> sP s = Native \/ sP s = Automatic ->
  complement D s x = Some (rs, m) ->
  wf_operand D (OSafe rs) /\ st rs = st s
  /\ returns m (hi D (st s) - x) /\ smin rs <= hi D (st s) - x <= smax rs.
Proof.
  intros D s x m rs Hs Hx Hu Hp HP Hc. unfold complement in Hc. rewrite Hp in Hc.
  pose proof (lo_unsigned D (st s) Hu) as Hl. pose proof (pow_width D (st s)) as Hw.
  pose proof (holds_in D (OSafe s) x Hs Hx) as Hi. cbn [base_ty] in Hi.
  assert (En : c_not D (st s) (conv D (st s) 0) = hi D (st s)).
  { unfold c_not. rewrite conv_0, Hp. apply conv_unique; [apply hi_in|].
    change (Z.lnot 0) with (-1). replace (hi D (st s) - -1) with (2 ^ width D (st s)) by lia.
    apply Z_mod_same_full. }
  rewrite En in Hc.
  assert (HPr : sP rs = sP s /\ st rs = st s).
  { destruct (bitwise_inv _ _ _ _ _ _ _ _ Hc) as (mx & H1 & _ & H2 & _).
    unfold common_pp in H1. cbn in H1. injection H1 as E1. split; [auto|]. rewrite <- E1 in H2.
    destruct HP as [HP|HP]; rewrite HP in H2; cbn in H2; injection H2 as E2;
      rewrite <- E2, uac_same; assumption. }
  destruct HPr as [HPr Hst].
  assert (Hh : 0 <= x) by (unfold in_type in Hi; lia).
  pose proof (hi_ge_127 D (st s)).
  destruct (bitwise_range D Xor (ORaw (st s)) (OSafe s) (hi D (st s)) x rs m) as (W & R & B); auto using wf_raw.
  - unfold holds. cbn. lia.
  - lia.
  - rewrite Hst. cbn. lia.
  - rewrite Hst. destruct Hs as (_ & S2 & _). cbn in *. unfold in_type in S2. lia.
  - assert (E : bit_op Xor (hi D (st s)) x = hi D (st s) - x).
    { cbn [bit_op]. assert (Hww : 0 < width D (st s)) by (destruct D, (st s); reflexivity).
      replace (hi D (st s)) with (Z.ones (width D (st s))) by (rewrite Z.ones_equiv; lia).
      rewrite Z.lxor_comm. apply Z.bits_inj'. intros n Hn. 
      assert (Hxl : 0 <= x < 2 ^ width D (st s)) by (unfold in_type in Hi; lia).
      rewrite (Z.sub_nocarry_ldiff (Z.ones (width D (st s))) x).
      2:{ apply Z.bits_inj'. intros k Hk. rewrite Z.bits_0, Z.ldiff_spec.
          destruct (Z_lt_le_dec k (width D (st s))).
          - rewrite Z.ones_spec_low by lia. apply andb_false_r.
          - rewrite Z.ones_spec_high by lia. 
            destruct (Z.eq_dec x 0) as [->|]; [rewrite Z.bits_0; reflexivity|].
            rewrite Z.bits_above_log2; [reflexivity|lia|].
            apply Z.log2_lt_pow2; [lia|]. apply (Z.lt_le_trans _ (2 ^ width D (st s))); [lia|].
            apply Z.pow_le_mono_r; lia. }
      rewrite Z.lxor_spec, Z.ldiff_spec.
      destruct (Z_lt_le_dec n (width D (st s))).
      - rewrite Z.ones_spec_low by lia. destruct (Z.testbit x n); reflexivity.
      - rewrite Z.ones_spec_high by lia. 
        assert (Z.testbit x n = false).
        { destruct (Z.eq_dec x 0) as [->|]; [apply Z.bits_0|].
          apply Z.bits_above_log2; [lia|].
          apply Z.log2_lt_pow2; [lia|]. apply (Z.lt_le_trans _ (2 ^ width D (st s))); [lia|].
          apply Z.pow_le_mono_r; lia. }
        rewrite H0. reflexivity. }
    rewrite E in *. auto.
Qed.
