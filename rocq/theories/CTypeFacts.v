(** CTypeFacts.v -- facts about the C++ integer types. Proofs only. *)
From Coq Require Import ZArith Bool List Lia.
From Verif Require Import Base CType Spec.
Local Open Scope Z_scope.

Lemma ctype_eqb_spec : forall a b, ctype_eqb a b = true <-> a = b.
Proof. intros a b; split; [destruct a, b; cbn; congruence | intros ->; destruct b; reflexivity]. Qed.

Lemma in_range_iff : forall D T z, in_range D T z = true <-> in_type D T z.
Proof.
  intros. unfold in_range, in_type. rewrite andb_true_iff, !Z.leb_le. reflexivity.
Qed.

Lemma in_range_false : forall D T z, in_range D T z = false <-> ~ in_type D T z.
Proof.
  intros. rewrite <- in_range_iff. destruct (in_range D T z); split; congruence.
Qed.

Lemma width_cases : forall D T,
  width D T = 8 \/ width D T = 16 \/ width D T = 32 \/ width D T = 64.
Proof. destruct D, T; cbn; auto. Qed.

Lemma lo_hi_signed : forall D T, csigned D T = true ->
  lo D T = - 2 ^ (width D T - 1) /\ hi D T = 2 ^ (width D T - 1) - 1.
Proof. intros D T H. unfold lo, hi, digits. rewrite H. auto. Qed.

Lemma lo_hi_unsigned : forall D T, csigned D T = false ->
  lo D T = 0 /\ hi D T = 2 ^ width D T - 1.
Proof. intros D T H. unfold lo, hi, digits. rewrite H. auto. Qed.

Lemma lo_le_0 : forall D T, lo D T <= 0.
Proof. destruct D, T; vm_compute; congruence. Qed.

Lemma hi_ge_127 : forall D T, 127 <= hi D T.
Proof. destruct D, T; vm_compute; congruence. Qed.

Lemma lo_ge : forall D T, - 2 ^ 63 <= lo D T.
Proof. destruct D, T; vm_compute; congruence. Qed.

Lemma hi_le : forall D T, hi D T <= 2 ^ 64 - 1.
Proof. destruct D, T; vm_compute; congruence. Qed.

Lemma hi_pos_lo : forall D T, csigned D T = true -> lo D T = - hi D T - 1.
Proof. intros D T H. destruct (lo_hi_signed _ _ H) as [-> ->]. lia. Qed.

Lemma lo_unsigned : forall D T, csigned D T = false -> lo D T = 0.
Proof. intros D T H. destruct (lo_hi_unsigned _ _ H) as [-> _]. lia. Qed.

Lemma width_pow_pos : forall D T, 0 < 2 ^ width D T.
Proof. intros. apply Z.pow_pos_nonneg; [lia|]. destruct (width_cases D T) as [|[|[|]]]; lia. Qed.

Lemma pow_width : forall D T, 2 ^ width D T = hi D T - lo D T + 1.
Proof. destruct D, T; vm_compute; reflexivity. Qed.

Lemma pow_digits : forall D T, 2 ^ digits D T = hi D T + 1.
Proof. intros; unfold hi; lia. Qed.

Lemma zero_in : forall D T, in_type D T 0.
Proof. intros D T. pose proof (lo_le_0 D T). pose proof (hi_ge_127 D T). unfold in_type; lia. Qed.

Lemma small_in : forall D T z, 0 <= z <= 127 -> in_type D T z.
Proof. intros D T z H. pose proof (lo_le_0 D T). pose proof (hi_ge_127 D T). unfold in_type; lia. Qed.

Lemma lo_in : forall D T, in_type D T (lo D T).
Proof. intros D T. pose proof (lo_le_0 D T). pose proof (hi_ge_127 D T). unfold in_type; lia. Qed.

Lemma hi_in : forall D T, in_type D T (hi D T).
Proof. intros D T. pose proof (lo_le_0 D T). pose proof (hi_ge_127 D T). unfold in_type; lia. Qed.

Lemma neg1_in : forall D T, csigned D T = true -> in_type D T (-1).
Proof. intros D T H. pose proof (hi_pos_lo D T H). pose proof (hi_ge_127 D T). unfold in_type; lia. Qed.

Lemma conv_range : forall D T z, in_type D T (conv D T z).
Proof.
  intros D T z. unfold conv, in_type. pose proof (width_pow_pos D T).
  pose proof (pow_width D T) as Hw. pose proof (pow_digits D T) as Hd.
  destruct (csigned D T) eqn:E.
  - pose proof (hi_pos_lo D T E).
    pose proof (Z.mod_pos_bound (z + 2 ^ digits D T) (2 ^ width D T) ltac:(lia)). lia.
  - pose proof (lo_unsigned D T E).
    pose proof (Z.mod_pos_bound z (2 ^ width D T) ltac:(lia)). lia.
Qed.

Lemma conv_id : forall D T z, in_type D T z -> conv D T z = z.
Proof.
  intros D T z H. unfold conv, in_type in *. pose proof (pow_width D T) as Hw.
  pose proof (pow_digits D T) as Hd.
  destruct (csigned D T) eqn:E.
  - pose proof (hi_pos_lo D T E). rewrite Z.mod_small; lia.
  - pose proof (lo_unsigned D T E). rewrite Z.mod_small; lia.
Qed.

Lemma conv_eq_mod : forall D T z, (conv D T z) mod 2 ^ width D T = z mod 2 ^ width D T.
Proof.
  intros D T z. pose proof (width_pow_pos D T). unfold conv. destruct (csigned D T).
  - rewrite Zminus_mod_idemp_l. f_equal. lia.
  - apply Z.mod_mod. lia.
Qed.

Lemma conv_0 : forall D T, conv D T 0 = 0.
Proof. intros. apply conv_id, zero_in. Qed.

(** conv is the unique value of T congruent to z *)
Lemma conv_unique : forall D T z v,
  in_type D T v -> (v - z) mod 2 ^ width D T = 0 -> conv D T z = v.
Proof.
  intros D T z v Hv Hm. pose proof (width_pow_pos D T). pose proof (pow_width D T).
  apply Z.mod_divide in Hm; [|lia]. destruct Hm as [k Hk].
  pose proof (conv_range D T z) as Hr.
  pose proof (conv_eq_mod D T z) as He.
  assert (Hd : (conv D T z - z) mod 2 ^ width D T = 0).
  { rewrite Zminus_mod, He, Z.sub_diag. apply Z.mod_0_l. lia. }
  apply Z.mod_divide in Hd; [|lia]. destruct Hd as [k' Hk'].
  unfold in_type in *. set (W := 2 ^ width D T) in *. clearbody W.
  assert (k' = k) by (destruct (Z.lt_trichotomy k' k) as [|[|]]; nia). nia.
Qed.

Lemma promote_lo : forall D T, lo D (promote D T) <= lo D T.
Proof. destruct D, T; vm_compute; congruence. Qed.
Lemma promote_hi : forall D T, hi D T <= hi D (promote D T).
Proof. destruct D, T; vm_compute; congruence. Qed.
Lemma promote_in : forall D T z, in_type D T z -> in_type D (promote D T) z.
Proof. intros D T z H. pose proof (promote_lo D T). pose proof (promote_hi D T). unfold in_type in *; lia. Qed.
Lemma promote_idem : forall D T, promote D (promote D T) = promote D T.
Proof. destruct D, T; reflexivity. Qed.
Lemma uac_same : forall D T, uac D T T = promote D T.
Proof. destruct D, T; reflexivity. Qed.
Lemma uac_comm : forall D T U, uac D T U = uac D U T.
Proof. destruct D, T, U; reflexivity. Qed.

Lemma uac_hi_l : forall D T U, hi D T <= hi D (uac D T U).
Proof. destruct D, T, U; vm_compute; congruence. Qed.
Lemma uac_hi_r : forall D T U, hi D U <= hi D (uac D T U).
Proof. destruct D, T, U; vm_compute; congruence. Qed.
Lemma uac_lo_l : forall D T U, csigned D (uac D T U) = true -> lo D (uac D T U) <= lo D T.
Proof. destruct D, T, U; vm_compute; congruence. Qed.
Lemma uac_lo_r : forall D T U, csigned D (uac D T U) = true -> lo D (uac D T U) <= lo D U.
Proof. destruct D, T, U; vm_compute; congruence. Qed.
(** an unsigned common type of two signed types does not occur *)
Lemma uac_signed : forall D T U,
  csigned D T = true -> csigned D U = true -> csigned D (uac D T U) = true.
Proof. destruct D, T, U; vm_compute; congruence. Qed.
Lemma promote_signed : forall D T, csigned D T = true -> csigned D (promote D T) = true.
Proof. destruct D, T; vm_compute; congruence. Qed.

Lemma uac_in_l : forall D T U x, in_type D T x ->
  csigned D (uac D T U) = true \/ 0 <= x -> in_type D (uac D T U) x.
Proof.
  intros D T U x H [Hs|Hp]; pose proof (uac_hi_l D T U);
  pose proof (lo_le_0 D (uac D T U)); unfold in_type in *.
  - pose proof (uac_lo_l D T U Hs). lia.
  - lia.
Qed.
Lemma uac_in_r : forall D T U x, in_type D U x ->
  csigned D (uac D T U) = true \/ 0 <= x -> in_type D (uac D T U) x.
Proof. intros D T U x H Hs. rewrite uac_comm in *. apply uac_in_l; assumption. Qed.

(** The comparison operators are mathematical when no negative value meets an
    unsigned common type. *)
Lemma c_lt_spec : forall D T U x y, in_type D T x -> in_type D U y ->
  csigned D (uac D T U) = true \/ (0 <= x /\ 0 <= y) ->
  c_lt D T U x y = (x <? y).
Proof.
  intros D T U x y Hx Hy Hs. unfold c_lt.
  rewrite !conv_id; [reflexivity| |]; [apply uac_in_r|apply uac_in_l]; tauto.
Qed.
Lemma c_eq_spec : forall D T U x y, in_type D T x -> in_type D U y ->
  csigned D (uac D T U) = true \/ (0 <= x /\ 0 <= y) ->
  c_eq D T U x y = (x =? y).
Proof.
  intros D T U x y Hx Hy Hs. unfold c_eq.
  rewrite !conv_id; [reflexivity| |]; [apply uac_in_r|apply uac_in_l]; tauto.
Qed.

Lemma sign_split : forall D R, csigned D (promote D R) = true
  \/ (csigned D R = false /\ csigned D (promote D R) = false).
Proof. intros D R. destruct (csigned D (promote D R)) eqn:E; [auto|right; split; [|reflexivity]].
  destruct (csigned D R) eqn:F; [apply promote_signed in F; congruence|reflexivity]. Qed.

Lemma same_in : forall D R x, in_type D R x -> in_type D (uac D R R) x.
Proof. intros. rewrite uac_same. apply promote_in. assumption. Qed.

Lemma c_lt_same : forall D R x y, in_type D R x -> in_type D R y ->
  c_lt D R R x y = (x <? y).
Proof. intros. unfold c_lt. rewrite !conv_id; auto using same_in. Qed.
Lemma c_eq_same : forall D R x y, in_type D R x -> in_type D R y ->
  c_eq D R R x y = (x =? y).
Proof. intros. unfold c_eq. rewrite !conv_id; auto using same_in. Qed.

(** comparisons of an R value with a value of R's promoted type *)
Lemma uac_promote_l : forall D R, uac D (uac D R R) R = promote D R.
Proof. destruct D, R; reflexivity. Qed.
Lemma uac_promote_r : forall D R, uac D R (uac D R R) = promote D R.
Proof. destruct D, R; reflexivity. Qed.

Lemma c_lt_pl : forall D R x y, in_type D (promote D R) x -> in_type D R y ->
  c_lt D (uac D R R) R x y = (x <? y).
Proof. intros. unfold c_lt. rewrite uac_promote_l. rewrite !conv_id; auto using promote_in. Qed.
Lemma c_lt_pr : forall D R x y, in_type D R x -> in_type D (promote D R) y ->
  c_lt D R (uac D R R) x y = (x <? y).
Proof. intros. unfold c_lt. rewrite uac_promote_r. rewrite !conv_id; auto using promote_in. Qed.

(** comparisons with a small int constant *)
Lemma uac_int_unsigned : forall D R, csigned D (uac D R Int) = false -> csigned D R = false.
Proof. destruct D, R; vm_compute; congruence. Qed.

Lemma uac_int_case : forall D R x, in_type D R x ->
  csigned D (uac D R Int) = true \/ 0 <= x.
Proof.
  intros D R x Hx. destruct (csigned D (uac D R Int)) eqn:E; [auto|right].
  apply uac_int_unsigned in E. apply lo_unsigned in E. unfold in_type in Hx. lia.
Qed.

Lemma c_lt_int_r : forall D R x c, in_type D R x -> 0 <= c <= 127 ->
  c_lt D R Int x c = (x <? c).
Proof.
  intros D R x c Hx Hc. apply c_lt_spec; [assumption|apply small_in; assumption|].
  destruct (uac_int_case D R x Hx); [auto|right; lia].
Qed.
Lemma c_lt_int_l : forall D R x c, in_type D R x -> 0 <= c <= 127 ->
  c_lt D Int R c x = (c <? x).
Proof.
  intros D R x c Hx Hc. apply c_lt_spec; [apply small_in; assumption|assumption|].
  rewrite uac_comm. destruct (uac_int_case D R x Hx); [auto|right; lia].
Qed.
Lemma c_eq_int_r : forall D R x c, in_type D R x -> 0 <= c <= 127 ->
  c_eq D R Int x c = (x =? c).
Proof.
  intros D R x c Hx Hc. apply c_eq_spec; [assumption|apply small_in; assumption|].
  destruct (uac_int_case D R x Hx); [auto|right; lia].
Qed.
Lemma c_eq_int_l : forall D R x c, in_type D R x -> 0 <= c <= 127 ->
  c_eq D Int R c x = (c =? x).
Proof.
  intros D R x c Hx Hc. apply c_eq_spec; [apply small_in; assumption|assumption|].
  rewrite uac_comm. destruct (uac_int_case D R x Hx); [auto|right; lia].
Qed.
Lemma c_eq_int_m1 : forall D R x, csigned D R = true -> in_type D R x ->
  c_eq D R Int x (-1) = (x =? -1).
Proof.
  intros D R x Hs Hx. apply c_eq_spec; [assumption|apply neg1_in; destruct D; reflexivity|].
  left. apply uac_signed; [assumption|destruct D; reflexivity].
Qed.

(** arithmetic in one type *)
Lemma fin_ok : forall D R z, in_type D R z -> fin D R z = Ok z.
Proof.
  intros D R z H. unfold fin. destruct (csigned D R).
  - apply in_range_iff in H. rewrite H. reflexivity.
  - rewrite conv_id; auto.
Qed.

Lemma c_arith_same : forall f D R x y, in_type D R x -> in_type D R y ->
  in_type D (promote D R) (f x y) -> c_arith f D R R x y = Ok (f x y).
Proof.
  intros f D R x y Hx Hy Hf. unfold c_arith.
  rewrite (conv_id D (uac D R R) x), (conv_id D (uac D R R) y) by auto using same_in.
  rewrite uac_same. apply fin_ok. assumption.
Qed.

Lemma c_div_same : forall D R x y, in_type D R x -> in_type D R y -> y <> 0 ->
  in_type D (promote D R) (Z.quot x y) -> c_div D R R x y = Ok (Z.quot x y).
Proof.
  intros D R x y Hx Hy H0 Hf. unfold c_div.
  rewrite (conv_id D (uac D R R) x), (conv_id D (uac D R R) y) by auto using same_in.
  apply Z.eqb_neq in H0. rewrite H0, uac_same. apply fin_ok. assumption.
Qed.

Lemma c_rem_same : forall D R x y, in_type D R x -> in_type D R y -> y <> 0 ->
  in_type D (promote D R) (Z.quot x y) -> c_rem D R R x y = Ok (Z.rem x y).
Proof.
  intros D R x y Hx Hy H0 Hf. unfold c_rem.
  rewrite (conv_id D (uac D R R) x), (conv_id D (uac D R R) y) by auto using same_in.
  apply Z.eqb_neq in H0. rewrite H0, uac_same, fin_ok by assumption. reflexivity.
Qed.

Lemma to_unsigned_unsigned : forall D T, csigned D (to_unsigned T) = false.
Proof. destruct D, T; reflexivity. Qed.
Lemma to_unsigned_width : forall D T, width D (to_unsigned T) = width D T.
Proof. destruct D, T; reflexivity. Qed.
Lemma to_unsigned_hi : forall D T, hi D T <= hi D (to_unsigned T).
Proof. destruct D, T; vm_compute; congruence. Qed.
Lemma to_unsigned_hi_eq : forall D T, hi D (to_unsigned T) = 2 ^ width D T - 1.
Proof. destruct D, T; vm_compute; reflexivity. Qed.
Lemma to_unsigned_in : forall D T x, in_type D T x -> 0 <= x -> in_type D (to_unsigned T) x.
Proof.
  intros D T x H H0. pose proof (to_unsigned_hi D T).
  pose proof (lo_unsigned D (to_unsigned T) (to_unsigned_unsigned D T)).
  unfold in_type in *. lia.
Qed.
