(** PropsCheckedProofs.v -- lemmas in the form used by PropsChecked.v. *)
From Coq Require Import ZArith Bool List Lia.
From Verif Require Import Base CType Spec CTypeFacts Utility SafeCompare CheckedInteger
  ExceptionPolicy Promotion SafeBase UtilityFacts CheckedIntegerFacts.
Local Open Scope Z_scope.

Lemma lo_neg_signed : forall D R, lo D R < 0 <-> csigned D R = true.
Proof.
  intros D R. destruct (csigned D R) eqn:E.
  - pose proof (hi_pos_lo D R E). pose proof (hi_ge_127 D R). intuition lia.
  - pose proof (lo_unsigned D R E). split; intros; [lia|discriminate].
Qed.

Lemma lo_zero_unsigned : forall D R, lo D R = 0 <-> csigned D R = false.
Proof.
  intros D R. destruct (csigned D R) eqn:E.
  - pose proof (hi_pos_lo D R E). pose proof (hi_ge_127 D R). split; intros; [lia|discriminate].
  - pose proof (lo_unsigned D R E). tauto.
Qed.

Lemma lo_eqb_signed : forall D R, (lo D R =? 0) = negb (csigned D R).
Proof.
  intros D R. destruct (csigned D R) eqn:E.
  - apply lo_neg_signed in E. cbn [negb]. lia.
  - apply lo_zero_unsigned in E. cbn [negb]. lia.
Qed.

Lemma C04_quot_iff : forall D R t u,
  in_type D R t -> in_type D R u -> u <> 0 ->
  (in_type D R (Z.quot t u) <-> ~ (lo D R < 0 /\ t = lo D R /\ u = -1)).
Proof.
  intros D R t u Ht Hu H0. rewrite lo_neg_signed. split.
  - intros Hin (E & -> & ->). rewrite quot_neg1 in Hin. pose proof (hi_pos_lo D R E).
    unfold in_type in *. lia.
  - apply quot_range; assumption.
Qed.

Lemma C05_witness :
  exists D R t u, in_type D R t /\ in_type D R u /\ u <> 0
    /\ remainder t u = 0 /\ modulus D R t u = Ok (CVal t) /\ t <> 0.
Proof.
  exists LP64, Int, (-2147483648), (-2147483648). vm_compute. intuition congruence.
Qed.

Lemma C05_full : forall D R t u,
  in_type D R t -> in_type D R u ->
  (u = 0 -> modulus D R t u = Ok (CErr domain_error))
  /\ (u <> 0 -> ~ (lo D R < 0 /\ t = lo D R /\ u = lo D R) ->
      modulus D R t u = Ok (CVal (remainder t u)))
  /\ (lo D R < 0 -> t = lo D R -> u = lo D R -> modulus D R t u = Ok (CVal (lo D R))).
Proof.
  intros D R t u Ht Hu. rewrite lo_neg_signed. split; [|split].
  - intros ->. apply modulus_zero. assumption.
  - intros. apply modulus_spec; assumption.
  - intros E -> ->. apply modulus_min_min. assumption.
Qed.

Lemma C06_full : forall D R t u,
  in_type D R t -> in_type D R u ->
  exists c, left_shift D R t u = Ok c
    /\ (forall v, c = CVal v -> 0 <= u /\ v = t * 2 ^ u)
    /\ (u < 0 -> c = CErr negative_shift)
    /\ (t < 0 -> u > 0 -> c = CErr negative_shift \/ c = CErr shift_too_large)
    /\ (t > 0 -> u > 0 -> in_type D R (t * 2 ^ u) -> c = CVal (t * 2 ^ u))
    /\ (t > 0 -> u > 0 -> ~ in_type D R (t * 2 ^ u) -> c = CErr shift_too_large).
Proof.
  intros D R t u Ht Hu. rewrite left_shift_spec by assumption. eexists. split; [reflexivity|].
  pose proof (pow_digits D R) as Hd. pose proof (lo_le_0 D R).
  assert (Hbig : t > 0 -> digits D R < u -> t * 2 ^ u > hi D R).
  { intros Hp Hb. pose proof (digits_pos D R).
    pose proof (Z.pow_lt_mono_r 2 (digits D R) u ltac:(lia) ltac:(lia) Hb). nia. }
  destruct (Z.eqb_spec u 0) as [->|H0]; [repeat split; try lia; intros; try lia; match goal with Hx : CVal _ = CVal _ |- _ => injection Hx as <- end; change (2 ^ 0) with 1; lia|].
  destruct (Z.ltb_spec u 0); [repeat split; try lia; intros; try lia; discriminate|].
  destruct (Z.ltb_spec (digits D R) u); [repeat split; try lia; intros; try lia; auto; try discriminate; unfold in_type in *; lia|].
  destruct (Z.ltb_spec t 0); [repeat split; try lia; intros; try lia; auto; discriminate|].
  destruct (Z.eqb_spec t 0) as [->|Ht0].
  - destruct (Z.ltb_spec u (digits D R)); repeat split; try lia; intros; try lia; try discriminate.
    match goal with Hx : CVal _ = CVal _ |- _ => injection Hx as <- end. lia.
  - pose proof (Z.pow_pos_nonneg 2 u ltac:(lia) ltac:(lia)).
    destruct (Z.leb_spec (t * 2 ^ u) (hi D R)); repeat split; try lia; intros; try lia; try discriminate; auto.
    + match goal with Hx : CVal _ = CVal _ |- _ => injection Hx as <- end. lia.
    + exfalso. match goal with Hx : ~ _ |- _ => apply Hx end. unfold in_type. nia.
    + unfold in_type in *. lia.
Qed.

Lemma C07_witness :
  exists D R t u, in_type D R t /\ in_type D R u /\ right_shift D R t u = UB.
Proof. exists LP64, UInt, 5, 32. vm_compute. intuition congruence. Qed.

Lemma digits_width_promote : forall D R, digits D R < width D (promote D R)
  \/ (csigned D R = false /\ digits D R = width D R /\ width D (promote D R) = width D R).
Proof. destruct D, R; vm_compute; intuition congruence. Qed.
Lemma unsigned_digits : forall D R, csigned D R = false -> digits D R = width D R.
Proof. intros D R E. unfold digits. rewrite E. reflexivity. Qed.

Lemma C07_ub_iff : forall D R t u,
  in_type D R t -> in_type D R u ->
  (right_shift D R t u = UB <-> lo D R = 0 /\ width D (promote D R) = width D R /\ u = width D R).
Proof.
  intros D R t u Ht Hu. rewrite right_shift_spec by assumption. rewrite lo_zero_unsigned.
  pose proof (digits_pos D R).
  destruct (Z.ltb_spec u 0); [split; [discriminate|intros (E & Hr & ->); pose proof (unsigned_digits D R E); lia]|].
  destruct (Z.ltb_spec (digits D R) u);
    [split; [discriminate|intros (E & Hr & ->); pose proof (unsigned_digits D R E); lia]|].
  destruct (Z.ltb_spec t 0) as [Hn|Hn].
  - split; [discriminate|]. intros (E & _ & _). apply (signed_of_neg D R t Ht) in Hn. congruence.
  - destruct (Z.ltb_spec u (width D (promote D R))).
    + split; [discriminate|]. intros (E & Hr & ->). pose proof (unsigned_digits D R E). lia.
    + split; [|reflexivity]. intros _.
      destruct (digits_width_promote D R) as [|(E & Hd & Hw)]; [lia|]. repeat split; auto. lia.
Qed.

Lemma C07_full : forall D R t u,
  in_type D R t -> in_type D R u ->
  ~ (lo D R = 0 /\ width D (promote D R) = width D R /\ u = width D R) ->
  exists c, right_shift D R t u = Ok c
    /\ (forall v, c = CVal v -> 0 <= u /\ v = t / 2 ^ u)
    /\ (u < 0 -> c = CErr negative_shift)
    /\ (0 <= u <= digits D R -> t < 0 -> c = CErr negative_value_shift)
    /\ (u > digits D R -> c = CErr shift_too_large)
    /\ (0 <= u <= digits D R -> 0 <= t -> c = CVal (t / 2 ^ u)).
Proof.
  intros D R t u Ht Hu Hx. rewrite <- (C07_ub_iff D R t u Ht Hu) in Hx.
  rewrite right_shift_spec in Hx |- * by assumption. pose proof (digits_pos D R).
  destruct (Z.ltb_spec u 0); [eexists; split; [reflexivity|]; repeat split; intros; try lia; discriminate|].
  destruct (Z.ltb_spec (digits D R) u); [eexists; split; [reflexivity|]; repeat split; intros; try lia; discriminate|].
  destruct (Z.ltb_spec t 0) as [Hn|Hn]; [eexists; split; [reflexivity|]; repeat split; intros; try lia; try reflexivity; discriminate|].
  destruct (Z.ltb_spec u (width D (promote D R))); [|congruence].
  eexists; split; [reflexivity|]; repeat split; intros; try lia; try reflexivity; congruence.
Qed.

Lemma C08_full : forall D R t u,
  in_type D R t -> in_type D R u ->
  bitwise_or D R t u = Ok (CVal (Z.lor t u))
  /\ bitwise_and D R t u = Ok (CVal (Z.land t u))
  /\ bitwise_xor D R t u = Ok (CVal (Z.lxor t u))
  /\ bitwise_not D R t = Ok (CVal (if lo D R =? 0 then hi D R - t else - t - 1))
  /\ in_type D R (Z.lor t u) /\ in_type D R (Z.land t u) /\ in_type D R (Z.lxor t u).
Proof.
  intros D R t u Ht Hu.
  rewrite bitwise_or_spec, bitwise_and_spec, bitwise_xor_spec, bitwise_not_spec by assumption.
  rewrite lo_eqb_signed.
  assert ((if csigned D R then Z.lnot t else hi D R - t)
          = (if negb (csigned D R) then hi D R - t else - t - 1)) as ->.
  { destruct (csigned D R); cbn [negb]; [unfold Z.lnot; lia|reflexivity]. }
  pose proof (lor_in D R t u Ht Hu). pose proof (land_in D R t u Ht Hu).
  pose proof (lxor_in D R t u Ht Hu). tauto.
Qed.

Lemma C09_full : forall D R T t, in_type D T t ->
  (in_type D R t -> cast D R T t = CVal t)
  /\ (t > hi D R -> cast D R T t = CErr positive_overflow_error)
  /\ (t < lo D R -> cast D R T t =
        CErr (if lo D R =? 0 then domain_error else negative_overflow_error)).
Proof.
  intros D R T t Ht. rewrite lo_eqb_signed.
  destruct (cast_spec D R T t Ht) as (H1 & H2 & H3). repeat split; auto.
  intros Hl. rewrite (H3 Hl). destruct (csigned D R); reflexivity.
Qed.

Lemma C11_full : forall D T U t u,
  in_type D T t -> in_type D U u ->
  (less_than D T U t u = true <-> t < u)
  /\ (greater_than D T U t u = true <-> t > u)
  /\ (less_than_equal D T U t u = true <-> t <= u)
  /\ (greater_than_equal D T U t u = true <-> t >= u)
  /\ (equal D T U t u = true <-> t = u)
  /\ (not_equal D T U t u = true <-> t <> u).
Proof.
  intros D T U t u Ht Hu.
  rewrite less_than_spec, greater_than_spec, less_than_equal_spec,
    greater_than_equal_spec, equal_spec, not_equal_spec by assumption.
  lia.
Qed.

Lemma C12_signed : forall D mn mx P E,
  - 2 ^ 63 <= mn <= mx -> mx <= 2 ^ 63 - 1 ->
  exists s, safe_signed_range D mn mx P E = Some s
    /\ smin s = mn /\ smax s = mx /\ lo D (st s) < 0
    /\ in_type D (st s) mn /\ in_type D (st s) mx
    /\ (forall T, lo D T < 0 -> in_type D T mn -> in_type D T mx ->
        width D (st s) <= width D T).
Proof.
  intros D mn mx P E H1 H2. destruct (intmax_bounds D) as [Hl Hh].
  destruct (signed_stored_type_spec D mn mx ltac:(unfold in_type; lia) ltac:(unfold in_type; lia))
    as (T & HT & Hs & Hmn & Hmx & Hleast).
  unfold safe_signed_range. rewrite HT. cbn [option_map]. eexists. split; [reflexivity|].
  cbn [smin smax st]. rewrite !conv_id by assumption. rewrite lo_neg_signed.
  repeat split; auto; try apply Hmn; try apply Hmx.
  intros T'. rewrite lo_neg_signed. apply Hleast.
Qed.

Lemma C12_unsigned : forall D mn mx P E,
  0 <= mn <= mx -> mx <= 2 ^ 64 - 1 ->
  exists s, safe_unsigned_range D mn mx P E = Some s
    /\ smin s = mn /\ smax s = mx /\ lo D (st s) = 0
    /\ in_type D (st s) mn /\ in_type D (st s) mx
    /\ (forall T, lo D T = 0 -> in_type D T mx -> width D (st s) <= width D T).
Proof.
  intros D mn mx P E H1 H2. destruct (uintmax_bounds D) as [Hl Hh].
  destruct (unsigned_stored_type_spec D mn mx ltac:(assumption) ltac:(unfold in_type; lia))
    as (T & HT & Hs & Hmn & Hmx & Hleast).
  unfold safe_unsigned_range. rewrite HT. cbn [option_map]. eexists. split; [reflexivity|].
  cbn [smin smax st]. rewrite !conv_id by assumption. rewrite lo_zero_unsigned.
  repeat split; auto; try apply Hmn; try apply Hmx.
  intros T'. rewrite lo_zero_unsigned. apply Hleast.
Qed.
