(** BitExactFacts.v -- when the results of the bitwise operators are inside their declared
    range. Proofs only. *)
From Coq Require Import ZArith Bool List Lia.
From Verif Require Import Base CType Spec CTypeFacts Utility UtilityFacts SafeCompare
  CheckedInteger CheckedIntegerFacts CheckedResultOps CheckedResultFacts Interval IntervalFacts
  IntervalOpsFacts ExceptionPolicy Promotion SafeBase SafeSpec SafeFacts SafeDivFacts SafeConvFacts SafeBitFacts.
Import ListNotations.
Local Open Scope Z_scope.

Definition bit_bound (b : bop) (p q : Z) : Z := match b with And => Z.min p q | _ => Z.max p q end.

Lemma uac_signed_lo : forall D T U, csigned D (uac D T U) = true ->
  lo D (uac D T U) <= lo D T /\ lo D (uac D T U) <= lo D U.
Proof. destruct D, T, U; vm_compute; intros; try discriminate; split; congruence. Qed.

Lemma bit_sign : forall b x y, (bit_op b x y < 0 <->
  match b with
  | Or => x < 0 \/ y < 0
  | And => x < 0 /\ y < 0
  | Xor => (x < 0 /\ 0 <= y) \/ (0 <= x /\ y < 0)
  end).
Proof.
  intros [] x y; cbn [bit_op].
  - pose proof (Z.lor_nonneg x y). lia.
  - pose proof (Z.land_nonneg x y). lia.
  - pose proof (Z.lxor_nonneg x y). lia.
Qed.

Lemma bitwise_declared : forall D b t u x y s m,
  wf_operand D t -> wf_operand D u -> 0 <= lim_hi D t -> 0 <= lim_hi D u ->
  bitwise D b t u x y = Some (s, m) -> sP s = Native \/ sP s = Automatic ->
  smin s = 0 /\ exists k, 0 < k /\ smax s = 2 ^ k - 1
  /\ bit_bound b (lim_hi D t) (lim_hi D u) < 2 ^ k
  /\ 2 ^ (k - 1) <= Z.max 1 (bit_bound b (lim_hi D t) (lim_hi D u)).
Proof.
  intros D b t u x y s m Ht Hu Pt Pu H HP.
  destruct (bitwise_inv _ _ _ _ _ _ _ _ H) as (mx & _ & _ & HR & H0 & Hm & Hin & Hro & _).
  destruct (uac_result_fits D b t u s Ht Hu HR HP) as [F1 F2].
  pose proof (to_unsigned_hi D (st s)) as Hh.
  pose proof (lo_unsigned D (to_unsigned (st s)) (to_unsigned_unsigned D (st s))) as Hl0.
  rewrite !conv_id in Hro by (unfold in_type; lia).
  change (round_out D (to_unsigned (st s)) (bit_bound b (lim_hi D t) (lim_hi D u)) = Ok mx) in Hro.
  rewrite round_out_unsigned in Hro by (try apply to_unsigned_unsigned; unfold bit_bound, in_type; destruct b; lia).
  injection Hro as E. split; [assumption|]. rewrite Hm.
  assert (0 <= bit_bound b (lim_hi D t) (lim_hi D u)) as Hb by (unfold bit_bound; destruct b; lia).
  set (B := bit_bound b (lim_hi D t) (lim_hi D u)) in *. clearbody B.
  exists (1 + Z.log2 B). pose proof (Z.log2_nonneg B). split; [lia|]. split; [symmetry; exact E|].
  destruct (Z.eq_dec B 0) as [->|N]; [cbn; lia|].
  pose proof (Z.log2_spec B ltac:(lia)) as [L1 L2].
  replace (1 + Z.log2 B) with (Z.succ (Z.log2 B)) by lia. replace (Z.succ (Z.log2 B) - 1) with (Z.log2 B) by lia. lia.
Qed.

(** signed result type *)
Lemma bitwise_signed : forall D b t u x y s m,
  wf_operand D t -> wf_operand D u -> holds D t x -> holds D u y ->
  bitwise D b t u x y = Some (s, m) -> sP s = Native \/ sP s = Automatic -> csigned D (st s) = true ->
  returns m (bit_op b x y).
Proof.
  intros D b t u x y s m Ht Hu Hx Hy H HP Hs.
  destruct (bitwise_value D b t u x y s m H HP) as (E & R & _). rewrite E in Hs.
  rewrite built_in_bit_eq in R.
  pose proof (holds_in D t x Ht Hx). pose proof (holds_in D u y Hu Hy).
  destruct (uac_signed_lo D _ _ Hs). pose proof (uac_hi_l D (base_ty t) (base_ty u)).
  pose proof (uac_hi_r D (base_ty t) (base_ty u)).
  rewrite !conv_id in R by (unfold in_type in *; lia). exact R.
Qed.

Lemma bitwise_hi_nonneg : forall D b t u x y s m, b <> And ->
  wf_operand D t -> wf_operand D u ->
  bitwise D b t u x y = Some (s, m) -> sP s = Native \/ sP s = Automatic -> csigned D (st s) = true ->
  0 <= lim_hi D t /\ 0 <= lim_hi D u.
Proof.
  intros D b t u x y s m Hb Ht Hu H HP Hs.
  destruct (bitwise_inv _ _ _ _ _ _ _ _ H) as (mx & _ & _ & HR & H0 & Hm & Hin & Hro & _).
  assert (E : st s = uac D (base_ty t) (base_ty u)).
  { destruct HP as [HP|HP]; rewrite HP in HR; cbn in HR; congruence. }
  set (V := to_unsigned (st s)) in *.
  assert (Hc : forall z, in_type D (st s) z -> z < 0 -> hi D (st s) < conv D V z).
  { intros z Hz Hn.
    assert (conv D V z = z + 2 ^ width D (st s)) as ->.
    { pose proof (to_unsigned_width D (st s)) as W. fold V in W.
      pose proof (pow_width D (st s)) as Hw. pose proof (pow_digits D (st s)) as Hd.
      apply conv_unique.
      - unfold in_type. unfold V. rewrite to_unsigned_hi_eq, (lo_unsigned D _ (to_unsigned_unsigned D _)).
        unfold in_type in Hz. lia.
      - rewrite W. replace (z + 2 ^ width D (st s) - z) with (2 ^ width D (st s)) by lia. apply Z_mod_same_full. }
    pose proof (pow_width D (st s)) as Hw. unfold in_type in Hz. lia. }
  assert (Hin_t : in_type D (st s) (lim_hi D t) /\ in_type D (st s) (lim_hi D u)).
  { rewrite E in Hs |- *. destruct (uac_signed_lo D _ _ Hs). pose proof (uac_hi_l D (base_ty t) (base_ty u)).
    pose proof (uac_hi_r D (base_ty t) (base_ty u)). destruct Ht as (_ & T2 & _), Hu as (_ & U2 & _).
    unfold in_type in *. lia. }
  destruct Hin_t as [It Iu].
  assert (Hmx : Z.max (conv D V (lim_hi D t)) (conv D V (lim_hi D u)) <= mx).
  { assert (HV : in_type D V (Z.max (conv D V (lim_hi D t)) (conv D V (lim_hi D u)))).
    { pose proof (conv_range D V (lim_hi D t)). pose proof (conv_range D V (lim_hi D u)). unfold in_type in *. lia. }
    assert (round_out D V (Z.max (conv D V (lim_hi D t)) (conv D V (lim_hi D u))) = Ok mx) as Hr by (destruct b; congruence).
    rewrite round_out_unsigned in Hr by (try apply to_unsigned_unsigned; assumption). injection Hr as <-.
    pose proof (lo_unsigned D V (to_unsigned_unsigned D (st s))). apply log2_le_pow; [unfold in_type in HV; lia|lia]. }
  unfold in_type in Hin.
  split; (destruct (Z_lt_le_dec (lim_hi D t) 0) as [K|K]; [pose proof (Hc _ It K); lia|]);
    (destruct (Z_lt_le_dec (lim_hi D u) 0) as [K'|K']; [pose proof (Hc _ Iu K'); lia|]); assumption.
Qed.

Lemma C28_or_lemma : forall D t u x y s m,
  wf_operand D t -> wf_operand D u -> holds D t x -> holds D u y ->
  bitwise D Or t u x y = Some (s, m) -> sP s = Native \/ sP s = Automatic -> csigned D (st s) = true ->
  returns m (Z.lor x y) /\ (smin s <= Z.lor x y <= smax s <-> 0 <= x /\ 0 <= y).
Proof.
  intros D t u x y s m Ht Hu Hx Hy H HP Hs.
  split; [exact (bitwise_signed D Or t u x y s m Ht Hu Hx Hy H HP Hs)|].
  destruct (bitwise_hi_nonneg D Or t u x y s m ltac:(discriminate) Ht Hu H HP Hs) as [Pt Pu].
  destruct (bitwise_declared D Or t u x y s m Ht Hu Pt Pu H HP) as (E0 & _).
  split.
  - rewrite E0. intros [K _]. pose proof (bit_sign Or x y) as B. cbn [bit_op] in B. lia.
  - intros [A B].
    destruct (bitwise_inv _ _ _ _ _ _ _ _ H) as (mx & _ & _ & HR & _).
    destruct (uac_result_fits D Or t u s Ht Hu HR HP) as [F1 F2].
    apply (bitwise_range D Or t u x y s m); assumption.
Qed.

Lemma C28_range_exact_lemma : forall D b t u x y s m,
  wf_operand D t -> wf_operand D u -> holds D t x -> holds D u y -> 0 <= lim_hi D t -> 0 <= lim_hi D u ->
  bitwise D b t u x y = Some (s, m) -> sP s = Native \/ sP s = Automatic -> csigned D (st s) = true ->
  returns m (bit_op b x y)
  /\ exists k, 0 < k /\ bit_bound b (lim_hi D t) (lim_hi D u) < 2 ^ k
     /\ 2 ^ (k - 1) <= Z.max 1 (bit_bound b (lim_hi D t) (lim_hi D u))
     /\ (smin s <= bit_op b x y <= smax s <-> 0 <= bit_op b x y < 2 ^ k).
Proof.
  intros D b t u x y s m Ht Hu Hx Hy Pt Pu H HP Hs.
  split; [exact (bitwise_signed D b t u x y s m Ht Hu Hx Hy H HP Hs)|].
  destruct (bitwise_declared D b t u x y s m Ht Hu Pt Pu H HP) as (E0 & k & K0 & K1 & K2 & K3).
  exists k. rewrite E0, K1. repeat split; try assumption; lia.
Qed.

(** ~ *)
Lemma C28_complement_lemma : forall D s x m rs,
  wf_operand D (OSafe s) -> holds D (OSafe s) x -> csigned D (promote D (st s)) = true ->
  sP s = Native \/ sP s = Automatic -> complement D s x = Some (rs, m) ->
  returns m (- x - 1) /\ smin rs = 0 /\ smax rs = hi D (promote D (st s)) /\
  (smin rs <= - x - 1 <= smax rs <-> x < 0).
Proof.
  intros D s x m rs Hs Hx Hp HP Hc. unfold complement in Hc.
  set (R := promote D (st s)) in *.
  assert (En : c_not D (st s) (conv D (st s) 0) = -1).
  { unfold c_not. rewrite conv_0. fold R. change (Z.lnot 0) with (-1). rewrite conv_id; [reflexivity|].
    unfold in_type. pose proof (hi_ge_127 D R). pose proof (pow_width D R) as Hw.
    pose proof (pow_digits D R) as Hd. unfold digits in Hd.
    assert (forall D R, csigned D R = true -> lo D R <= -1) as K by (destruct D0, R0; vm_compute; congruence).
    pose proof (K D R Hp). lia. }
  rewrite En in Hc.
  assert (uac D R (st s) = R) as Eu by (unfold R; destruct D, (st s); reflexivity).
  assert (HPr : sP rs = sP s /\ st rs = R).
  { destruct (bitwise_inv _ _ _ _ _ _ _ _ Hc) as (mx & H1 & _ & H2 & _).
    unfold common_pp in H1. cbn in H1. injection H1 as E1. split; [auto|]. rewrite <- E1 in H2.
    destruct HP as [HP|HP]; rewrite HP in H2; cbn in H2; injection H2 as E2; congruence. }
  destruct HPr as [HPr Est].
  assert (HPr' : sP rs = Native \/ sP rs = Automatic) by (rewrite HPr; exact HP).
  assert (Hs' : csigned D (st rs) = true) by (rewrite Est; exact Hp).
  assert (Wr : wf_operand D (ORaw R)) by apply wf_raw.
  assert (HR1 : holds D (ORaw R) (-1)).
  { unfold holds. cbn. pose proof (hi_ge_127 D R).
    assert (forall D R, csigned D R = true -> lo D R <= -1) as K by (destruct D0, R0; vm_compute; congruence).
    pose proof (K D R Hp). lia. }
  pose proof (bitwise_signed D Xor (ORaw R) (OSafe s) (-1) x rs m Wr Hs HR1 Hx Hc HPr' Hs') as Rv.
  assert (Ev : bit_op Xor (-1) x = - x - 1).
  { cbn [bit_op]. rewrite Z.lxor_m1_l. unfold Z.lnot. lia. }
  rewrite Ev in Rv. split; [exact Rv|].
  destruct (bitwise_hi_nonneg D Xor _ _ _ _ rs m ltac:(discriminate) Wr Hs Hc HPr' Hs') as [Pt Pu].
  destruct (bitwise_declared D Xor _ _ _ _ rs m Wr Hs Pt Pu Hc HPr') as (E0 & k & K0 & K1 & K2 & K3).
  split; [exact E0|].
  assert (Hmax : smax rs = hi D R).
  { rewrite K1. cbn [lim_hi bit_bound] in K2, K3.
    assert (smax s <= hi D R) as L.
    { destruct Hs as (_ & S2 & _). cbn in S2. unfold in_type in S2. pose proof (promote_hi D (st s)). fold R in H. lia. }
    assert (Z.max (hi D R) (smax s) = hi D R) as Em by lia. rewrite Em in K2, K3. pose proof (pow_digits D R) as Hd. pose proof (hi_ge_127 D R).
    assert (0 < digits D R) by (clear; destruct D, R; reflexivity).
    assert (k = digits D R) as ->; [|lia].
    assert (2 ^ (k - 1) < 2 ^ digits D R) as A1 by lia. assert (2 ^ (digits D R - 1) < 2 ^ k) as A2.
    { assert (2 ^ digits D R = 2 * 2 ^ (digits D R - 1)) by (rewrite <- Z.pow_succ_r by lia; f_equal; lia).
      pose proof (Z.pow_pos_nonneg 2 (digits D R - 1)). lia. }
    apply Z.pow_lt_mono_r_iff in A1; [|lia|lia]. apply Z.pow_lt_mono_r_iff in A2; lia. }
  split; [exact Hmax|]. rewrite E0, Hmax.
  pose proof (holds_in D _ x Hs Hx) as Hi. cbn [base_ty] in Hi.
  assert (- x - 1 <= hi D R).
  { pose proof (promote_lo D (st s)). fold R in H. unfold in_type in Hi.
    assert (forall D R, csigned D R = true -> lo D R = - hi D R - 1) as K by (destruct D0, R0; vm_compute; congruence).
    pose proof (K D R Hp). lia. }
  lia.
Qed.
