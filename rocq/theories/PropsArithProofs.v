(** PropsArithProofs.v -- proofs for PropsArith.v. *)
From Coq Require Import ZArith Bool List Lia.
From Verif Require Import Base CType Spec CTypeFacts Utility UtilityFacts SafeCompare
  CheckedInteger CheckedIntegerFacts CheckedResultOps CheckedResultFacts Interval IntervalFacts
  IntervalOpsFacts ExceptionPolicy Promotion SafeBase SafeSpec SafeFacts SafeDivFacts SafeShiftFacts.
Import ListNotations.
Local Open Scope Z_scope.

Lemma C21_lemma : forall D t u x y s m,
  wf_operand D t -> wf_operand D u -> holds D t x -> holds D u y ->
  binary D Add t u x y = Some (s, m) -> throws_arithmetic (sE s) ->
  wf_operand D (OSafe s) /\ exact_or_throws m (smin s) (smax s) (x + y).
Proof. intros. apply (arith_exact Add Z.add D t u x y s m); auto. left; auto. Qed.
Lemma C22_lemma : forall D t u x y s m,
  wf_operand D t -> wf_operand D u -> holds D t x -> holds D u y ->
  binary D Sub t u x y = Some (s, m) -> throws_arithmetic (sE s) ->
  wf_operand D (OSafe s) /\ exact_or_throws m (smin s) (smax s) (x - y).
Proof. intros. apply (arith_exact Sub Z.sub D t u x y s m); auto. right; left; auto. Qed.
Lemma C23_lemma : forall D t u x y s m,
  wf_operand D t -> wf_operand D u -> holds D t x -> holds D u y ->
  binary D Mul t u x y = Some (s, m) -> throws_arithmetic (sE s) ->
  wf_operand D (OSafe s) /\ exact_or_throws m (smin s) (smax s) (x * y).
Proof. intros. apply (arith_exact Mul Z.mul D t u x y s m); auto. right; right; auto. Qed.

Lemma C24_lemma : forall D t u x y s m,
  wf_operand D t -> wf_operand D u -> holds D t x -> holds D u y ->
  binary D Div t u x y = Some (s, m) -> throws_arithmetic (sE s) -> result_large_enough D s t u ->
  wf_operand D (OSafe s)
  /\ (y = 0 -> throws_arith m)
  /\ (y <> 0 -> exact_or_throws m (smin s) (smax s) (Z.quot x y)).
Proof.
  intros D t u x y s m Ht Hu Hx Hy Hb HE Hl.
  destruct (div_char D t u x y s m Ht Hu Hx Hy Hb HE Hl) as (A & B & C).
  splits; auto. intros Hy0. unfold exact_or_throws.
  destruct (C Hy0) as [(K1 & _ & _ & _ & K2)|[_ K]]; auto.
Qed.
Lemma C24_native : forall D t u x y s m,
  wf_operand D t -> wf_operand D u -> holds D t x -> holds D u y ->
  binary D Div t u x y = Some (s, m) -> throws_arithmetic (sE s) -> sP s = Native ->
  wf_operand D (OSafe s)
  /\ (y = 0 -> throws_arith m)
  /\ (y <> 0 -> exact_or_throws m (smin s) (smax s) (Z.quot x y)).
Proof. intros. apply (C24_lemma D t u x y s m); auto. left. assumption. Qed.

Lemma C25_lemma : forall D t u x y s m,
  wf_operand D t -> wf_operand D u -> holds D t x -> holds D u y ->
  binary D Mod t u x y = Some (s, m) -> throws_arithmetic (sE s) -> result_large_enough D s t u ->
  ~ (lo D (st s) < 0 /\ x = lo D (st s) /\ (y = lo D (st s) \/ y = -1)) ->
  (y = 0 -> throws_arith m)
  /\ (y <> 0 -> exact_or_throws m (lo D (st s)) (hi D (st s)) (remainder x y)).
Proof.
  intros D t u x y s m Ht Hu Hx Hy Hb HE Hl Hn.
  destruct (mod_char D t u x y s m Ht Hu Hx Hy Hb HE Hl Hn) as (B & C).
  split; auto. intros Hy0. unfold exact_or_throws.
  destruct (C Hy0) as [(K1 & K2)|[_ K]]; auto.
Qed.

Lemma C26_nonneg : forall D t u x y s m,
  wf_operand D t -> wf_operand D u -> holds D t x -> holds D u y ->
  binary D Shl t u x y = Some (s, m) -> throws_arithmetic (sE s) -> throws_shift (sE s) ->
  0 <= x -> 0 <= y -> 0 < lim_hi D t ->
  wf_operand D (OSafe s) /\ exact_or_throws_shift m (smin s) (smax s) (x * 2 ^ y).
Proof.
  intros D t u x y s m Ht Hu Hx Hy Hb HE HS Hx0 Hy0 Hb0.
  destruct (shl_char D t u x y s m Ht Hu Hx Hy Hb HE HS) as [A B]. split; [assumption|].
  unfold exact_or_throws_shift.
  destruct (B ltac:(auto)) as [(K1 & _ & _ & K2)|[[_ K]|[[_ K]|(_ & [K|K] & _)]]]; auto; lia.
Qed.
Lemma C26_wide : forall D t u x y s m,
  wf_operand D t -> wf_operand D u -> holds D t x -> holds D u y ->
  binary D Shl t u x y = Some (s, m) -> throws_arithmetic (sE s) -> throws_shift (sE s) ->
  0 < lim_hi D t -> digits D (st s) <= lim_hi D u ->
  wf_operand D (OSafe s) /\ exact_or_throws_shift m (smin s) (smax s) (x * 2 ^ y)
  /\ (y < 0 -> throws_arith m \/ throws_impl m).
Proof.
  intros D t u x y s m Ht Hu Hx Hy Hb HE HS Hb0 Hd.
  destruct (shl_char D t u x y s m Ht Hu Hx Hy Hb HE HS) as [A B]. split; [assumption|].
  unfold exact_or_throws_shift.
  destruct (B ltac:(auto)) as [(K1 & K3 & _ & K2)|[[_ K]|[[_ K]|(_ & _ & K)]]]; try tauto.
  split; [auto|]. lia.
Qed.
Lemma C26_never_wrong : forall D t u x y s m,
  wf_operand D t -> wf_operand D u -> holds D t x -> holds D u y ->
  binary D Shl t u x y = Some (s, m) -> throws_arithmetic (sE s) -> throws_shift (sE s) ->
  0 <= y ->
  exact_or_throws_shift m (smin s) (smax s) (x * 2 ^ y) \/ m = ([], Undef).
Proof.
  intros D t u x y s m Ht Hu Hx Hy Hb HE HS Hy0.
  destruct (shl_char D t u x y s m Ht Hu Hx Hy Hb HE HS) as [A B]. unfold exact_or_throws_shift.
  destruct (B ltac:(auto)) as [(K1 & K3 & _ & K2)|[[_ K]|[[_ K]|(K & _)]]]; auto.
Qed.

Lemma C27_lemma : forall D t u x y s m,
  wf_operand D t -> wf_operand D u -> holds D t x -> holds D u y ->
  binary D Shr t u x y = Some (s, m) -> throws_arithmetic (sE s) -> throws_shift (sE s) ->
  csigned D (st s) = true \/ (0 <= lim_lo D u /\ y <> digits D (st s)) ->
  wf_operand D (OSafe s) /\ exact_or_throws_shift m (smin s) (smax s) (x / 2 ^ y)
  /\ (x < 0 \/ y < 0 -> throws_arith m \/ throws_impl m).
Proof.
  intros D t u x y s m Ht Hu Hx Hy Hb HE HS Hsg.
  destruct (shr_char D t u x y s m Ht Hu Hx Hy Hb HE HS) as [A B]. split; [assumption|].
  unfold exact_or_throws_shift.
  destruct (B Hsg) as [(K1 & K3 & K4 & _ & K2)|[[_ K]|[_ K]]]; auto. split; [auto|]. lia.
Qed.

(** the value of >> in an unsigned type, with an arbitrary wide count type *)
Lemma C27_value : forall D t u x y s m,
  wf_operand D t -> wf_operand D u -> holds D t x -> holds D u y ->
  binary D Shr t u x y = Some (s, m) -> throws_arithmetic (sE s) -> throws_shift (sE s) ->
  digits D (st s) < lim_hi D u -> y <> digits D (st s) ->
  exact_or_throws_shift m (lo D (st s)) (hi D (st s)) (x / 2 ^ y)
  /\ (x < 0 \/ y < 0 -> throws_arith m \/ throws_impl m).
Proof.
  intros D t u x y s m Ht Hu Hx Hy Hb HE HS Hd Hyd.
  destruct (binary_inv _ _ _ _ _ _ _ _ Hb) as (P & E & R & ri & HP & HEp & HR & Hri & -> & Hm).
  cbn [sE] in HE, HS. cbn [st smin smax] in *. unfold exact_or_throws_shift.
  destruct Hm as [[Hx0 ->]|[Hx1 (W & casts & HW & Hc & _ & ->)]].
  - exfalso. cbn [exception_possible] in Hx0. rewrite (conv_id D R (digits D R)) in Hx0 by apply digits_in.
    do 4 (apply tri_or_false in Hx0; destruct Hx0 as [Hx0 _]). unfold cr_gt, lim_interval in Hx0. cbn [iu] in Hx0.
    pose proof (digits_pos D R). pose proof (lo_le_0 D R).
    destruct (cast_cases D R _ _ (proj1 (proj2 Hu))) as [(Ic & Ec)|[(? & Ec)|[(? & ? & Ec)|(? & ? & ? & Ec)]]];
      rewrite Ec in Hx0; try discriminate; try lia.
    rewrite cr_lt_val in Hx0 by auto using digits_in. destruct (Z.ltb_spec (digits D R) (lim_hi D u)); [discriminate|lia].
  - cbn [work_type] in HW. injection HW as <-.
    destruct (casting_helper_throws _ _ _ _ _ _ _ _ HE Ht Hu Hx Hy Hc) as [(Ix & Iy & ->)|[Hn Tc]].
    + unfold checked_run. rewrite mbind_ret. cbn [fst snd checked_op].
      rewrite right_shift_spec by assumption.
      assert (Ti : forall e (k : checked -> M Z), shift_err e -> throws_impl (mbind (dispatch_and_return E (CErr e)) k)).
      { intros. apply mbind_throws_impl, dar_impl; assumption. }
      destruct (Z.ltb_spec y 0). { cbn [mlift]. rewrite mbind_ret. split; [right; right|right]; apply Ti; unfold shift_err; auto. }
      destruct (Z.ltb_spec (digits D R) y). { cbn [mlift]. rewrite mbind_ret. split; [right; right|right]; apply Ti; unfold shift_err; auto. }
      destruct (Z.ltb_spec x 0). { cbn [mlift]. rewrite mbind_ret. split; [right; right|right]; apply Ti; unfold shift_err; auto. }
      pose proof (digits_le_width_promote D R). destruct (Z.ltb_spec y (width D (promote D R))); [|lia].
      pose proof (div_pow_in D R x y Ix ltac:(lia) ltac:(lia)) as Iz.
      cbn [mlift]. rewrite mbind_ret, dar_val, mbind_ret, conv_id by assumption.
      split; [left; split; [reflexivity|exact Iz]|lia].
    + assert (throws_arith (checked_run D Shr E R R casts)) by (apply mbind_throws; assumption). auto.
Qed.

(** ------------------------------------------------------------------ *)
(** C37 *)
Lemma C37_arith : forall op D t u oi x y, op = Add \/ op = Sub \/ op = Mul ->
  wf_operand D t -> wf_operand D u -> holds D t x -> holds D u y ->
  op_static D op t u = Some oi -> oi_checked oi = false ->
  smin (oi_type oi) <= exact op x y <= smax (oi_type oi)
  /\ in_type D (oi_R oi) (exact op x y)
  /\ exists m, binary D op t u x y = Some (oi_type oi, m) /\ returns m (exact op x y).
Proof.
  intros op D t u oi x y Hop Ht Hu Hx Hy Hs Hc.
  assert (Hex : exists f, exact_op op f /\ exact op x y = f x y).
  { destruct Hop as [->|[->| ->]]; [exists Z.add|exists Z.sub|exists Z.mul]; unfold exact_op; auto. }
  destruct Hex as (f & Hf & ->).
  assert (Hb : binary D op t u x y = Some (oi_type oi, unchecked_run D op (oi_R oi) x y)).
  { unfold binary. rewrite Hs, Hc. reflexivity. }
  unfold op_static in Hs.
  destruct (common_pp t u) as [P|]; [|discriminate].
  destruct (common_ep t u) as [E|]; [|discriminate].
  destruct (result_base_type D P (PArith op) t u) as [R|] eqn:ER; [|discriminate].
  destruct (r_type_interval D op R t u) as [ri|] eqn:Eri; [|discriminate].
  injection Hs as <-. cbn [oi_checked oi_R oi_type smin smax] in *.
  destruct (exact_ri _ _ _ _ _ _ _ Hf Ht Hu Eri) as (_ & _ & Hunc).
  rewrite (exact_exception op f) in Hc by assumption. apply orb_false_elim in Hc. destruct Hc as [X1 X2].
  destruct (Hunc X1 X2 x y Hx Hy) as (E1 & E2 & E3). split; [exact E3|]. split; [exact E2|].
  eexists. split; [exact Hb|]. unfold returns, unchecked_run. rewrite E1. cbn [mlift]. rewrite mbind_ret, conv_id by assumption.
  reflexivity.
Qed.

Lemma C37_div_lemma : forall D t u oi x y,
  wf_operand D t -> wf_operand D u -> holds D t x -> holds D u y ->
  op_static D Div t u = Some oi -> oi_checked oi = false -> sP (oi_type oi) = Native ->
  y <> 0 /\ smin (oi_type oi) <= Z.quot x y <= smax (oi_type oi)
  /\ in_type D (oi_R oi) (Z.quot x y)
  /\ exists m, binary D Div t u x y = Some (oi_type oi, m) /\ returns m (Z.quot x y).
Proof.
  intros D t u oi x y Ht Hu Hx Hy Hs Hc HN.
  assert (Hb : binary D Div t u x y = Some (oi_type oi, unchecked_run D Div (oi_R oi) x y)).
  { unfold binary. rewrite Hs, Hc. reflexivity. }
  unfold op_static in Hs.
  destruct (common_pp t u) as [P|]; [|discriminate].
  destruct (common_ep t u) as [E|]; [|discriminate].
  destruct (result_base_type D P (PArith Div) t u) as [R|] eqn:ER; [|discriminate].
  destruct (r_type_interval D Div R t u) as [ri|] eqn:Eri; [|discriminate].
  injection Hs as <-. cbn [oi_checked oi_R oi_type smin smax sP] in *. subst P.
  destruct (large_enough_fits D Native Div R t u 0 0 E Ht Hu ltac:(auto) ER ltac:(left; reflexivity)) as (Ft & Fu & _).
  destruct (div_fits D R t u ri Ht Hu Ft Fu Eri) as (_ & Hchk & Hunc).
  destruct (Hunc Hc x y Hx Hy) as (Hy0 & Er & Ix & Iy & Iq).
  split; [exact Hy0|]. split; [apply Hchk; auto|]. split; [exact Iq|].
  eexists. split; [exact Hb|]. unfold returns, unchecked_run. rewrite Er. cbn [mlift]. rewrite mbind_ret, conv_id by assumption.
  reflexivity.
Qed.

(** ------------------------------------------------------------------ *)
(** C38, C49 *)
Lemma C49_lemma : forall op D t u x y s m, op = Add \/ op = Sub \/ op = Mul ->
  wf_operand D t -> wf_operand D u -> holds D t x -> holds D u y ->
  binary D op t u x y = Some (s, m) -> throws_arithmetic (sE s) ->
  in_type D (st s) x -> in_type D (st s) y -> in_type D (st s) (exact op x y) ->
  returns m (exact op x y).
Proof.
  intros op D t u x y s m Hop Ht Hu Hx Hy Hb HE Ix Iy Iz.
  assert (Hex : exists f, exact_op op f /\ exact op x y = f x y).
  { destruct Hop as [->|[->| ->]]; [exists Z.add|exists Z.sub|exists Z.mul]; unfold exact_op; auto. }
  destruct Hex as (f & Hf & Ef). rewrite Ef in *.
  destruct (arith_char op f D t u x y s m Hf Ht Hu Hx Hy Hb HE) as [_ Hc]. unfold in_type in *.
  destruct Hc as [(K & _)|[(_ & _ & K & _)|[(_ & _ & K & _)|[[K|K] _]]]]; [exact K|lia|lia|lia|lia].
Qed.

Lemma auto_result_range : forall op D t u R x y, op = Add \/ op = Sub \/ op = Mul ->
  wf_operand D t -> wf_operand D u -> holds D t x -> holds D u y ->
  automatic_result D (PArith op) t u = Some R ->
  in_type D (widest D op t u) x -> in_type D (widest D op t u) y ->
  in_type D (widest D op t u) (exact op x y) -> in_type D R (exact op x y).
Proof.
  intros op D t u R x y Hop Ht Hu Hx Hy HR Wx Wy Wz.
  assert (Hex : exists f, exact_op op f /\ exact op x y = f x y).
  { destruct Hop as [->|[->| ->]]; [exists Z.add|exists Z.sub|exists Z.mul]; unfold exact_op; auto. }
  destruct Hex as (f & Hf & Ef). rewrite Ef in *.
  assert (Ha : automatic_result D (PArith op) t u
    = auto_type D (widest D op t u) (r_type_interval D op (widest D op t u) t u)).
  { destruct Hop as [->|[->| ->]]; reflexivity. }
  rewrite Ha in HR. unfold auto_type in HR.
  destruct (r_type_interval D op (widest D op t u) t u) as [ri|] eqn:Eri; [|discriminate].
  destruct (exact_ri _ _ _ _ _ _ _ Hf Ht Hu Eri) as ((W1 & W2 & W3) & Hchk & _).
  assert (Hw : widest D op t u = intmax D \/ widest D op t u = uintmax D).
  { destruct Hop as [->|[->| ->]]; cbn; try destruct (_ && _); auto. }
  destruct (stored_type_spec D (widest D op t u) _ _ R Hw W1 W2 W3 HR) as (_ & A & B & _).
  specialize (Hchk x y Hx Hy Wx Wy Wz). unfold in_type in *. lia.
Qed.

Lemma C38_lemma : forall op D t u x y s m, op = Add \/ op = Sub \/ op = Mul ->
  wf_operand D t -> wf_operand D u -> holds D t x -> holds D u y ->
  binary D op t u x y = Some (s, m) -> throws_arithmetic (sE s) -> sP s = Automatic ->
  in_type D (widest D op t u) x -> in_type D (widest D op t u) y ->
  in_type D (widest D op t u) (exact op x y) ->
  in_type D (st s) x -> in_type D (st s) y ->
  returns m (exact op x y).
Proof.
  intros op D t u x y s m Hop Ht Hu Hx Hy Hb HE HP Wx Wy Wz Ix Iy.
  apply (C49_lemma op D t u x y s m); auto.
  destruct (binary_inv _ _ _ _ _ _ _ _ Hb) as (P & E & R & ri & HP' & HEp & HR & Hri & -> & Hm).
  cbn [sP st] in *. subst P. cbn [result_base_type] in HR.
  apply (auto_result_range op D t u R x y); auto.
Qed.

(** operands in the result type: sums of ranges around zero *)
Lemma C38_add_lemma : forall D t u x y s m,
  wf_operand D t -> wf_operand D u -> holds D t x -> holds D u y ->
  binary D Add t u x y = Some (s, m) -> throws_arithmetic (sE s) -> sP s = Automatic ->
  holds D t 0 -> holds D u 0 ->
  (forall a b, holds D t a -> holds D u b -> in_type D (widest D Add t u) (a + b)) ->
  returns m (x + y).
Proof.
  intros D t u x y s m Ht Hu Hx Hy Hb HE HP Z1 Z2 Hr.
  assert (Wt : forall a, holds D t a -> in_type D (widest D Add t u) a).
  { intros a Ha. specialize (Hr a 0 Ha Z2). rewrite Z.add_0_r in Hr. exact Hr. }
  assert (Wu : forall b, holds D u b -> in_type D (widest D Add t u) b).
  { intros b Hb'. exact (Hr 0 b Z1 Hb'). }
  assert (HR : automatic_result D (PArith Add) t u = Some (st s)).
  { destruct (binary_inv _ _ _ _ _ _ _ _ Hb) as (P & E & R & ri & _ & _ & HR & _ & -> & _).
    cbn [sP st] in *. subst P. exact HR. }
  assert (J : forall a b, holds D t a -> holds D u b -> in_type D (st s) (a + b)).
  { intros a b Ha Hb'. apply (auto_result_range Add D t u (st s) a b); auto. }
  apply (C38_lemma Add D t u x y s m); auto.
  - specialize (J x 0 Hx Z2). rewrite Z.add_0_r in J. exact J.
  - exact (J 0 y Z1 Hy).
Qed.
Lemma C38_mul_lemma : forall D t u x y s m,
  wf_operand D t -> wf_operand D u -> holds D t x -> holds D u y ->
  binary D Mul t u x y = Some (s, m) -> throws_arithmetic (sE s) -> sP s = Automatic ->
  holds D t 1 -> holds D u 1 ->
  (forall a b, holds D t a -> holds D u b -> in_type D (widest D Mul t u) (a * b)) ->
  returns m (x * y).
Proof.
  intros D t u x y s m Ht Hu Hx Hy Hb HE HP Z1 Z2 Hr.
  assert (Wt : forall a, holds D t a -> in_type D (widest D Mul t u) a).
  { intros a Ha. specialize (Hr a 1 Ha Z2). rewrite Z.mul_1_r in Hr. exact Hr. }
  assert (Wu : forall b, holds D u b -> in_type D (widest D Mul t u) b).
  { intros b Hb'. specialize (Hr 1 b Z1 Hb'). rewrite Z.mul_1_l in Hr. exact Hr. }
  assert (HR : automatic_result D (PArith Mul) t u = Some (st s)).
  { destruct (binary_inv _ _ _ _ _ _ _ _ Hb) as (P & E & R & ri & _ & _ & HR & _ & -> & _).
    cbn [sP st] in *. subst P. exact HR. }
  assert (J : forall a b, holds D t a -> holds D u b -> in_type D (st s) (a * b)).
  { intros a b Ha Hb'. apply (auto_result_range Mul D t u (st s) a b); auto. }
  apply (C38_lemma Mul D t u x y s m); auto.
  - specialize (J x 1 Hx Z2). rewrite Z.mul_1_r in J. exact J.
  - specialize (J 1 y Z1 Hy). rewrite Z.mul_1_l in J. exact J.
Qed.

(** ------------------------------------------------------------------ *)
(** C39 *)
Lemma conv_shift : forall D R z, exists k, conv D R z = z + k * 2 ^ width D R.
Proof.
  intros D R z. pose proof (conv_eq_mod D R z) as E. pose proof (width_pow_pos D R) as Hp.
  exists (conv D R z / 2 ^ width D R - z / 2 ^ width D R).
  pose proof (Z.div_mod (conv D R z) (2 ^ width D R) ltac:(lia)). pose proof (Z.div_mod z (2 ^ width D R) ltac:(lia)). nia.
Qed.

Lemma fin_conv : forall f D R x y, (f = Z.add \/ f = Z.sub \/ f = Z.mul) ->
  (csigned D R = true -> in_type D R x /\ in_type D R y) -> in_type D R (f x y) ->
  fin D R (f (conv D R x) (conv D R y)) = Ok (f x y).
Proof.
  intros f D R x y Hf Hs Hz. unfold fin. destruct (csigned D R) eqn:ES.
  - destruct (Hs eq_refl) as [Hx Hy]. rewrite !conv_id by assumption.
    rewrite (proj2 (in_range_iff D R (f x y)) Hz). reflexivity.
  - f_equal. destruct (conv_shift D R x) as (k1 & ->). destruct (conv_shift D R y) as (k2 & ->).
    apply (conv_unique D R); [assumption|].
    destruct Hf as [->|[->| ->]].
    + replace (x + y - (x + k1 * 2 ^ width D R + (y + k2 * 2 ^ width D R))) with ((- k1 - k2) * 2 ^ width D R) by ring.
      apply Z_mod_mult.
    + replace (x - y - (x + k1 * 2 ^ width D R - (y + k2 * 2 ^ width D R))) with ((k2 - k1) * 2 ^ width D R) by ring.
      apply Z_mod_mult.
    + replace (x * y - (x + k1 * 2 ^ width D R) * (y + k2 * 2 ^ width D R))
        with ((- x * k2 - k1 * y - k1 * k2 * 2 ^ width D R) * 2 ^ width D R) by ring.
      apply Z_mod_mult.
Qed.

Lemma native_fits : forall D t u, wf_operand D t -> wf_operand D u -> csigned D (uac D (base_ty t) (base_ty u)) = true ->
  forall x y, holds D t x -> holds D u y ->
  in_type D (uac D (base_ty t) (base_ty u)) x /\ in_type D (uac D (base_ty t) (base_ty u)) y.
Proof.
  intros D t u Ht Hu Hs x y Hx Hy. split.
  - apply uac_in_l; [apply holds_in; assumption|auto].
  - apply uac_in_r; [apply holds_in; assumption|auto].
Qed.

Lemma C39_lemma : forall op D t u x y s m v, op = Add \/ op = Sub \/ op = Mul \/ op = Div ->
  wf_operand D t -> wf_operand D u -> holds D t x -> holds D u y ->
  binary D op t u x y = Some (s, m) -> throws_arithmetic (sE s) -> sP s = Native ->
  st s = built_in_type D op (base_ty t) (base_ty u)
  /\ (returns m v -> built_in D op (base_ty t) (base_ty u) x y = Ok v).
Proof.
  intros op D t u x y s m v Hop Ht Hu Hx Hy Hb HE HN.
  assert (HR : st s = built_in_type D op (base_ty t) (base_ty u)).
  { destruct (binary_inv _ _ _ _ _ _ _ _ Hb) as (P & E & R & ri & _ & _ & HR & _ & -> & _).
    cbn [sP st] in *. subst P. cbn in HR. injection HR as <-. destruct Hop as [->|[->|[->| ->]]]; reflexivity. }
  split; [exact HR|]. intros Hv.
  assert (HR' : st s = uac D (base_ty t) (base_ty u)).
  { rewrite HR. destruct Hop as [->|[->|[->| ->]]]; reflexivity. }
  assert (Hthrow : forall n : M Z, returns n v -> throws_arith n -> False).
  { intros n H1 (e & _ & H2). unfold returns in H1. congruence. }
  assert (Hexact : (op = Add \/ op = Sub \/ op = Mul) \/ op = Div) by tauto.
  destruct Hexact as [H3| ->].
  - assert (Hex : exists f, exact_op op f /\ (f = Z.add \/ f = Z.sub \/ f = Z.mul)
        /\ built_in D op (base_ty t) (base_ty u) x y = c_arith f D (base_ty t) (base_ty u) x y).
    { destruct H3 as [->|[->| ->]]; [exists Z.add|exists Z.sub|exists Z.mul]; unfold exact_op; auto 10. }
    destruct Hex as (f & Hf & Hf3 & ->).
    destruct (arith_char op f D t u x y s m Hf Ht Hu Hx Hy Hb HE) as [_ Hc].
    destruct Hc as [(K1 & K2 & _)|[(_ & _ & _ & K)|[(_ & _ & _ & K)|[_ K]]]].
    + unfold returns in *. assert (v = f x y) as -> by congruence.
      unfold c_arith. rewrite HR' in K2. apply fin_conv; auto. intros Hs. apply native_fits; assumption.
    + unfold returns in Hv. congruence.
    + unfold returns in Hv. congruence.
    + exfalso. eapply Hthrow; eassumption.
  - destruct (div_char D t u x y s m Ht Hu Hx Hy Hb HE ltac:(left; assumption)) as (_ & Hz & Hnz).
    destruct (Z.eq_dec y 0) as [Hy0|Hy0].
    + exfalso. eapply Hthrow; [eassumption|auto].
    + destruct (Hnz Hy0) as [(K1 & Kx & Ky & Kq & _)|[_ K]]; [|exfalso; eapply Hthrow; eassumption].
      unfold returns in *. assert (v = Z.quot x y) as -> by congruence.
      rewrite HR' in *. cbn [built_in]. unfold c_div. rewrite !conv_id by assumption.
      destruct (Z.eqb_spec y 0); [contradiction|]. unfold fin.
      destruct (csigned D (uac D (base_ty t) (base_ty u))).
      * rewrite (proj2 (in_range_iff _ _ _) Kq). reflexivity.
      * rewrite conv_id by assumption. reflexivity.
Qed.

Lemma sub_100_200 : forall a b, 100 <= a -> a <= 200 -> 100 <= b -> b <= 200 -> in_type LP64 Long (a - b).
Proof. intros. unfold in_type. change (lo LP64 Long) with (-9223372036854775808). change (hi LP64 Long) with 9223372036854775807. lia. Qed.
