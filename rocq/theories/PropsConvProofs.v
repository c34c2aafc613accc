(** PropsConvProofs.v -- proofs for PropsConv.v. *)
From Coq Require Import ZArith Bool List Lia.
From Verif Require Import Base CType Spec CTypeFacts Utility UtilityFacts SafeCompare
  CheckedInteger CheckedIntegerFacts CheckedResultOps CheckedResultFacts Interval IntervalFacts
  IntervalOpsFacts ExceptionPolicy Promotion SafeBase SafeSpec SafeFacts SafeDivFacts SafeShiftFacts
  SafeConvFacts SafeBitFacts SafeTraceFacts SafePortFacts PropsCheckedProofs.
Import ListNotations.
Local Open Scope Z_scope.

Lemma C28_range : forall D b t u x y s m,
  wf_operand D t -> wf_operand D u -> holds D t x -> holds D u y ->
  bitwise D b t u x y = Some (s, m) -> sP s = Native \/ sP s = Automatic -> 0 <= x -> 0 <= y ->
  wf_operand D (OSafe s)
  /\ returns m (bit_op b x y) /\ smin s <= bit_op b x y <= smax s.
Proof.
  intros D b t u x y s m Ht Hu Hx Hy H HP H0 H1.
  destruct (bitwise_inv _ _ _ _ _ _ _ _ H) as (mx & _ & _ & HR & _).
  destruct (uac_result_fits D b t u s Ht Hu HR HP) as [F1 F2].
  apply (bitwise_range D b t u x y s m); assumption.
Qed.

Lemma common_ep_in : forall t u E, common_ep t u = Some E -> get_ep t = Some E \/ get_ep u = Some E.
Proof.
  intros t u E H. unfold common_ep in H. destruct (is_safe t || is_safe u); [|discriminate].
  destruct (get_ep t) as [a|], (get_ep u) as [b|]; try discriminate; auto.
  destruct (ep_eqb a b); [|discriminate]. auto.
Qed.

Lemma mnot_char : forall b (m : M bool), m = mret b \/ throws_arith m ->
  returns (mnot m) (negb b) \/ throws_arith (mnot m).
Proof.
  intros b m [->|H]; [left; reflexivity|right]. unfold mnot. apply mbind_throws. assumption.
Qed.

Lemma C29_lemma : forall D t u x y,
  wf_operand D t -> wf_operand D u -> holds D t x -> holds D u y ->
  (forall E, get_ep t = Some E \/ get_ep u = Some E -> throws_arithmetic E) ->
  (forall m, s_lt D t u x y = Some m -> returns m (x <? y) \/ throws_arith m)
  /\ (forall m, s_gt D t u x y = Some m -> returns m (x >? y) \/ throws_arith m)
  /\ (forall m, s_le D t u x y = Some m -> returns m (x <=? y) \/ throws_arith m)
  /\ (forall m, s_ge D t u x y = Some m -> returns m (x >=? y) \/ throws_arith m)
  /\ (forall m, s_eq D t u x y = Some m -> returns m (x =? y) \/ throws_arith m)
  /\ (forall m, s_ne D t u x y = Some m -> returns m (negb (x =? y)) \/ throws_arith m).
Proof.
  intros D t u x y Ht Hu Hx Hy HE.
  assert (E1 : forall E, common_ep t u = Some E -> throws_arithmetic E)
    by (intros E H; apply HE, common_ep_in; assumption).
  assert (E2 : forall E, common_ep u t = Some E -> throws_arithmetic E)
    by (intros E H; apply HE; apply common_ep_in in H; tauto).
  assert (Gt : x >? y = (y <? x)) by (rewrite Z.gtb_ltb; reflexivity).
  assert (Ge : x >=? y = negb (x <? y)) by (rewrite Z.geb_leb, Z.leb_antisym; reflexivity).
  assert (Le : x <=? y = negb (y <? x)) by (rewrite Z.leb_antisym; reflexivity).
  unfold s_le, s_ge, s_ne, s_gt, s_lt, s_eq. rewrite Gt, Ge, Le.
  splits; intros m H.
  - exact (compare_char D CLt t u x y m E1 Ht Hu Hx Hy H).
  - exact (compare_char D CLt u t y x m E2 Hu Ht Hy Hx H).
  - destruct (compare D CLt u t y x) as [m0|] eqn:Hc; [|discriminate]. injection H as <-.
    exact (mnot_char _ _ (compare_char D CLt u t y x m0 E2 Hu Ht Hy Hx Hc)).
  - destruct (compare D CLt t u x y) as [m0|] eqn:Hc; [|discriminate]. injection H as <-.
    exact (mnot_char _ _ (compare_char D CLt t u x y m0 E1 Ht Hu Hx Hy Hc)).
  - exact (compare_char D CEq t u x y m E1 Ht Hu Hx Hy H).
  - destruct (compare D CEq t u x y) as [m0|] eqn:Hc; [|discriminate]. injection H as <-.
    exact (mnot_char _ _ (compare_char D CEq t u x y m0 E1 Ht Hu Hx Hy Hc)).
Qed.

Lemma common_pp_in : forall t u P, common_pp t u = Some P -> get_pp t = Some P \/ get_pp u = Some P.
Proof.
  intros t u P H. unfold common_pp in H. destruct (is_safe t || is_safe u); [|discriminate].
  destruct (get_pp t) as [a|], (get_pp u) as [b|]; try discriminate; auto.
  destruct (pp_eqb a b); [|discriminate]. auto.
Qed.

(** native: a comparison throws only if the usual arithmetic conversions change
    the value of an operand *)
Lemma C29_native_lemma : forall D t u x y m,
  wf_operand D t -> wf_operand D u -> holds D t x -> holds D u y ->
  (forall E, get_ep t = Some E \/ get_ep u = Some E -> throws_arithmetic E) ->
  (forall P, get_pp t = Some P \/ get_pp u = Some P -> P = Native) ->
  s_lt D t u x y = Some m \/ s_eq D t u x y = Some m ->
  in_type D (uac D (base_ty t) (base_ty u)) x -> in_type D (uac D (base_ty t) (base_ty u)) y ->
  ~ throws_arith m.
Proof.
  intros D t u x y m Ht Hu Hx Hy HE HP H Ix Iy Hm.
  assert (E1 : forall E, common_ep t u = Some E -> throws_arithmetic E)
    by (intros E K; apply HE, common_ep_in; assumption).
  assert (exists P R, common_pp t u = Some P /\ result_base_type D P PCmp t u = Some R
    /\ (~ in_type D R x \/ ~ in_type D R y)) as (P & R & K1 & K2 & K3).
  { destruct H as [H|H]; (eapply compare_throws; [exact E1|exact Ht|exact Hu|exact Hx|exact Hy|exact H|exact Hm]). }
  rewrite (HP P (common_pp_in _ _ _ K1)) in K2. cbn in K2. injection K2 as <-. tauto.
Qed.

(** automatic: a comparison never throws if the widest type the policy may use
    can represent both ranges *)
Lemma auto_cmp_fits : forall D t u x y R,
  wf_operand D t -> wf_operand D u -> holds D t x -> holds D u y ->
  fits_in D (auto_temp D (base_ty t) (base_ty u)) t -> fits_in D (auto_temp D (base_ty t) (base_ty u)) u ->
  automatic_result D PCmp t u = Some R -> in_type D R x /\ in_type D R y.
Proof.
  intros D t u x y R (T1 & T2 & T3) (U1 & U2 & U3) Hx Hy [A1 A2] [B1 B2] HR.
  unfold automatic_result in HR. cbv zeta in HR.
  set (tmp := auto_temp D (base_ty t) (base_ty u)) in *.
  assert (I1 : in_type D tmp (lim_lo D t)) by (unfold in_type; lia).
  assert (I2 : in_type D tmp (lim_hi D t)) by (unfold in_type; lia).
  assert (I3 : in_type D tmp (lim_lo D u)) by (unfold in_type; lia).
  assert (I4 : in_type D tmp (lim_hi D u)) by (unfold in_type; lia).
  unfold auto_type, auto_union, lim_interval in HR. cbn [il iu] in HR.
  rewrite (proj1 (cast_spec D tmp (base_ty t) (lim_lo D t) T1) I1),
    (proj1 (cast_spec D tmp (base_ty t) (lim_hi D t) T2) I2),
    (proj1 (cast_spec D tmp (base_ty u) (lim_lo D u) U1) I3),
    (proj1 (cast_spec D tmp (base_ty u) (lim_hi D u) U2) I4) in HR.
  rewrite !cr_lt_val in HR by assumption.
  assert (K : exists mn mx, stored_type D tmp mn mx = Some R /\ mn <= lim_lo D t /\ mn <= lim_lo D u
     /\ lim_hi D t <= mx /\ lim_hi D u <= mx /\ in_type D tmp mn /\ in_type D tmp mx).
  { destruct (Z.ltb_spec (lim_lo D t) (lim_lo D u)); destruct (Z.ltb_spec (lim_hi D t) (lim_hi D u));
    cbn [tri_of_bool tri_bool bound_lo bound_hi] in HR;
    (do 2 eexists; split; [exact HR|splits]); auto with zarith; lia. }
  destruct K as (mn & mx & K & ? & ? & ? & ? & Imn & Imx).
  assert (Htmp : tmp = intmax D \/ tmp = uintmax D)
    by (unfold tmp, auto_temp; destruct (_ && _); auto).
  destruct (stored_type_spec D tmp mn mx R Htmp Imn Imx ltac:(lia) K) as (_ & M1 & M2 & _).
  unfold holds, in_type in *. lia.
Qed.

Lemma C29_automatic_lemma : forall D t u x y m,
  wf_operand D t -> wf_operand D u -> holds D t x -> holds D u y ->
  (forall E, get_ep t = Some E \/ get_ep u = Some E -> throws_arithmetic E) ->
  (forall P, get_pp t = Some P \/ get_pp u = Some P -> P = Automatic) ->
  fits_in D (widest D Add t u) t -> fits_in D (widest D Add t u) u ->
  s_lt D t u x y = Some m \/ s_eq D t u x y = Some m ->
  ~ throws_arith m.
Proof.
  intros D t u x y m Ht Hu Hx Hy HE HP F1 F2 H Hm.
  assert (E1 : forall E, common_ep t u = Some E -> throws_arithmetic E)
    by (intros E K; apply HE, common_ep_in; assumption).
  assert (exists P R, common_pp t u = Some P /\ result_base_type D P PCmp t u = Some R
    /\ (~ in_type D R x \/ ~ in_type D R y)) as (P & R & K1 & K2 & K3).
  { destruct H as [H|H]; (eapply compare_throws; [exact E1|exact Ht|exact Hu|exact Hx|exact Hy|exact H|exact Hm]). }
  rewrite (HP P (common_pp_in _ _ _ K1)) in K2.
  destruct (auto_cmp_fits D t u x y R Ht Hu Hx Hy F1 F2 K2). tauto.
Qed.

Lemma C30_lemma : forall D s o x,
  wf_operand D (OSafe s) -> wf_operand D o -> throws_arithmetic (sE s) -> holds D o x ->
  match construct D s o x with
  | Some m => (smin s <= x <= smax s /\ returns m x) \/ (~ (smin s <= x <= smax s) /\ throws_arith m)
  | None => ~ (smin s <= x <= smax s)
  end.
Proof.
  intros D s o x Hs Ho HE Hx. destruct (construct D s o x) as [m|] eqn:E.
  - exact (construct_char D s o x m Hs Ho HE Hx E).
  - exact (construct_none D s o x Hs Ho HE Hx E).
Qed.

Lemma C31_lemma : forall D R s x,
  throws_arithmetic (sE s) -> in_type D (st s) x ->
  exists m, to_builtin D R s x = Some m
  /\ ((in_type D R x /\ returns m x) \/ (~ in_type D R x /\ throws_arith m)).
Proof.
  intros D R s x HE Hx.
  destruct (to_builtin_total D R s x) as (m & Hm); [unfold throws_arithmetic in HE; congruence|].
  exists m. split; [assumption|]. exact (to_builtin_char D R s x m HE Hx Hm).
Qed.

Lemma wf_int_lit : forall D z, 0 <= z <= 1 -> wf_operand D (ORaw Int) /\ holds D (ORaw Int) z.
Proof.
  intros D z Hz. unfold wf_operand, holds. cbn. pose proof (lo_in D Int). pose proof (hi_in D Int).
  pose proof (lo_le_0 D Int). pose proof (hi_ge_127 D Int). splits; try assumption; lia.
Qed.

Lemma C32_minus : forall D s x rs m,
  wf_operand D (OSafe s) -> holds D (OSafe s) x -> throws_arithmetic (sE s) ->
  unary_minus D s x = Some (rs, m) ->
  wf_operand D (OSafe rs) /\ exact_or_throws m (smin rs) (smax rs) (- x).
Proof.
  intros D s x rs m Hs Hx HE H. unfold unary_minus in H.
  destruct (wf_int_lit D 0 ltac:(lia)) as [W0 H0].
  pose proof (proj1 (binary_policy _ _ _ _ _ _ _ _ H)) as Hp. apply common_ep_safe_r in Hp.
  replace (- x) with (0 - x) by lia.
  apply (arith_exact Sub Z.sub D (ORaw Int) (OSafe s) 0 x rs m); auto; [right; left; auto|congruence].
Qed.

Lemma C32_increment : forall D s x m,
  wf_operand D (OSafe s) -> holds D (OSafe s) x -> throws_arithmetic (sE s) ->
  increment D s x = Some m -> exact_or_throws m (smin s) (smax s) (x + 1).
Proof.
  intros D s x m Hs Hx HE H. destruct (wf_int_lit D 1 ltac:(lia)) as [W0 H0].
  apply (compound_exact Add Z.add D s (ORaw Int) x 1 m); auto. left; auto.
Qed.
Lemma C32_decrement : forall D s x m,
  wf_operand D (OSafe s) -> holds D (OSafe s) x -> throws_arithmetic (sE s) ->
  decrement D s x = Some m -> exact_or_throws m (smin s) (smax s) (x - 1).
Proof.
  intros D s x m Hs Hx HE H. destruct (wf_int_lit D 1 ltac:(lia)) as [W0 H0].
  apply (compound_exact Sub Z.sub D s (ORaw Int) x 1 m); auto. right; left; auto.
Qed.
Lemma post_form : forall (s : safe_t) (x : Z) (o : option (M Z)) m z,
  option_map (fun m => mbind m (fun n => mret (x, n))) o = Some m ->
  (forall m0, o = Some m0 -> exact_or_throws m0 (smin s) (smax s) z) ->
  (returns m (x, z) /\ smin s <= z <= smax s) \/ throws_arith m.
Proof.
  intros s x [m0|] m z H K; [|discriminate]. injection H as <-.
  destruct (K m0 eq_refl) as [[-> R]|T]; [left|right].
  - change (([] : list event), Ret z) with (mret z). rewrite mbind_ret. split; [reflexivity|assumption].
  - apply mbind_throws. assumption.
Qed.
Lemma C32_post : forall D s x m,
  wf_operand D (OSafe s) -> holds D (OSafe s) x -> throws_arithmetic (sE s) ->
  (post_increment D s x = Some m ->
     (returns m (x, x + 1) /\ smin s <= x + 1 <= smax s) \/ throws_arith m)
  /\ (post_decrement D s x = Some m ->
     (returns m (x, x - 1) /\ smin s <= x - 1 <= smax s) \/ throws_arith m).
Proof.
  intros D s x m Hs Hx HE. split; intros H; eapply post_form; try exact H; intros m0 H0.
  - exact (C32_increment D s x m0 Hs Hx HE H0).
  - exact (C32_decrement D s x m0 Hs Hx HE H0).
Qed.

(** literals *)
Lemma C46_lemma : forall D R T N E, in_type D T N ->
  (forall E0, E = Some E0 -> throws_arithmetic E0) ->
  (in_type D R N -> exists m, lit_to_builtin D R T N E = Some m /\ returns m N)
  /\ (~ in_type D R N -> forall m, lit_to_builtin D R T N E = Some m -> throws_arith m).
Proof.
  intros D R T N E HN HE. split.
  - intros HR. unfold lit_to_builtin, validate, validate_static.
    rewrite (proj1 (cast_spec D R T N HN) HR).
    unfold excludes, includes, cr_ge, cr_le, cr_gt. cbn [il iu].
    pose proof (lo_in D R). pose proof (hi_in D R).
    rewrite !cr_lt_val by assumption. unfold in_type in HR.
    destruct (Z.ltb_spec N (lo D R)); [lia|]. destruct (Z.ltb_spec (hi D R) N); [lia|].
    cbn. eexists. split; [reflexivity|]. rewrite conv_id by assumption. reflexivity.
  - intros HR m H. unfold lit_to_builtin in H.
    destruct (validate_char D R (lo D R) (hi D R) E T N N N m (lo_in D R) (hi_in D R) HN HN HE ltac:(lia) H)
      as [[A _]|[_ B]]; [|assumption]. unfold in_type in HR. tauto.
Qed.

Lemma C46_minus_lemma : forall D T N v, in_type D T N ->
  (lit_minus D T N = Some v <-> v = - N /\ in_type D T (- N)).
Proof.
  intros D T N v HN. unfold lit_minus.
  destruct (eoo_cases _ _ _ _ (minus_spec D T N HN)) as [[Hi ->]|[[Ho ->]|[Ho ->]]].
  - unfold c_neg. rewrite fin_ok by (apply promote_in; assumption).
    rewrite (proj2 (in_range_iff D T (- N)) Hi). split; [intros [= <-]; auto|intros [-> _]; reflexivity].
  - split; [discriminate|]. intros [_ K]. unfold in_type in K. lia.
  - split; [discriminate|]. intros [_ K]. unfold in_type in K. lia.
Qed.

(** ~ of a literal *)
Lemma C46_not_lemma : forall D T N v, in_type D T N ->
  lit_not D T N = Some v -> v = (if lo D T =? 0 then hi D T - N else - N - 1) /\ in_type D T v.
Proof.
  intros D T N v HN H. unfold lit_not in H. rewrite bitwise_not_spec in H by assumption.
  destruct (in_range D T (c_not D T N)) eqn:Er; [|discriminate]. injection H as <-.
  apply in_range_iff in Er. split; [|assumption].
  pose proof (bitwise_not_spec D T N HN) as K. unfold bitwise_not in K.
  destruct (_ <? _) in K; [discriminate|]. cbn in K. injection K as K.
  rewrite conv_id in K by assumption. rewrite K. rewrite lo_eqb_signed.
  destruct (csigned D T); cbn [negb]; [unfold Z.lnot; lia|reflexivity].
Qed.

Lemma C46_exists_signed : forall D N P E, in_type D (intmax D) N ->
  exists T, safe_signed_literal D N P E = Some (OLit T N P E) /\ in_type D T N.
Proof.
  intros D N P E HN. unfold safe_signed_literal.
  destruct (signed_stored_type_spec D N N HN HN) as (T & -> & _ & B & _).
  exists T. rewrite (proj2 (in_range_iff D T N) B). auto.
Qed.
Lemma C46_exists_unsigned : forall D N P E, in_type D (uintmax D) N ->
  exists T, safe_unsigned_literal D N P E = Some (OLit T N P E) /\ in_type D T N.
Proof.
  intros D N P E HN. unfold safe_unsigned_literal.
  destruct (unsigned_stored_type_spec D N N) as (T & -> & _ & B & _);
    [pose proof (uintmax_bounds D); unfold in_type in *; lia|assumption|].
  exists T. rewrite (proj2 (in_range_iff D T N) B). auto.
Qed.
