(** PlainFacts.v -- the complete behaviour of the operators on full-range
    operands with native promotion. Proofs only. *)
From Coq Require Import ZArith List Bool Lia.
From Verif Require Import Base CType CTypeFacts Utility UtilityFacts SafeCompare Spec CheckedInteger CheckedIntegerFacts
  CheckedResultOps CheckedResultFacts Interval IntervalFacts IntervalOpsFacts ExceptionPolicy Promotion SafeBase SafeSpec StaticSpec
  SafeFacts SafeDivFacts SafeShiftFacts SafeConvFacts SafePortFacts SafeTraceFacts SafeBitFacts PlainCheck.
Import ListNotations.
Local Open Scope Z_scope.

(** arithmetic policies compile the checks of + - * / % *)
Lemma arith_errors_compile : forall D E op W, throws_arithmetic E ->
  (op = Shl \/ op = Shr -> throws_shift E) -> all_compile E (op_errors D op W) = true.
Proof.
  intros D E op W HA HS. unfold throws_arithmetic, throws_shift in *.
  destruct op; unfold op_errors, all_compile; cbv zeta; destruct (csigned D W); cbn; unfold dispatch_compiles; cbn;
  rewrite ?HA, ?HS by auto; reflexivity.
Qed.

Lemma plain_policies : forall D E T U t u, plain D E T t -> plain D E U u -> is_safe t = true \/ is_safe u = true ->
  common_pp t u = Some Native /\ common_ep t u = Some E.
Proof.
  intros D E T U t u [->| ->] [->| ->] H; cbn in H; try (destruct H; discriminate);
  unfold common_pp, common_ep; cbn; rewrite ?ep_eqb_refl; auto.
Qed.

Lemma plain_casts : forall D E F W T U t u x y, plain D E T t -> plain D E U u -> throws_arithmetic E -> throws_arithmetic F ->
  exists casts, casting_helper D F W t u x y = Some casts.
Proof.
  intros D E F W T U t u x y Ht Hu HE HF.
  assert (HN : on_arithmetic_error F <> HTrap) by (unfold throws_arithmetic in HF; congruence).
  assert (HN' : on_arithmetic_error E <> HTrap) by (unfold throws_arithmetic in HE; congruence).
  assert (Hc : forall T o z, plain D E T o -> exists m, cast_operand D F W o z = Some m).
  { intros T0 o z Ho. unfold cast_operand. rewrite cast_errors_compile by assumption.
    assert (exists f, static_cast_builtin D W o z = Some f) as (f & ->); [|eauto].
    destruct Ho as [->| ->]; cbn; [eauto|]. apply to_builtin_total. assumption. }
  unfold casting_helper. destruct (Hc T t x Ht) as (a & ->). destruct (Hc U u y Hu) as (b & ->). eauto.
Qed.

(** every operator compiles on full-range operands; the computation is checked,
    or the operands fit the result type *)
Lemma plain_binary : forall D E op T U t u x y, plain D E T t -> plain D E U u ->
  is_safe t = true \/ is_safe u = true -> throws_arithmetic E -> (op = Shl \/ op = Shr -> throws_shift E) ->
  let R := built_in_type D op T U in
  exists s m, binary D op t u x y = Some (s, m) /\ st s = R /\ sP s = Native /\ sE s = E
    /\ ((exists W casts, work_type D op R t u = Some W /\ casting_helper D E W t u x y = Some casts
          /\ m = checked_run D op E R W casts)
        \/ ((op = Add \/ op = Sub \/ op = Mul) /\ full_in D R T = true /\ full_in D R U = true)).
Proof.
  intros D E op T U t u x y Ht Hu Hs HA HS R.
  destruct (plain_policies D E T U t u Ht Hu Hs) as [EP EE].
  pose proof (plain_checked D op T U) as Hc. unfold plain_check in Hc. fold R in Hc.
  assert (HR : result_base_type D Native (PArith op) t u = Some R).
  { unfold R. cbn [result_base_type]. rewrite (plain_base D E T t Ht), (plain_base D E U u Hu).
    destruct op; reflexivity. }
  assert (HI : r_type_interval D op R t u = r_type_interval D op R (ORaw T) (ORaw U)).
  { unfold r_type_interval. rewrite (plain_lim D R E T t Ht), (plain_lim D R E U u Hu). reflexivity. }
  assert (HX : forall ri, exception_possible D op R t u ri = exception_possible D op R (ORaw T) (ORaw U) ri).
  { intros. unfold exception_possible. rewrite (plain_lim D R E T t Ht), (plain_lim D R E U u Hu). reflexivity. }
  destruct (r_type_interval D op R (ORaw T) (ORaw U)) as [ri|]; [|discriminate].
  unfold binary, op_static. rewrite EP, EE, HR, HI, HX. cbn [oi_checked oi_R oi_E oi_type].
  destruct (exception_possible D op R (ORaw T) (ORaw U) ri).
  - assert (exists W, work_type D op R t u = Some W) as (W & HW).
    { unfold work_type. rewrite (plain_base D E T t Ht), (plain_base D E U u Hu).
      destruct op; try (eexists; reflexivity);
      destruct (div_temp_native D T U) as (W & HW & _); exists W; exact HW. }
    rewrite HW. destruct (plain_casts D E E W T U t u x y Ht Hu HA HA) as (casts & Hk). rewrite Hk.
    rewrite arith_errors_compile by assumption.
    do 2 eexists. split; [reflexivity|]. cbn. splits; auto. left. exists W, casts. auto.
  - cbn [orb] in Hc. do 2 eexists. split; [reflexivity|]. cbn. splits; auto. right.
    destruct op; try discriminate; apply andb_prop in Hc; tauto.
Qed.

Lemma full_in_type : forall D R T x, full_in D R T = true -> in_type D T x -> in_type D R x.
Proof. intros D R T x H Hx. unfold full_in in H. unfold in_type in *. lia. Qed.

Lemma in_type_dec : forall D R x, in_type D R x \/ ~ in_type D R x.
Proof. intros. unfold in_type. lia. Qed.

(** + - * *)
Lemma plain_arith : forall op f D E T U t u x y, exact_op op f -> plain D E T t -> plain D E U u ->
  is_safe t = true \/ is_safe u = true -> throws_arithmetic E -> in_type D T x -> in_type D U y ->
  let R := uac D T U in
  exists s m, binary D op t u x y = Some (s, m) /\ st s = R
    /\ (in_type D R x /\ in_type D R y /\ in_type D R (f x y) -> returns m (f x y))
    /\ (~ (in_type D R x /\ in_type D R y /\ in_type D R (f x y)) -> throws_arith m).
Proof.
  intros op f D E T U t u x y Hop Ht Hu Hs HA Hx Hy R.
  assert (HB : built_in_type D op T U = R) by (destruct Hop as [[-> _]|[[-> _]|[-> _]]]; reflexivity).
  destruct (plain_binary D E op T U t u x y Ht Hu Hs HA) as (s & m & Hb & H1 & H2 & H3 & H4).
  { intros [-> | ->]; destruct Hop as [[C _]|[[C _]|[C _]]]; discriminate. }
  rewrite HB in *. exists s, m. splits; auto.
  - intros (Ix & Iy & If).
    destruct (arith_char op f D t u x y s m Hop (plain_wf D E T t Ht) (plain_wf D E U u Hu)
      (proj2 (plain_holds D E T t x Ht) Hx) (proj2 (plain_holds D E U u y Hu) Hy) Hb ltac:(rewrite H3; exact HA))
      as [_ Hc]. rewrite H1 in Hc. unfold in_type in *.
    destruct Hc as [(Hr & _)|[(_ & _ & C & _)|[(_ & _ & C & _)|[C _]]]]; try lia. assumption.
  - intros Hn. destruct H4 as [(W & casts & HW & Hk & ->)|(_ & F1 & F2)].
    + rewrite (exact_work op f) in HW by assumption. injection HW as <-. unfold checked_run.
      destruct (casting_helper_throws _ _ _ _ _ _ _ _ HA (plain_wf D E T t Ht) (plain_wf D E U u Hu)
        (proj2 (plain_holds D E T t x Ht) Hx) (proj2 (plain_holds D E U u y Hu) Hy) Hk) as [(Ix & Iy & ->)|[_ Tc]];
        [|apply mbind_throws; assumption].
      rewrite mbind_ret. cbn [fst snd].
      destruct (eoo_cases _ _ _ _ (exact_checked op f D R x y Hop Ix Iy)) as [[Hi _]|[[Hi ->]|[Hi ->]]];
        [tauto| |]; cbn [mlift]; rewrite mbind_ret; apply mbind_throws; apply dar_arith; auto; unfold arithmetic_err; auto.
    + destruct (arith_char op f D t u x y s m Hop (plain_wf D E T t Ht) (plain_wf D E U u Hu)
        (proj2 (plain_holds D E T t x Ht) Hx) (proj2 (plain_holds D E U u y Hu) Hy) Hb ltac:(rewrite H3; exact HA))
        as [_ Hc]. rewrite H1 in Hc.
      pose proof (full_in_type D R T x F1 Hx). pose proof (full_in_type D R U y F2 Hy).
      destruct Hc as [(_ & C & _)|[(_ & _ & _ & ->)|[(_ & _ & _ & ->)|[_ C]]]];
        auto using throws_pos, throws_neg. tauto.
Qed.

Lemma plain_div : forall D E T U t u x y, plain D E T t -> plain D E U u ->
  is_safe t = true \/ is_safe u = true -> throws_arithmetic E -> in_type D T x -> in_type D U y ->
  let R := uac D T U in
  exists s m, binary D Div t u x y = Some (s, m) /\ st s = R
    /\ (in_type D R x /\ in_type D R y /\ y <> 0 /\ in_type D R (Z.quot x y) -> returns m (Z.quot x y))
    /\ (~ (in_type D R x /\ in_type D R y /\ y <> 0 /\ in_type D R (Z.quot x y)) -> throws_arith m).
Proof.
  intros D E T U t u x y Ht Hu Hs HA Hx Hy R.
  destruct (plain_binary D E Div T U t u x y Ht Hu Hs HA) as (s & m & Hb & H1 & H2 & H3 & _).
  { intros [C|C]; discriminate. }
  exists s, m. split; [assumption|]. split; [assumption|].
  destruct (div_char D t u x y s m (plain_wf D E T t Ht) (plain_wf D E U u Hu)
      (proj2 (plain_holds D E T t x Ht) Hx) (proj2 (plain_holds D E U u y Hu) Hy) Hb ltac:(rewrite H3; exact HA)
      (or_introl H2)) as (_ & D0 & D1). rewrite H1 in D1. cbn [built_in_type] in D1. fold R in D1.
  split.
  - intros (Ix & Iy & Hn & Iq). destruct (D1 Hn) as [(? & _)|(C & _)]; [assumption|tauto].
  - intros Hn. destruct (Z.eq_dec y 0) as [Hz|Hz]; [auto|].
    destruct (D1 Hz) as [(_ & ? & ? & ? & _)|(_ & ?)]; [tauto|assumption].
Qed.

Lemma plain_mod : forall D E T U t u x y, plain D E T t -> plain D E U u ->
  is_safe t = true \/ is_safe u = true -> throws_arithmetic E -> in_type D T x -> in_type D U y ->
  let R := uac D T U in
  exists s m, binary D Mod t u x y = Some (s, m) /\ st s = R
    /\ (in_type D R x /\ in_type D R y /\ y <> 0 ->
          returns m (if (lo D R <? 0) && (x =? lo D R) && (y =? lo D R) then lo D R else remainder x y))
    /\ (~ (in_type D R x /\ in_type D R y /\ y <> 0) -> throws_arith m).
Proof.
  intros D E T U t u x y Ht Hu Hs HA Hx Hy R.
  destruct (plain_binary D E Mod T U t u x y Ht Hu Hs HA) as (s & m & Hb & H1 & H2 & H3 & H4).
  { intros [C|C]; discriminate. }
  exists s, m. split; [assumption|]. split; [assumption|].
  destruct H4 as [(W & casts & HW & Hk & ->)|(C & _)]; [|destruct C as [C|[C|C]]; discriminate].
  cbn [work_type] in HW. rewrite (plain_base D E T t Ht), (plain_base D E U u Hu) in HW. cbn [built_in_type] in HW, H1. fold R in HW, H1.
  destruct (div_temp_native D T U) as (W' & HW' & L1 & L2). fold R in HW', L1, L2. rewrite HW' in HW. injection HW as <-.
  assert (HI : forall z, in_type D W' z <-> in_type D R z) by (intros; unfold in_type; rewrite L1, L2; tauto).
  destruct (casting_helper_throws _ _ _ _ _ _ _ _ HA (plain_wf D E T t Ht) (plain_wf D E U u Hu)
        (proj2 (plain_holds D E T t x Ht) Hx) (proj2 (plain_holds D E U u y Hu) Hy) Hk) as [(Ix & Iy & ->)|[Hn Tc]].
  2:{ rewrite !HI in Hn. split; [tauto|]. intros _. apply mbind_throws. assumption. }
  unfold checked_run. rewrite mbind_ret. cbn [fst snd checked_op]. split.
  - intros (_ & _ & Hz).
    destruct ((lo D R <? 0) && (x =? lo D R) && (y =? lo D R)) eqn:Ec.
    + apply andb_prop in Ec. destruct Ec as [Ec C3]. apply andb_prop in Ec. destruct Ec as [C1 C2].
      apply Z.ltb_lt in C1. apply Z.eqb_eq in C2. apply Z.eqb_eq in C3.
      rewrite C2, C3, <- L1. rewrite modulus_min_min by (destruct (csigned D W') eqn:Es; [reflexivity|pose proof (lo_unsigned D W' Es); lia]).
      cbn [mlift]. rewrite mbind_ret, dar_val, mbind_ret, L1. cbn [built_in_type]. fold R. rewrite conv_id by apply lo_in. reflexivity.
    + rewrite modulus_spec; auto.
      2:{ intros (C1 & C2 & C3). pose proof (hi_pos_lo D W' C1). pose proof (hi_ge_127 D W'). rewrite L1 in *.
          assert (lo D R <? 0 = true) as X by lia. rewrite X, C2, C3, !Z.eqb_refl in Ec. discriminate. }
      cbn [mlift]. rewrite mbind_ret, dar_val, mbind_ret. cbn [built_in_type]. fold R. rewrite conv_id; [reflexivity|].
      apply HI in Ix. apply remainder_in; assumption.
  - intros Hn. assert (y = 0) as -> by (rewrite <- !HI in Hn; destruct (Z.eq_dec y 0); [assumption|tauto]).
    rewrite modulus_zero by assumption. cbn [mlift]. rewrite mbind_ret. apply mbind_throws, dar_arith; [assumption|].
    unfold arithmetic_err; auto.
Qed.

Lemma plain_shl : forall D E T U t u x y, plain D E T t -> plain D E U u ->
  is_safe t = true \/ is_safe u = true -> throws_arithmetic E -> throws_shift E -> in_type D T x -> in_type D U y ->
  let R := promote D T in
  let ok := in_type D R x /\ in_type D R y /\ (y = 0 \/ (0 < y < digits D R /\ 0 <= x /\ in_type D R (x * 2 ^ y))) in
  exists s m, binary D Shl t u x y = Some (s, m) /\ st s = R
    /\ (ok -> returns m (x * 2 ^ y)) /\ (~ ok -> throws_arith m \/ throws_impl m).
Proof.
  intros D E T U t u x y Ht Hu Hs HA HS Hx Hy R ok.
  destruct (plain_binary D E Shl T U t u x y Ht Hu Hs HA ltac:(auto)) as (s & m & Hb & H1 & H2 & H3 & H4).
  exists s, m. split; [assumption|]. split; [assumption|].
  destruct H4 as [(W & casts & HW & Hk & ->)|(C & _)]; [|destruct C as [C|[C|C]]; discriminate].
  cbn [work_type] in HW. injection HW as <-. cbn [built_in_type] in *. fold R in Hk |- *.
  destruct (casting_helper_throws _ _ _ _ _ _ _ _ HA (plain_wf D E T t Ht) (plain_wf D E U u Hu)
        (proj2 (plain_holds D E T t x Ht) Hx) (proj2 (plain_holds D E U u y Hu) Hy) Hk) as [(Ix & Iy & ->)|[Hn Tc]].
  2:{ split; [unfold ok; tauto|]. intros _. left. apply mbind_throws. assumption. }
  unfold checked_run. rewrite mbind_ret. cbn [fst snd checked_op].
  rewrite left_shift_spec by assumption. cbn [mlift]. rewrite mbind_ret.
  assert (Ti : forall e (k : checked -> M Z), shift_err e -> throws_impl (mbind (dispatch_and_return E (CErr e)) k)).
  { intros. apply mbind_throws_impl, dar_impl; assumption. }
  destruct (Z.eqb_spec y 0) as [->|Hy0].
  { split; [|intros C; exfalso; apply C; unfold ok; auto]. intros _.
    rewrite dar_val, mbind_ret, Z.mul_1_r, conv_id by assumption. reflexivity. }
  destruct (Z.ltb_spec y 0).
  { split; [unfold ok; lia|]. intros _. right. apply Ti. unfold shift_err; auto. }
  destruct (Z.ltb_spec (digits D R) y).
  { split; [unfold ok; lia|]. intros _. right. apply Ti. unfold shift_err; auto. }
  destruct (Z.ltb_spec x 0).
  { split; [unfold ok; lia|]. intros _. right. apply Ti. unfold shift_err; auto. }
  destruct (Z.eqb_spec x 0) as [->|Hx0].
  - destruct (Z.ltb_spec y (digits D R)).
    + split; [|intros C; exfalso; apply C; unfold ok; rewrite Z.mul_0_l; splits; auto; right; splits; auto; lia].
      intros _. rewrite dar_val, mbind_ret, Z.mul_0_l, conv_0. reflexivity.
    + split; [unfold ok; lia|]. intros _. right. apply Ti. unfold shift_err; auto.
  - pose proof (pow2_pos y ltac:(lia)). pose proof (lo_le_0 D R).
    destruct (Z.leb_spec (x * 2 ^ y) (hi D R)).
    + assert (in_type D R (x * 2 ^ y)) by (unfold in_type; nia).
      assert (y < digits D R).
      { pose proof (pow_digits D R). destruct (Z_lt_le_dec y (digits D R)); [assumption|].
        assert (y = digits D R) by lia. subst y. nia. }
      split; [|intros C; exfalso; apply C; unfold ok; splits; auto; right; splits; auto; lia].
      intros _. rewrite dar_val, mbind_ret, conv_id by assumption. reflexivity.
    + split; [unfold ok, in_type; lia|]. intros _. right. apply Ti. unfold shift_err; auto.
Qed.

Lemma plain_shr : forall D E T U t u x y, plain D E T t -> plain D E U u ->
  is_safe t = true \/ is_safe u = true -> throws_arithmetic E -> throws_shift E -> in_type D T x -> in_type D U y ->
  let R := promote D T in
  let ok := in_type D R x /\ in_type D R y /\ 0 <= x /\ 0 <= y <= digits D R in
  let bad := lo D R = 0 /\ in_type D R y /\ y = digits D R in
  exists s m, binary D Shr t u x y = Some (s, m) /\ st s = R
    /\ (ok -> ~ bad -> returns m (x / 2 ^ y)) /\ (ok -> bad -> m = ([], Undef))
    /\ (~ ok -> throws_arith m \/ throws_impl m).
Proof.
  intros D E T U t u x y Ht Hu Hs HA HS Hx Hy R ok bad.
  destruct (plain_binary D E Shr T U t u x y Ht Hu Hs HA ltac:(auto)) as (s & m & Hb & H1 & H2 & H3 & H4).
  exists s, m. split; [assumption|]. split; [assumption|].
  destruct H4 as [(W & casts & HW & Hk & ->)|(C & _)]; [|destruct C as [C|[C|C]]; discriminate].
  cbn [work_type] in HW. injection HW as <-. cbn [built_in_type] in *. fold R in Hk |- *.
  destruct (casting_helper_throws _ _ _ _ _ _ _ _ HA (plain_wf D E T t Ht) (plain_wf D E U u Hu)
        (proj2 (plain_holds D E T t x Ht) Hx) (proj2 (plain_holds D E U u y Hu) Hy) Hk) as [(Ix & Iy & ->)|[Hn Tc]].
  2:{ unfold ok, bad. split; [tauto|]. split; [tauto|]. intros _. left. apply mbind_throws. assumption. }
  unfold checked_run. rewrite mbind_ret. cbn [fst snd checked_op].
  rewrite right_shift_spec by assumption.
  assert (Ti : forall e (k : checked -> M Z), shift_err e -> throws_impl (mbind (dispatch_and_return E (CErr e)) k)).
  { intros. apply mbind_throws_impl, dar_impl; assumption. }
  assert (HP : promote D R = R) by (unfold R; destruct D, T; reflexivity).
  destruct (Z.ltb_spec y 0).
  { cbn [mlift]. rewrite mbind_ret. splits; try (unfold ok; lia). intros _. right. apply Ti. unfold shift_err; auto. }
  destruct (Z.ltb_spec (digits D R) y).
  { cbn [mlift]. rewrite mbind_ret. splits; try (unfold ok; lia). intros _. right. apply Ti. unfold shift_err; auto. }
  destruct (Z.ltb_spec x 0).
  { cbn [mlift]. rewrite mbind_ret. splits; try (unfold ok; lia). intros _. right. apply Ti. unfold shift_err; auto. }
  assert (Hok : ok) by (unfold ok; splits; auto; lia).
  assert (HB : bad <-> ~ y < width D (promote D R)).
  { rewrite HP. unfold bad. destruct (csigned D R) eqn:Es.
    - pose proof (digits_lt_width_promote D R Es) as X. rewrite HP in X.
      pose proof (hi_pos_lo D R Es). pose proof (hi_ge_127 D R). split; [intros (? & _); lia|lia].
    - pose proof (lo_unsigned D R Es). assert (width D R = digits D R) by (clear - Es; destruct D, R; cbn in Es |- *; congruence).
      split; [intros (_ & _ & ?); lia|intros; splits; auto; lia]. }
  destruct (Z.ltb_spec y (width D (promote D R))).
  - pose proof (div_pow_in D R x y Ix ltac:(lia) ltac:(lia)) as Iz. splits; try tauto.
    intros _ _. cbn [mlift]. rewrite mbind_ret, dar_val, mbind_ret, conv_id by assumption. reflexivity.
  - assert (bad) by (apply HB; lia). splits; tauto.
Qed.

(** comparison *)
Lemma plain_compare : forall D E c T U t u x y, plain D E T t -> plain D E U u ->
  is_safe t = true \/ is_safe u = true -> throws_arithmetic E -> in_type D T x -> in_type D U y ->
  let R := uac D T U in
  exists m, compare D c t u x y = Some m
    /\ (in_type D R x /\ in_type D R y -> returns m (cmp_exact c x y))
    /\ (~ (in_type D R x /\ in_type D R y) -> throws_arith m).
Proof.
  intros D E c T U t u x y Ht Hu Hs HA Hx Hy R.
  destruct (plain_policies D E T U t u Ht Hu Hs) as [EP EE].
  pose proof (plain_wf D E T t Ht) as Wt. pose proof (plain_wf D E U u Hu) as Wu.
  assert (HR : result_base_type D Native PCmp t u = Some R)
    by (cbn; rewrite (plain_base D E T t Ht), (plain_base D E U u Hu); reflexivity).
  assert (Zt : holds D t 0) by (apply (plain_holds D E T t 0 Ht), zero_in).
  assert (Zu : holds D u 0) by (apply (plain_holds D E U u 0 Hu), zero_in).
  assert (Hx' : holds D t x) by (apply (plain_holds D E T t x Ht); assumption).
  assert (Hy' : holds D u y) by (apply (plain_holds D E U u y Hu); assumption).
  destruct (i_lt_sound D R t u 0 0 Wt Wu Zt Zu) as [L G].
  assert (L' : tri_bool (i_lt D R (lim_interval D R t) (lim_interval D R u)) = false).
  { destruct (tri_bool _) eqn:A; [|reflexivity]. apply tri_bool_true in A. specialize (L A). lia. }
  assert (G' : tri_bool (i_gt D R (lim_interval D R t) (lim_interval D R u)) = false).
  { destruct (tri_bool (i_gt _ _ _ _)) eqn:A; [|reflexivity]. apply tri_bool_true in A. specialize (G A). lia. }
  assert (I' : tri_bool (tri_not (intersect D R (lim_interval D R t) (lim_interval D R u))) = false).
  { destruct (tri_bool (tri_not _)) eqn:A; [|reflexivity]. apply tri_bool_true, tri_not_true in A.
    exfalso. eapply intersect_false; try exact A; eassumption. }
  unfold compare. rewrite EP, EE, HR. cbv zeta.
  destruct (interval_open (lim_interval D R t) || interval_open (lim_interval D R u)) eqn:Ho.
  - destruct (plain_casts D E E R T U t u x y Ht Hu HA HA) as (casts & Hk). rewrite Hk.
    exists (mbind casts (fun p => mret (match c with
              | CLt => less_than D R R (fst p) (snd p)
              | CEq => equal D R R (fst p) (snd p) end))).
    split; [destruct c; rewrite ?L', ?G', ?I'; reflexivity|].
    destruct (casting_helper_throws _ _ _ _ _ _ _ _ HA Wt Wu Hx' Hy' Hk) as [(Ix & Iy & ->)|[Hn Tc]].
    + split; [|tauto]. intros _. rewrite mbind_ret. cbn [fst snd]. unfold returns. destruct c; cbn [cmp_exact].
      * rewrite less_than_spec by assumption. reflexivity.
      * rewrite equal_spec by assumption. reflexivity.
    + split; [tauto|]. intros _. apply mbind_throws. assumption.
  - apply orb_false_iff in Ho. destruct Ho as [H1 H2].
    pose proof (lim_interval_vals D R t x Wt Hx' H1) as Ix.
    pose proof (lim_interval_vals D R u y Wu Hy' H2) as Iy.
    rewrite !conv_id by assumption. exists (mret (cmp_exact c x y)). split; [|split; [reflexivity|tauto]].
    destruct c; rewrite ?L', ?G', ?I', ?c_lt_same, ?c_eq_same by assumption; reflexivity.
Qed.

(** bitwise operators *)
Definition plain_bit_check (D : dmodel) (b : bop) (T U : ctype) : bool :=
  let R := uac D T U in
  let r := to_unsigned R in
  match round_out D r (match b with And => Z.min (conv D r (hi D T)) (conv D r (hi D U))
                       | _ => Z.max (conv D r (hi D T)) (conv D r (hi D U)) end) with
  | Ok m => in_range D R m
  | UB => false
  end.
Lemma plain_bit_check_all :
  forallb (fun D => forallb (fun b => forallb (fun T => forallb (plain_bit_check D b T) all_ctype) all_ctype) [Or; And; Xor])
    all_dmodel = true.
Proof. vm_compute. reflexivity. Qed.
Lemma plain_bitwise : forall D E b T U t u x y, plain D E T t -> plain D E U u ->
  is_safe t = true \/ is_safe u = true ->
  exists s m, bitwise D b t u x y = Some (s, m) /\ st s = uac D T U /\ returns m (built_in_bit D b T U x y).
Proof.
  intros D E b T U t u x y Ht Hu Hs.
  destruct (plain_policies D E T U t u Ht Hu Hs) as [EP EE].
  assert (exists s m, bitwise D b t u x y = Some (s, m) /\ sP s = Native) as (s & m & Hb & Hp).
  { pose proof plain_bit_check_all as H. rewrite forallb_forall in H. specialize (H D (all_dmodel_in D)).
    rewrite forallb_forall in H. assert (In b [Or; And; Xor]) as Ho by (destruct b; cbn; auto).
    specialize (H b Ho). rewrite forallb_forall in H. specialize (H T (all_ctype_in T)).
    rewrite forallb_forall in H. specialize (H U (all_ctype_in U)). unfold plain_bit_check in H.
    assert (result_base_type D Native (PBit b) t u = Some (uac D T U)) as HR
      by (cbn; rewrite (plain_base D E T t Ht), (plain_base D E U u Hu); reflexivity).
    unfold bitwise, bitwise_type. rewrite EP, EE, HR.
    assert (lim_hi D t = hi D T) as -> by (destruct Ht as [->| ->]; reflexivity).
    assert (lim_hi D u = hi D U) as -> by (destruct Hu as [->| ->]; reflexivity).
    cbv zeta in H |- *. destruct (round_out _ _ _) as [mx|]; [|discriminate]. rewrite ?H. do 2 eexists. split; reflexivity. }
  exists s, m. split; [assumption|].
  destruct (bitwise_value _ _ _ _ _ _ _ _ Hb (or_introl Hp)) as (H1 & H2 & _).
  rewrite (plain_base D E T t Ht), (plain_base D E U u Hu) in *. auto.
Qed.
