(** ShlOutcomeFacts.v -- every outcome of << on safe types. Proofs only. *)
From Coq Require Import ZArith Bool List Lia.
From Verif Require Import Base CType Spec CTypeFacts Utility UtilityFacts SafeCompare
  CheckedInteger CheckedIntegerFacts CheckedResultOps CheckedResultFacts Interval IntervalFacts
  IntervalOpsFacts ExceptionPolicy Promotion SafeBase SafeSpec SafeFacts SafeDivFacts SafeShiftFacts OutcomeSpec ShrOutcomeFacts.
Import ListNotations.
Local Open Scope Z_scope.

Lemma unchecked_negative : forall D R t u ri, wf_operand D t -> wf_operand D u ->
  r_type_interval D Shl R t u = Ok ri -> exception (il ri) = false -> exception (iu ri) = false ->
  lim_lo D t < 0 -> csigned D R = true /\ in_type D R (lim_lo D t).
Proof.
  intros D R t u ri Ht Hu H X1 X2 Hn.
  destruct (lim_ok D R t u Ht Hu) as (Oa & Ob & Oc & Od).
  cbn [r_type_interval] in H. unfold i_shl in H.
  destruct (corners_all D R (cr_shl D R) (lim_interval D R t) (lim_interval D R u) ri (cr_shift_ok 4 true D R) Oa Ob Oc Od H)
    as (r1 & r2 & r3 & r4 & E1 & E2 & E3 & E4 & Hcase).
  unfold lim_interval in E1, E2, E3, E4. cbn [il iu] in E1, E2, E3, E4.
  apply exc_false in X1, X2. destruct X1 as [vl X1], X2 as [vh X2].
  destruct Hcase as [[Hm ->]|(Nh & N1 & N2 & I1 & I2 & Hin)].
  { cbn [il] in X1. subst r1. cbn in Hm. tauto. }
  pose proof Ht as (T1 & T2 & T3). pose proof (hi_ge_127 D R) as Hh. unfold cr_shl in E1. cbn [cr_shift] in E1.
  destruct (cast_cases D R _ _ T1) as [(Ia & Ea)|[(? & Ea)|[(? & ? & Ea)|(? & ? & ? & Ea)]]]; rewrite Ea in E1.
  - split; [|assumption]. destruct (csigned D R) eqn:S; [reflexivity|].
    pose proof (lo_unsigned D R S). unfold in_type in Ia. lia.
  - lia.
  - exfalso. assert (A : r1 = CErr negative_overflow_error \/ ~ num r1).
    { change (to_pflag D R (CErr negative_overflow_error)) with less_than_min in E1.
      pflagh (cast D R (base_ty u) (lim_lo D u)) Oc E1; cbn in E1; injection E1 as <-; cbn; tauto. }
    destruct A as [->|A]; [|tauto].
    destruct (Hin (CErr negative_overflow_error) ltac:(pick) I) as [A _]. rewrite X1 in A. exact A.
  - exfalso. change (to_pflag D R (CErr domain_error)) with indeterminate in E1.
    pflagh (cast D R (base_ty u) (lim_lo D u)) Oc E1; cbn in E1; injection E1 as <-; cbn in Nh; tauto.
Qed.

Lemma promote_signed : forall D R, csigned D R = true -> csigned D (promote D R) = true.
Proof. intros D R; destruct D, R; vm_compute; congruence. Qed.
Lemma bits_in : forall D R y, 0 <= y < width D (promote D R) -> in_type D R y.
Proof.
  intros D R y H. pose proof (lo_le_0 D R). pose proof (hi_ge_127 D R). unfold in_type.
  assert (width D (promote D R) <= 64) by (destruct D, R; vm_compute; congruence). lia.
Qed.

Lemma shl_outcome : forall D t u x y s m oi,
  wf_operand D t -> wf_operand D u -> holds D t x -> holds D u y ->
  binary D Shl t u x y = Some (s, m) -> throws_arithmetic (sE s) -> throws_shift (sE s) ->
  op_static D Shl t u = Some oi ->
  let R := st s in let P := promote D R in
  (oi_checked oi = true ->
     (~ (in_type D R x /\ in_type D R y) -> throws_arith m)
     /\ (in_type D R x /\ in_type D R y ->
         let good := y = 0 \/ (0 < y < digits D R /\ 0 <= x /\ x * 2 ^ y <= hi D R) in
         (good -> returns m (x * 2 ^ y)) /\ (~ good -> throws_impl m)))
  /\ (oi_checked oi = false ->
     (0 <= x -> 0 <= y < width D P -> returns m (x * 2 ^ y) /\ in_type D R (x * 2 ^ y))
     /\ (x < 0 -> m = ([], Undef))
     /\ (0 <= x -> ~ 0 <= y < width D P ->
         let x' := conv D R x in let y' := conv D R y in
         let runs := 0 <= y' < width D P /\ (csigned D P = true -> 0 <= x' /\ x' * 2 ^ y' <= hi D (to_unsigned P)) in
         (runs -> returns m (conv D R (x' * 2 ^ y'))) /\ (~ runs -> m = ([], Undef)))).
Proof.
  intros D t u x y s m oi Ht Hu Hx Hy Hb HE HS Ho R0 P0. subst P0 R0.
  destruct (binary_inv _ _ _ _ _ _ _ _ Hb) as (P & E & R & ri & HP & HEp & HR & Hri & -> & Hm).
  cbn [sE] in HE, HS. cbn [st smin smax].
  unfold op_static in Ho. rewrite HP, HEp, HR, Hri in Ho. injection Ho as <-. cbn [oi_checked].
  destruct (shl_static D R t u ri Ht Hu Hri) as (_ & Hchk & Hunc).
  pose proof (lo_le_0 D R) as Hl0. pose proof (hi_ge_127 D R) as Hh0.
  cbn [exception_possible] in Hm.
  destruct Hm as [[Hx0 ->]|[Hx1 (W & casts & HW & Hc & _ & ->)]].
  - split; [intros C; congruence|]. intros _.
    apply orb_false_elim in Hx0. destruct Hx0 as [X1 X2].
    specialize (Hunc X1 X2).
    splits.
    + intros Px Py. destruct (Hunc x y Hx Hy ltac:(lia)) as (H1 & H2 & H3).
      destruct (Z_lt_le_dec 0 (lim_hi D t)) as [Hb0|Hb0].
      * destruct (H1 Px Hb0) as (Ix & Iy & Iz & Er). unfold returns, unchecked_run. rewrite Er. cbn [mlift].
        rewrite mbind_ret, conv_id by assumption. auto.
      * assert (x = 0) by (unfold holds in *; lia). subst x. rewrite Z.mul_0_l. split; [|apply zero_in].
        unfold returns, unchecked_run. cbn [raw_op]. rewrite conv_0, (conv_id D R y) by (apply bits_in; assumption).
        unfold c_shl.
        assert ((y <? 0) || (width D (promote D R) <=? y) = false) as -> by (apply orb_false_intro; [lia|apply Z.leb_gt; lia]).
        rewrite Z.mul_0_l, conv_0. cbn [Z.ltb Z.compare].
        assert ((0 <=? hi D (to_unsigned (promote D R))) = true) as ->.
        { apply Z.leb_le. pose proof (hi_ge_127 D (to_unsigned (promote D R))). lia. }
        destruct (csigned D (promote D R)); cbn [mlift]; rewrite mbind_ret, conv_0; reflexivity.
    + intros Nx. assert (La : lim_lo D t < 0) by (unfold holds in Hx; lia).
      destruct (unchecked_negative D R t u ri Ht Hu Hri X1 X2 La) as [Hs Ia].
      assert (Ix : in_type D R x) by (unfold holds, in_type in *; lia).
      unfold unchecked_run. cbn [raw_op]. unfold c_shl. rewrite (promote_signed D R Hs).
      rewrite (conv_id D R x) by assumption.
      destruct ((conv D R y <? 0) || (width D (promote D R) <=? conv D R y)); [reflexivity|].
      destruct (Z.ltb_spec x 0); [reflexivity|lia].
    + intros Px Ny. unfold returns, unchecked_run. cbn [raw_op]. unfold c_shl. cbv zeta.
      set (x' := conv D R x). set (y' := conv D R y).
      destruct ((y' <? 0) || (width D (promote D R) <=? y')) eqn:B.
      { split; [|reflexivity]. intros [C _]. apply orb_true_iff in B.
        destruct B as [B|B]; [apply Z.ltb_lt in B|apply Z.leb_le in B]; lia. }
      apply orb_false_iff in B. destruct B as [B1 B2]. apply Z.ltb_ge in B1. apply Z.leb_gt in B2.
      destruct (csigned D (promote D R)) eqn:S.
      * destruct (Z.ltb_spec x' 0) as [Nx|Nx].
        { split; [|reflexivity]. intros [_ C]. destruct (C eq_refl). lia. }
        destruct (Z.leb_spec (x' * 2 ^ y') (hi D (to_unsigned (promote D R)))) as [Nh|Nh].
        -- split; [|intros C; exfalso; apply C; auto]. intros _. cbn [mlift].
           rewrite mbind_ret, conv_conv_promote. reflexivity.
        -- split; [|reflexivity]. intros [_ C]. destruct (C eq_refl). lia.
      * split; [|intros C; exfalso; apply C; split; [auto|discriminate]]. intros _. cbn [mlift].
        rewrite mbind_ret, conv_conv_promote. reflexivity.
  - split; [|intros C; congruence]. intros _. cbn [work_type] in HW. injection HW as <-.
    destruct (casting_helper_throws _ _ _ _ _ _ _ _ HE Ht Hu Hx Hy Hc) as [(Ix & Iy & ->)|[Hn Tc]].
    + split; [tauto|]. intros _. cbv zeta. unfold checked_run. rewrite mbind_ret. cbn [fst snd checked_op].
      rewrite left_shift_spec by assumption. cbn [mlift]. rewrite mbind_ret.
      assert (Ti : forall e (k : checked -> M Z), shift_err e -> throws_impl (mbind (dispatch_and_return E (CErr e)) k)).
      { intros. apply mbind_throws_impl, dar_impl; assumption. }
      pose proof (pow_digits D R) as Hpd. pose proof (digits_pos D R) as Hdp.
      destruct (Z.eqb_spec y 0) as [->|Hy0].
      { split; [|intros C; exfalso; apply C; auto]. intros _. rewrite dar_val, mbind_ret, Z.mul_1_r.
        rewrite conv_id by assumption. reflexivity. }
      destruct (Z.ltb_spec y 0). { split; [lia|]. intros _. apply Ti; unfold shift_err; auto. }
      destruct (Z.ltb_spec (digits D R) y). { split; [lia|]. intros _. apply Ti; unfold shift_err; auto. }
      destruct (Z.ltb_spec x 0). { split; [lia|]. intros _. apply Ti; unfold shift_err; auto. }
      destruct (Z.eqb_spec x 0) as [->|Hx0].
      { rewrite Z.mul_0_l. destruct (Z.ltb_spec y (digits D R)).
        - split; [|intros C; exfalso; apply C; right; lia]. intros _. rewrite dar_val, mbind_ret, conv_0. reflexivity.
        - split; [lia|]. intros _. apply Ti; unfold shift_err; auto. }
      destruct (Z.leb_spec (x * 2 ^ y) (hi D R)) as [Hz|Hz].
      * assert (Hyd : y < digits D R).
        { destruct (Z_lt_le_dec y (digits D R)); [assumption|].
          pose proof (Z.pow_le_mono_r 2 (digits D R) y ltac:(lia) ltac:(lia)). nia. }
        split; [|intros C; exfalso; apply C; right; lia]. intros _. rewrite dar_val, mbind_ret, conv_id.
        -- reflexivity.
        -- unfold in_type. pose proof (pow2_pos y ltac:(lia)). nia.
      * split; [lia|]. intros _. apply Ti; unfold shift_err; auto.
    + split; [|tauto]. intros _. apply mbind_throws. assumption.
Qed.

(** when << of ranges without negative values is checked *)
Lemma shl_elision_nonneg : forall D R t u ri, wf_operand D t -> wf_operand D u ->
  r_type_interval D Shl R t u = Ok ri -> 0 <= lim_lo D t -> 0 <= lim_lo D u ->
  (exception_possible D Shl R t u ri = false <-> lim_hi D t = 0 \/ lim_hi D t * 2 ^ lim_hi D u <= hi D R).
Proof.
  intros D R t u ri Ht Hu H Ha Hc.
  destruct (lim_ok D R t u Ht Hu) as (Oa & Ob & Oc & Od).
  pose proof (shl_static D R t u ri Ht Hu H) as (_ & _ & Hunc).
  cbn [r_type_interval] in H. unfold i_shl in H.
  destruct (corners_all D R (cr_shl D R) (lim_interval D R t) (lim_interval D R u) ri (cr_shift_ok 4 true D R) Oa Ob Oc Od H)
    as (r1 & r2 & r3 & r4 & E1 & E2 & E3 & E4 & Hcase).
  unfold lim_interval in E1, E2, E3, E4. cbn [il iu] in E1, E2, E3, E4.
  pose proof Ht as (T1 & T2 & T3). pose proof Hu as (U1 & U2 & U3).
  pose proof (lo_le_0 D R) as Hl0. pose proof (hi_ge_127 D R) as Hh0.
  cbn [exception_possible]. split.
  - intros X. apply orb_false_iff in X. destruct X as [X1 X2].
    destruct (Z.eq_dec (lim_hi D t) 0) as [|N]; [auto|]. right.
    destruct (Hunc X1 X2 (lim_hi D t) (lim_hi D u)) as (H1 & _); [unfold holds; lia|unfold holds; lia|lia|].
    destruct (H1 ltac:(lia) ltac:(lia)) as (_ & _ & I & _). apply I.
  - intros G.
    assert (V : forall r, In r [r1; r2; r3; r4] -> exists v, r = CVal v).
    { destruct (Z.eq_dec (lim_hi D t) 0) as [N|N].
      - assert (Na : lim_lo D t = 0) by lia. rewrite Na, N in *.
        assert (C0 : cast D R (base_ty t) 0 = CVal 0) by (apply cast_spec; [assumption|apply zero_in]).
        rewrite C0 in *.
        assert (Z0 : forall q r, cr_ok D R q -> cr_shl D R (CVal 0) q = Ok r -> r = CVal 0).
        { intros q r Hq E. unfold cr_shl in E. cbn [cr_shift] in E.
          rewrite to_pflag_val in E by apply zero_in. cbn [Z.ltb Z.compare] in E.
          pflagh q Hq E; cbn in E; congruence. }
        intros r Hr. exists 0. destruct Hr as [<-|[<-|[<-|[<-|[]]]]]; eauto.
      - assert (G' : lim_hi D t * 2 ^ lim_hi D u <= hi D R) by (destruct G; [contradiction|assumption]).
        pose proof (pow2_pos (lim_hi D u) ltac:(lia)) as Pp.
        assert (Ib : in_type D R (lim_hi D t)) by (unfold in_type; nia).
        assert (Hdu : lim_hi D u < digits D R).
        { pose proof (pow_digits D R). pose proof (digits_pos D R). destruct (Z_lt_le_dec (lim_hi D u) (digits D R)); [assumption|].
          pose proof (Z.pow_le_mono_r 2 (digits D R) (lim_hi D u) ltac:(lia) ltac:(lia)). nia. }
        pose proof (digits_in D R) as Hdi.
        assert (Id : in_type D R (lim_hi D u)) by (unfold in_type in *; lia).
        assert (Ic : in_type D R (lim_lo D u)) by (unfold in_type in *; lia).
        assert (Ia : in_type D R (lim_lo D t)) by (unfold in_type in *; lia).
        rewrite (proj1 (cast_spec D R _ _ T1) Ia), (proj1 (cast_spec D R _ _ U1) Ic) in E1.
        rewrite (proj1 (cast_spec D R _ _ T1) Ia), (proj1 (cast_spec D R _ _ U2) Id) in E2.
        rewrite (proj1 (cast_spec D R _ _ T2) Ib), (proj1 (cast_spec D R _ _ U1) Ic) in E3.
        rewrite (proj1 (cast_spec D R _ _ T2) Ib), (proj1 (cast_spec D R _ _ U2) Id) in E4.
        unfold cr_shl in E1, E2, E3, E4.
        assert (Q : forall p q r, in_type D R p -> in_type D R q -> 0 <= p <= lim_hi D t -> 0 <= q <= lim_hi D u ->
             cr_shift 4 true D R (CVal p) (CVal q) = Ok r -> exists v, r = CVal v).
        { intros p q r Hp Hq P0 Q0 F. destruct (cr_shl_nonneg 3 D R p q Hp Hq ltac:(lia) ltac:(lia)) as (k & F' & Ok' & Rk).
          rewrite F' in F. injection F as <-. destruct k as [v|e]; [eauto|].
          pose proof (mul_pow_le p (lim_hi D t) q (lim_hi D u) ltac:(lia) ltac:(lia) ltac:(lia) ltac:(lia)).
          pose proof (pow2_pos q ltac:(lia)).
          destruct e; cbn in Rk; try tauto; nia. }
        intros r Hr. destruct Hr as [<-|[<-|[<-|[<-|[]]]]].
        + apply (Q _ _ _ Ia Ic ltac:(lia) ltac:(lia) E1).
        + apply (Q _ _ _ Ia Id ltac:(lia) ltac:(lia) E2).
        + apply (Q _ _ _ Ib Ic ltac:(lia) ltac:(lia) E3).
        + apply (Q _ _ _ Ib Id ltac:(lia) ltac:(lia) E4). }
    destruct Hcase as [[Hn ->]|(Nh & N1 & N2 & I1 & I2 & _)].
    + destruct (V r1 ltac:(pick)) as (v & ->). cbn in Hn. tauto.
    + destruct (V _ I1) as (v1 & ->). destruct (V _ I2) as (v2 & ->). reflexivity.
Qed.

Lemma shl_checked_iff : forall D t u oi, wf_operand D t -> wf_operand D u ->
  op_static D Shl t u = Some oi -> 0 <= lim_lo D t -> 0 <= lim_lo D u ->
  (oi_checked oi = false <-> lim_hi D t = 0 \/ lim_hi D t * 2 ^ lim_hi D u <= hi D (oi_R oi)).
Proof.
  intros D t u oi Ht Hu Ho Ha Hc. unfold op_static in Ho.
  destruct (common_pp t u) as [P|]; [|discriminate]. destruct (common_ep t u) as [E|]; [|discriminate].
  destruct (result_base_type D P (PArith Shl) t u) as [R|]; [|discriminate].
  destruct (r_type_interval D Shl R t u) as [ri|] eqn:Hri; [|discriminate]. injection Ho as <-. cbn [oi_checked oi_R].
  apply shl_elision_nonneg; assumption.
Qed.
