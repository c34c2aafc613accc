(** ShrOutcomeFacts.v -- every outcome of >> on safe types. Proofs only. *)
From Coq Require Import ZArith Bool List Lia.
From Verif Require Import Base CType Spec CTypeFacts Utility UtilityFacts SafeCompare
  CheckedInteger CheckedIntegerFacts CheckedResultOps CheckedResultFacts Interval IntervalFacts
  IntervalOpsFacts ExceptionPolicy Promotion SafeBase SafeSpec SafeFacts SafeDivFacts SafeShiftFacts OutcomeSpec.
Import ListNotations.
Local Open Scope Z_scope.

Lemma corners_all : forall D R g ti ui ri,
  (forall p q r, cr_ok D R p -> cr_ok D R q -> g p q = Ok r -> cr_ok D R r) ->
  cr_ok D R (il ti) -> cr_ok D R (iu ti) -> cr_ok D R (il ui) -> cr_ok D R (iu ui) ->
  minmax_of D R (corners g ti ui) = Ok ri ->
  exists r1 r2 r3 r4, g (il ti) (il ui) = Ok r1 /\ g (il ti) (iu ui) = Ok r2
    /\ g (iu ti) (il ui) = Ok r3 /\ g (iu ti) (iu ui) = Ok r4
    /\ ((~ num r1 /\ ri = mkI r1 r1)
        \/ (num r1 /\ num (il ri) /\ num (iu ri) /\ In (il ri) [r1; r2; r3; r4] /\ In (iu ri) [r1; r2; r3; r4]
            /\ forall c, In c [r1; r2; r3; r4] -> num c -> cle (il ri) c /\ cle c (iu ri))).
Proof.
  intros D R g ti ui ri Hg H1 H2 H3 H4 H. unfold minmax_of, corners in H. cbn [seq_res] in H.
  destruct (g (il ti) (il ui)) as [r1|] eqn:E1; cbn [rbind] in H; [|discriminate].
  destruct (g (il ti) (iu ui)) as [r2|] eqn:E2; cbn [rbind] in H; [|discriminate].
  destruct (g (iu ti) (il ui)) as [r3|] eqn:E3; cbn [rbind] in H; [|discriminate].
  destruct (g (iu ti) (iu ui)) as [r4|] eqn:E4; cbn [rbind] in H; [|discriminate].
  exists r1, r2, r3, r4. do 4 (split; [reflexivity|]).
  destruct (minmax_spec D R r1 [r2; r3; r4]) as (i & Hi & Hs).
  { apply Forall_cons; [exact (Hg _ _ _ H1 H3 E1)|]. apply Forall_cons; [exact (Hg _ _ _ H1 H4 E2)|].
    apply Forall_cons; [exact (Hg _ _ _ H2 H3 E3)|]. apply Forall_cons; [exact (Hg _ _ _ H2 H4 E4)|]. apply Forall_nil. }
  rewrite Hi in H. injection H as <-.
  destruct Hs as [[Hn ->]|(N1 & N2 & _ & _ & _ & I1 & I2 & Nh & Hin)]; [left|right]; auto 10.
Qed.

(** >> with one operand that is an error *)
Lemma shr_gm : forall D R q r, cr_ok D R q -> cr_shr D R (CErr positive_overflow_error) q = Ok r ->
  r = CErr positive_overflow_error \/ ~ num r.
Proof.
  intros D R q r Hq E. unfold cr_shr in E. cbn [cr_shift] in E.
  pflagh q Hq E; cbn in E; injection E as <-; cbn; tauto.
Qed.
Lemma shr_gm_val : forall D R q r, in_type D R q -> cr_shr D R (CErr positive_overflow_error) (CVal q) = Ok r ->
  r = CErr positive_overflow_error.
Proof.
  intros D R q r Hq E. unfold cr_shr in E. cbn [cr_shift] in E. rewrite to_pflag_val in E by assumption.
  destruct (q <? 0); [cbn in E; congruence|]. destruct (0 <? q); cbn in E; congruence.
Qed.
Lemma shr_dom : forall D R q r, cr_ok D R q -> cr_shr D R (CErr domain_error) q = Ok r -> ~ num r.
Proof.
  intros D R q r Hq E. unfold cr_shr in E. cbn [cr_shift] in E.
  pflagh q Hq E; cbn in E; injection E as <-; cbn; tauto.
Qed.
Lemma shr_by_dom : forall D R p r, cr_ok D R p -> cr_shr D R p (CErr domain_error) = Ok r ->
  (p = CVal 0 /\ r = CVal 0) \/ (p <> CVal 0 /\ ~ num r).
Proof.
  intros D R p r Hp E. unfold cr_shr in E. cbn [cr_shift] in E.
  pflagh p Hp E; cbn in E; injection E as <-; cbn; auto; right; (split; [intros C; try (rewrite C in *; congruence)|tauto]).
  - assert (v = 0) by congruence. lia.
  - assert (v = 0) by congruence. lia.
Qed.
Lemma shr_zero : forall D R q r, cr_ok D R q -> cr_shr D R (CVal 0) q = Ok r -> r = CVal 0.
Proof.
  intros D R q r Hq E. unfold cr_shr in E. cbn [cr_shift] in E.
  rewrite to_pflag_val in E by apply zero_in. cbn [Z.ltb Z.compare] in E.
  pflagh q Hq E; cbn in E; congruence.
Qed.

Lemma shr_elision : forall D R t u ri, wf_operand D t -> wf_operand D u ->
  r_type_interval D Shr R t u = Ok ri ->
  (exception_possible D Shr R t u ri = false <-> shr_unchecked D R t u).
Proof.
  intros D R t u ri Ht Hu H.
  destruct (lim_ok D R t u Ht Hu) as (Oa & Ob & Oc & Od).
  cbn [r_type_interval] in H. unfold i_shr in H.
  destruct (corners_all D R (cr_shr D R) (lim_interval D R t) (lim_interval D R u) ri (cr_shift_ok 4 false D R) Oa Ob Oc Od H)
    as (r1 & r2 & r3 & r4 & E1 & E2 & E3 & E4 & Hcase).
  unfold lim_interval in E1, E2, E3, E4. cbn [il iu] in E1, E2, E3, E4.
  pose proof Ht as (T1 & T2 & T3). pose proof Hu as (U1 & U2 & U3).
  pose proof (digits_pos D R) as Hdp. pose proof (lo_le_0 D R) as Hl0. pose proof (hi_ge_127 D R) as Hh0.
  pose proof (digits_in D R) as Hdi.
  unfold exception_possible, lim_interval, shr_unchecked. cbn [il iu].
  rewrite (conv_id D R (digits D R)) by apply digits_in. unfold cr_gt. split.
  - intros X.
    apply tri_or_false in X. destruct X as [X X5]. apply tri_or_false in X. destruct X as [X X4].
    apply tri_or_false in X. destruct X as [X X3]. apply tri_or_false in X. destruct X as [X1 X2].
    assert (Xu : exception (iu ri) = false) by (destruct (exception (iu ri)); [discriminate|reflexivity]).
    assert (Xl : exception (il ri) = false) by (destruct (exception (il ri)); [discriminate|reflexivity]).
    clear X4 X5.
    destruct Hcase as [[Hn ->]|(Nh & N1 & N2 & I1 & I2 & Hin)].
    { cbn [il] in Xl. apply exc_false in Xl. destruct Xl as [v ->]. cbn in Hn. tauto. }
    assert (Hnum : forall r, In r [r1; r2; r3; r4] -> r <> CErr positive_overflow_error).
    { intros r Hr ->. apply exc_false in Xu, Xl. destruct Xu as [vh X1'], Xl as [vl X2'].
      destruct (Hin _ Hr I) as [A B]. rewrite X1', X2' in *. cbn in *. tauto. }
    assert (Hdd : lim_hi D u <= digits D R).
    { destruct (cast_cases D R _ _ U2) as [(Ic & Ec)|[(? & Ec)|[(? & ? & Ec)|(? & ? & ? & Ec)]]];
        rewrite Ec in X1; [| discriminate |lia|lia].
      rewrite cr_lt_val in X1 by auto using digits_in. destruct (Z.ltb_spec (digits D R) (lim_hi D u)); [discriminate|lia]. }
    assert (Ha : in_type D R (lim_lo D t) /\ 0 <= lim_lo D t).
    { destruct (cast_cases D R _ _ T1) as [(Ia & Ea)|[(? & Ea)|[(? & ? & Ea)|(? & ? & ? & Ea)]]]; rewrite Ea in *.
      - split; [assumption|]. rewrite cr_lt_val in X2 by auto using zero_in.
        destruct (Z.ltb_spec (lim_lo D t) 0); [discriminate|lia].
      - exfalso. destruct (shr_gm _ _ _ _ Oc E1); [apply (Hnum r1); [pick|assumption]|tauto].
      - discriminate X2.
      - exfalso. exact (shr_dom _ _ _ _ Oc E1 Nh). }
    destruct Ha as [Ia Ha]. split; [exact Hdd|]. split; [exact Ha|].
    assert (Hb : cast D R (base_ty t) (lim_hi D t) = CErr positive_overflow_error \/ in_type D R (lim_hi D t)).
    { destruct (cast_cases D R _ _ T2) as [(Ib & Eb)|[(? & Eb)|[(? & ? & Eb)|(? & ? & ? & Eb)]]]; auto; lia. }
    destruct (cast_cases D R _ _ U1) as [(Ic & Ec)|[(? & Ec)|[(? & ? & Ec)|(? & ? & Hs & Ec)]]]; rewrite Ec in *.
    + left. rewrite cr_lt_val in X3 by auto using zero_in. destruct (Z.ltb_spec (lim_lo D u) 0); [discriminate|].
      split; [assumption|]. destruct Hb as [Eb|]; [|assumption]. exfalso. rewrite Eb in E3.
      apply (Hnum r3); [pick|]. exact (shr_gm_val _ _ _ _ Ic E3).
    + unfold in_type in Hdi. lia.
    + discriminate X3.
    + right. split; [exact Hs|].
      destruct (shr_by_dom _ _ _ _ Oa E1) as [[Ea _]|[_ C]]; [|tauto].
      apply cast_val in Ea; [|assumption]. split; [lia|]. split; [lia|].
      destruct Hb as [Eb|]; [|auto]. right. rewrite Eb in *.
      destruct (Z_lt_le_dec (lim_hi D u) 0) as [|Hd0]; [assumption|]. exfalso.
      assert (Id : in_type D R (lim_hi D u)) by (unfold in_type in *; lia).
      rewrite (proj1 (cast_spec D R _ _ U2) Id) in E4.
      apply (Hnum r4); [pick|]. exact (shr_gm_val _ _ _ _ Id E4).
  - intros (Hdd & Ha & Hc).
    assert (X2 : tri_bool (cr_lt D R (cast D R (base_ty t) (lim_lo D t)) (CVal 0)) = false
       /\ tri_bool (cr_lt D R (CVal (digits D R)) (cast D R (base_ty u) (lim_hi D u))) = false
       /\ tri_bool (cr_lt D R (cast D R (base_ty u) (lim_lo D u)) (CVal 0)) = false).
    { splits.
      - destruct (cast_cases D R _ _ T1) as [(Ia & ->)|[(? & ->)|[(? & ? & ->)|(? & ? & ? & ->)]]]; try reflexivity; [|lia].
        rewrite cr_lt_val by auto using zero_in. destruct (Z.ltb_spec (lim_lo D t) 0); [lia|reflexivity].
      - destruct (cast_cases D R _ _ U2) as [(Ia & ->)|[(? & ->)|[(? & ? & ->)|(? & ? & ? & ->)]]]; try reflexivity.
        + rewrite cr_lt_val by assumption. destruct (Z.ltb_spec (digits D R) (lim_hi D u)); [lia|reflexivity].
        + unfold in_type in Hdi. lia.
      - destruct (cast_cases D R _ _ U1) as [(Ia & E)|[(? & E)|[(? & ? & E)|(? & ? & ? & E)]]]; rewrite E; try reflexivity.
        + destruct Hc as [[Hc _]|(Hs & _ & Hc & _)].
          * rewrite cr_lt_val by auto using zero_in. destruct (Z.ltb_spec (lim_lo D u) 0); [lia|reflexivity].
          * pose proof (lo_unsigned D R Hs). unfold in_type in Ia. lia.
        + destruct Hc as [[Hc _]|(Hs & _)]; [lia|]. pose proof (lo_unsigned D R Hs). lia. }
    destruct X2 as (X2 & X1 & X3).
    assert (V : exists vl vh, ri = mkI (CVal vl) (CVal vh)).
    { assert (Q : forall r, In r [r1; r2; r3; r4] -> num r -> exists v, r = CVal v).
      { destruct Hc as [[Hc Ib]|(Hs & Hz & Hc & Hb)].
        - assert (Ia : in_type D R (lim_lo D t)) by (unfold in_type in *; lia).
          assert (Ic : in_type D R (lim_lo D u)) by (unfold in_type in *; lia).
          assert (Id : in_type D R (lim_hi D u)) by (unfold in_type in *; lia).
          rewrite (proj1 (cast_spec D R _ _ T1) Ia), (proj1 (cast_spec D R _ _ U1) Ic) in E1.
          rewrite (proj1 (cast_spec D R _ _ T1) Ia), (proj1 (cast_spec D R _ _ U2) Id) in E2.
          rewrite (proj1 (cast_spec D R _ _ T2) Ib), (proj1 (cast_spec D R _ _ U1) Ic) in E3.
          rewrite (proj1 (cast_spec D R _ _ T2) Ib), (proj1 (cast_spec D R _ _ U2) Id) in E4.
          unfold cr_shr in E1, E2, E3, E4.
          assert (G : forall p q r, in_type D R p -> in_type D R q -> 0 <= p -> 0 <= q ->
             cr_shift 4 false D R (CVal p) (CVal q) = Ok r -> exists v, r = CVal v).
          { intros p q r Hp Hq P0 Q0 E. destruct (cr_shr_nonneg 3 D R p q Hp Hq P0 Q0) as [F|[F _]]; rewrite F in E;
              [injection E as <-; eauto|discriminate]. }
          intros r Hr _. destruct Hr as [<-|[<-|[<-|[<-|[]]]]].
          + apply (G _ _ _ Ia Ic Ha Hc E1).
          + apply (G _ _ _ Ia Id Ha ltac:(lia) E2).
          + apply (G _ _ _ Ib Ic ltac:(lia) Hc E3).
          + apply (G _ _ _ Ib Id ltac:(lia) ltac:(lia) E4).
        - pose proof (lo_unsigned D R Hs) as L0.
          assert (Ec : cast D R (base_ty u) (lim_lo D u) = CErr domain_error).
          { rewrite (proj2 (proj2 (cast_spec D R _ _ U1))) by lia. rewrite Hs. reflexivity. }
          rewrite Hz in *. assert (Ea : cast D R (base_ty t) 0 = CVal 0) by (apply cast_spec; [assumption|apply zero_in]).
          rewrite Ea, Ec in *.
          pose proof (shr_zero _ _ _ _ Oc E1) as ->. pose proof (shr_zero _ _ _ _ Od E2) as ->.
          intros r Hr Nr. destruct Hr as [<-|[<-|[<-|[<-|[]]]]]; eauto.
          + destruct (shr_by_dom _ _ _ _ Ob E3) as [[_ ->]|[_ C]]; [eauto|tauto].
          + destruct Hb as [Ib|Hd].
            * rewrite (proj1 (cast_spec D R _ _ T2) Ib) in E4.
              destruct (Z_lt_le_dec (lim_hi D u) 0) as [Hn|Hp].
              -- rewrite (proj2 (proj2 (cast_spec D R _ _ U2))) in E4 by lia. rewrite Hs in E4.
                 destruct (shr_by_dom D R (CVal (lim_hi D t)) _ Ib E4) as [[_ ->]|[_ C]]; [eauto|tauto].
              -- assert (Id : in_type D R (lim_hi D u)) by (unfold in_type in *; lia).
                 rewrite (proj1 (cast_spec D R _ _ U2) Id) in E4. unfold cr_shr in E4.
                 destruct (cr_shr_nonneg 3 D R _ _ Ib Id ltac:(lia) Hp) as [F|[F _]]; rewrite F in E4;
                   [injection E4 as <-; eauto|discriminate].
            * rewrite (proj2 (proj2 (cast_spec D R _ _ U2))) in E4 by lia. rewrite Hs in E4.
              destruct (shr_by_dom _ _ _ _ Ob E4) as [[_ ->]|[_ C]]; [eauto|tauto]. }
      assert (N1 : num r1).
      { destruct Hc as [[Hc Ib]|(Hs & Hz & Hc & Hb)].
        - assert (Ia : in_type D R (lim_lo D t)) by (unfold in_type in *; lia).
          assert (Ic : in_type D R (lim_lo D u)) by (unfold in_type in *; lia).
          rewrite (proj1 (cast_spec D R _ _ T1) Ia), (proj1 (cast_spec D R _ _ U1) Ic) in E1. unfold cr_shr in E1.
          destruct (cr_shr_nonneg 3 D R _ _ Ia Ic Ha Hc) as [F|[F _]]; rewrite F in E1; [injection E1 as <-; exact I|discriminate].
        - rewrite Hz in E1. assert (Ea : cast D R (base_ty t) 0 = CVal 0) by (apply cast_spec; [rewrite <- Hz; assumption|apply zero_in]).
          rewrite Ea in E1. rewrite (shr_zero _ _ _ _ Oc E1). exact I. }
      destruct Hcase as [[Hn _]|(_ & N2 & N3 & I1 & I2 & _)]; [tauto|].
      destruct ri as [l h]. cbn [il iu] in *.
      destruct (Q l I1 N2) as (vl & ->). destruct (Q h I2 N3) as (vh & ->). eauto. }
    destruct V as (vl & vh & ->). cbn [il iu exception tri_of_bool].
    destruct (cr_lt D R (CVal (digits D R)) (cast D R (base_ty u) (lim_hi D u))), (cr_lt D R (cast D R (base_ty t) (lim_lo D t)) (CVal 0)),
      (cr_lt D R (cast D R (base_ty u) (lim_lo D u)) (CVal 0)); try discriminate; reflexivity.
Qed.

Lemma shr_outcome : forall D t u x y s m,
  wf_operand D t -> wf_operand D u -> holds D t x -> holds D u y ->
  binary D Shr t u x y = Some (s, m) -> throws_arithmetic (sE s) -> throws_shift (sE s) ->
  let R := st s in let bits := width D (promote D R) in
  (shr_unchecked D R t u ->
     let x' := conv D R x in let y' := conv D R y in
     (0 <= y' < bits -> returns m (x' / 2 ^ y')) /\ (~ 0 <= y' < bits -> m = ([], Undef)))
  /\ (~ shr_unchecked D R t u ->
      (~ (in_type D R x /\ in_type D R y) -> throws_arith m)
      /\ (in_type D R x /\ in_type D R y ->
          (x < 0 \/ y < 0 \/ digits D R < y -> throws_impl m)
          /\ (0 <= x -> 0 <= y <= digits D R -> y < bits -> returns m (x / 2 ^ y))
          /\ (0 <= x -> 0 <= y <= digits D R -> bits <= y -> m = ([], Undef)))).
Proof.
  intros D t u x y s m Ht Hu Hx Hy Hb HE HS.
  destruct (binary_inv _ _ _ _ _ _ _ _ Hb) as (P & E & R & ri & HP & HEp & HR & Hri & -> & Hm).
  cbn [sE] in HE, HS. cbn [st smin smax].
  pose proof (shr_elision D R t u ri Ht Hu Hri) as El.
  destruct Hm as [[Hx0 ->]|[Hx1 (W & casts & HW & Hc & _ & ->)]].
  - split; [|intros C; tauto]. intros _. cbv zeta. unfold returns, unchecked_run. cbn [raw_op]. unfold c_shr.
    set (y' := conv D R y). set (x' := conv D R x).
    destruct ((y' <? 0) || (width D (promote D R) <=? y')) eqn:B.
    + split; [|reflexivity]. intros C. apply orb_true_iff in B. destruct B as [B|B]; [apply Z.ltb_lt in B|apply Z.leb_le in B]; lia.
    + apply orb_false_iff in B. destruct B as [B1 B2]. apply Z.ltb_ge in B1. apply Z.leb_gt in B2.
      split; [|intros C; exfalso; apply C; lia]. intros _. cbn [mlift]. rewrite mbind_ret.
      assert (I' : in_type D R (x' / 2 ^ y')).
      { destruct (proj1 El Hx0) as (_ & Ht0 & Hc).
        apply div_pow_in; [apply conv_range| |assumption].
        unfold x'. destruct Hc as [(_ & Ib)|(Hs & _)].
        - rewrite conv_id by (pose proof (lo_le_0 D R); unfold holds, in_type in *; lia). unfold holds in Hx. lia.
        - pose proof (conv_range D R x) as Cr. pose proof (lo_unsigned D R Hs). unfold in_type in Cr. lia. }
      rewrite conv_id by assumption. reflexivity.
  - split; [intros C; apply El in C; congruence|]. intros _.
    cbn [work_type] in HW. injection HW as <-.
    destruct (casting_helper_throws _ _ _ _ _ _ _ _ HE Ht Hu Hx Hy Hc) as [(Ix & Iy & ->)|[Hn Tc]].
    + split; [tauto|]. intros _. unfold checked_run. rewrite mbind_ret. cbn [fst snd checked_op].
      rewrite right_shift_spec by assumption.
      assert (Ti : forall e (k : checked -> M Z), shift_err e -> throws_impl (mbind (dispatch_and_return E (CErr e)) k)).
      { intros. apply mbind_throws_impl, dar_impl; assumption. }
      destruct (Z.ltb_spec y 0). { splits; try lia. intros _. cbn [mlift]. rewrite mbind_ret. apply Ti. unfold shift_err; auto. }
      destruct (Z.ltb_spec (digits D R) y). { splits; try lia. intros _. cbn [mlift]. rewrite mbind_ret. apply Ti. unfold shift_err; auto. }
      destruct (Z.ltb_spec x 0). { splits; try lia. intros _. cbn [mlift]. rewrite mbind_ret. apply Ti. unfold shift_err; auto. }
      splits; [lia| |].
      * intros _ _ Hw. destruct (Z.ltb_spec y (width D (promote D R))); [|lia].
        pose proof (div_pow_in D R x y Ix ltac:(lia) ltac:(lia)) as Iz.
        cbn [mlift]. rewrite mbind_ret, dar_val, mbind_ret, conv_id by assumption. reflexivity.
      * intros _ _ Hw. destruct (Z.ltb_spec y (width D (promote D R))); [lia|]. reflexivity.
    + split; [|tauto]. intros _. apply mbind_throws. assumption.
Qed.
