(** DivOutcomeFacts.v -- every outcome of / and % on safe types. Proofs only. *)
From Coq Require Import ZArith Bool List Lia.
From Verif Require Import Base CType Spec CTypeFacts Utility UtilityFacts SafeCompare
  CheckedInteger CheckedIntegerFacts CheckedResultOps CheckedResultFacts Interval IntervalFacts
  IntervalOpsFacts ExceptionPolicy Promotion SafeBase SafeSpec SafeFacts SafeDivFacts SafeShiftFacts
  SafePortModFacts OutcomeSpec ShrOutcomeFacts.
Import ListNotations.
Local Open Scope Z_scope.

Lemma width_digits : forall D T T', csigned D T = csigned D T' -> width D T <= width D T' -> digits D T <= digits D T'.
Proof. intros D T T'; destruct D, T, T'; vm_compute; congruence. Qed.
Lemma digits_cap : forall D T, digits D T <= if csigned D T then 63 else 64.
Proof. intros D T; destruct D, T; vm_compute; congruence. Qed.

Lemma div_temp_work : forall D R T U W, div_temp D R T U = Some W -> div_work D R T U W.
Proof.
  intros D R T U W H. unfold div_temp, div_bits in H.
  assert (digits D (uintmax D) = 64) as E64 by (destruct D; reflexivity). rewrite E64 in H.
  pose proof (digits_cap D R) as CR. pose proof (digits_cap D T) as CT. pose proof (digits_cap D U) as CU.
  unfold div_work. cbv zeta.
  destruct (csigned D R) eqn:S.
  - apply int_t_least_spec in H. destruct H as (A & B & C). splits; [assumption| |].
    + destruct (Z_le_gt_dec (Z.max (digits D R) (Z.max (digits D T) (digits D U))) 63); [left; lia|right].
      intros W' S'. pose proof (digits_cap D W') as CW. rewrite S' in CW. lia.
    + intros W' S' L. apply width_digits; [congruence|]. apply C; [assumption|].
      pose proof (digits_cap D W') as CW. rewrite S' in CW. lia.
  - apply uint_t_least_spec in H. destruct H as (A & B & C). splits; [assumption| |].
    + assert (digits D T <= 64) by (destruct (csigned D T); lia).
      assert (digits D U <= 64) by (destruct (csigned D U); lia). left. lia.
    + intros W' S' L. apply width_digits; [congruence|]. apply C; [assumption|]. lia.
Qed.

Lemma static_of_binary : forall D op t u x y s m oi, binary D op t u x y = Some (s, m) ->
  op_static D op t u = Some oi -> oi_R oi = st s /\ oi_E oi = sE s.
Proof.
  intros D op t u x y s m oi Hb Ho.
  destruct (binary_inv _ _ _ _ _ _ _ _ Hb) as (P & E & R & ri & HP & HEp & HR & Hri & -> & Hm).
  unfold op_static in Ho. rewrite HP, HEp, HR, Hri in Ho. injection Ho as <-. auto.
Qed.

Lemma div_outcome : forall D t u x y s m oi,
  wf_operand D t -> wf_operand D u -> holds D t x -> holds D u y ->
  binary D Div t u x y = Some (s, m) -> throws_arithmetic (sE s) ->
  op_static D Div t u = Some oi ->
  let R := st s in
  (oi_checked oi = true -> exists W, div_work D R (base_ty t) (base_ty u) W
     /\ let good := in_type D W x /\ in_type D W y /\ y <> 0 /\ in_type D W (Z.quot x y) in
        (good -> returns m (conv D R (Z.quot x y))) /\ (~ good -> throws_arith m))
  /\ (oi_checked oi = false ->
        let x' := conv D R x in let y' := conv D R y in
        let good := y' <> 0 /\ in_type D (promote D R) (Z.quot x' y') in
        (good -> returns m (conv D R (Z.quot x' y'))) /\ (~ good -> m = ([], Undef))).
Proof.
  intros D t u x y s m oi Ht Hu Hx Hy Hb HE Ho R0. subst R0.
  destruct (binary_inv _ _ _ _ _ _ _ _ Hb) as (P & E & R & ri & HP & HEp & HR & Hri & -> & Hm).
  cbn [sE] in HE. cbn [st].
  unfold op_static in Ho. rewrite HP, HEp, HR, Hri in Ho. injection Ho as <-. cbn [oi_checked].
  destruct Hm as [[Hx0 ->]|[Hx1 (W & casts & HW & Hc & _ & ->)]].
  - split; [intros C; discriminate (eq_trans (eq_sym C) Hx0)|]. intros _. cbv zeta. unfold returns, unchecked_run. cbn [raw_op].
    pose proof (conv_range D R x) as Rx. pose proof (conv_range D R y) as Ry.
    set (x' := conv D R x) in *. set (y' := conv D R y) in *.
    unfold c_div. cbv zeta. rewrite uac_same, (conv_id D (promote D R) x'), (conv_id D (promote D R) y') by auto using promote_in.
    destruct (Z.eqb_spec y' 0) as [E0|E0]; [split; [tauto|reflexivity]|].
    split.
    + intros [_ I]. rewrite fin_ok by assumption. cbn [mlift]. rewrite mbind_ret. reflexivity.
    + intros N. assert (N' : ~ in_type D (promote D R) (Z.quot x' y')) by tauto.
      unfold fin. destruct (csigned D (promote D R)) eqn:S.
      * destruct (in_range D (promote D R) (Z.quot x' y')) eqn:B; [|reflexivity].
        apply in_range_iff in B. tauto.
      * exfalso. apply N'. pose proof (promote_in D R x' Rx) as Px. pose proof (promote_in D R y' Ry) as Py.
        pose proof (lo_unsigned _ _ S) as L0. unfold in_type in *.
        pose proof (quot_abs x' y' E0). pose proof (Z.quot_pos x' y' ltac:(lia) ltac:(lia)). lia.
  - split; [|intros C; discriminate (eq_trans (eq_sym Hx1) C)]. intros _. cbn [work_type] in HW. exists W.
    split; [apply div_temp_work; assumption|]. cbv zeta. unfold checked_run.
    destruct (casting_helper_throws _ _ _ _ _ _ _ _ HE Ht Hu Hx Hy Hc) as [(Ix & Iy & ->)|[Hn Tc]].
    2:{ split; [tauto|]. intros _. apply mbind_throws. assumption. }
    rewrite mbind_ret. cbn [fst snd checked_op]. destruct (divide_spec D W x y Ix Iy) as [Hz Hnz].
    destruct (Z.eq_dec y 0) as [Y0|Y0].
    { split; [tauto|]. intros _. rewrite (Hz Y0). cbn [mlift]. rewrite mbind_ret. apply mbind_throws.
      apply dar_arith; [assumption|unfold arithmetic_err; auto]. }
    destruct (eoo_cases _ _ _ _ (Hnz Y0)) as [[Hi ->]|[[Hi ->]|[Hi ->]]]; cbn [mlift]; rewrite mbind_ret.
    + split; [|tauto]. intros _. rewrite dar_val, mbind_ret. reflexivity.
    + split; [unfold in_type; lia|]. intros _. apply mbind_throws.
      apply dar_arith; [assumption|unfold arithmetic_err; auto].
    + split; [unfold in_type; lia|]. intros _. apply mbind_throws.
      apply dar_arith; [assumption|unfold arithmetic_err; auto].
Qed.

Lemma mod_outcome : forall D t u x y s m oi,
  wf_operand D t -> wf_operand D u -> holds D t x -> holds D u y ->
  binary D Mod t u x y = Some (s, m) -> throws_arithmetic (sE s) ->
  op_static D Mod t u = Some oi ->
  let R := st s in
  (oi_checked oi = true -> exists W, div_work D R (base_ty t) (base_ty u) W
     /\ let good := in_type D W x /\ in_type D W y /\ y <> 0 in
        let both_lowest := lo D W < 0 /\ x = lo D W /\ y = lo D W in
        (good -> ~ both_lowest -> returns m (conv D R (remainder x y)))
        /\ (good -> both_lowest -> returns m (conv D R x))
        /\ (~ good -> throws_arith m))
  /\ (oi_checked oi = false ->
        let x' := conv D R x in let y' := conv D R y in
        let good := y' <> 0 /\ in_type D (promote D R) (Z.quot x' y') in
        (good -> returns m (remainder x' y')) /\ (~ good -> m = ([], Undef))).
Proof.
  intros D t u x y s m oi Ht Hu Hx Hy Hb HE Ho R0. subst R0.
  destruct (binary_inv _ _ _ _ _ _ _ _ Hb) as (P & E & R & ri & HP & HEp & HR & Hri & -> & Hm).
  cbn [sE] in HE. cbn [st].
  unfold op_static in Ho. rewrite HP, HEp, HR, Hri in Ho. injection Ho as <-. cbn [oi_checked].
  destruct Hm as [[Hx0 ->]|[Hx1 (W & casts & HW & Hc & _ & ->)]].
  - split; [intros C; discriminate (eq_trans (eq_sym C) Hx0)|]. intros _. cbv zeta. unfold returns, unchecked_run. cbn [raw_op].
    pose proof (conv_range D R x) as Rx. pose proof (conv_range D R y) as Ry.
    set (x' := conv D R x) in *. set (y' := conv D R y) in *.
    unfold c_rem. cbv zeta. rewrite uac_same, (conv_id D (promote D R) x'), (conv_id D (promote D R) y') by auto using promote_in.
    destruct (Z.eqb_spec y' 0) as [E0|E0]; [split; [tauto|reflexivity]|].
    split.
    + intros [_ I]. rewrite fin_ok by assumption. cbn [rbind mlift]. rewrite mbind_ret.
      rewrite <- remainder_rem by assumption. rewrite conv_id by (apply remainder_in; assumption). reflexivity.
    + intros N. assert (N' : ~ in_type D (promote D R) (Z.quot x' y')) by tauto.
      unfold fin. destruct (csigned D (promote D R)) eqn:S.
      * destruct (in_range D (promote D R) (Z.quot x' y')) eqn:B; [|reflexivity].
        apply in_range_iff in B. tauto.
      * exfalso. apply N'. pose proof (promote_in D R x' Rx) as Px. pose proof (promote_in D R y' Ry) as Py.
        pose proof (lo_unsigned _ _ S) as L0. unfold in_type in *.
        pose proof (quot_abs x' y' E0). pose proof (Z.quot_pos x' y' ltac:(lia) ltac:(lia)). lia.
  - split; [|intros C; discriminate (eq_trans (eq_sym Hx1) C)]. intros _. cbn [work_type] in HW. exists W.
    split; [apply div_temp_work; assumption|]. cbv zeta. unfold checked_run.
    destruct (casting_helper_throws _ _ _ _ _ _ _ _ HE Ht Hu Hx Hy Hc) as [(Ix & Iy & ->)|[Hn Tc]].
    2:{ splits; try tauto. intros _. apply mbind_throws. assumption. }
    rewrite mbind_ret. cbn [fst snd checked_op].
    destruct (Z.eq_dec y 0) as [Y0|Y0].
    { subst y. splits; try tauto. intros _. rewrite modulus_zero by assumption. cbn [mlift]. rewrite mbind_ret. apply mbind_throws.
      apply dar_arith; [assumption|unfold arithmetic_err; auto]. }
    splits; [| |tauto].
    + intros _ N. rewrite modulus_spec; auto.
      * cbn [mlift]. rewrite mbind_ret, dar_val, mbind_ret. reflexivity.
      * intros (S1 & S2 & S3). apply N. pose proof (hi_pos_lo D W S1). pose proof (hi_ge_127 D W). lia.
    + intros _ (L & -> & ->). assert (S1 : csigned D W = true).
      { destruct (csigned D W) eqn:S; [reflexivity|]. pose proof (lo_unsigned _ _ S). lia. }
      rewrite modulus_min_min by assumption. cbn [mlift]. rewrite mbind_ret, dar_val, mbind_ret. reflexivity.
Qed.

(** when / and % of ranges that R holds are checked *)
Lemma vals_unchecked : forall D R g a b c d ri,
  (forall p q r, cr_ok D R p -> cr_ok D R q -> g p q = Ok r -> cr_ok D R r) ->
  in_type D R a -> in_type D R b -> in_type D R c -> in_type D R d ->
  (forall p q, (p = a \/ p = b) -> (q = c \/ q = d) -> exists v, g (CVal p) (CVal q) = Ok (CVal v)) ->
  minmax_of D R (corners g (mkI (CVal a) (CVal b)) (mkI (CVal c) (CVal d))) = Ok ri ->
  exception (il ri) = false /\ exception (iu ri) = false.
Proof.
  intros D R g a b c d ri Hg Ha Hb Hc Hd Hv H.
  destruct (corners_all D R g (mkI (CVal a) (CVal b)) (mkI (CVal c) (CVal d)) ri Hg) as (r1 & r2 & r3 & r4 & E1 & E2 & E3 & E4 & Hcase);
    try assumption.
  cbn [il iu] in E1, E2, E3, E4.
  destruct (Hv a c ltac:(auto) ltac:(auto)) as (v1 & V1). destruct (Hv a d ltac:(auto) ltac:(auto)) as (v2 & V2).
  destruct (Hv b c ltac:(auto) ltac:(auto)) as (v3 & V3). destruct (Hv b d ltac:(auto) ltac:(auto)) as (v4 & V4).
  rewrite V1 in E1. rewrite V2 in E2. rewrite V3 in E3. rewrite V4 in E4.
  injection E1 as <-. injection E2 as <-. injection E3 as <-. injection E4 as <-.
  assert (V : forall r, In r [CVal v1; CVal v2; CVal v3; CVal v4] -> exception r = false).
  { intros r Hr. destruct Hr as [<-|[<-|[<-|[<-|[]]]]]; reflexivity. }
  destruct Hcase as [[Hn ->]|(_ & _ & _ & I1 & I2 & _)]; [split; reflexivity|]. split; apply V; assumption.
Qed.

Lemma lim_vals : forall D R o, wf_operand D o -> in_type D R (lim_lo D o) -> in_type D R (lim_hi D o) ->
  lim_interval D R o = mkI (CVal (lim_lo D o)) (CVal (lim_hi D o)).
Proof.
  intros D R o (W1 & W2 & W3) H1 H2. unfold lim_interval.
  rewrite (proj1 (cast_spec D R _ _ W1) H1), (proj1 (cast_spec D R _ _ W2) H2). reflexivity.
Qed.

Lemma not_zero_excluded : forall D R c d, in_type D R c -> in_type D R d -> c <= d -> 0 < c \/ d < 0 ->
  tri_bool (includes_pt D R (mkI (CVal c) (CVal d)) (CVal 0)) = false.
Proof.
  intros D R c d Hc Hd Hcd H. unfold includes_pt, cr_le. cbn [il iu]. rewrite !cr_lt_val by auto using zero_in.
  destruct (Z.ltb_spec 0 c), (Z.ltb_spec d 0); cbn; try reflexivity; lia.
Qed.

Lemma div_elision : forall D R t u ri, wf_operand D t -> wf_operand D u ->
  in_type D R (lim_lo D t) -> in_type D R (lim_hi D t) -> in_type D R (lim_lo D u) -> in_type D R (lim_hi D u) ->
  r_type_interval D Div R t u = Ok ri ->
  (exception_possible D Div R t u ri = false <->
   (0 < lim_lo D u \/ lim_hi D u < 0) /\ ~ (lo D R < 0 /\ lim_lo D t = lo D R /\ lim_hi D u = -1)).
Proof.
  intros D R t u ri Ht Hu Ia Ib Ic Id H. pose proof Ht as (T1 & T2 & T3). pose proof Hu as (U1 & U2 & U3).
  assert (Ft : fits D R t) by (unfold fits, in_type in *; lia).
  assert (Fu : fits D R u) by (unfold fits, in_type in *; lia).
  split.
  - intros X. destruct (div_fits D R t u ri Ht Hu Ft Fu H) as (_ & _ & Hunc). specialize (Hunc X). split.
    + destruct (Z_lt_le_dec 0 (lim_lo D u)); [auto|]. destruct (Z_lt_le_dec (lim_hi D u) 0); [auto|].
      destruct (Hunc (lim_lo D t) 0) as (N & _); [unfold holds; lia|unfold holds; lia|lia].
    + intros (L & E1 & E2). destruct (Hunc (lim_lo D t) (-1)) as (_ & _ & _ & _ & I); [unfold holds; lia|unfold holds; lia|].
      rewrite E1, quot_neg1 in I.
      assert (S : csigned D R = true).
      { destruct (csigned D R) eqn:S; [reflexivity|]. pose proof (lo_unsigned _ _ S). lia. }
      pose proof (hi_pos_lo D R S). unfold in_type in I. lia.
  - intros [N0 Nm]. cbn [r_type_interval] in H. unfold div_interval in H.
    rewrite (lim_vals D R t), (lim_vals D R u) in H by assumption.
    rewrite (proj2 (nonzero_vals D R _ _ Ic Id U3) N0) in H. unfold i_div in H.
    destruct (tri_bool (excludes_pt _ _ _ _)); [|discriminate].
    destruct (vals_unchecked D R (cr_div D R) (lim_lo D t) (lim_hi D t) (lim_lo D u) (lim_hi D u) ri) as [X1 X2]; try assumption.
    + intros p q r Hp Hq E. destruct (cr_div_total D R p q Hp Hq) as (k & E' & O & _). congruence.
    + intros p q Hp Hq.
      assert (Ip : in_type D R p) by (destruct Hp as [->| ->]; assumption).
      assert (Iq : in_type D R q) by (destruct Hq as [->| ->]; assumption).
      assert (Q0 : q <> 0) by (destruct Hq as [->| ->]; lia).
      destruct (cr_div_vals D R p q Ip Iq Q0) as (k & E & _ & S).
      assert (Iz : in_type D R (Z.quot p q)).
      { apply quot_range; try assumption. intros (Sg & Ep & Eq). apply Nm.
        pose proof (hi_pos_lo D R Sg). pose proof (hi_ge_127 D R).
        unfold in_type in *. destruct Hp as [->| ->], Hq as [->| ->]; lia. }
      exists (Z.quot p q). rewrite E. destruct k as [v|e]; cbn in S; [congruence|].
      exfalso. unfold in_type in Iz. destruct e; cbn in S; try tauto; lia.
    + cbn [exception_possible]. rewrite (lim_vals D R u) by assumption.
      rewrite not_zero_excluded by assumption. rewrite X1, X2. reflexivity.
Qed.

Lemma mod_elision : forall D R t u ri, wf_operand D t -> wf_operand D u ->
  in_type D R (lim_lo D t) -> in_type D R (lim_hi D t) -> in_type D R (lim_lo D u) -> in_type D R (lim_hi D u) ->
  r_type_interval D Mod R t u = Ok ri ->
  (exception_possible D Mod R t u ri = false <-> 0 < lim_lo D u \/ lim_hi D u < 0).
Proof.
  intros D R t u ri Ht Hu Ia Ib Ic Id H. pose proof Ht as (T1 & T2 & T3). pose proof Hu as (U1 & U2 & U3).
  assert (Ft : fits D R t) by (unfold fits, in_type in *; lia).
  assert (Fu : fits D R u) by (unfold fits, in_type in *; lia).
  split.
  - intros X. pose proof (mod_fits_unchecked D R t u ri Ht Hu Ft Fu H X) as Hunc.
    destruct (Z_lt_le_dec 0 (lim_lo D u)); [auto|]. destruct (Z_lt_le_dec (lim_hi D u) 0); [auto|].
    destruct (Hunc (lim_lo D t) 0) as (N & _); [unfold holds; lia|unfold holds; lia|lia].
  - intros N0. cbn [r_type_interval] in H. unfold mod_interval in H.
    rewrite (lim_vals D R t), (lim_vals D R u) in H by assumption.
    rewrite (proj2 (nonzero_vals D R _ _ Ic Id U3) N0) in H. unfold i_mod in H.
    destruct (tri_bool (excludes_pt _ _ _ _)); [|discriminate].
    destruct (vals_unchecked D R (cr_mod D R) (lim_lo D t) (lim_hi D t) (lim_lo D u) (lim_hi D u) ri) as [X1 X2]; try assumption.
    + intros p q r Hp Hq E. destruct (cr_mod_ok D R p q Hp Hq) as (k & E' & O). congruence.
    + intros p q Hp Hq.
      assert (Ip : in_type D R p) by (destruct Hp as [->| ->]; assumption).
      assert (Iq : in_type D R q) by (destruct Hq as [->| ->]; assumption).
      assert (Q0 : q <> 0) by (destruct Hq as [->| ->]; lia).
      assert (Dc : (lo D R < 0 /\ p = lo D R /\ q = lo D R) \/ ~ (lo D R < 0 /\ p = lo D R /\ q = lo D R)) by lia.
      destruct Dc as [(L & -> & ->)|Nl]; [|destruct (cr_mod_vals D R p q Ip Iq Q0 Nl) as [E _]; eauto].
      exists (lo D R). unfold cr_mod. rewrite !to_pflag_val by assumption.
      assert ((lo D R <? 0) = true) as -> by lia. unfold lookup; cbn [pidx nth mod_table rbind cr_value].
      apply modulus_min_min. destruct (csigned D R) eqn:S; [reflexivity|]. pose proof (lo_unsigned _ _ S). lia.
    + cbn [exception_possible]. rewrite (lim_vals D R u) by assumption.
      rewrite not_zero_excluded by assumption. rewrite X1, X2. reflexivity.
Qed.

Lemma static_inv : forall D op t u oi, op_static D op t u = Some oi ->
  exists ri, r_type_interval D op (oi_R oi) t u = Ok ri /\ oi_checked oi = exception_possible D op (oi_R oi) t u ri.
Proof.
  intros D op t u oi Ho. unfold op_static in Ho.
  destruct (common_pp t u) as [P|]; [|discriminate]. destruct (common_ep t u) as [E|]; [|discriminate].
  destruct (result_base_type D P (PArith op) t u) as [R|]; [|discriminate].
  destruct (r_type_interval D op R t u) as [ri|] eqn:Hri; [|discriminate]. injection Ho as <-.
  exists ri. auto.
Qed.

Lemma div_checked_iff : forall D t u oi, wf_operand D t -> wf_operand D u ->
  op_static D Div t u = Some oi ->
  let R := oi_R oi in
  in_type D R (lim_lo D t) -> in_type D R (lim_hi D t) -> in_type D R (lim_lo D u) -> in_type D R (lim_hi D u) ->
  (oi_checked oi = false <->
   (0 < lim_lo D u \/ lim_hi D u < 0) /\ ~ (lo D R < 0 /\ lim_lo D t = lo D R /\ lim_hi D u = -1)).
Proof.
  intros D t u oi Ht Hu Ho R Ia Ib Ic Id. subst R. destruct (static_inv _ _ _ _ _ Ho) as (ri & Hri & ->).
  apply div_elision; assumption.
Qed.
Lemma mod_checked_iff : forall D t u oi, wf_operand D t -> wf_operand D u ->
  op_static D Mod t u = Some oi ->
  let R := oi_R oi in
  in_type D R (lim_lo D t) -> in_type D R (lim_hi D t) -> in_type D R (lim_lo D u) -> in_type D R (lim_hi D u) ->
  (oi_checked oi = false <-> 0 < lim_lo D u \/ lim_hi D u < 0).
Proof.
  intros D t u oi Ht Hu Ho R Ia Ib Ic Id. subst R. destruct (static_inv _ _ _ _ _ Ho) as (ri & Hri & ->).
  apply mod_elision; assumption.
Qed.
Lemma shr_checked_iff : forall D t u oi, wf_operand D t -> wf_operand D u ->
  op_static D Shr t u = Some oi -> (oi_checked oi = false <-> shr_unchecked D (oi_R oi) t u).
Proof.
  intros D t u oi Ht Hu Ho. destruct (static_inv _ _ _ _ _ Ho) as (ri & Hri & ->).
  apply shr_elision; assumption.
Qed.
