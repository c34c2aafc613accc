(** SafeShiftFacts.v -- facts about << and >> on safe types. Proofs only. *)
From Coq Require Import ZArith Bool List Lia.
From Verif Require Import Base CType Spec CTypeFacts Utility UtilityFacts SafeCompare
  CheckedInteger CheckedIntegerFacts CheckedResultOps CheckedResultFacts Interval IntervalFacts
  IntervalOpsFacts ExceptionPolicy Promotion SafeBase SafeSpec SafeFacts SafeDivFacts.
Import ListNotations.
Local Open Scope Z_scope.

(** checked shifts produce checked results *)
Lemma cr_neg_ok : forall D R c r, cr_ok D R c -> cr_neg D R c = Ok r -> cr_ok D R r.
Proof.
  intros D R c r Hc H. unfold cr_neg in H.
  destruct (cr_sub_total D R (CVal 0) c (zero_in D R) Hc) as (q & E & O & _). congruence.
Qed.

Lemma div_pow_in : forall D R t u, in_type D R t -> 0 <= t -> 0 <= u -> in_type D R (t / 2 ^ u).
Proof.
  intros D R t u Ht Ht0 Hu. pose proof (pow2_pos u Hu) as Hp. pose proof (lo_le_0 D R).
  assert (0 <= t / 2 ^ u) by (apply Z.div_pos; lia).
  assert (t / 2 ^ u <= t) by (apply Z.div_le_upper_bound; nia).
  unfold in_type in *. lia.
Qed.

Lemma left_shift_ok : forall D R t u c, in_type D R t -> in_type D R u -> left_shift D R t u = Ok c -> cr_ok D R c.
Proof.
  intros D R t u c Ht Hu H. rewrite left_shift_spec in H by assumption. injection H as <-.
  destruct (u =? 0); [assumption|]. destruct (Z.ltb_spec u 0); [exact I|].
  destruct (digits D R <? u); [exact I|]. destruct (Z.ltb_spec t 0); [exact I|].
  destruct (Z.eqb_spec t 0).
  - destruct (u <? digits D R); cbn; [apply zero_in|exact I].
  - destruct (Z.leb_spec (t * 2 ^ u) (hi D R)); cbn; [|exact I].
    pose proof (pow2_pos u ltac:(lia)). pose proof (lo_le_0 D R). unfold in_type in *. nia.
Qed.
Lemma right_shift_ok : forall D R t u c, in_type D R t -> in_type D R u -> right_shift D R t u = Ok c -> cr_ok D R c.
Proof.
  intros D R t u c Ht Hu H. rewrite right_shift_spec in H by assumption.
  destruct (Z.ltb_spec u 0); [injection H as <-; exact I|].
  destruct (digits D R <? u); [injection H as <-; exact I|].
  destruct (Z.ltb_spec t 0); [injection H as <-; exact I|].
  destruct (u <? width D (promote D R)); [|discriminate]. injection H as <-. apply div_pow_in; assumption.
Qed.

Lemma cr_shift_ok : forall n left D R t u r, cr_ok D R t -> cr_ok D R u ->
  cr_shift n left D R t u = Ok r -> cr_ok D R r.
Proof.
  induction n as [|n IH]; intros left D R t u r Ht Hu H; [discriminate|].
  cbn [cr_shift] in H.
  remember (lookup 0%nat (if left then shl_table else shr_table) (pidx (to_pflag D R t)) (pidx (to_pflag D R u))) as i eqn:Ei.
  clear Ei. destruct i as [|[|[|[|[|[|[|[|[|[|i]]]]]]]]]]; try discriminate;
    try (injection H as <-; solve [exact I|apply zero_in|assumption]);
    try (destruct (cr_neg D R u) as [nu|] eqn:En; cbn [rbind] in H; [|discriminate];
         apply (IH _ _ _ _ _ _ Ht (cr_neg_ok _ _ _ _ Hu En) H)).
  - destruct (if left then cr_mul D R t (CVal 2) else cr_div D R t (CVal 2)) as [tt_|] eqn:E1; cbn [rbind] in H; [|discriminate].
    destruct (cr_sub D R u (CVal 1)) as [tu|] eqn:E2; cbn [rbind] in H; [|discriminate].
    destruct (cr_neg D R tt_) as [nt|] eqn:E3; cbn [rbind] in H; [|discriminate].
    destruct (cr_shift n left D R nt tu) as [s|] eqn:E4; cbn [rbind] in H; [|discriminate].
    apply (cr_neg_ok D R s); [|assumption]. apply (IH _ _ _ _ _ _) in E4; auto.
    + apply (cr_neg_ok D R tt_); [|assumption]. destruct left.
      * destruct (cr_mul_total D R t (CVal 2) Ht (two_in D R)) as (q & E & O & _). congruence.
      * destruct (cr_div_total D R t (CVal 2) Ht (two_in D R)) as (q & E & O & _). congruence.
    + destruct (cr_sub_total D R u (CVal 1) Hu (one_in D R)) as (q & E & O & _). congruence.
  - destruct t as [a|e]; cbn [cr_value rbind] in H; [|discriminate].
    destruct u as [b|e]; cbn [cr_value rbind] in H; [|discriminate].
    destruct (if left then left_shift D R a b else right_shift D R a b) as [q|] eqn:E; cbn [rbind] in H; [|discriminate].
    assert (Oq : cr_ok D R q) by (destruct left; [exact (left_shift_ok D R a b q Ht Hu E)|exact (right_shift_ok D R a b q Ht Hu E)]).
    destruct q as [v|e]; [injection H as <-; assumption|].
    destruct e; injection H as <-; try exact I. destruct left; [exact I|apply zero_in].
Qed.

(** the four corners *)
Lemma corners_inv : forall D R g ti ui ri,
  (forall p q r, cr_ok D R p -> cr_ok D R q -> g p q = Ok r -> cr_ok D R r) ->
  cr_ok D R (il ti) -> cr_ok D R (iu ti) -> cr_ok D R (il ui) -> cr_ok D R (iu ui) ->
  minmax_of D R (corners g ti ui) = Ok ri ->
  exists r1 r2 r3 r4, g (il ti) (il ui) = Ok r1 /\ g (il ti) (iu ui) = Ok r2
    /\ g (iu ti) (il ui) = Ok r3 /\ g (iu ti) (iu ui) = Ok r4
    /\ ((~ num r1 /\ ri = mkI r1 r1)
        \/ (num r1 /\ num (il ri) /\ num (iu ri) /\ cr_ok D R (il ri) /\ cr_ok D R (iu ri) /\ cle (il ri) (iu ri)
            /\ forall c, In c [r1; r2; r3; r4] -> num c -> cle (il ri) c /\ cle c (iu ri))).
Proof.
  intros D R g ti ui ri Hg H1 H2 H3 H4 H. unfold minmax_of, corners in H. cbn [seq_res] in H.
  destruct (g (il ti) (il ui)) as [r1|] eqn:E1; cbn [rbind] in H; [|discriminate].
  destruct (g (il ti) (iu ui)) as [r2|] eqn:E2; cbn [rbind] in H; [|discriminate].
  destruct (g (iu ti) (il ui)) as [r3|] eqn:E3; cbn [rbind] in H; [|discriminate].
  destruct (g (iu ti) (iu ui)) as [r4|] eqn:E4; cbn [rbind] in H; [|discriminate].
  exists r1, r2, r3, r4. do 4 (split; [reflexivity|]).
  destruct (minmax_spec D R r1 [r2; r3; r4]) as (i & Hi & Hs).
  { apply Forall_cons; [exact (Hg _ _ _ H1 H3 E1)|]. apply Forall_cons; [exact (Hg _ _ _ H1 H4 E2)|].
    apply Forall_cons; [exact (Hg _ _ _ H2 H3 E3)|]. apply Forall_cons; [exact (Hg _ _ _ H2 H4 E4)|]. apply Forall_nil. }
  rewrite Hi in H. injection H as <-.
  destruct Hs as [[Hn ->]|(N1 & N2 & K1 & K2 & Kc & _ & _ & Nh & Hin)]; [left|right]; auto 10.
Qed.

(** a corner that bounds z from below (above) *)
Definition low (r : checked) (z : Z) : Prop := r = CErr negative_overflow_error \/ exists w, r = CVal w /\ w <= z.
Definition upp (r : checked) (z : Z) : Prop := r = CErr positive_overflow_error \/ exists w, r = CVal w /\ z <= w.

Lemma low_bound : forall D R k r z, low r z -> (num r -> cle k r) -> in_type D R z -> bound_lo D R k <= z.
Proof.
  intros D R k r z Hl Hc Hz. destruct k as [v|e]; cbn; [|unfold in_type in Hz; lia].
  destruct Hl as [->|(w & -> & Hw)]; specialize (Hc I); cbn in Hc; [tauto|lia].
Qed.
Lemma upp_bound : forall D R k r z, upp r z -> (num r -> cle r k) -> in_type D R z -> z <= bound_hi D R k.
Proof.
  intros D R k r z Hl Hc Hz. destruct k as [v|e]; cbn; [|unfold in_type in Hz; lia].
  destruct Hl as [->|(w & -> & Hw)]; specialize (Hc I); cbn in Hc; [tauto|lia].
Qed.
Lemma low_le : forall r z w, low r z -> z <= w -> low r w.
Proof. intros r z w [->|(v & -> & H)] Hw; [left; reflexivity|right; exists v; split; [reflexivity|lia]]. Qed.
Lemma upp_le : forall r z w, upp r z -> w <= z -> upp r w.
Proof. intros r z w [->|(v & -> & H)] Hw; [left; reflexivity|right; exists v; split; [reflexivity|lia]]. Qed.

Lemma full_bounds : forall D R e z, in_type D R z -> bound_lo D R (CErr e) <= z <= bound_hi D R (CErr e).
Proof. intros. assumption. Qed.

(** bounds of an operand that has a value in R *)
Lemma lim_lo_cases : forall D R o x, wf_operand D o -> holds D o x -> in_type D R x ->
  (cast D R (base_ty o) (lim_lo D o) = CVal (lim_lo D o) /\ in_type D R (lim_lo D o))
  \/ (cast D R (base_ty o) (lim_lo D o) = CErr negative_overflow_error /\ csigned D R = true)
  \/ (cast D R (base_ty o) (lim_lo D o) = CErr domain_error /\ csigned D R = false /\ lim_lo D o < 0).
Proof.
  intros D R o x (W1 & W2 & W3) Hx Ix.
  destruct (cast_cases D R _ _ W1) as [(? & E)|[(? & E)|[(? & ? & E)|(? & ? & ? & E)]]].
  - auto.
  - unfold holds, in_type in *. lia.
  - right; left. split; [assumption|]. destruct (csigned D R) eqn:ES; [reflexivity|].
    pose proof (lo_unsigned D R ES). lia.
  - right; right. repeat split; auto; lia.
Qed.
Lemma lim_hi_cases : forall D R o x, wf_operand D o -> holds D o x -> lo D R <= x ->
  (cast D R (base_ty o) (lim_hi D o) = CVal (lim_hi D o) /\ in_type D R (lim_hi D o))
  \/ (cast D R (base_ty o) (lim_hi D o) = CErr positive_overflow_error /\ lim_hi D o > hi D R).
Proof.
  intros D R o x (W1 & W2 & W3) Hx Ix.
  destruct (cast_cases D R _ _ W2) as [(? & E)|[(? & E)|[(? & ? & E)|(? & ? & ? & E)]]];
    auto; exfalso; unfold holds, in_type in *; lia.
Qed.

(** ------------------------------------------------------------------ *)
(** corners of << *)
Lemma shl_lower : forall D R a d z, in_type D R a -> a < 0 -> in_type D R d -> 0 <= d -> a * 2 ^ d <= z ->
  exists r, cr_shl D R (CVal a) (CVal d) = Ok r /\ low r z.
Proof.
  intros D R a d z Ha Ha0 Hd Hd0 Hz. unfold cr_shl.
  destruct (cr_shl_neg 2 D R a d Ha Hd Ha0 Hd0) as (r & E & O & Rr). exists r. split; [exact E|].
  destruct r as [v|e]; cbn in Rr; [right; exists v; split; [reflexivity|lia]|].
  destruct e; try tauto; [|left; reflexivity]. exfalso. pose proof (pow2_pos d Hd0). pose proof (hi_ge_127 D R). nia.
Qed.
Lemma shl_upper : forall D R b d z, in_type D R b -> 0 <= b -> in_type D R d -> 0 <= d -> z <= b * 2 ^ d ->
  exists r, cr_shl D R (CVal b) (CVal d) = Ok r /\ upp r z.
Proof.
  intros D R b d z Hb Hb0 Hd Hd0 Hz. unfold cr_shl.
  destruct (cr_shl_nonneg 3 D R b d Hb Hd Hb0 Hd0) as (r & E & O & Rr). exists r. split; [exact E|].
  destruct r as [v|e]; cbn in Rr; [right; exists v; split; [reflexivity|lia]|].
  destruct e; try tauto; [left; reflexivity|]. exfalso. pose proof (pow2_pos d Hd0). pose proof (lo_le_0 D R). nia.
Qed.

Ltac pflagh c Hc H :=
  let v := fresh "v" in let e := fresh "e" in let F := fresh "F" in
  destruct (to_pflag_cases _ _ c Hc) as
    [(v & ? & ? & ? & F)|[(? & F)|[(v & ? & ? & ? & F)|[(? & F)|[(? & F)|(e & ? & ? & ? & F)]]]]];
  rewrite F in H.

Lemma le_mul_pow : forall x y, 0 <= x -> 0 <= y -> x <= x * 2 ^ y.
Proof. intros x y Hx Hy. pose proof (pow2_pos y Hy). nia. Qed.
Lemma mul_pow_le : forall a b c d, 0 <= a -> a <= b -> 0 <= c -> c <= d -> a * 2 ^ c <= b * 2 ^ d.
Proof.
  intros a b c d H1 H2 H3 H4. pose proof (Z.pow_le_mono_r 2 c d ltac:(lia) H4). pose proof (pow2_pos c H3). nia.
Qed.

(** a non-negative lower bound shifted by the lower count *)
Lemma shl_first_low : forall D R a c r z, in_type D R a -> 0 <= a -> cr_ok D R c ->
  cr_shl D R (CVal a) c = Ok r -> in_type D R z ->
  (forall v, c = CVal v -> 0 <= v -> a * 2 ^ v <= z) -> a <= z ->
  c <> CErr positive_overflow_error -> ~ num r \/ low r z.
Proof.
  intros D R a c r z Ha Ha0 Hc E Hz Hv Haz Hnp. unfold cr_shl in E.
  destruct (Z.eq_dec a 0) as [->|Ha1].
  { right. right. exists 0. split; [|lia]. cbn [cr_shift] in E.
    rewrite (to_pflag_val D R 0) in E by apply zero_in.
    pflagh c Hc E; cbn in E; congruence. }
  destruct c as [v|e].
  - cbn in Hc. destruct (Z_lt_le_dec v 0) as [Hv0|Hv0].
    + (* a negative count: a right shift *)
      right. right. 
      remember 3%nat as n3 eqn:En3. cbn [cr_shift] in E. subst n3.
      rewrite !to_pflag_val in E by assumption.
      destruct (Z.ltb_spec a 0); [lia|]. destruct (Z.ltb_spec 0 a); [|lia].
      destruct (Z.ltb_spec v 0); [|lia]. unfold lookup in E. cbn [pidx nth shl_table] in E.
      destruct (cr_neg_val D R v Hc) as (nv & En & On & Rn). rewrite En in E. cbn [rbind] in E.
      change (negb true) with false in E.
      destruct nv as [w|e]; cbn in Rn.
      * cbn in On. change (cr_shift 3 false D R (CVal a) (CVal w) = Ok r) in E.
        destruct (cr_shr_nonneg 2 D R a w Ha On ltac:(lia) ltac:(lia)) as [Es|[Es _]];
          rewrite Es in E; [|discriminate].
        injection E as <-. exists (a / 2 ^ w). split; [reflexivity|].
        pose proof (pow2_pos w ltac:(lia)).
        assert (a / 2 ^ w <= a) by (apply Z.div_le_upper_bound; nia). lia.
      * change (cr_shift 3 false D R (CVal a) (CErr e) = Ok r) in E.
        destruct e; try tauto; [|pose proof (lo_le_0 D R); lia].
        cbn [cr_shift] in E. rewrite to_pflag_val in E by assumption.
        destruct (Z.ltb_spec a 0); [lia|]. destruct (Z.ltb_spec 0 a); [|lia]. cbn in E. injection E as <-.
        exists 0. split; [reflexivity|lia].
    + right. destruct (cr_shl_nonneg 3 D R a v Ha Hc Ha0 Hv0) as (r' & E' & O' & R').
      rewrite E' in E. injection E as ->. specialize (Hv v eq_refl Hv0).
      destruct r as [w|e]; cbn in R'; [right; exists w; split; [reflexivity|lia]|].
      destruct e; try tauto; [|left; reflexivity]. exfalso. unfold in_type in *. lia.
  - cbn [cr_shift] in E. rewrite to_pflag_val in E by assumption.
    destruct (Z.ltb_spec a 0); [lia|]. destruct (Z.ltb_spec 0 a); [|lia].
    destruct e; try congruence; cbn in E; injection E as <-; try (left; cbn; tauto).
    right. right. exists 0. split; [reflexivity|lia].
Qed.

(** what the static analysis of << guarantees *)
Lemma shl_static : forall D R t u ri, wf_operand D t -> wf_operand D u ->
  r_type_interval D Shl R t u = Ok ri ->
  (in_type D R (bound_lo D R (il ri)) /\ in_type D R (bound_hi D R (iu ri))
   /\ bound_lo D R (il ri) <= bound_hi D R (iu ri))
  /\ (forall x y, holds D t x -> holds D u y -> in_type D R x -> in_type D R y -> 0 <= y ->
        (0 <= x \/ y = 0) -> in_type D R (x * 2 ^ y) ->
        bound_lo D R (il ri) <= x * 2 ^ y <= bound_hi D R (iu ri))
  /\ (exception (il ri) = false -> exception (iu ri) = false ->
      forall x y, holds D t x -> holds D u y -> 0 <= y ->
        (0 <= x -> 0 < lim_hi D t ->
           in_type D R x /\ in_type D R y /\ in_type D R (x * 2 ^ y)
           /\ raw_op D Shl R (conv D R x) (conv D R y) = Ok (x * 2 ^ y))
        /\ (0 <= x -> lim_hi D t <= 0 ->
              x = 0 /\ (raw_op D Shl R (conv D R x) (conv D R y) = Ok 0 \/ raw_op D Shl R (conv D R x) (conv D R y) = UB)
              /\ bound_lo D R (il ri) <= 0 <= bound_hi D R (iu ri))
        /\ (x < 0 -> raw_op D Shl R (conv D R x) (conv D R y) = UB)).
Proof.
  intros D R t u ri Ht Hu H.
  destruct (lim_ok D R t u Ht Hu) as (Oa & Ob & Oc & Od).
  cbn [r_type_interval] in H. unfold i_shl in H.
  destruct (corners_inv D R (cr_shl D R) (lim_interval D R t) (lim_interval D R u) ri (cr_shift_ok 4 true D R) Oa Ob Oc Od H)
    as (r1 & r2 & r3 & r4 & E1 & E2 & E3 & E4 & Hcase).
  unfold lim_interval in E1, E2, E3, E4. cbn [il iu] in E1, E2, E3, E4.
  destruct Hcase as [[Hn ->]|(Nh & N1 & N2 & K1 & K2 & Kc & Hin)].
  { assert (exists e, r1 = CErr e) as (e & ->) by (destruct r1; [cbn in Hn; tauto|eauto]).
    cbn [il iu]. splits.
    - apply lo_in.
    - apply hi_in.
    - cbn. pose proof (lo_le_0 D R). pose proof (hi_ge_127 D R). lia.
    - intros. apply full_bounds; assumption.
    - discriminate. }
  assert (Hlow : forall r z, In r [r1; r2; r3; r4] -> low r z -> in_type D R z -> bound_lo D R (il ri) <= z).
  { intros r z Hr Hl Hz. apply (low_bound D R _ r); auto. intros Nr. apply (Hin r Hr Nr). }
  assert (Hupp : forall r z, In r [r1; r2; r3; r4] -> upp r z -> in_type D R z -> z <= bound_hi D R (iu ri)).
  { intros r z Hr Hl Hz. apply (upp_bound D R _ r); auto. intros Nr. apply (Hin r Hr Nr). }
  assert (Hnum : forall r, In r [r1; r2; r3; r4] -> exception (iu ri) = false -> exception (il ri) = false ->
     r <> CErr positive_overflow_error /\ r <> CErr negative_overflow_error).
  { intros r Hr X1 X2. apply exc_false in X1, X2. destruct X1 as [vh X1], X2 as [vl X2].
    split; intros ->; destruct (Hin _ Hr I) as [A B]; rewrite X1, X2 in *; cbn in *; tauto. }
  splits.
  - apply bound_lo_in; assumption.
  - apply bound_hi_in; assumption.
  - apply bounds_le_of_cle; auto.
  - intros x y Hx Hy Ix Iy Hy0 Hxy Iz. set (z := x * 2 ^ y) in *. split.
    + (* lower *)
      destruct (lim_lo_cases D R t x Ht Hx Ix) as [[Ea Ia]|[[Ea Hs]|(Ea & Hs & Hneg)]]; rewrite Ea in *.
      * destruct (Z_lt_le_dec (lim_lo D t) 0) as [Ha0|Ha0].
        -- destruct (lim_hi_cases D R u y Hu Hy ltac:(unfold in_type in *; lia)) as [[Ed Id]|[Ed Id]]; rewrite Ed in *.
           ++ assert (Hd0 : 0 <= lim_hi D u) by (unfold holds in *; lia).
              destruct (shl_lower D R (lim_lo D t) (lim_hi D u) z Ia Ha0 Id Hd0) as (r & Er & Lr).
              { unfold z. pose proof (pow2_pos (lim_hi D u) Hd0). pose proof (pow2_pos y Hy0).
                unfold holds in *. destruct Hxy as [Hx0| ->]; [nia|]. change (2 ^ 0) with 1. nia. }
              rewrite Er in E2. injection E2 as ->. apply (Hlow r2); [pick|assumption|assumption].
           ++ apply (Hlow r2); [pick| |assumption]. left.
              unfold cr_shl in E2. cbn [cr_shift] in E2. rewrite to_pflag_val in E2 by assumption.
              destruct (Z.ltb_spec (lim_lo D t) 0); [|lia]. cbn in E2. congruence.
        -- destruct (shl_first_low D R (lim_lo D t) _ r1 z Ia Ha0 Oc E1 Iz) as [Hn|Hl].
           ++ intros v Ev Hv0. apply cast_val in Ev; [|apply Hu]. destruct Ev as [-> _].
              unfold z. apply mul_pow_le; unfold holds in *; lia.
           ++ unfold z, holds in *. pose proof (le_mul_pow x y ltac:(lia) Hy0). lia.
           ++ destruct (lim_lo_cases D R u y Hu Hy Iy) as [[Ec Ic]|[[Ec Hs]|(Ec & Hs & Hneg)]]; rewrite Ec; discriminate.
           ++ contradiction.
           ++ apply (Hlow r1); [pick|assumption|assumption].
      * apply (Hlow r2); [pick| |assumption]. left.
        destruct (lim_hi_cases D R u y Hu Hy ltac:(unfold in_type in *; lia)) as [[Ed Id]|[Ed Id]]; rewrite Ed in *;
        unfold cr_shl in E2; cbn [cr_shift] in E2.
        -- rewrite to_pflag_val in E2 by assumption. destruct (Z.ltb_spec (lim_hi D u) 0); [unfold holds in *; lia|].
           destruct (0 <? lim_hi D u); cbn in E2; congruence.
        -- cbn in E2. congruence.
      * exfalso. unfold cr_shl in E1. cbn [cr_shift] in E1.
        pflagh (cast D R (base_ty u) (lim_lo D u)) Oc E1; cbn in E1; injection E1 as <-; cbn in Nh; tauto.
    + (* upper *)
      destruct (lim_hi_cases D R t x Ht Hx ltac:(unfold in_type in *; lia)) as [[Eb Ib]|[Eb Ib]]; rewrite Eb in *.
      * destruct (Z_lt_le_dec (lim_hi D t) 0) as [Hb0|Hb0].
        -- (* only the value itself, not shifted *)
           assert (y = 0) by (unfold holds in *; lia). subst y. unfold z in *. rewrite Z.mul_1_r in *.
           assert (Hs : csigned D R = true) by (apply (signed_of_neg D R _ Ib Hb0)).
           apply (Hupp r3); [pick| |assumption].
           destruct (lim_lo_cases D R u 0 Hu Hy Iy) as [[Ec Ic]|[[Ec _]|(Ec & Hs' & _)]]; [| |congruence];
             rewrite Ec in *.
           ++ destruct (Z.eq_dec (lim_lo D u) 0) as [Ez|Ez].
              ** rewrite Ez in *. unfold cr_shl in E3. cbn [cr_shift] in E3.
                 rewrite !to_pflag_val in E3 by assumption. destruct (Z.ltb_spec (lim_hi D t) 0); [|lia].
                 cbn in E3. injection E3 as <-. right. exists (lim_hi D t). split; [reflexivity|unfold holds in *; lia].
              ** assert (Hc0 : lim_lo D u < 0) by (unfold holds in *; lia).
                 unfold cr_shl in E3. remember 3%nat as n3. cbn [cr_shift] in E3.
                 rewrite !to_pflag_val in E3 by assumption. destruct (Z.ltb_spec (lim_hi D t) 0); [|lia].
                 destruct (Z.ltb_spec (lim_lo D u) 0); [|lia]. unfold lookup in E3. cbn [pidx nth shl_table] in E3.
                 destruct (cr_neg_val D R _ Ic) as (nv & En & On & Rn). rewrite En in E3. cbn [rbind negb] in E3.
                 destruct nv as [w|e]; cbn in Rn.
                 --- cbn in On. subst n3. rewrite cr_shr_neg in E3 by (assumption || lia). injection E3 as <-.
                     right. eexists. split; [reflexivity|].
                     pose proof (pow2_pos w ltac:(lia)).
                     pose proof (quot_mono_l (lim_hi D t) 0 (2 ^ w) ltac:(lia) ltac:(lia)) as Q1.
                     rewrite Z.quot_0_l in Q1 by lia.
                     pose proof (quot_abs (lim_hi D t) (2 ^ w) ltac:(lia)). unfold holds in *. lia.
                 --- destruct e; try tauto; [|pose proof (hi_pos_lo D R Hs); pose proof (hi_ge_127 D R); lia].
                     subst n3. cbn [cr_shift] in E3. rewrite to_pflag_val in E3 by assumption.
                     destruct (Z.ltb_spec (lim_hi D t) 0); [|lia]. cbn in E3. injection E3 as <-.
                     right. exists 0. split; [reflexivity|unfold holds in *; lia].
           ++ unfold cr_shl in E3. cbn [cr_shift] in E3. rewrite to_pflag_val in E3 by assumption.
              destruct (Z.ltb_spec (lim_hi D t) 0); [|lia]. cbn in E3. injection E3 as <-.
              right. exists 0. split; [reflexivity|unfold holds in *; lia].
        -- destruct (lim_hi_cases D R u y Hu Hy ltac:(unfold in_type in *; lia)) as [[Ed Id]|[Ed Id]]; rewrite Ed in *.
           ++ assert (Hd0 : 0 <= lim_hi D u) by (unfold holds in *; lia).
              destruct (shl_upper D R (lim_hi D t) (lim_hi D u) z Ib Hb0 Id Hd0) as (r & Er & Lr).
              { unfold z. destruct (Z_lt_le_dec x 0).
                - pose proof (pow2_pos (lim_hi D u) Hd0). pose proof (pow2_pos y Hy0). nia.
                - apply mul_pow_le; unfold holds in *; lia. }
              rewrite Er in E4. injection E4 as ->. apply (Hupp r4); [pick|assumption|assumption].
           ++ apply (Hupp r4); [pick| |assumption].
              unfold cr_shl in E4. cbn [cr_shift] in E4. rewrite to_pflag_val in E4 by assumption.
              destruct (Z.ltb_spec (lim_hi D t) 0); [lia|]. destruct (Z.ltb_spec 0 (lim_hi D t)); cbn in E4; injection E4 as <-.
              ** left; reflexivity.
              ** right. exists 0. split; [reflexivity|]. unfold z. pose proof (pow2_pos y Hy0). unfold holds in *. nia.
      * apply (Hupp r4); [pick| |assumption]. left.
        destruct (lim_hi_cases D R u y Hu Hy ltac:(unfold in_type in *; lia)) as [[Ed Id]|[Ed Id]]; rewrite Ed in *;
        unfold cr_shl in E4; cbn [cr_shift] in E4.
        -- rewrite to_pflag_val in E4 by assumption. destruct (Z.ltb_spec (lim_hi D u) 0); [unfold holds in *; lia|].
           destruct (0 <? lim_hi D u); cbn in E4; congruence.
        -- cbn in E4. congruence.
  - intros X1 X2 x y Hx Hy Hy0.
    assert (Hd : (cast D R (base_ty u) (lim_hi D u) = CVal (lim_hi D u) /\ in_type D R (lim_hi D u))
        \/ (cast D R (base_ty u) (lim_hi D u) = CErr positive_overflow_error /\ lim_hi D u > hi D R))
      by (apply (lim_hi_cases D R u y Hu Hy); pose proof (lo_le_0 D R); lia).
    splits.
    + intros Hx0 Hb0.
      assert (Hb : (cast D R (base_ty t) (lim_hi D t) = CVal (lim_hi D t) /\ in_type D R (lim_hi D t))
        \/ (cast D R (base_ty t) (lim_hi D t) = CErr positive_overflow_error /\ lim_hi D t > hi D R))
        by (apply (lim_hi_cases D R t x Ht Hx); pose proof (lo_le_0 D R); lia).
      destruct (Hnum r4 ltac:(pick) X2 X1) as [P4 _].
      unfold cr_shl in E4.
      assert (0 <= lim_hi D u) as Hd0 by (unfold holds in *; lia).
      destruct Hb as [[Eb Ib]|[Eb Ib]]; rewrite Eb in E4.
      2:{ exfalso. apply P4. cbn [cr_shift] in E4. destruct Hd as [[Ed Id]|[Ed Id]]; rewrite Ed in E4.
          - rewrite to_pflag_val in E4 by assumption. destruct (Z.ltb_spec (lim_hi D u) 0); [lia|].
            destruct (0 <? lim_hi D u); cbn in E4; congruence.
          - cbn in E4. congruence. }
      destruct Hd as [[Ed Id]|[Ed Id]]; rewrite Ed in E4.
      2:{ exfalso. apply P4. cbn [cr_shift] in E4. rewrite to_pflag_val in E4 by assumption.
          destruct (Z.ltb_spec (lim_hi D t) 0); [lia|]. destruct (Z.ltb_spec 0 (lim_hi D t)); [|lia]. cbn in E4. congruence. }
      destruct (cr_shl_nonneg 3 D R (lim_hi D t) (lim_hi D u) Ib Id ltac:(lia) Hd0) as (r & Er & Or & Rr).
      rewrite Er in E4. injection E4 as ->.
      assert (Hz : lim_hi D t * 2 ^ lim_hi D u <= hi D R).
      { destruct r4 as [v|e]; cbn in Rr, Or; [unfold in_type in *; lia|]. destruct e; try contradiction.
          pose proof (pow2_pos (lim_hi D u) Hd0). pose proof (lo_le_0 D R). nia. }
      pose proof (lo_le_0 D R) as Hl0.
      assert (Ix : in_type D R x) by (unfold holds, in_type in *; lia).
      assert (Iy : in_type D R y) by (unfold holds, in_type in *; lia).
      assert (Hzz : 0 <= x * 2 ^ y <= lim_hi D t * 2 ^ lim_hi D u).
      { split; [pose proof (pow2_pos y Hy0); nia|]. apply mul_pow_le; unfold holds in *; lia. }
      assert (Iz : in_type D R (x * 2 ^ y)) by (unfold in_type; lia).
      splits; auto. rewrite !conv_id by assumption. cbn [raw_op]. unfold c_shl.
      assert (Hyw : y < digits D R).
      { pose proof (Z.pow_le_mono_r 2 y (lim_hi D u) ltac:(lia) ltac:(unfold holds in *; lia)).
        pose proof (pow2_pos y Hy0). apply (Z.pow_lt_mono_r_iff 2); [lia|pose proof (digits_pos D R); lia|].
        rewrite (pow_digits D R). nia. }
      pose proof (digits_le_width_promote D R).
      assert ((y <? 0) || (width D (promote D R) <=? y) = false) as ->.
      { apply orb_false_intro; [lia|]. apply Z.leb_gt. lia. }
      rewrite conv_id by (apply promote_in; assumption).
      destruct (csigned D (promote D R)); [|reflexivity].
      assert ((x <? 0) = false) as -> by lia.
      assert ((x * 2 ^ y <=? hi D (to_unsigned (promote D R))) = true) as ->; [|reflexivity].
      apply Z.leb_le. pose proof (to_unsigned_hi D (promote D R)). pose proof (promote_hi D R). lia.
    + intros Hx0 Hb0. assert (x = 0) by (unfold holds in *; lia). subst x. split; [reflexivity|]. split.
      * rewrite conv_0. cbn [raw_op]. unfold c_shl. destruct (_ || _); [auto|].
        rewrite Z.mul_0_l. left. rewrite conv_0.
        pose proof (hi_ge_127 D (to_unsigned (promote D R))).
        destruct (csigned D (promote D R)); [|reflexivity]. cbn.
        destruct (Z.leb_spec 0 (hi D (to_unsigned (promote D R)))); [reflexivity|lia].
      * assert (lim_hi D t = 0) as Hb by (unfold holds in *; lia).
        assert (cast D R (base_ty t) (lim_hi D t) = CVal 0) as Eb.
        { destruct (cast_spec D R _ _ (proj1 (proj2 Ht))) as [Hcv _]. rewrite Hb in *. apply Hcv, zero_in. }
        rewrite Eb in E4.
        assert (r4 = CVal 0).
        { unfold cr_shl in E4. cbn [cr_shift] in E4. rewrite (to_pflag_val D R 0) in E4 by apply zero_in.
          pflagh (cast D R (base_ty u) (lim_hi D u)) Od E4; cbn in E4; congruence. }
        split; [apply (Hlow r4); [pick| |apply zero_in]|apply (Hupp r4); [pick| |apply zero_in]];
          right; exists 0; split; auto; lia.
    + intros Hx0.
      (* the lower bound is representable *)
      destruct (Hnum r2 ltac:(pick) X2 X1) as [P1 P2].
      destruct Ht as (W1 & W2 & W3).
      destruct (cast_cases D R _ _ W1) as [(Ia & Ea)|[(? & Ea)|[(? & ? & Ea)|(? & ? & ? & Ea)]]]; rewrite Ea in *.
      * assert (Hs : csigned D R = true) by (apply (signed_of_neg D R _ Ia); unfold holds in *; lia).
        assert (Ix : in_type D R x) by (pose proof (hi_ge_127 D R); unfold holds, in_type in *; lia).
        rewrite (conv_id D R x) by assumption. cbn [raw_op]. unfold c_shl.
        destruct (_ || _); [reflexivity|]. rewrite (promote_signed D R Hs).
        assert ((x <? 0) = true) as -> by lia. reflexivity.
      * exfalso. pose proof (hi_ge_127 D R). unfold holds in *. lia.
      * exfalso. apply P2. unfold cr_shl in E2. cbn [cr_shift] in E2.
        destruct Hd as [[Ed Id]|[Ed Id]]; rewrite Ed in E2.
        -- rewrite to_pflag_val in E2 by assumption. destruct (Z.ltb_spec (lim_hi D u) 0); [unfold holds in *; lia|].
           destruct (0 <? lim_hi D u); cbn in E2; congruence.
        -- cbn in E2. congruence.
      * exfalso. unfold cr_shl in E1. cbn [cr_shift] in E1.
        pflagh (cast D R (base_ty u) (lim_lo D u)) Oc E1; cbn in E1; injection E1 as <-; cbn in Nh; tauto.
Qed.

(** an unchecked << of full ranges is impossible *)
Lemma shl_unchecked_count : forall D R t u ri, wf_operand D t -> wf_operand D u ->
  r_type_interval D Shl R t u = Ok ri -> exception (il ri) = false -> exception (iu ri) = false ->
  0 < lim_hi D t -> 0 <= lim_hi D u -> lim_hi D u < digits D R.
Proof.
  intros D R t u ri Ht Hu H X1 X2 Hb Hd.
  destruct (shl_static D R t u ri Ht Hu H) as (_ & _ & Hs).
  destruct (Hs X1 X2 (lim_hi D t) (lim_hi D u)) as (H1 & _).
  - unfold wf_operand, holds in *. lia.
  - unfold wf_operand, holds in *. lia.
  - assumption.
  - destruct (H1 ltac:(lia) Hb) as (_ & _ & Iz & _).
    pose proof (digits_pos D R). pose proof (pow2_pos _ Hd).
    apply (Z.pow_lt_mono_r_iff 2); [lia|lia|]. rewrite (pow_digits D R). unfold in_type in *. nia.
Qed.

(** why a checked << throws *)
Definition shl_fails (D : dmodel) (R : ctype) (x y : Z) : Prop :=
  y < 0 \/ (0 < y /\ x < 0) \/ digits D R <= y \/ x * 2 ^ y > hi D R.

Lemma shl_checked : forall D E R x y, throws_shift E -> in_type D R x -> in_type D R y ->
  let m := checked_run D Shl E R R (mret (x, y)) in
  (returns m (x * 2 ^ y) /\ 0 <= y /\ (0 <= x \/ y = 0) /\ in_type D R (x * 2 ^ y))
  \/ (throws_impl m /\ shl_fails D R x y).
Proof.
  intros D E R x y HE Ix Iy m. unfold m, checked_run, shl_fails. rewrite mbind_ret. cbn [fst snd checked_op].
  rewrite left_shift_spec by assumption. cbn [mlift]. rewrite mbind_ret.
  assert (Ti : forall e (k : checked -> M Z), shift_err e -> throws_impl (mbind (dispatch_and_return E (CErr e)) k)).
  { intros. apply mbind_throws_impl, dar_impl; assumption. }
  destruct (Z.eqb_spec y 0) as [->|Hy0].
  { left. rewrite dar_val, mbind_ret, Z.mul_1_r. rewrite conv_id by assumption. repeat split; auto; apply Ix || lia. }
  destruct (Z.ltb_spec y 0). { right. split; [apply Ti; unfold shift_err; auto|auto]. }
  destruct (Z.ltb_spec (digits D R) y). { right. split; [apply Ti; unfold shift_err; auto|]. right; right; left; lia. }
  destruct (Z.ltb_spec x 0). { right. split; [apply Ti; unfold shift_err; auto|]. right; left; lia. }
  destruct (Z.eqb_spec x 0) as [->|Hx0].
  - destruct (Z.ltb_spec y (digits D R)).
    + left. rewrite dar_val, mbind_ret, Z.mul_0_l, conv_0. splits; auto; try lia; try apply zero_in; reflexivity.
    + right. split; [apply Ti; unfold shift_err; auto|]. right; right; left; lia.
  - destruct (Z.leb_spec (x * 2 ^ y) (hi D R)).
    + left. assert (in_type D R (x * 2 ^ y)).
      { pose proof (pow2_pos y ltac:(lia)). pose proof (lo_le_0 D R). unfold in_type. nia. }
      rewrite dar_val, mbind_ret, conv_id by assumption. splits; auto; try lia. reflexivity.
    + right. split; [apply Ti; unfold shift_err; auto|]. right; right; right; lia.
Qed.

(** the behaviour of << for a non-negative count *)
Lemma shl_char : forall D t u x y s m,
  wf_operand D t -> wf_operand D u -> holds D t x -> holds D u y ->
  binary D Shl t u x y = Some (s, m) -> throws_arithmetic (sE s) -> throws_shift (sE s) ->
  wf_operand D (OSafe s)
  /\ (0 <= y \/ (0 < lim_hi D t /\ digits D (st s) <= lim_hi D u) ->
      (returns m (x * 2 ^ y) /\ 0 <= y /\ in_type D (st s) (x * 2 ^ y) /\ smin s <= x * 2 ^ y <= smax s)
      \/ ((~ in_type D (st s) x \/ ~ in_type D (st s) y) /\ throws_arith m)
      \/ (shl_fails D (st s) x y /\ throws_impl m)
      \/ (m = ([], Undef) /\ (x < 0 \/ lim_hi D t = 0)
          /\ ~ (0 < lim_hi D t /\ digits D (st s) <= lim_hi D u))).
Proof.
  intros D t u x y s m Ht Hu Hx Hy Hb HE HS.
  destruct (binary_inv _ _ _ _ _ _ _ _ Hb) as (P & E & R & ri & HP & HEp & HR & Hri & -> & Hm).
  cbn [sE] in HE, HS. cbn [st smin smax].
  destruct (shl_static D R t u ri Ht Hu Hri) as ((W1 & W2 & W3) & Hchk & Hunc).
  split; [unfold wf_operand; cbn; auto|]. intros Hy0.
  cbn [exception_possible] in Hm.
  destruct Hm as [[Hx0 ->]|[Hx1 (W & casts & HW & Hc & _ & ->)]].
  - apply orb_false_elim in Hx0. destruct Hx0 as [X1 X2].
    assert (Hnf : ~ (0 < lim_hi D t /\ digits D R <= lim_hi D u)).
    { intros [Hb0 Hd0]. pose proof (digits_pos D R).
      pose proof (shl_unchecked_count D R t u ri Ht Hu Hri X1 X2 Hb0 ltac:(lia)). lia. }
    assert (Hy1 : 0 <= y) by tauto. clear Hy0.
    destruct (Hunc X1 X2 x y Hx Hy Hy1) as (H1 & H2 & H3). unfold returns, unchecked_run.
    destruct (Z_lt_le_dec x 0) as [Hn|Hp].
    + right; right; right. rewrite (H3 Hn). auto.
    + destruct (Z_lt_le_dec 0 (lim_hi D t)) as [Hb0|Hb0].
      * left. destruct (H1 Hp Hb0) as (Ix & Iy & Iz & ->). cbn [mlift]. rewrite mbind_ret, conv_id by assumption.
        splits; auto; try (apply (Hchk x y); auto); reflexivity.
      * destruct (H2 Hp Hb0) as (-> & [E1|E1] & Hr1 & Hr2); rewrite E1; cbn [mlift].
        -- left. rewrite Z.mul_0_l. rewrite mbind_ret, conv_0. splits; auto; try apply zero_in; reflexivity.
        -- right; right; right. splits; auto. right. unfold holds in *. lia.
  - cbn [work_type] in HW. injection HW as <-.
    destruct (casting_helper_throws _ _ _ _ _ _ _ _ HE Ht Hu Hx Hy Hc) as [(Ix & Iy & ->)|[Hn Tc]].
    + destruct (shl_checked D E R x y HS Ix Iy) as [(K1 & K2 & K3 & K4)|[K1 K2]].
      * left. splits; auto; apply (Hchk x y); auto.
      * right; right; left. auto.
    + right; left. split; [assumption|]. apply mbind_throws. assumption.
Qed.

(** ------------------------------------------------------------------ *)
(** >> *)
Lemma tri_or_false : forall a b, tri_bool (tri_or a b) = false -> tri_bool a = false /\ tri_bool b = false.
Proof. intros [] []; cbn; auto. Qed.

Lemma div_pow_mono : forall a x d y, 0 <= a -> a <= x -> 0 <= y -> y <= d -> a / 2 ^ d <= x / 2 ^ y.
Proof.
  intros a x d y H1 H2 H3 H4. pose proof (pow2_pos y H3). pose proof (pow2_pos d ltac:(lia)).
  pose proof (Z.pow_le_mono_r 2 y d ltac:(lia) H4).
  apply Z.le_trans with (x / 2 ^ d); [apply Z.div_le_mono; lia|].
  apply Z.div_le_compat_l; lia.
Qed.

Lemma digits_in : forall D R, in_type D R (digits D R).
Proof. intros. apply small_in. pose proof (digits_pos D R). lia. Qed.

Lemma shr_static : forall D R t u ri, wf_operand D t -> wf_operand D u ->
  r_type_interval D Shr R t u = Ok ri ->
  (in_type D R (bound_lo D R (il ri)) /\ in_type D R (bound_hi D R (iu ri))
   /\ bound_lo D R (il ri) <= bound_hi D R (iu ri))
  /\ ((csigned D R = true \/ 0 <= lim_lo D u) ->
      forall x y, holds D t x -> holds D u y ->
      (in_type D R x -> in_type D R y -> 0 <= y -> 0 <= x ->
         bound_lo D R (il ri) <= x / 2 ^ y <= bound_hi D R (iu ri))
      /\ (exception_possible D Shr R t u ri = false ->
            in_type D R x /\ in_type D R y /\ 0 <= x /\ 0 <= y <= digits D R)).
Proof.
  intros D R t u ri Ht Hu H.
  destruct (lim_ok D R t u Ht Hu) as (Oa & Ob & Oc & Od).
  cbn [r_type_interval] in H. unfold i_shr in H.
  destruct (corners_inv D R (cr_shr D R) (lim_interval D R t) (lim_interval D R u) ri (cr_shift_ok 4 false D R) Oa Ob Oc Od H)
    as (r1 & r2 & r3 & r4 & E1 & E2 & E3 & E4 & Hcase).
  unfold lim_interval in E1, E2, E3, E4. cbn [il iu] in E1, E2, E3, E4.
  destruct Hcase as [[Hn ->]|(Nh & N1 & N2 & K1 & K2 & Kc & Hin)].
  { assert (exists e, r1 = CErr e) as (e & ->) by (destruct r1; [cbn in Hn; tauto|eauto]).
    cbn [il iu]. splits.
    - apply lo_in.
    - apply hi_in.
    - cbn. pose proof (lo_le_0 D R). pose proof (hi_ge_127 D R). lia.
    - intros _ x y Hx Hy. split.
      + intros. apply full_bounds. apply div_pow_in; assumption.
      + unfold exception_possible. cbn [il iu exception]. intros X. exfalso.
        apply tri_or_false in X. destruct X as [_ X]. discriminate. }
  assert (Hlow : forall r z, In r [r1; r2; r3; r4] -> low r z -> in_type D R z -> bound_lo D R (il ri) <= z).
  { intros r z Hr Hl Hz. apply (low_bound D R _ r); auto. intros Nr. apply (Hin r Hr Nr). }
  assert (Hupp : forall r z, In r [r1; r2; r3; r4] -> upp r z -> in_type D R z -> z <= bound_hi D R (iu ri)).
  { intros r z Hr Hl Hz. apply (upp_bound D R _ r); auto. intros Nr. apply (Hin r Hr Nr). }
  assert (Hnum : forall r, In r [r1; r2; r3; r4] -> exception (iu ri) = false -> exception (il ri) = false ->
     r <> CErr positive_overflow_error /\ r <> CErr negative_overflow_error).
  { intros r Hr X1 X2. apply exc_false in X1, X2. destruct X1 as [vh X1], X2 as [vl X2].
    split; intros ->; destruct (Hin _ Hr I) as [A B]; rewrite X1, X2 in *; cbn in *; tauto. }
  splits.
  - apply bound_lo_in; assumption.
  - apply bound_hi_in; assumption.
  - apply bounds_le_of_cle; auto.
  - intros Hsg x y Hx Hy. split.
    + intros Ix Iy Hy0 Hx0. set (z := x / 2 ^ y).
      assert (Iz : in_type D R z) by (apply div_pow_in; assumption).
      assert (Hz0 : 0 <= z) by (apply Z.div_pos; [assumption|apply pow2_pos; assumption]).
      assert (Hzx : z <= x).
      { unfold z. pose proof (pow2_pos y Hy0). apply Z.div_le_upper_bound; nia. }
      assert (Hd : (cast D R (base_ty u) (lim_hi D u) = CVal (lim_hi D u) /\ in_type D R (lim_hi D u))
        \/ (cast D R (base_ty u) (lim_hi D u) = CErr positive_overflow_error /\ lim_hi D u > hi D R))
        by (apply (lim_hi_cases D R u y Hu Hy); pose proof (lo_le_0 D R); lia).
      assert (Hd0 : 0 <= lim_hi D u) by (unfold holds in *; lia).
      split.
      * destruct (lim_lo_cases D R t x Ht Hx Ix) as [[Ea Ia]|[[Ea Hs]|(Ea & Hs & Hneg)]]; rewrite Ea in *.
        -- apply (Hlow r2); [pick| |assumption]. right. unfold cr_shr in E2.
           destruct Hd as [[Ed Id]|[Ed Id]]; rewrite Ed in E2.
           ++ destruct (Z_lt_le_dec (lim_lo D t) 0) as [Ha0|Ha0].
              ** rewrite cr_shr_neg in E2 by assumption. injection E2 as <-.
                 eexists. split; [reflexivity|].
                 pose proof (pow2_pos (lim_hi D u) Hd0).
                 pose proof (quot_mono_l (lim_lo D t) 0 (2 ^ lim_hi D u) ltac:(lia) ltac:(lia)) as Q1.
                 rewrite Z.quot_0_l in Q1 by lia. lia.
              ** destruct (cr_shr_nonneg 3 D R (lim_lo D t) (lim_hi D u) Ia Id Ha0 Hd0) as [Es|[Es _]];
                   rewrite Es in E2; [|discriminate]. injection E2 as <-.
                 eexists. split; [reflexivity|]. unfold z. apply div_pow_mono; unfold holds in *; lia.
           ++ exists 0. split; [|lia]. cbn [cr_shift] in E2. rewrite to_pflag_val in E2 by assumption.
              destruct (Z.ltb_spec (lim_lo D t) 0); [cbn in E2; congruence|].
              destruct (Z.ltb_spec 0 (lim_lo D t)); cbn in E2; congruence.
        -- apply (Hlow r1); [pick| |assumption]. left. unfold cr_shr in E1. cbn [cr_shift] in E1.
           destruct (lim_lo_cases D R u y Hu Hy Iy) as [[Ec Ic]|[[Ec _]|(Ec & Hs' & _)]]; [| |congruence];
             rewrite Ec in E1.
           ++ rewrite to_pflag_val in E1 by assumption.
              destruct (lim_lo D u <? 0); [cbn in E1; congruence|].
              destruct (0 <? lim_lo D u); cbn in E1; congruence.
           ++ cbn in E1. congruence.
        -- exfalso. unfold cr_shr in E1. cbn [cr_shift] in E1.
           pflagh (cast D R (base_ty u) (lim_lo D u)) Oc E1; cbn in E1; injection E1 as <-; cbn in Nh; tauto.
      * apply (Hupp r3); [pick| |assumption]. unfold cr_shr in E3.
        destruct (lim_hi_cases D R t x Ht Hx ltac:(unfold in_type in *; lia)) as [[Eb Ib]|[Eb Ib]]; rewrite Eb in *.
        -- assert (Hb0 : 0 <= lim_hi D t) by (unfold holds in *; lia).
           destruct (lim_lo_cases D R u y Hu Hy Iy) as [[Ec Ic]|[[Ec Hcs]|(Ec & Hs' & Hcn)]]; rewrite Ec in *.
           ++ destruct (Z_lt_le_dec (lim_lo D u) 0) as [Hc0|Hc0].
              ** remember 3%nat as n3 eqn:En3. cbn [cr_shift] in E3. subst n3.
                 rewrite !to_pflag_val in E3 by assumption.
                 destruct (Z.ltb_spec (lim_hi D t) 0); [lia|].
                 destruct (Z.ltb_spec (lim_lo D u) 0); [|lia].
                 destruct (Z.ltb_spec 0 (lim_hi D t)); unfold lookup in E3; cbn [pidx nth shr_table] in E3.
                 --- destruct (cr_neg_val D R _ Ic) as (nv & En & On & Rn). rewrite En in E3.
                     cbn [rbind] in E3. change (negb false) with true in E3.
                     destruct nv as [w|e]; cbn in Rn.
                     +++ cbn in On. subst w.
                         destruct (cr_shl_nonneg 2 D R (lim_hi D t) (- lim_lo D u) Ib On Hb0 ltac:(lia)) as (r & Er & Or & Rr).
                         rewrite Er in E3. injection E3 as ->.
                         pose proof (le_mul_pow (lim_hi D t) (- lim_lo D u) Hb0 ltac:(lia)).
                         destruct r3 as [v|e]; cbn in Rr.
                         *** right. exists v. split; [reflexivity|]. unfold holds in *. lia.
                         *** destruct e; try tauto; [left; reflexivity|]. pose proof (lo_le_0 D R). lia.
                     +++ destruct e; try tauto; [|pose proof (lo_le_0 D R); lia].
                         cbn [cr_shift] in E3. rewrite to_pflag_val in E3 by assumption.
                         destruct (Z.ltb_spec (lim_hi D t) 0); [lia|]. destruct (Z.ltb_spec 0 (lim_hi D t)); [|lia].
                         cbn in E3. injection E3 as <-. left; reflexivity.
                 --- injection E3 as <-. right. exists 0. split; [reflexivity|]. unfold holds in *. lia.
              ** destruct (cr_shr_nonneg 3 D R (lim_hi D t) (lim_lo D u) Ib Ic Hb0 Hc0) as [Es|[Es _]];
                   rewrite Es in E3; [|discriminate]. injection E3 as <-. right.
                 eexists. split; [reflexivity|]. unfold z. apply div_pow_mono; unfold holds in *; lia.
           ++ cbn [cr_shift] in E3. rewrite to_pflag_val in E3 by assumption.
              destruct (Z.ltb_spec (lim_hi D t) 0); [lia|]. destruct (Z.ltb_spec 0 (lim_hi D t)); cbn in E3; injection E3 as <-.
              ** left; reflexivity.
              ** right. exists 0. split; [reflexivity|]. unfold holds in *. lia.
           ++ exfalso. destruct Hsg; [congruence|lia].
        -- left. destruct (lim_lo_cases D R u y Hu Hy Iy) as [[Ec Ic]|[[Ec Hcs]|(Ec & Hs' & Hcn)]]; rewrite Ec in *.
           ++ cbn [cr_shift] in E3. rewrite to_pflag_val in E3 by assumption.
              destruct (lim_lo D u <? 0); [cbn in E3; congruence|].
              destruct (0 <? lim_lo D u); cbn in E3; congruence.
           ++ cbn in E3. congruence.
           ++ exfalso. destruct Hsg; [congruence|lia].
    + unfold exception_possible, lim_interval. cbn [il iu]. intros X.
      rewrite (conv_id D R (digits D R)) in X by apply digits_in.
      apply tri_or_false in X. destruct X as [X X5]. apply tri_or_false in X. destruct X as [X X4].
      apply tri_or_false in X. destruct X as [X X3]. apply tri_or_false in X. destruct X as [X1 X2].
      assert (Xu : exception (iu ri) = false) by (destruct (exception (iu ri)); [discriminate|reflexivity]).
      assert (Xl : exception (il ri) = false) by (destruct (exception (il ri)); [discriminate|reflexivity]).
      clear X4 X5. unfold cr_gt in X1.
      pose proof (digits_pos D R) as Hdp. pose proof (lo_le_0 D R) as Hl0. pose proof (hi_ge_127 D R) as Hh0.
      (* the count *)
      assert (Hcn : 0 <= lim_lo D u).
      { destruct Hsg as [Hs|]; [|assumption]. destruct (Z_lt_le_dec (lim_lo D u) 0) as [Hc0|]; [|assumption]. exfalso.
        destruct (cast_cases D R _ _ (proj1 Hu)) as [(Ic & Ec)|[(? & Ec)|[(? & ? & Ec)|(? & ? & ? & Ec)]]];
          rewrite Ec in *; try congruence; try lia.
        - rewrite cr_lt_val in X3 by auto using zero_in. destruct (Z.ltb_spec (lim_lo D u) 0); [discriminate|lia].
        - discriminate. }
      assert (Hdd : lim_hi D u <= digits D R).
      { destruct (cast_cases D R _ _ (proj1 (proj2 Hu))) as [(Ic & Ec)|[(? & Ec)|[(? & ? & Ec)|(? & ? & ? & Ec)]]];
          rewrite Ec in X1.
        - rewrite cr_lt_val in X1 by auto using digits_in. destruct (Z.ltb_spec (digits D R) (lim_hi D u)); [discriminate|lia].
        - discriminate.
        - unfold wf_operand in *. lia.
        - unfold wf_operand in *. lia. }
      assert (Iy : in_type D R y) by (unfold holds, in_type in *; lia).
      assert (Hyy : 0 <= y <= digits D R) by (unfold holds in *; lia).
      assert (Ec : cast D R (base_ty u) (lim_lo D u) = CVal (lim_lo D u)).
      { apply cast_spec; [apply Hu|]. unfold wf_operand, in_type in *. lia. }
      assert (Ic : in_type D R (lim_lo D u)) by (unfold wf_operand, in_type in *; lia).
      rewrite Ec in *.
      assert (Ha0 : in_type D R (lim_lo D t) /\ 0 <= lim_lo D t).
      { destruct (cast_cases D R _ _ (proj1 Ht)) as [(Ia & Ea)|[(? & Ea)|[(? & ? & Ea)|(? & ? & ? & Ea)]]]; rewrite Ea in *.
        - split; [assumption|]. rewrite cr_lt_val in X2 by auto using zero_in.
          destruct (Z.ltb_spec (lim_lo D t) 0); [discriminate|lia].
        - exfalso. destruct (Hnum r1 ltac:(pick) Xu Xl) as [P1 _]. apply P1. unfold cr_shr in E1. cbn [cr_shift] in E1.
          rewrite to_pflag_val in E1 by assumption.
          destruct (lim_lo D u <? 0); [cbn in E1; congruence|].
          destruct (0 <? lim_lo D u); cbn in E1; congruence.
        - discriminate.
        - exfalso. unfold cr_shr in E1. cbn [cr_shift] in E1.
          pflagh (CVal (lim_lo D u)) Oc E1; cbn in E1; injection E1 as <-; cbn in Nh; tauto. }
      assert (Hb0 : in_type D R (lim_hi D t)).
      { destruct (cast_cases D R _ _ (proj1 (proj2 Ht))) as [(Ia & Ea)|[(? & Ea)|[(? & ? & Ea)|(? & ? & ? & Ea)]]]; rewrite Ea in *.
        - assumption.
        - exfalso. destruct (Hnum r3 ltac:(pick) Xu Xl) as [P1 _]. apply P1. unfold cr_shr in E3. cbn [cr_shift] in E3.
          rewrite to_pflag_val in E3 by assumption.
          destruct (lim_lo D u <? 0); [cbn in E3; congruence|].
          destruct (0 <? lim_lo D u); cbn in E3; congruence.
        - unfold wf_operand, in_type in *. lia.
        - unfold wf_operand, in_type in *. lia. }
      splits; auto; unfold holds, in_type in *; lia.
Qed.

(** the complete behaviour of >> for a signed result type, or a non-negative
    count other than the number of bits *)
Lemma shr_char : forall D t u x y s m,
  wf_operand D t -> wf_operand D u -> holds D t x -> holds D u y ->
  binary D Shr t u x y = Some (s, m) -> throws_arithmetic (sE s) -> throws_shift (sE s) ->
  wf_operand D (OSafe s)
  /\ (csigned D (st s) = true \/ (0 <= lim_lo D u /\ y <> digits D (st s)) ->
      (returns m (x / 2 ^ y) /\ 0 <= x /\ 0 <= y /\ in_type D (st s) (x / 2 ^ y) /\ smin s <= x / 2 ^ y <= smax s)
      \/ ((~ in_type D (st s) x \/ ~ in_type D (st s) y) /\ throws_arith m)
      \/ ((x < 0 \/ y < 0 \/ digits D (st s) < y) /\ throws_impl m)).
Proof.
  intros D t u x y s m Ht Hu Hx Hy Hb HE HS.
  destruct (binary_inv _ _ _ _ _ _ _ _ Hb) as (P & E & R & ri & HP & HEp & HR & Hri & -> & Hm).
  cbn [sE] in HE, HS. cbn [st smin smax].
  destruct (shr_static D R t u ri Ht Hu Hri) as ((W1 & W2 & W3) & Hst).
  split; [unfold wf_operand; cbn; auto|]. intros Hsg.
  destruct (Hst ltac:(tauto) x y Hx Hy) as [Hchk Hunc]. clear Hst.
  assert (Hyw : 0 <= y <= digits D R -> y < width D (promote D R)).
  { intros Hyd. destruct Hsg as [Hs|[_ Hne]].
    - pose proof (digits_lt_width_promote D R Hs). lia.
    - pose proof (digits_le_width_promote D R). lia. }
  destruct Hm as [[Hx0 ->]|[Hx1 (W & casts & HW & Hc & _ & ->)]].
  - destruct (Hunc Hx0) as (Ix & Iy & Hp & Hyd). left.
    pose proof (div_pow_in D R x y Ix Hp ltac:(lia)) as Iz.
    splits; auto; try lia; try (apply Hchk; auto; lia).
    unfold returns, unchecked_run. cbn [raw_op]. rewrite !conv_id by assumption. unfold c_shr.
    specialize (Hyw Hyd).
    assert ((y <? 0) || (width D (promote D R) <=? y) = false) as -> by (apply orb_false_intro; [lia|apply Z.leb_gt; lia]).
    cbn [mlift]. rewrite mbind_ret, conv_id by assumption. reflexivity.
  - cbn [work_type] in HW. injection HW as <-.
    destruct (casting_helper_throws _ _ _ _ _ _ _ _ HE Ht Hu Hx Hy Hc) as [(Ix & Iy & ->)|[Hn Tc]].
    + unfold checked_run. rewrite mbind_ret. cbn [fst snd checked_op].
      rewrite right_shift_spec by assumption.
      assert (Ti : forall e (k : checked -> M Z), shift_err e -> throws_impl (mbind (dispatch_and_return E (CErr e)) k)).
      { intros. apply mbind_throws_impl, dar_impl; assumption. }
      destruct (Z.ltb_spec y 0). { right; right. split; [auto|]. cbn [mlift]. rewrite mbind_ret. apply Ti. unfold shift_err; auto. }
      destruct (Z.ltb_spec (digits D R) y). { right; right. split; [auto|]. cbn [mlift]. rewrite mbind_ret. apply Ti. unfold shift_err; auto. }
      destruct (Z.ltb_spec x 0). { right; right. split; [auto|]. cbn [mlift]. rewrite mbind_ret. apply Ti. unfold shift_err; auto. }
      specialize (Hyw ltac:(lia)). destruct (Z.ltb_spec y (width D (promote D R))); [|lia].
      left. pose proof (div_pow_in D R x y Ix ltac:(lia) ltac:(lia)) as Iz.
      cbn [mlift]. rewrite mbind_ret, dar_val, mbind_ret, conv_id by assumption.
      splits; auto; try (apply Hchk; auto). reflexivity.
    + right; left. split; [assumption|]. apply mbind_throws. assumption.
Qed.
