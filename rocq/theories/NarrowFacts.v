(** NarrowFacts.v -- lemmas for PropsNarrow.v. *)
From Coq Require Import ZArith Bool List Lia.
From Verif Require Import Base CType CTypeFacts Spec CheckedInteger CheckedIntegerFacts CheckedResultOps CheckedResultFacts
  Interval IntervalFacts IntervalOpsFacts ExceptionPolicy Promotion SafeBase SafeSpec SafeFacts SafePortFacts SafeTraceFacts
  SafeStaticFacts PropsArithProofs PropsArith LawSpec LawFacts MulExactFacts OutcomeSpec PropsOutcome StaticSpec NarrowSpec.
Import ListNotations.
Local Open Scope Z_scope.

Lemma narrowed_facts : forall D t t', narrowed t t' ->
  base_ty t' = base_ty t /\ get_pp t' = get_pp t /\ get_ep t' = get_ep t /\ is_safe t' = is_safe t
  /\ lim_lo D t <= lim_lo D t' /\ lim_hi D t' <= lim_hi D t.
Proof.
  intros D t t' [->|(T & a & b & a' & b' & P & E & -> & -> & A & B)]; cbn; splits; auto; lia.
Qed.

Lemma narrowed_holds : forall D t t' x, narrowed t t' -> holds D t' x -> holds D t x.
Proof. intros D t t' x N H. destruct (narrowed_facts D t t' N) as (_ & _ & _ & _ & A & B). unfold holds in *. lia. Qed.

Lemma narrowed_policies : forall t t' u u', narrowed t t' -> narrowed u u' ->
  common_pp t' u' = common_pp t u /\ common_ep t' u' = common_ep t u.
Proof.
  intros t t' u u' N M.
  destruct (narrowed_facts LP64 t t' N) as (_ & A & B & C & _). destruct (narrowed_facts LP64 u u' M) as (_ & A' & B' & C' & _).
  unfold common_pp, common_ep. rewrite A, B, C, A', B', C'. auto.
Qed.

Lemma narrowed_type : forall D op t t' u u' oi oi', narrowed t t' -> narrowed u u' ->
  op_static D op t u = Some oi -> op_static D op t' u' = Some oi' -> by_type (sP (oi_type oi)) ->
  oi_R oi' = oi_R oi /\ oi_E oi' = oi_E oi /\ st (oi_type oi') = st (oi_type oi) /\ sP (oi_type oi') = sP (oi_type oi).
Proof.
  intros D op t t' u u' oi oi' N M H H' HP.
  destruct (op_static_inv _ _ _ _ _ H) as (P & ri & A1 & A2 & A3 & _ & A4 & _).
  destruct (op_static_inv _ _ _ _ _ H') as (P' & ri' & B1 & B2 & B3 & _ & B4 & _).
  destruct (narrowed_policies t t' u u' N M) as [C1 C2].
  rewrite C1, A1 in B1. injection B1 as <-. rewrite C2, A2 in B2. injection B2 as E.
  destruct (narrowed_facts D t t' N) as (T & _). destruct (narrowed_facts D u u' M) as (U & _).
  assert (R : oi_R oi' = oi_R oi).
  { rewrite A4 in HP. cbn [sP] in HP. unfold by_type in HP.
    unfold result_base_type in A3, B3. destruct P; try congruence; rewrite T, U in B3; congruence. }
  rewrite A4, B4. cbn. auto.
Qed.

(** unchecked + - * stay unchecked *)
Lemma narrow_arith : forall D op t t' u u' oi oi', op = Add \/ op = Sub \/ op = Mul ->
  wf_operand D t -> wf_operand D u -> wf_operand D t' -> wf_operand D u' ->
  narrowed t t' -> narrowed u u' ->
  op_static D op t u = Some oi -> op_static D op t' u' = Some oi' -> oi_R oi' = oi_R oi ->
  oi_checked oi = false -> oi_checked oi' = false.
Proof.
  intros D op t t' u u' oi oi' Hop Ht Hu Ht' Hu' N M H H' ER C.
  assert (Hf : exact_op op (exact op)) by (destruct Hop as [->|[->| ->]]; unfold exact_op; cbn [exact]; auto).
  destruct (oi_checked oi') eqn:C'; [exfalso|reflexivity].
  destruct (check_needed op _ D t' u' oi' Hf Ht' Hu' H' C') as (x & y & Hx & Hy & Hn). rewrite ER in Hn.
  pose proof (narrowed_holds D _ _ _ N Hx) as Kx. pose proof (narrowed_holds D _ _ _ M Hy) as Ky.
  destruct (op_static_inv _ _ _ _ _ H) as (P & ri & _ & _ & _ & Hri & _ & Hx0). rewrite C in Hx0. symmetry in Hx0.
  destruct (unchecked_run_exact op _ D (oi_R oi) t u x y ri Hf Ht Hu Kx Ky Hri Hx0) as [_ Iz].
  rewrite (exact_exception op _ _ _ _ _ _ Hf) in Hx0. apply orb_false_iff in Hx0. destruct Hx0 as [X1 X2].
  assert (AS : (op = Add \/ op = Sub) \/ op = Mul) by tauto.
  destruct AS as [AS| ->].
  - destruct (elided_in op D (oi_R oi) t u x y ri AS Ht Hu Kx Ky Hri X1 X2). tauto.
  - destruct (elided_mul D (oi_R oi) t u x y ri Ht Hu Kx Ky Hri X1 X2) as [[? ?]|[Z S]]; [tauto|].
    destruct (op_static_inv _ _ _ _ _ H') as (P' & ri' & _ & _ & _ & Hri' & _ & Hx0'). rewrite C' in Hx0'.
    rewrite ER in *.
    destruct (narrowed_facts D t t' N) as (_ & _ & _ & _ & A1 & A2). destruct (narrowed_facts D u u' M) as (_ & _ & _ & _ & B1 & B2).
    pose proof Ht' as (_ & _ & ?). pose proof Hu' as (_ & _ & ?).
    destruct (zero_elides D (oi_R oi) t' u' ri' Ht' Hu' Hri') as [F1 F2].
    + unfold zero_range in *. destruct Z; [left|right]; lia.
    + destruct S; [auto|right; lia].
    + rewrite (exact_exception Mul _ _ _ _ _ _ Hf), F1, F2 in Hx0'. discriminate Hx0'.
Qed.

(** / and % *)
Lemma narrow_div : forall D op t t' u u' oi oi', op = Div \/ op = Mod ->
  wf_operand D t -> wf_operand D u -> wf_operand D t' -> wf_operand D u' ->
  narrowed t t' -> narrowed u u' ->
  op_static D op t u = Some oi -> op_static D op t' u' = Some oi' -> oi_R oi' = oi_R oi ->
  (forall x, holds D t x -> in_type D (oi_R oi) x) -> (forall y, holds D u y -> in_type D (oi_R oi) y) ->
  oi_checked oi = false -> oi_checked oi' = false.
Proof.
  intros D op t t' u u' oi oi' Hop Ht Hu Ht' Hu' N M H H' ER Ft Fu C.
  destruct (narrowed_facts D t t' N) as (_ & _ & _ & _ & A1 & A2). destruct (narrowed_facts D u u' M) as (_ & _ & _ & _ & B1 & B2).
  pose proof Ht' as (_ & _ & ?). pose proof Hu' as (_ & _ & ?). pose proof Ht as (_ & _ & ?). pose proof Hu as (_ & _ & ?).
  assert (L : in_type D (oi_R oi) (lim_lo D t) /\ in_type D (oi_R oi) (lim_hi D t)
    /\ in_type D (oi_R oi) (lim_lo D u) /\ in_type D (oi_R oi) (lim_hi D u))
    by (splits; [apply Ft|apply Ft|apply Fu|apply Fu]; unfold holds; lia).
  destruct L as (L1 & L2 & L3 & L4).
  assert (L' : in_type D (oi_R oi) (lim_lo D t') /\ in_type D (oi_R oi) (lim_hi D t')
    /\ in_type D (oi_R oi) (lim_lo D u') /\ in_type D (oi_R oi) (lim_hi D u'))
    by (unfold in_type in *; lia).
  destruct L' as (K1 & K2 & K3 & K4).
  rewrite <- ER in K1, K2, K3, K4.
  destruct Hop as [-> | ->].
  - apply (C24_when_checked D t' u' oi' Ht' Hu' H' K1 K2 K3 K4).
    apply (C24_when_checked D t u oi Ht Hu H L1 L2 L3 L4) in C. rewrite ER in *.
    unfold in_type in *. lia.
  - apply (C25_when_checked D t' u' oi' Ht' Hu' H' K1 K2 K3 K4).
    apply (C25_when_checked D t u oi Ht Hu H L1 L2 L3 L4) in C. lia.
Qed.

(** << and >> of values that are not negative *)
Lemma narrow_shift : forall D op t t' u u' oi oi', op = Shl \/ op = Shr ->
  wf_operand D t -> wf_operand D u -> wf_operand D t' -> wf_operand D u' ->
  narrowed t t' -> narrowed u u' -> 0 <= lim_lo D t -> 0 <= lim_lo D u ->
  op_static D op t u = Some oi -> op_static D op t' u' = Some oi' -> oi_R oi' = oi_R oi ->
  oi_checked oi = false -> oi_checked oi' = false.
Proof.
  intros D op t t' u u' oi oi' Hop Ht Hu Ht' Hu' N M P Q H H' ER C.
  destruct (narrowed_facts D t t' N) as (_ & _ & _ & _ & A1 & A2). destruct (narrowed_facts D u u' M) as (_ & _ & _ & _ & B1 & B2).
  pose proof Ht' as (_ & _ & ?). pose proof Hu' as (_ & _ & ?). pose proof Ht as (_ & _ & ?). pose proof Hu as (_ & _ & ?).
  destruct Hop as [-> | ->].
  - apply (C26_when_checked D t' u' oi' Ht' Hu' H'); [lia|lia|].
    apply (C26_when_checked D t u oi Ht Hu H P Q) in C. rewrite ER.
    destruct C as [C|C]; [left; lia|right].
    assert (2 ^ lim_hi D u' <= 2 ^ lim_hi D u) by (apply Z.pow_le_mono_r; lia).
    assert (0 < 2 ^ lim_hi D u') by (apply Z.pow_pos_nonneg; lia). nia.
  - apply (C27_when_checked D t' u' oi' Ht' Hu' H').
    apply (C27_when_checked D t u oi Ht Hu H) in C. rewrite ER. unfold shr_unchecked, in_type in *.
    pose proof (lo_le_0 D (oi_R oi)). lia.
Qed.

(** an expression accepted under any policy because it needs no check stays accepted *)
Lemma narrow_compiles : forall D op t t' u u' oi x y, op = Add \/ op = Sub \/ op = Mul ->
  wf_operand D t -> wf_operand D u -> wf_operand D t' -> wf_operand D u' ->
  narrowed t t' -> narrowed u u' ->
  op_static D op t u = Some oi -> by_type (sP (oi_type oi)) -> oi_checked oi = false ->
  exists s m, binary D op t' u' x y = Some (s, m).
Proof.
  intros D op t t' u u' oi x y Hop Ht Hu Ht' Hu' N M H HP C.
  assert (Hf : exact_op op (exact op)) by (destruct Hop as [->|[->| ->]]; unfold exact_op; cbn [exact]; auto).
  destruct (op_static_inv _ _ _ _ _ H) as (P & ri & A1 & A2 & A3 & _ & A4 & _).
  destruct (narrowed_policies t t' u u' N M) as [C1 C2].
  destruct (narrowed_facts D t t' N) as (T & _). destruct (narrowed_facts D u u' M) as (U & _).
  assert (B3 : result_base_type D P (PArith op) t' u' = Some (oi_R oi)).
  { rewrite A4 in HP. cbn [sP] in HP. unfold by_type in HP.
    unfold result_base_type in *. destruct P; try congruence; rewrite T, U; congruence. }
  assert (TI : exists ri', r_type_interval D op (oi_R oi) t' u' = Ok ri').
  { destruct (lim_ok D (oi_R oi) t' u' Ht' Hu') as (Oa & Ob & Oc & Od).
    destruct Hop as [->|[->| ->]]; cbn [r_type_interval]; unfold lim_interval.
    - unfold i_add. cbn [il iu].
      destruct (cr_add_total D _ _ _ Oa Oc) as (? & -> & _). destruct (cr_add_total D _ _ _ Ob Od) as (? & -> & _). cbn. eauto.
    - unfold i_sub. cbn [il iu].
      destruct (cr_sub_total D _ _ _ Oa Od) as (? & -> & _). destruct (cr_sub_total D _ _ _ Ob Oc) as (? & -> & _). cbn. eauto.
    - unfold i_mul, minmax_of, corners. cbn [il iu].
      destruct (cr_mul_total D _ _ _ Oa Oc) as (r1 & -> & O1 & _). destruct (cr_mul_total D _ _ _ Oa Od) as (r2 & -> & O2 & _).
      destruct (cr_mul_total D _ _ _ Ob Oc) as (r3 & -> & O3 & _). destruct (cr_mul_total D _ _ _ Ob Od) as (r4 & -> & O4 & _).
      cbn [seq_res rbind].
      assert (Hall : Forall (cr_ok D (oi_R oi)) [r1; r2; r3; r4])
        by (do 4 (apply Forall_cons; [assumption|]); apply Forall_nil).
      destruct (minmax_spec D _ r1 [r2; r3; r4] Hall) as (i & Hi & _). eauto. }
  destruct TI as (ri' & Hri').
  assert (S : exists oi', op_static D op t' u' = Some oi').
  { unfold op_static. rewrite C1, C2, A1, A2, B3, Hri'. eauto. }
  destruct S as (oi' & S).
  destruct (narrowed_type D op t t' u u' oi oi' N M H S HP) as (ER & _).
  pose proof (narrow_arith D op t t' u u' oi oi' Hop Ht Hu Ht' Hu' N M H S ER C) as C'.
  unfold binary. rewrite S, C'. eauto.
Qed.

(** ------------------------------------------------------------------ *)
(** the declared ranges of results *)
Definition bound_of (D : dmodel) (R : ctype) (v : Z) (c : checked) : Prop :=
  (in_type D R v /\ c = CVal v) \/ (~ in_type D R v /\ exception c = true).

Lemma bound_corner : forall D R f c p q, in_type D R p -> in_type D R q -> cr_ok D R c ->
  corner D R f c p q -> bound_of D R (f p q) c.
Proof.
  intros D R f c p q Hp Hq Ho [->|[X Hn]]; [left; split; [exact Ho|reflexivity]|right; tauto].
Qed.

(** + and -: the bounds of the narrow result against those of the wide one, when some
    operands of the narrow ranges can be handled *)
Lemma narrow_range_add_sub : forall D op R t t' u u' ri ri' x0 y0, op = Add \/ op = Sub ->
  wf_operand D t -> wf_operand D u -> wf_operand D t' -> wf_operand D u' ->
  narrowed t t' -> narrowed u u' ->
  r_type_interval D op R t u = Ok ri -> r_type_interval D op R t' u' = Ok ri' ->
  holds D t' x0 -> holds D u' y0 -> in_type D R x0 -> in_type D R y0 -> in_type D R (exact op x0 y0) ->
  bound_lo D R (il ri) <= bound_lo D R (il ri') /\ bound_hi D R (iu ri') <= bound_hi D R (iu ri).
Proof.
  intros D op R t t' u u' ri ri' x0 y0 Hop Ht Hu Ht' Hu' N M H H' Hx Hy Ix Iy Iz.
  destruct (narrowed_facts D t t' N) as (_ & _ & _ & _ & A1 & A2). destruct (narrowed_facts D u u' M) as (_ & _ & _ & _ & B1 & B2).
  destruct (lim_ok D R t u Ht Hu) as (Oa & Ob & Oc & Od). destruct (lim_ok D R t' u' Ht' Hu') as (Oa' & Ob' & Oc' & Od').
  pose proof Ht as (T1 & T2 & T3). pose proof Hu as (U1 & U2 & U3). pose proof Ht' as (T1' & T2' & T3'). pose proof Hu' as (U1' & U2' & U3').
  unfold holds in *.
  destruct Hop as [-> | ->]; cbn [r_type_interval exact] in *; unfold i_add, i_sub, lim_interval in *; cbn [il iu] in *.
  - destruct (cr_add_total D R _ _ Oa Oc) as (l & El & Ol & Vl). destruct (cr_add_total D R _ _ Ob Od) as (h & Eh & Oh & Vh).
    destruct (cr_add_total D R _ _ Oa' Oc') as (l' & El' & Ol' & Vl'). destruct (cr_add_total D R _ _ Ob' Od') as (h' & Eh' & Oh' & Vh').
    rewrite El, Eh in H. rewrite El', Eh' in H'. cbn in H, H'. injection H as <-. injection H' as <-. cbn [il iu].
    apply add_corner in El', Eh'; auto. split.
    + destruct l as [v|e]; cbn [bound_lo].
      2:{ destruct l' as [v'|e']; cbn; [cbn in Ol'; unfold in_type in Ol'; lia|lia]. }
      destruct (Vl v eq_refl) as (a & c & Ea & Ec & ->). apply cast_val in Ea, Ec; auto.
      cbn in Ol. unfold in_type in *.
      destruct El' as [->|[_ Hn]]; [cbn; lia|exfalso; apply Hn; unfold in_type; lia].
    + destruct h as [v|e]; cbn [bound_hi].
      2:{ destruct h' as [v'|e']; cbn; [cbn in Oh'; unfold in_type in Oh'; lia|lia]. }
      destruct (Vh v eq_refl) as (b & d & Eb & Ed & ->). apply cast_val in Eb, Ed; auto.
      cbn in Oh. unfold in_type in *.
      destruct Eh' as [->|[_ Hn]]; [cbn; lia|exfalso; apply Hn; unfold in_type; lia].
  - destruct (cr_sub_total D R _ _ Oa Od) as (l & El & Ol & Vl). destruct (cr_sub_total D R _ _ Ob Oc) as (h & Eh & Oh & Vh).
    destruct (cr_sub_total D R _ _ Oa' Od') as (l' & El' & Ol' & Vl'). destruct (cr_sub_total D R _ _ Ob' Oc') as (h' & Eh' & Oh' & Vh').
    rewrite El, Eh in H. rewrite El', Eh' in H'. cbn in H, H'. injection H as <-. injection H' as <-. cbn [il iu].
    apply sub_corner in El', Eh'; auto. split.
    + destruct l as [v|e]; cbn [bound_lo].
      2:{ destruct l' as [v'|e']; cbn; [cbn in Ol'; unfold in_type in Ol'; lia|lia]. }
      destruct (Vl v eq_refl) as (a & d & Ea & Ed & ->). apply cast_val in Ea, Ed; auto.
      cbn in Ol. unfold in_type in *.
      destruct El' as [->|[_ Hn]]; [cbn; lia|exfalso; apply Hn; unfold in_type; lia].
    + destruct h as [v|e]; cbn [bound_hi].
      2:{ destruct h' as [v'|e']; cbn; [cbn in Oh'; unfold in_type in Oh'; lia|lia]. }
      destruct (Vh v eq_refl) as (b & c & Eb & Ec & ->). apply cast_val in Eb, Ec; auto.
      cbn in Oh. unfold in_type in *.
      destruct Eh' as [->|[_ Hn]]; [cbn; lia|exfalso; apply Hn; unfold in_type; lia].
Qed.

(** the product of ranges that are inside R *)
Lemma mul_bounds : forall D R t u ri, wf_operand D t -> wf_operand D u ->
  in_type D R (lim_lo D t) -> in_type D R (lim_hi D t) -> in_type D R (lim_lo D u) -> in_type D R (lim_hi D u) ->
  r_type_interval D Mul R t u = Ok ri ->
  exists L H, bound_of D R L (il ri) /\ bound_of D R H (iu ri)
    /\ (exists p q, holds D t p /\ holds D u q /\ L = p * q)
    /\ (exists p q, holds D t p /\ holds D u q /\ H = p * q)
    /\ (forall x y, holds D t x -> holds D u y -> L <= x * y <= H).
Proof.
  intros D R t u ri Ht Hu I1 I2 I3 I4 H. cbn [r_type_interval] in H.
  unfold i_mul, minmax_of, corners, lim_interval in H. cbn [il iu] in H.
  pose proof Ht as (T1 & T2 & T3). pose proof Hu as (U1 & U2 & U3).
  rewrite (proj1 (cast_spec D R _ _ T1) I1), (proj1 (cast_spec D R _ _ T2) I2),
          (proj1 (cast_spec D R _ _ U1) I3), (proj1 (cast_spec D R _ _ U2) I4) in H.
  set (a := lim_lo D t) in *. set (b := lim_hi D t) in *. set (c := lim_lo D u) in *. set (d := lim_hi D u) in *.
  destruct (cr_mul_ext D R (CVal a) (CVal c) I1 I3 I I) as (r1 & E1 & O1 & M1).
  destruct (cr_mul_ext D R (CVal a) (CVal d) I1 I4 I I) as (r2 & E2 & O2 & M2).
  destruct (cr_mul_ext D R (CVal b) (CVal c) I2 I3 I I) as (r3 & E3 & O3 & M3).
  destruct (cr_mul_ext D R (CVal b) (CVal d) I2 I4 I I) as (r4 & E4 & O4 & M4).
  rewrite E1, E2, E3, E4 in H. cbn [seq_res rbind] in H. cbn [to_ext emul] in M1, M2, M3, M4.
  assert (Hall : Forall (cr_ok D R) [r1; r2; r3; r4])
    by (do 4 (apply Forall_cons; [assumption|]); apply Forall_nil).
  destruct (minmax_spec D R r1 [r2; r3; r4] Hall) as (i & Hi & Hs). rewrite Hi in H. injection H as <-.
  destruct Hs as [[Hn _]|(N1 & N2 & K1 & K2 & Kc & J1 & J2 & Nh & Hin)].
  { exfalso. apply Hn. exact (ernd_num _ _ _ _ M1). }
  (* each corner rounds one of the products; order is reflected *)
  assert (B : forall r v, cr_ok D R r -> ernd D R r (Fi v) -> bound_of D R v r).
  { intros [w|e] v Ho Hr; cbn in Hr.
    - injection Hr as ->. left. split; [exact Ho|reflexivity].
    - right. split; [|reflexivity]. unfold in_type. destruct e; cbn in Hr; try tauto; lia. }
  assert (O : forall r r' v v', ernd D R r (Fi v) -> ernd D R r' (Fi v') -> cle r r' -> v <= v' \/ (v > hi D R /\ v' > hi D R) \/ (v < lo D R /\ v' < lo D R)).
  { intros r r' v v' H1 H2 H3. destruct r as [w|e], r' as [w'|e']; cbn in *.
    - injection H1 as ->. injection H2 as ->. lia.
    - injection H1 as ->. destruct e'; cbn in *; try tauto; unfold cr_ok, in_type in *. 
      destruct (Z_le_gt_dec w v'); [auto|right; left; lia].
    - injection H2 as ->. destruct e; cbn in *; try tauto. destruct (Z_le_gt_dec v w'); [auto|right; right; lia].
    - destruct e, e'; cbn in *; try tauto; lia. }
  set (L := Z.min (Z.min (a * c) (a * d)) (Z.min (b * c) (b * d))).
  set (G := Z.max (Z.max (a * c) (a * d)) (Z.max (b * c) (b * d))).
  assert (Lin : L = a * c \/ L = a * d \/ L = b * c \/ L = b * d) by (unfold L; lia).
  assert (Gin : G = a * c \/ G = a * d \/ G = b * c \/ G = b * d) by (unfold G; lia).
  assert (AL : exists r, In r [r1; r2; r3; r4] /\ ernd D R r (Fi L)).
  { destruct Lin as [->|[->|[->| ->]]]; eexists; (split; [|eassumption]); cbn; tauto. }
  assert (AG : exists r, In r [r1; r2; r3; r4] /\ ernd D R r (Fi G)).
  { destruct Gin as [->|[->|[->| ->]]]; eexists; (split; [|eassumption]); cbn; tauto. }
  assert (AI : forall r, In r [r1; r2; r3; r4] -> exists v, ernd D R r (Fi v) /\ L <= v <= G).
  { intros r [<-|[<-|[<-|[<-|[]]]]]; eexists; (split; [eassumption|unfold L, G; lia]). }
  exists L, G. splits.
  - destruct AL as (r & Hr & Er). destruct (AI _ J1) as (v & Ev & Hv).
    destruct (Hin r Hr (ernd_num _ _ _ _ Er)) as [C1 _].
    destruct (O _ _ _ _ Ev Er C1) as [W|[W|W]].
    + assert (v = L) by lia. subst v. apply B; assumption.
    + destruct (B _ _ K1 Ev) as [[? _]|[_ X]]; [unfold in_type in *; lia|]. right. split; [unfold in_type; lia|exact X].
    + destruct (B _ _ K1 Ev) as [[? _]|[_ X]]; [unfold in_type in *; lia|]. right. split; [unfold in_type; lia|exact X].
  - destruct AG as (r & Hr & Er). destruct (AI _ J2) as (v & Ev & Hv).
    destruct (Hin r Hr (ernd_num _ _ _ _ Er)) as [_ C1].
    destruct (O _ _ _ _ Er Ev C1) as [W|[W|W]].
    + assert (v = G) by lia. subst v. apply B; assumption.
    + destruct (B _ _ K2 Ev) as [[? _]|[_ X]]; [unfold in_type in *; lia|]. right. split; [unfold in_type; lia|exact X].
    + destruct (B _ _ K2 Ev) as [[? _]|[_ X]]; [unfold in_type in *; lia|]. right. split; [unfold in_type; lia|exact X].
  - destruct Lin as [->|[->|[->| ->]]]; do 2 eexists; (split; [|split; [|reflexivity]]); unfold holds; fold a b c d; lia.
  - destruct Gin as [->|[->|[->| ->]]]; do 2 eexists; (split; [|split; [|reflexivity]]); unfold holds; fold a b c d; lia.
  - intros x y Hx Hy. unfold holds in Hx, Hy. fold a b in Hx. fold c d in Hy.
    destruct (corner_bounds Z.mul a b c d x y Hx Hy) as (p & q & p' & q' & Hp & Hq & Hp' & Hq' & G1 & G2).
    + intros y0 _. destruct (Z_le_gt_dec 0 y0); [left|right]; intros; nia.
    + intros x0 _. destruct (Z_le_gt_dec 0 x0); [left|right]; intros; nia.
    + destruct Hp as [->| ->], Hq as [->| ->], Hp' as [->| ->], Hq' as [->| ->]; unfold L, G; lia.
Qed.

(** a factor that may be negative, and an unsigned R: both bounds are errors *)
Lemma mul_no_bounds : forall D R t u ri, wf_operand D t -> wf_operand D u ->
  csigned D R = false -> lim_lo D t < 0 \/ lim_lo D u < 0 ->
  r_type_interval D Mul R t u = Ok ri -> exception (il ri) = true /\ exception (iu ri) = true.
Proof.
  intros D R t u ri Ht Hu S Ng H. cbn [r_type_interval] in H.
  destruct (lim_ok D R t u Ht Hu) as (Oa & Ob & Oc & Od).
  unfold i_mul, minmax_of, corners, lim_interval in H. cbn [il iu] in H.
  destruct (cr_mul_total D R _ _ Oa Oc) as (r1 & E1 & O1 & _). destruct (cr_mul_total D R _ _ Oa Od) as (r2 & E2 & O2 & _).
  destruct (cr_mul_total D R _ _ Ob Oc) as (r3 & E3 & O3 & _). destruct (cr_mul_total D R _ _ Ob Od) as (r4 & E4 & O4 & _).
  rewrite E1, E2, E3, E4 in H. cbn [seq_res rbind] in H.
  assert (Hall : Forall (cr_ok D R) [r1; r2; r3; r4])
    by (do 4 (apply Forall_cons; [assumption|]); apply Forall_nil).
  destruct (minmax_spec D R r1 [r2; r3; r4] Hall) as (i & Hi & Hs). rewrite Hi in H. injection H as <-.
  assert (Nr : ~ num r1).
  { intros Nr. destruct (cr_mul_not_num D R _ _ _ Oa Oc E1 Nr) as [Na Nc].
    destruct (num_cast D R t Ht Na); [congruence|]. destruct (num_cast D R u Hu Nc); [congruence|]. lia. }
  destruct Hs as [[_ ->]|(_ & _ & _ & _ & _ & _ & _ & Nh & _)]; [|tauto].
  cbn [il iu]. destruct r1 as [v|e]; [exfalso; apply Nr; exact I|auto].
Qed.

Lemma narrow_range_mul : forall D t t' u u' ri ri' x0 y0,
  let R := uac D (base_ty t) (base_ty u) in
  wf_operand D t -> wf_operand D u -> wf_operand D t' -> wf_operand D u' ->
  narrowed t t' -> narrowed u u' ->
  r_type_interval D Mul R t u = Ok ri -> r_type_interval D Mul R t' u' = Ok ri' ->
  holds D t' x0 -> holds D u' y0 -> in_type D R (x0 * y0) ->
  bound_lo D R (il ri) <= bound_lo D R (il ri') /\ bound_hi D R (iu ri') <= bound_hi D R (iu ri).
Proof.
  intros D t t' u u' ri ri' x0 y0 R Ht Hu Ht' Hu' N M H H' Hx Hy Iz.
  destruct (exact_ri Mul Z.mul D R t' u' ri' ltac:(unfold exact_op; auto) Ht' Hu' H') as ((W1 & W2 & W3) & _ & _).
  assert (Bl : lo D R <= bound_lo D R (il ri') <= hi D R) by exact W1.
  assert (Bh : lo D R <= bound_hi D R (iu ri') <= hi D R) by exact W2.
  destruct (narrowed_facts D t t' N) as (Bt & _ & _ & _ & A1 & A2). destruct (narrowed_facts D u u' M) as (Bu & _ & _ & _ & B1 & B2).
  pose proof Ht as (T1 & T2 & T3). pose proof Hu as (U1 & U2 & U3). pose proof Ht' as (T1' & T2' & T3'). pose proof Hu' as (U1' & U2' & U3').
  assert (Dec : (csigned D R = true \/ (0 <= lim_lo D t /\ 0 <= lim_lo D u)) \/ (csigned D R = false /\ (lim_lo D t < 0 \/ lim_lo D u < 0))).
  { destruct (csigned D R); [auto|]. destruct (Z_lt_le_dec (lim_lo D t) 0); [auto|]. destruct (Z_lt_le_dec (lim_lo D u) 0); auto. }
  destruct Dec as [S|[S Ng]].
  2:{ destruct (mul_no_bounds D R t u ri Ht Hu S Ng H) as [X1 X2].
      apply exc_true in X1, X2. destruct X1 as (e1 & ->), X2 as (e2 & ->). cbn [bound_lo bound_hi]. lia. }
  assert (F : in_type D R (lim_lo D t) /\ in_type D R (lim_hi D t) /\ in_type D R (lim_lo D u) /\ in_type D R (lim_hi D u)).
  { unfold R in *. splits.
    - apply uac_in_l; [assumption|tauto].
    - apply uac_in_l; [assumption|]. destruct S as [S|S]; [auto|right; lia].
    - apply uac_in_r; [assumption|tauto].
    - apply uac_in_r; [assumption|]. destruct S as [S|S]; [auto|right; lia]. }
  destruct F as (F1 & F2 & F3 & F4).
  assert (F' : in_type D R (lim_lo D t') /\ in_type D R (lim_hi D t') /\ in_type D R (lim_lo D u') /\ in_type D R (lim_hi D u')).
  { unfold in_type in *. lia. }
  destruct F' as (F1' & F2' & F3' & F4').
  destruct (mul_bounds D R t u ri Ht Hu F1 F2 F3 F4 H) as (L & G & BL & BG & _ & _ & Q).
  destruct (mul_bounds D R t' u' ri' Ht' Hu' F1' F2' F3' F4' H') as (L' & G' & BL' & BG' & (p & q & Hp & Hq & EL) & (p' & q' & Hp' & Hq' & EG) & Q').
  pose proof (Q _ _ (narrowed_holds D _ _ _ N Hp) (narrowed_holds D _ _ _ M Hq)).
  pose proof (Q _ _ (narrowed_holds D _ _ _ N Hp') (narrowed_holds D _ _ _ M Hq')).
  pose proof (Q' _ _ Hx Hy). unfold in_type in Iz. rewrite <- EL, <- EG in *. split.
  - destruct BL as [[I1 ->]|[I1 X]]; [|apply exc_true in X; destruct X as (e & ->); cbn [bound_lo]; lia].
    destruct BL' as [[I2 ->]|[I2 X]]; cbn [bound_lo]; [lia|]. exfalso. apply I2. unfold in_type in *. lia.
  - destruct BG as [[I1 ->]|[I1 X]]; [|apply exc_true in X; destruct X as (e & ->); cbn [bound_hi]; lia].
    destruct BG' as [[I2 ->]|[I2 X]]; cbn [bound_hi]; [lia|]. exfalso. apply I2. unfold in_type in *. lia.
Qed.

Lemma narrow_range : forall D op t t' u u' oi oi' x0 y0, op = Add \/ op = Sub \/ op = Mul ->
  wf_operand D t -> wf_operand D u -> wf_operand D t' -> wf_operand D u' ->
  narrowed t t' -> narrowed u u' ->
  op_static D op t u = Some oi -> op_static D op t' u' = Some oi' -> sP (oi_type oi) = Native ->
  holds D t' x0 -> holds D u' y0 -> meaningful D op (base_ty t) (base_ty u) x0 y0 ->
  range_inside (oi_type oi') (oi_type oi).
Proof.
  intros D op t t' u u' oi oi' x0 y0 Hop Ht Hu Ht' Hu' N M H H' HP Hx Hy Hm.
  assert (BT : by_type (sP (oi_type oi))) by (unfold by_type; rewrite HP; discriminate).
  destruct (narrowed_type D op t t' u u' oi oi' N M H H' BT) as (ER & _).
  destruct (op_static_inv _ _ _ _ _ H) as (P & ri & _ & _ & A3 & A5 & A4 & _).
  destruct (op_static_inv _ _ _ _ _ H') as (P' & ri' & _ & _ & _ & B5 & B4 & _).
  rewrite A4 in HP. cbn [sP] in HP. subst P. rewrite ER in *. unfold range_inside. rewrite A4, B4. cbn [smin smax].
  unfold meaningful in Hm.
  assert (AS : (op = Add \/ op = Sub) \/ op = Mul) by tauto.
  assert (EU : built_in_type D op (base_ty t) (base_ty u) = oi_R oi).
  { cbn [result_base_type] in A3. destruct Hop as [->|[->| ->]]; injection A3 as A3; exact A3. }
  clear A3. rename EU into A3. rewrite A3 in Hm.
  destruct AS as [AS| ->].
  - apply (narrow_range_add_sub D op (oi_R oi) t t' u u' ri ri' x0 y0); try assumption; destruct AS as [->| ->]; tauto.
  - assert (E : oi_R oi = uac D (base_ty t) (base_ty u)) by (rewrite <- A3; reflexivity).
    rewrite E in *. apply (narrow_range_mul D t t' u u' ri ri' x0 y0); try tauto.
Qed.

(** under a trap policy only unchecked expressions compile *)
Lemma trap_unchecked : forall D op t u x y s m, binary D op t u x y = Some (s, m) -> traps (sE s) ->
  exists oi, op_static D op t u = Some oi /\ oi_type oi = s /\ oi_checked oi = false.
Proof.
  intros D op t u x y s m H HT. unfold binary in H.
  destruct (op_static D op t u) as [oi|] eqn:Eo; [|discriminate H].
  destruct (op_static_inv _ _ _ _ _ Eo) as (P & ri & _ & _ & _ & _ & A4 & _).
  destruct (oi_checked oi) eqn:C.
  - destruct (work_type D op (oi_R oi) t u) as [W|]; [|discriminate H].
    destruct (casting_helper D (oi_E oi) W t u x y) as [c|] eqn:Ec; [|discriminate H].
    destruct (all_compile _ _) in H; [|discriminate H]. injection H as Hs _.
    rewrite casting_helper_trap in Ec; [discriminate Ec|].
    rewrite <- Hs, A4 in HT. exact HT.
  - injection H as Hs _. exists oi. auto.
Qed.

Lemma narrow_trap : forall D op t t' u u' x y x' y' s m, op = Add \/ op = Sub \/ op = Mul ->
  wf_operand D t -> wf_operand D u -> wf_operand D t' -> wf_operand D u' ->
  narrowed t t' -> narrowed u u' ->
  binary D op t u x y = Some (s, m) -> traps (sE s) -> by_type (sP s) ->
  exists s' m', binary D op t' u' x' y' = Some (s', m').
Proof.
  intros D op t t' u u' x y x' y' s m Hop Ht Hu Ht' Hu' N M H HT HP.
  destruct (trap_unchecked D op t u x y s m H HT) as (oi & Eo & Es & C). subst s.
  exact (narrow_compiles D op t t' u u' oi x' y' Hop Ht Hu Ht' Hu' N M Eo HP C).
Qed.

(** ------------------------------------------------------------------ *)
(** for the theorems of PropsNarrow.v *)
Lemma C84_checks_lemma : forall D op t t' u u' oi oi', op = Add \/ op = Sub \/ op = Mul ->
  wf_operand D t -> wf_operand D u -> wf_operand D t' -> wf_operand D u' ->
  narrowed t t' -> narrowed u u' ->
  op_static D op t u = Some oi -> op_static D op t' u' = Some oi' -> by_type (sP (oi_type oi)) ->
  st (oi_type oi') = st (oi_type oi) /\ (oi_checked oi = false -> oi_checked oi' = false).
Proof.
  intros D op t t' u u' oi oi' Hop Ht Hu Ht' Hu' N M H H' HP.
  destruct (narrowed_type D op t t' u u' oi oi' N M H H' HP) as (ER & _ & ES & _). split; [exact ES|].
  exact (narrow_arith D op t t' u u' oi oi' Hop Ht Hu Ht' Hu' N M H H' ER).
Qed.

Lemma oi_type_R : forall D op t u oi, op_static D op t u = Some oi -> st (oi_type oi) = oi_R oi.
Proof. intros D op t u oi H. destruct (op_static_inv _ _ _ _ _ H) as (P & ri & _ & _ & _ & _ & -> & _). reflexivity. Qed.

Lemma C84_division_lemma : forall D op t t' u u' oi oi', op = Div \/ op = Mod ->
  wf_operand D t -> wf_operand D u -> wf_operand D t' -> wf_operand D u' ->
  narrowed t t' -> narrowed u u' ->
  op_static D op t u = Some oi -> op_static D op t' u' = Some oi' -> by_type (sP (oi_type oi)) ->
  (forall x, holds D t x -> in_type D (st (oi_type oi)) x) -> (forall y, holds D u y -> in_type D (st (oi_type oi)) y) ->
  oi_checked oi = false -> oi_checked oi' = false.
Proof.
  intros D op t t' u u' oi oi' Hop Ht Hu Ht' Hu' N M H H' HP. rewrite (oi_type_R _ _ _ _ _ H).
  destruct (narrowed_type D op t t' u u' oi oi' N M H H' HP) as (ER & _).
  exact (narrow_div D op t t' u u' oi oi' Hop Ht Hu Ht' Hu' N M H H' ER).
Qed.

Lemma C84_shifts_lemma : forall D op t t' u u' oi oi', op = Shl \/ op = Shr ->
  wf_operand D t -> wf_operand D u -> wf_operand D t' -> wf_operand D u' ->
  narrowed t t' -> narrowed u u' -> 0 <= lim_lo D t -> 0 <= lim_lo D u ->
  op_static D op t u = Some oi -> op_static D op t' u' = Some oi' -> by_type (sP (oi_type oi)) ->
  oi_checked oi = false -> oi_checked oi' = false.
Proof.
  intros D op t t' u u' oi oi' Hop Ht Hu Ht' Hu' N M P Q H H' HP.
  destruct (narrowed_type D op t t' u u' oi oi' N M H H' HP) as (ER & _).
  exact (narrow_shift D op t t' u u' oi oi' Hop Ht Hu Ht' Hu' N M P Q H H' ER).
Qed.

Definition wit (P : pp) (T : ctype) (a b : Z) : otype := OSafe (mkSafe T a b P strict_exception_policy).

Lemma wit_narrowed : forall P T a b a' b', a <= a' -> b' <= b -> narrowed (wit P T a b) (wit P T a' b').
Proof. intros. right. do 7 eexists. split; [reflexivity|split; [reflexivity|lia]]. Qed.

Lemma C84_range_refuted_lemma : exists D t t' u u' oi oi',
  wf_operand D t /\ wf_operand D u /\ wf_operand D t' /\ wf_operand D u' /\ narrowed t t' /\ narrowed u u'
  /\ op_static D Add t u = Some oi /\ op_static D Add t' u' = Some oi'
  /\ smin (oi_type oi) = 0 /\ smin (oi_type oi') = -2147483648.
Proof.
  exists LP64, (wit Native Int 0 2000000000), (wit Native Int 1900000000 2000000000),
    (wit Native Int 0 2000000000), (wit Native Int 1900000000 2000000000).
  exists (mkInfo strict_exception_policy Int (mkSafe Int 0 2147483647 Native strict_exception_policy) true),
    (mkInfo strict_exception_policy Int (mkSafe Int (-2147483648) 2147483647 Native strict_exception_policy) true).
  splits; try (apply wit_narrowed; lia); vm_compute; intuition congruence.
Qed.

Lemma C84_range_division_refuted_lemma : exists D op t t' u u' oi oi', (op = Div \/ op = Mod) /\
  wf_operand D t /\ wf_operand D u /\ wf_operand D t' /\ wf_operand D u' /\ narrowed t t' /\ narrowed u u'
  /\ op_static D op t u = Some oi /\ op_static D op t' u' = Some oi' /\ sP (oi_type oi) = Native
  /\ (exists x y, holds D t' x /\ holds D u' y /\ meaningful D op (base_ty t) (base_ty u) x y)
  /\ ~ range_inside (oi_type oi') (oi_type oi).
Proof.
  exists LP64, Div, (wit Native Int 0 100), (wit Native Int 0 100), (wit Native Int (-5) 5), (wit Native Int 0 5).
  exists (mkInfo strict_exception_policy Int (mkSafe Int (-100) 100 Native strict_exception_policy) true),
    (mkInfo strict_exception_policy Int (mkSafe Int (-2147483648) 2147483647 Native strict_exception_policy) true).
  split; [auto|]. splits; try (apply wit_narrowed; lia);
    lazymatch goal with
    | |- exists _, _ => exists 8, 2; vm_compute; intuition congruence
    | |- ~ _ => intros [A _]; vm_compute in A; apply A; reflexivity
    | _ => vm_compute; intuition congruence
    end.
Qed.

Lemma C84_automatic_refuted_lemma : exists D t t' u u' x y s m s' e,
  wf_operand D t /\ wf_operand D u /\ wf_operand D t' /\ wf_operand D u' /\ narrowed t t' /\ narrowed u u'
  /\ holds D t' x /\ holds D u' y
  /\ binary D Sub t u x y = Some (s, m) /\ sP s = Automatic /\ returns m (x - y)
  /\ binary D Sub t' u' x y = Some (s', ([(arithmetic_error, e)], Throw e)).
Proof.
  exists LP64, (wit Automatic UChar 0 200), (wit Automatic UChar 100 200), (wit Automatic UChar 0 200), (wit Automatic UChar 100 200).
  exists 150, 140, (mkSafe Short (-200) 200 Automatic strict_exception_policy), ([], Ret 10),
    (mkSafe SChar (-128) 127 Automatic strict_exception_policy), positive_overflow_error.
  splits; try (apply wit_narrowed; lia); vm_compute; intuition congruence.
Qed.

Lemma C84_shift_refuted_lemma : exists D t t' u oi oi',
  wf_operand D t /\ wf_operand D t' /\ wf_operand D u /\ narrowed t t'
  /\ op_static D Shr t u = Some oi /\ op_static D Shr t' u = Some oi' /\ sP (oi_type oi) = Native
  /\ oi_checked oi = false /\ oi_checked oi' = true.
Proof.
  exists LP64, (wit Native UInt 0 9), (wit Native UInt 1 9), (wit Native Int (-3) 5).
  exists (mkInfo strict_exception_policy UInt (mkSafe UInt 0 0 Native strict_exception_policy) false),
    (mkInfo strict_exception_policy UInt (mkSafe UInt 0 4294967295 Native strict_exception_policy) true).
  splits; try (apply wit_narrowed; lia); vm_compute; intuition congruence.
Qed.
