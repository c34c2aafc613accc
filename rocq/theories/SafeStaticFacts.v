(** SafeStaticFacts.v -- facts about the compile-time decisions: when a check is
    made, which declared range a result gets, when a construction compiles. *)
From Coq Require Import ZArith List Bool Lia.
From Verif Require Import Base CType CTypeFacts Utility SafeCompare Spec CheckedInteger CheckedIntegerFacts
  CheckedResultOps CheckedResultFacts Interval IntervalFacts IntervalOpsFacts ExceptionPolicy Promotion SafeBase SafeSpec
  SafeFacts SafeConvFacts SafeDivFacts SafePortFacts SafeTraceFacts ProgramFacts.
Import ListNotations.
Local Open Scope Z_scope.

(** the checked result c reports the exact value of f p q, or p, q or f p q is
    not representable in R *)
Definition corner (D : dmodel) (R : ctype) (f : Z -> Z -> Z) (c : checked) (p q : Z) : Prop :=
  c = CVal (f p q)
  \/ (exception c = true /\ ~ (in_type D R p /\ in_type D R q /\ in_type D R (f p q))).

Definition attained (D : dmodel) (R : ctype) (f : Z -> Z -> Z) (t u : otype) (c : checked) : Prop :=
  exists p q, holds D t p /\ holds D u q /\ corner D R f c p q.

Lemma holds_lo : forall D o, wf_operand D o -> holds D o (lim_lo D o).
Proof. intros D o (_ & _ & H). unfold holds. lia. Qed.
Lemma holds_hi : forall D o, wf_operand D o -> holds D o (lim_hi D o).
Proof. intros D o (_ & _ & H). unfold holds. lia. Qed.

(** the checked operation on two casts *)
Lemma cast_corner : forall D R f (g : checked -> checked -> res checked) T U p q c,
  (forall a b, cr_ok D R a -> cr_ok D R b -> exists k, g a b = Ok k
     /\ (forall v, k = CVal v -> forall x y, stands_for D R a x -> stands_for D R b y -> v = f x y)) ->
  (forall x y, in_type D R x -> in_type D R y -> in_type D R (f x y) -> g (CVal x) (CVal y) = Ok (CVal (f x y))) ->
  in_type D T p -> in_type D U q -> g (cast D R T p) (cast D R U q) = Ok c -> corner D R f c p q.
Proof.
  intros D R f g T U p q c Htot Hval Hp Hq Hg.
  destruct (Htot _ _ (cast_ok D R T p Hp) (cast_ok D R U q Hq)) as (k & Hk & Hv).
  rewrite Hg in Hk. injection Hk as <-.
  destruct c as [v|e].
  - left. f_equal. apply (Hv v eq_refl); apply cast_stands; assumption.
  - right. split; [reflexivity|]. intros (Ip & Iq & If).
    rewrite (proj1 (cast_spec D R T p Hp) Ip), (proj1 (cast_spec D R U q Hq) Iq) in Hg.
    rewrite Hval in Hg by assumption. discriminate.
Qed.

Lemma add_corner : forall D R T U p q c, in_type D T p -> in_type D U q ->
  cr_add D R (cast D R T p) (cast D R U q) = Ok c -> corner D R Z.add c p q.
Proof.
  intros D R T U p q c Hp Hq. apply cast_corner; auto.
  - intros a b Ha Hb. destruct (cr_add_total D R a b Ha Hb) as (k & Hk & _ & Hv). exists k. split; [assumption|].
    intros v Ev x y Hx Hy. destruct (Hv v Ev) as (x0 & y0 & -> & -> & ->). cbn in Hx, Hy. lia.
  - intros x y Ix Iy If. cbn. destruct (eoo_cases _ _ _ _ (add_spec D R x y Ix Iy)) as [[_ ->]|[[H _]|[H _]]]; [reflexivity| |];
    unfold in_type in If; lia.
Qed.
Lemma sub_corner : forall D R T U p q c, in_type D T p -> in_type D U q ->
  cr_sub D R (cast D R T p) (cast D R U q) = Ok c -> corner D R Z.sub c p q.
Proof.
  intros D R T U p q c Hp Hq. apply cast_corner; auto.
  - intros a b Ha Hb. destruct (cr_sub_total D R a b Ha Hb) as (k & Hk & _ & Hv). exists k. split; [assumption|].
    intros v Ev x y Hx Hy. destruct (Hv v Ev) as (x0 & y0 & -> & -> & ->). cbn in Hx, Hy. lia.
  - intros x y Ix Iy If. cbn. destruct (eoo_cases _ _ _ _ (subtract_spec D R x y Ix Iy)) as [[_ ->]|[[H _]|[H _]]]; [reflexivity| |];
    unfold in_type in If; lia.
Qed.
Lemma mul_corner : forall D R T U p q c, in_type D T p -> in_type D U q ->
  cr_mul D R (cast D R T p) (cast D R U q) = Ok c -> corner D R Z.mul c p q.
Proof.
  intros D R T U p q c Hp Hq. apply cast_corner; auto.
  - intros a b Ha Hb. destruct (cr_mul_total D R a b Ha Hb) as (k & Hk & _ & Hv). eauto.
  - intros x y Ix Iy If.
    destruct (cr_mul_ext D R (CVal x) (CVal y) Ix Iy I I) as (k & -> & _ & Hk). cbn [to_ext] in Hk.
    assert (E : emul (Fi x) (Fi y) = Fi (x * y)) by reflexivity. rewrite E in Hk.
    destruct k as [v|e]; cbn in Hk; [injection Hk as <-; reflexivity|].
    destruct e; cbn in Hk; try tauto; unfold in_type in If; lia.
Qed.

(** the bounds of the compile-time result interval are attained, or report that
    some operands cannot be handled *)
Lemma ri_attained : forall op f D R t u ri, exact_op op f -> wf_operand D t -> wf_operand D u ->
  r_type_interval D op R t u = Ok ri -> attained D R f t u (il ri) /\ attained D R f t u (iu ri).
Proof.
  intros op f D R t u ri Hop Ht Hu H.
  pose proof Ht as (T1 & T2 & T3). pose proof Hu as (U1 & U2 & U3).
  pose proof (holds_lo D t Ht). pose proof (holds_hi D t Ht).
  pose proof (holds_lo D u Hu). pose proof (holds_hi D u Hu).
  destruct Hop as [[-> ->]|[[-> ->]|[-> ->]]]; cbn [r_type_interval] in H; unfold lim_interval in H.
  - unfold i_add in H. cbn [il iu] in H.
    destruct (cr_add D R _ _) as [a|] eqn:Ea in H; [|discriminate].
    destruct (cr_add D R _ _) as [b|] eqn:Eb in H; [|discriminate]. cbn in H. injection H as <-.
    apply add_corner in Ea; auto. apply add_corner in Eb; auto.
    split; do 2 eexists; (split; [|split; [|eassumption]]); assumption.
  - unfold i_sub in H. cbn [il iu] in H.
    destruct (cr_sub D R _ _) as [a|] eqn:Ea in H; [|discriminate].
    destruct (cr_sub D R _ _) as [b|] eqn:Eb in H; [|discriminate]. cbn in H. injection H as <-.
    apply sub_corner in Ea; auto. apply sub_corner in Eb; auto.
    split; do 2 eexists; (split; [|split; [|eassumption]]); assumption.
  - unfold i_mul, corners, minmax_of in H. cbn [il iu] in H.
    set (a := cast D R (base_ty t) (lim_lo D t)) in *. set (b := cast D R (base_ty t) (lim_hi D t)) in *.
    set (c := cast D R (base_ty u) (lim_lo D u)) in *. set (d := cast D R (base_ty u) (lim_hi D u)) in *.
    assert (Oa : cr_ok D R a) by (apply cast_ok; assumption). assert (Ob : cr_ok D R b) by (apply cast_ok; assumption).
    assert (Oc : cr_ok D R c) by (apply cast_ok; assumption). assert (Od : cr_ok D R d) by (apply cast_ok; assumption).
    destruct (cr_mul_total D R a c Oa Oc) as (r1 & E1 & O1 & _).
    destruct (cr_mul_total D R a d Oa Od) as (r2 & E2 & O2 & _).
    destruct (cr_mul_total D R b c Ob Oc) as (r3 & E3 & O3 & _).
    destruct (cr_mul_total D R b d Ob Od) as (r4 & E4 & O4 & _).
    rewrite E1, E2, E3, E4 in H. cbn [seq_res rbind] in H.
    apply mul_corner in E1; auto. apply mul_corner in E2; auto.
    apply mul_corner in E3; auto. apply mul_corner in E4; auto.
    assert (Hall : Forall (cr_ok D R) [r1; r2; r3; r4])
      by (do 4 (apply Forall_cons; [assumption|]); apply Forall_nil).
    destruct (minmax_spec D R r1 [r2; r3; r4] Hall) as (i & Hi & Hs). rewrite Hi in H. injection H as <-.
    assert (Hin : forall k, In k [r1; r2; r3; r4] -> attained D R Z.mul t u k).
    { intros k [<-|[<-|[<-|[<-|[]]]]]; do 2 eexists; (split; [|split; [|eassumption]]); assumption. }
    destruct Hs as [[_ ->]|(_ & _ & _ & _ & _ & I1 & I2 & _)]; cbn [il iu]; split; apply Hin; auto; left; reflexivity.
Qed.

(** ------------------------------------------------------------------ *)
(** a check is made only if some operands make it fail *)
Lemma op_static_inv : forall D op t u oi, op_static D op t u = Some oi ->
  exists P ri, common_pp t u = Some P /\ common_ep t u = Some (oi_E oi)
    /\ result_base_type D P (PArith op) t u = Some (oi_R oi)
    /\ r_type_interval D op (oi_R oi) t u = Ok ri
    /\ oi_type oi = mkSafe (oi_R oi) (bound_lo D (oi_R oi) (il ri)) (bound_hi D (oi_R oi) (iu ri)) P (oi_E oi)
    /\ oi_checked oi = exception_possible D op (oi_R oi) t u ri.
Proof.
  intros D op t u oi H. unfold op_static in H.
  destruct (common_pp t u) as [P|]; [|discriminate].
  destruct (common_ep t u) as [E|]; [|discriminate].
  destruct (result_base_type D P (PArith op) t u) as [R|] eqn:ER; [|discriminate].
  destruct (r_type_interval D op R t u) as [ri|] eqn:Eri; [|discriminate].
  injection H as <-. cbn. exists P, ri. splits; auto.
Qed.

Lemma check_needed : forall op f D t u oi, exact_op op f -> wf_operand D t -> wf_operand D u ->
  op_static D op t u = Some oi -> oi_checked oi = true ->
  exists x y, holds D t x /\ holds D u y
    /\ ~ (in_type D (oi_R oi) x /\ in_type D (oi_R oi) y /\ in_type D (oi_R oi) (f x y)).
Proof.
  intros op f D t u oi Hop Ht Hu H Hc.
  destruct (op_static_inv _ _ _ _ _ H) as (P & ri & _ & _ & _ & Hri & _ & Hx).
  rewrite Hx in Hc. rewrite (exact_exception op f) in Hc by assumption.
  destruct (ri_attained op f D _ t u ri Hop Ht Hu Hri) as [(p & q & A1 & A2 & A3) (p' & q' & B1 & B2 & B3)].
  apply orb_prop in Hc. destruct Hc as [Hc|Hc].
  - exists p, q. destruct A3 as [E|[_ E]]; [rewrite E in Hc; discriminate|auto].
  - exists p', q'. destruct B3 as [E|[_ E]]; [rewrite E in Hc; discriminate|auto].
Qed.

Lemma op_static_binary : forall D op t u x y s m, binary D op t u x y = Some (s, m) ->
  exists oi, op_static D op t u = Some oi /\ oi_type oi = s /\ oi_R oi = st s /\ oi_E oi = sE s.
Proof.
  intros D op t u x y s m H.
  destruct (binary_inv _ _ _ _ _ _ _ _ H) as (P & E & R & ri & H1 & H2 & H3 & H4 & -> & _).
  unfold op_static. rewrite H1, H2, H3, H4. eexists. splits; reflexivity.
Qed.

(** the checks of + - * under a policy that throws *)
Lemma check_can_fail : forall op f D t u oi x0 y0 s m0, exact_op op f -> wf_operand D t -> wf_operand D u ->
  op_static D op t u = Some oi -> oi_checked oi = true -> throws_arithmetic (oi_E oi) ->
  binary D op t u x0 y0 = Some (s, m0) ->
  exists x y m, holds D t x /\ holds D u y /\ binary D op t u x y = Some (s, m) /\ throws_arith m.
Proof.
  intros op f D t u oi x0 y0 s m0 Hop Ht Hu H Hc HE Hb.
  destruct (check_needed op f D t u oi Hop Ht Hu H Hc) as (x & y & Hx & Hy & Hn).
  destruct (binary_any D op t u x0 y0 x y s m0 Hb) as (m & Hm).
  exists x, y, m. splits; auto.
  destruct (op_static_binary _ _ _ _ _ _ _ _ Hm) as (oi' & H' & _ & ER & EE). rewrite H in H'. injection H' as <-.
  rewrite EE in HE. rewrite ER in Hn.
  destruct (binary_inv _ _ _ _ _ _ _ _ Hm) as (P & E & R & ri & H1 & H2 & H3 & H4 & -> & K). cbn [st sE] in *.
  assert (Hp : exception_possible D op R t u ri = true).
  { unfold op_static in H. rewrite H1, H2, H3, H4 in H. injection H as <-. exact Hc. }
  destruct K as [[K _]|[_ (W & casts & HW & Hk & _ & ->)]]; [congruence|].
  rewrite (exact_work op f) in HW by assumption. injection HW as <-. unfold checked_run.
  destruct (casting_helper_throws _ _ _ _ _ _ _ _ HE Ht Hu Hx Hy Hk) as [(Ix & Iy & ->)|[_ Tc]];
    [|apply mbind_throws; assumption].
  rewrite mbind_ret. cbn [fst snd].
  destruct (eoo_cases _ _ _ _ (exact_checked op f D R x y Hop Ix Iy)) as [[Hi _]|[[Hi ->]|[Hi ->]]];
    [tauto| |]; cbn [mlift]; rewrite mbind_ret; apply mbind_throws; apply dar_arith;
    auto; unfold arithmetic_err; auto.
Qed.

(** ------------------------------------------------------------------ *)
(** declared ranges of results are the tightest ones *)
Lemma range_attained : forall op f D t u oi, exact_op op f -> wf_operand D t -> wf_operand D u ->
  op_static D op t u = Some oi ->
  let s := oi_type oi in
  (smin s = lo D (st s) \/ exists a b, holds D t a /\ holds D u b /\ f a b = smin s)
  /\ (smax s = hi D (st s) \/ exists a b, holds D t a /\ holds D u b /\ f a b = smax s)
  /\ (oi_checked oi = false ->
      (exists a b, holds D t a /\ holds D u b /\ f a b = smin s)
      /\ (exists a b, holds D t a /\ holds D u b /\ f a b = smax s)).
Proof.
  intros op f D t u oi Hop Ht Hu H s.
  destruct (op_static_inv _ _ _ _ _ H) as (P & ri & _ & _ & _ & Hri & Es & Hx).
  rewrite (exact_exception op f) in Hx by assumption. subst s. rewrite Es. cbn [st smin smax].
  destruct (ri_attained op f D _ t u ri Hop Ht Hu Hri) as [(p & q & A1 & A2 & A3) (p' & q' & B1 & B2 & B3)].
  splits.
  - destruct A3 as [->|[E _]]; [right; exists p, q; auto|left].
    destruct (exc_true _ E) as (e & ->). reflexivity.
  - destruct B3 as [->|[E _]]; [right; exists p', q'; auto|left].
    destruct (exc_true _ E) as (e & ->). reflexivity.
  - intros Hf. rewrite Hf in Hx. symmetry in Hx. apply orb_false_elim in Hx. destruct Hx as [X1 X2]. split.
    + exists p, q. destruct A3 as [->|[E _]]; [auto|congruence].
    + exists p', q'. destruct B3 as [->|[E _]]; [auto|congruence].
Qed.

(** ------------------------------------------------------------------ *)
(** division *)
Lemma div_good_dec : forall D R p q,
  (in_type D R p /\ in_type D R q /\ q <> 0 /\ in_type D R (Z.quot p q))
  \/ ~ (in_type D R p /\ in_type D R q /\ q <> 0 /\ in_type D R (Z.quot p q)).
Proof. intros. unfold in_type. lia. Qed.

Lemma div_check_needed : forall D R t u ri, wf_operand D t -> wf_operand D u ->
  r_type_interval D Div R t u = Ok ri -> exception_possible D Div R t u ri = true ->
  exists x y, holds D t x /\ holds D u y
    /\ ~ (in_type D R x /\ in_type D R y /\ y <> 0 /\ in_type D R (Z.quot x y)).
Proof.
  intros D R t u ri Ht Hu H X.
  pose proof Ht as (T1 & T2 & T3). pose proof Hu as (U1 & U2 & U3).
  pose proof (holds_lo D t Ht). pose proof (holds_hi D t Ht).
  pose proof (holds_lo D u Hu). pose proof (holds_hi D u Hu).
  destruct (Z_le_gt_dec (lim_lo D u) 0) as [Z1|Z1]; [destruct (Z_le_gt_dec 0 (lim_hi D u)) as [Z2|Z2]|].
  { exists (lim_lo D t), 0. splits; [assumption|unfold holds; lia|]. intros (_ & _ & C & _). congruence. }
  all: destruct (div_good_dec D R (lim_lo D t) (lim_lo D u)) as [(A1 & A2 & A3 & A4)|N]; [|eauto];
       destruct (div_good_dec D R (lim_lo D t) (lim_hi D u)) as [(B1 & B2 & B3 & B4)|N]; [|eauto];
       destruct (div_good_dec D R (lim_hi D t) (lim_lo D u)) as [(C1 & C2 & C3 & C4)|N]; [|eauto];
       destruct (div_good_dec D R (lim_hi D t) (lim_hi D u)) as [(D1 & D2 & D3 & D4)|N]; [|eauto];
       exfalso;
       assert (Hz : 0 < lim_lo D u \/ lim_hi D u < 0) by lia;
       pose proof (proj1 (cast_spec D R _ _ T1) A1) as Ea; pose proof (proj1 (cast_spec D R _ _ T2) C1) as Eb;
       pose proof (proj1 (cast_spec D R _ _ U1) A2) as Ec; pose proof (proj1 (cast_spec D R _ _ U2) B2) as Ed;
       cbn [r_type_interval exception_possible] in H, X; unfold div_interval, lim_interval in H, X;
       rewrite Ea, Eb, Ec, Ed in H; rewrite Ec, Ed in X;
       rewrite (proj2 (nonzero_vals D R _ _ A2 B2 U3)) in H by lia;
       unfold i_div in H; rewrite (proj2 (excludes_zero_val D R _ _ A2 B2 U3) Hz) in H;
       unfold minmax_of, corners in H; cbn [il iu] in H;
       destruct (cr_div_vals D R _ _ A1 A2 A3) as (r1 & E1 & O1 & R1);
       destruct (cr_div_vals D R _ _ A1 B2 B3) as (r2 & E2 & O2 & R2);
       destruct (cr_div_vals D R _ _ C1 A2 A3) as (r3 & E3 & O3 & R3);
       destruct (cr_div_vals D R _ _ C1 B2 B3) as (r4 & E4 & O4 & R4);
       rewrite E1, E2, E3, E4 in H; cbn [seq_res rbind] in H;
       assert (V : forall r z, rnd_strict D R r z -> in_type D R z -> r = CVal z)
         by (intros [v|e] z Hr Iz; cbn in Hr; [congruence|destruct e; cbn in Hr; unfold in_type in Iz; try tauto; lia]);
       apply V in R1; auto; apply V in R2; auto; apply V in R3; auto; apply V in R4; auto;
       (destruct (minmax_spec D R r1 [r2; r3; r4]) as (i & Hi & Hs); [repeat constructor; assumption|]);
       rewrite Hi in H; injection H as <-;
       (destruct Hs as [[Hn _]|(_ & _ & _ & _ & _ & I1 & I2 & _)]; [apply Hn; subst r1; exact I|]);
       assert (L : forall c, In c [r1; r2; r3; r4] -> exception c = false)
         by (intros c [<-|[<-|[<-|[<-|[]]]]]; subst; reflexivity);
       rewrite (L _ I1), (L _ I2), !orb_false_r in X;
       unfold includes_pt, cr_le, cr_gt in X; cbn [il iu] in X;
       rewrite !cr_lt_val in X by auto using zero_in;
       destruct (Z.ltb_spec 0 (lim_lo D u)), (Z.ltb_spec (lim_hi D u) 0); cbn in X; try discriminate; lia.
Qed.

(** ------------------------------------------------------------------ *)
(** under a trap policy an operator compiles iff no check is needed *)
Lemma trap_compiles_iff : forall D op F t u x y x0 y0 s m, traps F -> binary D op t u x0 y0 = Some (s, m) ->
  exists ri, r_type_interval D op (st s) t u = Ok ri
  /\ ((exists s' m', binary D op (with_policy F t) (with_policy F u) x y = Some (s', m'))
      <-> exception_possible D op (st s) t u ri = false).
Proof.
  intros D op F t u x y x0 y0 s m HF H.
  destruct (binary_inv _ _ _ _ _ _ _ _ H) as (P & E & R & ri & H1 & H2 & H3 & H4 & -> & _). cbn [st].
  exists ri. split; [assumption|].
  unfold binary, op_static. rewrite common_pp_with, H1, (common_ep_with F t u E H2), result_base_type_with, H3,
    r_type_interval_with, H4, exception_possible_with. cbn [oi_checked oi_R oi_E oi_type].
  destruct (exception_possible D op R t u ri).
  - split; [|discriminate]. intros (s' & m' & C). destruct (work_type _ _ _ _ _); [|discriminate].
    rewrite casting_helper_trap in C by assumption. discriminate.
  - split; [reflexivity|]. intros _. eauto.
Qed.

Lemma arith_trap_iff : forall op f F D t u x0 y0 s m, exact_op op f -> wf_operand D t -> wf_operand D u ->
  binary D op t u x0 y0 = Some (s, m) -> throws_arithmetic (sE s) -> traps F ->
  ((exists s' m', binary D op (with_policy F t) (with_policy F u) x0 y0 = Some (s', m'))
   <-> (forall x y, holds D t x -> holds D u y -> exists k, binary D op t u x y = Some (s, k) /\ returns k (f x y))).
Proof.
  intros op f F D t u x0 y0 s m Hop Ht Hu H HE HF.
  destruct (trap_compiles_iff D op F t u x0 y0 x0 y0 s m HF H) as (ri & Hri & ->).
  split.
  - intros X x y Hx Hy. destruct (binary_any D op t u x0 y0 x y s m H) as (k & Hk). exists k. split; [assumption|].
    destruct (arith_char op f D t u x y s k Hop Ht Hu Hx Hy Hk HE) as [_ [(C & _)|C]]; [assumption|exfalso].
    destruct (exact_ri _ _ _ _ _ _ _ Hop Ht Hu Hri) as (_ & _ & Hunc).
    destruct (binary_inv _ _ _ _ _ _ _ _ Hk) as (P & E & R & ri' & H1 & H2 & H3 & H4 & -> & K). cbn [st sE] in *.
    rewrite Hri in H4. injection H4 as <-. destruct K as [[_ ->]|[K _]]; [|congruence].
    rewrite (exact_exception op f) in X by assumption. apply orb_false_iff in X. destruct X as [X1 X2].
    destruct (Hunc X1 X2 x y Hx Hy) as (E1 & E2 & E3).
    unfold unchecked_run in C. rewrite E1 in C. cbn in C. unfold throws_arith in C.
    destruct C as [(_ & _ & _ & C)|[(_ & _ & _ & C)|(_ & e & _ & C)]]; discriminate.
  - intros Hall. destruct (exception_possible D op (st s) t u ri) eqn:X; [exfalso|reflexivity].
    destruct (op_static_binary _ _ _ _ _ _ _ _ H) as (oi & Ho & E1 & E2 & E3).
    assert (Hc : oi_checked oi = true).
    { destruct (op_static_inv _ _ _ _ _ Ho) as (P & ri' & _ & _ & _ & Hri' & _ & ->). rewrite E2 in *.
      rewrite Hri in Hri'. injection Hri' as <-. assumption. }
    rewrite <- E3 in HE.
    destruct (check_can_fail op f D t u oi x0 y0 s m Hop Ht Hu Ho Hc HE H) as (x & y & k & Hx & Hy & Hk & (e & _ & Tk)).
    destruct (Hall x y Hx Hy) as (k' & Hk' & Rk). rewrite Hk in Hk'. injection Hk' as <-.
    unfold returns in Rk. congruence.
Qed.

Lemma div_trap_iff : forall F D t u x0 y0 s m, wf_operand D t -> wf_operand D u ->
  binary D Div t u x0 y0 = Some (s, m) -> throws_arithmetic (sE s) -> traps F -> result_large_enough D s t u ->
  ((exists s' m', binary D Div (with_policy F t) (with_policy F u) x0 y0 = Some (s', m'))
   <-> (forall x y, holds D t x -> holds D u y -> exists k, binary D Div t u x y = Some (s, k) /\ returns k (Z.quot x y))).
Proof.
  intros F D t u x0 y0 s m Ht Hu H HE HF Hl.
  destruct (trap_compiles_iff D Div F t u x0 y0 x0 y0 s m HF H) as (ri & Hri & ->).
  split.
  - intros X x y Hx Hy. destruct (binary_any D Div t u x0 y0 x y s m H) as (k & Hk). exists k. split; [assumption|].
    destruct (binary_inv _ _ _ _ _ _ _ _ Hk) as (P & E & R & ri' & H1 & H2 & H3 & H4 & -> & K). cbn [st sE] in *.
    rewrite Hri in H4. injection H4 as <-. destruct K as [[_ ->]|[K _]]; [|congruence].
    destruct (large_enough_fits D P Div R t u _ _ E Ht Hu ltac:(auto) H3 Hl) as (Ft & Fu & _).
    destruct (div_fits D R t u ri Ht Hu Ft Fu Hri) as (_ & _ & Hunc).
    destruct (Hunc X x y Hx Hy) as (_ & E1 & _ & _ & Iq).
    unfold returns, unchecked_run. rewrite E1. cbn [mlift]. rewrite mbind_ret, conv_id by assumption. reflexivity.
  - intros Hall. destruct (exception_possible D Div (st s) t u ri) eqn:X; [exfalso|reflexivity].
    destruct (div_check_needed D (st s) t u ri Ht Hu Hri X) as (x & y & Hx & Hy & Hn).
    destruct (Hall x y Hx Hy) as (k & Hk & Rk).
    destruct (div_char D t u x y s k Ht Hu Hx Hy Hk HE Hl) as (_ & Z0 & Z1).
    assert (NT : ~ throws_arith k) by (intros (e & _ & C); unfold returns in Rk; congruence).
    destruct (Z.eq_dec y 0) as [->|Hy0]; [auto|]. destruct (Z1 Hy0) as [(_ & A & B & C & _)|[_ C]]; auto.
Qed.
