(** TightFacts.v -- lemmas for PropsTight.v. *)
From Coq Require Import ZArith List Bool Lia.
From Verif Require Import Base CType Spec CTypeFacts CheckedInteger CheckedIntegerFacts CheckedResultOps CheckedResultFacts CheckedShiftFacts Interval
  IntervalFacts IntervalOpsFacts ExceptionPolicy Promotion SafeBase SafeSpec SafeFacts SafeDivFacts SafeStaticFacts StaticSpec NarrowSpec NarrowFacts QuotFacts
  UtilityFacts PropsStaticProofs PropsConv.
Import ListNotations.
Local Open Scope Z_scope.

(** the bounds of an interval computed from four corners whose values are known *)
Lemma corner_hull : forall D R f g a b c d k m M z0,
  minmax_of D R (corners f (mkI (CVal a) (CVal b)) (mkI (CVal c) (CVal d))) = Ok k ->
  (forall p q r, p = a \/ p = b -> q = c \/ q = d -> f (CVal p) (CVal q) = Ok r -> cr_ok D R r /\ rnd_strict D R r (g p q)) ->
  (exists p q, (p = a \/ p = b) /\ (q = c \/ q = d) /\ g p q = m) ->
  (exists p q, (p = a \/ p = b) /\ (q = c \/ q = d) /\ g p q = M) ->
  (forall p q, p = a \/ p = b -> q = c \/ q = d -> m <= g p q <= M) ->
  in_type D R z0 -> m <= z0 <= M -> lo D R <= m ->
  bound_lo D R (il k) = m /\ bound_hi D R (iu k) = Z.min (hi D R) M.
Proof.
  intros D R f g a b c d k m M z0 H Hf (pm & qm & Pm & Qm & Em) (pM & qM & PM & QM & EM) Hb I0 Hz Hlo.
  unfold minmax_of in H. destruct (seq_res _) as [vs|] eqn:Es; [|discriminate H]. cbn [rbind] in H. apply seq_res_inv in Es.
  unfold corners in Es. cbn [il iu] in Es.
  assert (V : forall p q, p = a \/ p = b -> q = c \/ q = d -> exists r, In r vs /\ f (CVal p) (CVal q) = Ok r).
  { intros p q Hp Hq. repeat match goal with X : Forall2 _ (_ :: _) _ |- _ => inversion X; clear X; subst | X : Forall2 _ [] _ |- _ => inversion X; clear X; subst end.
    destruct Hp as [->| ->], Hq as [->| ->]; eexists; (split; [|eassumption]); cbn; auto. }
  assert (W : forall r, In r vs -> exists p q, (p = a \/ p = b) /\ (q = c \/ q = d) /\ f (CVal p) (CVal q) = Ok r).
  { intros r Hr. repeat match goal with X : Forall2 _ (_ :: _) _ |- _ => inversion X; clear X; subst | X : Forall2 _ [] _ |- _ => inversion X; clear X; subst end.
    cbn in Hr. destruct Hr as [<-|[<-|[<-|[<-|[]]]]]; eexists; eexists; (split; [|split; [|eassumption]]); auto. }
  assert (Fo : Forall (cr_ok D R) vs).
  { apply Forall_forall. intros r Hr. destruct (W r Hr) as (p & q & Hp & Hq & E). apply (Hf p q r Hp Hq E). }
  destruct vs as [|h l]; [destruct (V a c ltac:(auto) ltac:(auto)) as (r & [] & _)|].
  destruct (minmax_spec D R h l Fo) as (i & Ei & Si). rewrite H in Ei. injection Ei as <-.
  destruct Si as [[Nh _]|(_ & _ & K1 & K2 & _ & J1 & J2 & _ & C)].
  { destruct (W h (or_introl eq_refl)) as (p & q & Hp & Hq & E). destruct (Hf p q h Hp Hq E) as (_ & S).
    exfalso. exact (Nh (rnd_num D R _ _ (rnd_strict_rnd D R _ _ S))). }
  assert (N : forall r z, rnd_strict D R r z -> num r). { intros r z S. exact (rnd_num D R _ _ (rnd_strict_rnd D R _ _ S)). }
  destruct (V pm qm Pm Qm) as (rm & Im & Fm). destruct (Hf pm qm rm Pm Qm Fm) as (Om & Sm). rewrite Em in Sm.
  destruct (V pM qM PM QM) as (rM & IM & FM). destruct (Hf pM qM rM PM QM FM) as (OM & SM). rewrite EM in SM.
  destruct (C rm Im (N _ _ Sm)) as (C1 & _). destruct (C rM IM (N _ _ SM)) as (_ & C2).
  destruct (W _ J1) as (p1 & q1 & P1 & Q1 & F1). destruct (Hf p1 q1 _ P1 Q1 F1) as (_ & S1). pose proof (Hb p1 q1 P1 Q1) as B1.
  destruct (W _ J2) as (p2 & q2 & P2 & Q2 & F2). destruct (Hf p2 q2 _ P2 Q2 F2) as (_ & S2). pose proof (Hb p2 q2 P2 Q2) as B2.
  clear - I0 Hz Hlo K1 K2 Om Sm OM SM C1 C2 S1 B1 S2 B2.
  set (z1 := g p1 q1) in *. set (z2 := g p2 q2) in *. clearbody z1 z2. unfold in_type in *. split.
  - clear C2 S2 B2 SM OM K2. destruct (il k) as [v|e], rm as [v'|e']; cbn in *; try destruct e; try destruct e'; cbn in *;
      try contradiction; unfold in_type in *; lia.
  - clear C1 S1 B1 Sm Om K1. destruct (iu k) as [v|e], rM as [v'|e']; cbn in *; try destruct e; try destruct e'; cbn in *;
      try contradiction; unfold in_type in *; lia.
Qed.

Section Shift.
  Variables (D : dmodel) (R : ctype) (t u : otype) (ri : interval).
  Hypothesis Ht : wf_operand D t. Hypothesis Hu : wf_operand D u.
  Hypothesis Ft : forall x, holds D t x -> in_type D R x.
  Hypothesis Fu : forall y, holds D u y -> in_type D R y.
  Hypothesis Pt : 0 <= lim_lo D t. Hypothesis Pu : 0 <= lim_lo D u.

  Lemma shl_range : r_type_interval D Shl R t u = Ok ri -> lim_lo D t * 2 ^ lim_lo D u <= hi D R ->
    bound_lo D R (il ri) = lim_lo D t * 2 ^ lim_lo D u /\ bound_hi D R (iu ri) = Z.min (hi D R) (lim_hi D t * 2 ^ lim_hi D u).
  Proof.
    intros H L. destruct (ends D R t u Ht Hu Ft Fu) as (A & B & C & E & G & K).
    destruct Ht as (T1 & T2 & _), Hu as (U1 & U2 & _).
    cbn [r_type_interval] in H. unfold lim_interval in H.
    rewrite (proj1 (cast_spec D R _ _ T1) A), (proj1 (cast_spec D R _ _ T2) B),
            (proj1 (cast_spec D R _ _ U1) C), (proj1 (cast_spec D R _ _ U2) E) in H.
    pose proof (lo_le_0 D R) as L0.
    assert (X : forall p q, p = lim_lo D t \/ p = lim_hi D t -> q = lim_lo D u \/ q = lim_hi D u ->
        lim_lo D t * 2 ^ lim_lo D u <= p * 2 ^ q <= lim_hi D t * 2 ^ lim_hi D u).
    { intros p q Hp Hq. assert (lim_lo D t <= p <= lim_hi D t) by lia. assert (lim_lo D u <= q <= lim_hi D u) by lia.
      pose proof (Z.pow_le_mono_r 2 (lim_lo D u) q ltac:(lia) ltac:(lia)). pose proof (Z.pow_le_mono_r 2 q (lim_hi D u) ltac:(lia) ltac:(lia)).
      pose proof (Z.pow_pos_nonneg 2 (lim_lo D u) ltac:(lia) ltac:(lia)). nia. }
    pose proof (Z.pow_pos_nonneg 2 (lim_lo D u) ltac:(lia) ltac:(lia)).
    apply (corner_hull D R (cr_shl D R) (fun p q => p * 2 ^ q) (lim_lo D t) (lim_hi D t) (lim_lo D u) (lim_hi D u) ri
             (lim_lo D t * 2 ^ lim_lo D u) (lim_hi D t * 2 ^ lim_hi D u) (lim_lo D t * 2 ^ lim_lo D u)); auto.
    - intros p q r Hp Hq E'. unfold cr_shl in E'.
      destruct (cr_shl_nonneg 3 D R p q) as (c0 & E0 & O0 & S0); try (destruct Hp as [->| ->]; destruct Hq as [->| ->]; (assumption || lia)).
      rewrite E0 in E'. injection E' as <-. auto.
    - exists (lim_lo D t), (lim_lo D u). auto.
    - exists (lim_hi D t), (lim_hi D u). auto.
    - unfold in_type. nia.
    - nia.
  Qed.

  Lemma shr_range : r_type_interval D Shr R t u = Ok ri ->
    bound_lo D R (il ri) = lim_lo D t / 2 ^ lim_hi D u /\ bound_hi D R (iu ri) = lim_hi D t / 2 ^ lim_lo D u.
  Proof.
    intros H. destruct (ends D R t u Ht Hu Ft Fu) as (A & B & C & E & G & K).
    destruct Ht as (T1 & T2 & _), Hu as (U1 & U2 & _).
    cbn [r_type_interval] in H. unfold lim_interval in H.
    rewrite (proj1 (cast_spec D R _ _ T1) A), (proj1 (cast_spec D R _ _ T2) B),
            (proj1 (cast_spec D R _ _ U1) C), (proj1 (cast_spec D R _ _ U2) E) in H.
    pose proof (lo_le_0 D R) as L0.
    assert (X : forall p q, p = lim_lo D t \/ p = lim_hi D t -> q = lim_lo D u \/ q = lim_hi D u ->
        lim_lo D t / 2 ^ lim_hi D u <= p / 2 ^ q <= lim_hi D t / 2 ^ lim_lo D u).
    { intros p q Hp Hq. assert (lim_lo D t <= p <= lim_hi D t) by lia. assert (lim_lo D u <= q <= lim_hi D u) by lia.
      pose proof (Z.pow_le_mono_r 2 (lim_lo D u) q ltac:(lia) ltac:(lia)). pose proof (Z.pow_le_mono_r 2 q (lim_hi D u) ltac:(lia) ltac:(lia)).
      pose proof (Z.pow_pos_nonneg 2 (lim_lo D u) ltac:(lia) ltac:(lia)). split.
      - transitivity (p / 2 ^ lim_hi D u); [apply Z.div_le_mono; lia|apply Z.div_le_compat_l; lia].
      - transitivity (p / 2 ^ lim_lo D u); [apply Z.div_le_compat_l; lia|apply Z.div_le_mono; lia]. }
    assert (Y : 0 <= lim_hi D t / 2 ^ lim_lo D u <= lim_hi D t).
    { pose proof (Z.pow_pos_nonneg 2 (lim_lo D u) ltac:(lia) ltac:(lia)). split; [apply Z.div_pos; lia|apply Z.div_le_upper_bound; nia]. }
    assert (Y' : 0 <= lim_lo D t / 2 ^ lim_hi D u).
    { pose proof (Z.pow_pos_nonneg 2 (lim_hi D u) ltac:(lia) ltac:(lia)). apply Z.div_pos; lia. }
    destruct (corner_hull D R (cr_shr D R) (fun p q => p / 2 ^ q) (lim_lo D t) (lim_hi D t) (lim_lo D u) (lim_hi D u) ri
             (lim_lo D t / 2 ^ lim_hi D u) (lim_hi D t / 2 ^ lim_lo D u) (lim_hi D t / 2 ^ lim_lo D u)) as (Z1 & Z2); auto.
    - intros p q r Hp Hq E'. unfold cr_shr in E'.
      assert (Ip : in_type D R p) by (destruct Hp as [->| ->]; assumption). assert (Iq : in_type D R q) by (destruct Hq as [->| ->]; assumption).
      destruct (cr_shr_nonneg 3 D R p q Ip Iq ltac:(lia) ltac:(lia)) as [E0|(E0 & _)]; rewrite E0 in E'; [|discriminate].
      injection E' as <-. cbn. split; [|reflexivity]. pose proof (X p q Hp Hq). unfold in_type in *. lia.
    - exists (lim_lo D t), (lim_hi D u). auto.
    - exists (lim_hi D t), (lim_lo D u). auto.
    - unfold in_type in *. lia.
    - pose proof (X (lim_hi D t) (lim_lo D u) ltac:(auto) ltac:(auto)). lia.
    - unfold in_type in *. split; lia.
  Qed.
End Shift.

Lemma tight_shifts_lemma : forall D op t u oi, wf_operand D t -> wf_operand D u -> op_static D op t u = Some oi ->
  let s := oi_type oi in
  (forall x, holds D t x -> in_type D (st s) x) -> (forall y, holds D u y -> in_type D (st s) y) ->
  0 <= lim_lo D t -> 0 <= lim_lo D u ->
  (op = Shl -> lim_lo D t * 2 ^ lim_lo D u <= hi D (st s) ->
     smin s = lim_lo D t * 2 ^ lim_lo D u /\ smax s = Z.min (hi D (st s)) (lim_hi D t * 2 ^ lim_hi D u))
  /\ (op = Shr -> smin s = lim_lo D t / 2 ^ lim_hi D u /\ smax s = lim_hi D t / 2 ^ lim_lo D u).
Proof.
  intros D op t u oi Ht Hu H. cbv zeta. destruct (op_static_inv _ _ _ _ _ H) as (P & ri & _ & _ & _ & A5 & A4 & _).
  rewrite A4. cbn [st smin smax]. intros Ft Fu Pt Pu. split; intros ->.
  - apply shl_range; assumption.
  - apply shr_range; assumption.
Qed.

(** ** left shifts of checked integers: every case *)
Lemma left_shift_table : forall D R t u, in_type D R t -> in_type D R u ->
  let good := u = 0 \/ (0 < u < digits D R /\ 0 <= t /\ t * 2 ^ u <= hi D R) in
  (good -> left_shift D R t u = Ok (CVal (t * 2 ^ u)))
  /\ (u < 0 \/ (0 < u <= digits D R /\ t < 0) -> left_shift D R t u = Ok (CErr negative_shift))
  /\ (digits D R < u \/ (0 < u /\ 0 <= t /\ ~ good) -> left_shift D R t u = Ok (CErr shift_too_large)).
Proof.
  intros D R t u Ht Hu. cbv zeta. rewrite left_shift_spec by assumption. pose proof (digits_pos D R) as Hd.
  assert (P : 0 <= u -> 0 < 2 ^ u) by (intros; apply Z.pow_pos_nonneg; lia).
  destruct (Z.eqb_spec u 0) as [->|H0]; [splits; intros; [change (2 ^ 0) with 1; f_equal; f_equal; lia|lia|lia]|].
  destruct (Z.ltb_spec u 0); [splits; intros; [lia|reflexivity|lia]|].
  destruct (Z.ltb_spec (digits D R) u); [splits; intros; [lia|lia|reflexivity]|].
  destruct (Z.ltb_spec t 0); [splits; intros; [lia|reflexivity|lia]|].
  pose proof (pow_digits D R) as Hp.
  destruct (Z.eqb_spec t 0) as [->|Ht0].
  - destruct (Z.ltb_spec u (digits D R)); splits; intros; try reflexivity; try lia.
  - destruct (Z.leb_spec (t * 2 ^ u) (hi D R)); splits; intros; try reflexivity; try lia.
    exfalso. assert (u < digits D R); [|lia].
    destruct (Z_lt_le_dec u (digits D R)); [assumption|]. assert (u = digits D R) by lia. subst u. nia.
Qed.

(** ** comparisons *)
Lemma compare_policies : forall D c t u x y m, compare D c t u x y = Some m ->
  exists P E, common_pp t u = Some P /\ common_ep t u = Some E.
Proof.
  intros D c t u x y m H. unfold compare in H.
  destruct (common_pp t u) as [P|]; [|discriminate]. destruct (common_ep t u) as [E|]; [|discriminate]. eauto.
Qed.

Lemma comparison_policies_lemma : forall D c t u x y m, compare D c t u x y = Some m ->
  (exists P, (get_pp t = Some P \/ get_pp u = Some P) /\ forall Q, get_pp t = Some Q \/ get_pp u = Some Q -> Q = P)
  /\ (exists E, (get_ep t = Some E \/ get_ep u = Some E) /\ forall F, get_ep t = Some F \/ get_ep u = Some F -> F = E).
Proof.
  intros D c t u x y m H. destruct (compare_policies D c t u x y m H) as (P & E & HP & HE). split.
  - apply common_pp_all in HP. destruct HP as (A & Q & B). exists P. split; [rewrite (A Q B); exact B|]. intros Q' X. symmetry. exact (A Q' X).
  - apply common_ep_all in HE. destruct HE as (A & Q & B). exists E. split; [rewrite (A Q B); exact B|]. intros Q' X. symmetry. exact (A Q' X).
Qed.

Definition six_answers (D : dmodel) (t u : otype) (x y : Z) : Prop :=
  (forall m, s_lt D t u x y = Some m -> returns m (x <? y))
  /\ (forall m, s_gt D t u x y = Some m -> returns m (x >? y))
  /\ (forall m, s_le D t u x y = Some m -> returns m (x <=? y))
  /\ (forall m, s_ge D t u x y = Some m -> returns m (x >=? y))
  /\ (forall m, s_eq D t u x y = Some m -> returns m (x =? y))
  /\ (forall m, s_ne D t u x y = Some m -> returns m (negb (x =? y))).

Lemma six_lemma : forall D t u x y, wf_operand D t -> wf_operand D u -> holds D t x -> holds D u y ->
  (forall E, get_ep t = Some E \/ get_ep u = Some E -> throws_arithmetic E) ->
  (forall m, s_lt D t u x y = Some m \/ s_eq D t u x y = Some m -> ~ throws_arith m) ->
  (forall m, s_lt D u t y x = Some m -> ~ throws_arith m) -> six_answers D t u x y.
Proof.
  intros D t u x y Ht Hu Hx Hy HE N1 N2. unfold six_answers.
  destruct (C29_comparisons D t u x y Ht Hu Hx Hy HE) as (L & G & _ & _ & Q & _).
  assert (L1 : forall m, s_lt D t u x y = Some m -> returns m (x <? y)).
  { intros m E. destruct (L m E) as [X|X]; [exact X|]. exfalso. exact (N1 m (or_introl E) X). }
  assert (Q1 : forall m, s_eq D t u x y = Some m -> returns m (x =? y)).
  { intros m E. destruct (Q m E) as [X|X]; [exact X|]. exfalso. exact (N1 m (or_intror E) X). }
  assert (G1 : forall m, s_gt D t u x y = Some m -> returns m (x >? y)).
  { intros m E. destruct (G m E) as [X|X]; [exact X|]. exfalso. exact (N2 m E X). }
  assert (N : forall o f b, option_map mnot o = Some f -> (forall m, o = Some m -> returns m b) -> returns f (negb b)).
  { intros [m|] f b E H; [|discriminate E]. injection E as <-. pose proof (H m eq_refl) as X. unfold returns in *. rewrite X. reflexivity. }
  splits; auto.
  - intros m E. replace (x <=? y) with (negb (x >? y)) by (rewrite Z.gtb_ltb, Z.ltb_antisym, negb_involutive; reflexivity). exact (N _ _ _ E G1).
  - intros m E. replace (x >=? y) with (negb (x <? y)) by (rewrite Z.geb_leb, Z.ltb_antisym, negb_involutive; reflexivity). exact (N _ _ _ E L1).
  - intros m E. exact (N _ _ _ E Q1).
Qed.

Lemma native_answers_lemma : forall D t u x y, wf_operand D t -> wf_operand D u -> holds D t x -> holds D u y ->
  (forall E, get_ep t = Some E \/ get_ep u = Some E -> throws_arithmetic E) ->
  (forall P, get_pp t = Some P \/ get_pp u = Some P -> P = Native) ->
  in_type D (uac D (base_ty t) (base_ty u)) x -> in_type D (uac D (base_ty t) (base_ty u)) y ->
  six_answers D t u x y.
Proof.
  intros D t u x y Ht Hu Hx Hy HE HP Ix Iy. apply six_lemma; auto.
  - intros m E. exact (C29_native_answers D t u x y m Ht Hu Hx Hy HE HP E Ix Iy).
  - intros m E. rewrite (uac_comm D (base_ty t)) in Ix, Iy.
    apply (C29_native_answers D u t y x m Hu Ht Hy Hx); auto.
    + intros F X. apply HE. tauto.
    + intros F X. apply HP. tauto.
Qed.

Lemma automatic_answers_lemma : forall D t u x y, wf_operand D t -> wf_operand D u -> holds D t x -> holds D u y ->
  (forall E, get_ep t = Some E \/ get_ep u = Some E -> throws_arithmetic E) ->
  (forall P, get_pp t = Some P \/ get_pp u = Some P -> P = Automatic) ->
  fits_in D (widest D Add t u) t -> fits_in D (widest D Add t u) u -> six_answers D t u x y.
Proof.
  intros D t u x y Ht Hu Hx Hy HE HP Ix Iy. apply six_lemma; auto.
  - intros m E. exact (C29_automatic_answers D t u x y m Ht Hu Hx Hy HE HP Ix Iy E).
  - intros m E. replace (widest D Add t u) with (widest D Add u t) in Ix, Iy by (unfold widest; rewrite andb_comm; reflexivity).
    apply (C29_automatic_answers D u t y x m Hu Ht Hy Hx); auto.
    + intros F X. apply HE. tauto.
    + intros F X. apply HP. tauto.
Qed.

(** ** non-vacuity *)
Lemma shifts_nonvacuous_lemma :
  exists oi oi', op_static LP64 Shl (qs Int 3 100) (qs Int 1 4) = Some oi /\ op_static LP64 Shr (qs Int 3 100) (qs Int 1 4) = Some oi'
    /\ smin (oi_type oi) = 6 /\ smax (oi_type oi) = 1600 /\ smin (oi_type oi') = 0 /\ smax (oi_type oi') = 50.
Proof. eexists. eexists. split; [vm_compute; reflexivity|]. split; [vm_compute; reflexivity|]. vm_compute. auto. Qed.

Lemma left_shift_nonvacuous_lemma :
  left_shift LP64 Int 5 28 = Ok (CVal 1342177280) /\ left_shift LP64 Int 0 31 = Ok (CErr shift_too_large)
  /\ left_shift LP64 Int (-5) 0 = Ok (CVal (-5)) /\ left_shift LP64 Int (-5) 31 = Ok (CErr negative_shift).
Proof. vm_compute. auto. Qed.

Lemma comparison_nonvacuous_lemma :
  let E := strict_exception_policy in let t := OSafe (safe LP64 Int Native E) in let u := OSafe (safe LP64 UInt Native E) in
  (exists m, s_le LP64 t u 5 7 = Some m /\ returns m true) /\ in_type LP64 (uac LP64 Int UInt) 5
  /\ compare LP64 CLt (OLit SChar 1 None None) (OLit SChar 2 None None) 1 2 = None.
Proof. split; [eexists; split; vm_compute; reflexivity|]. vm_compute. intuition congruence. Qed.
