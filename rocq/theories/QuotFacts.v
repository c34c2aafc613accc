(** QuotFacts.v -- the declared range of a quotient is the tightest possible. *)
From Coq Require Import ZArith List Bool Lia.
From Verif Require Import Base CType Spec CTypeFacts CheckedInteger CheckedIntegerFacts CheckedResultOps CheckedResultFacts CheckedShiftFacts Interval
  IntervalFacts IntervalOpsFacts ExceptionPolicy Promotion SafeBase SafeSpec SafeFacts SafeDivFacts SafeStaticFacts StaticSpec NarrowSpec NarrowFacts.
Import ListNotations.
Local Open Scope Z_scope.

Section Q.
  Variables (D : dmodel) (R : ctype) (t u : otype) (ri : interval).
  Hypothesis Ht : wf_operand D t. Hypothesis Hu : wf_operand D u.
  Hypothesis Ft : forall x, holds D t x -> in_type D R x.
  Hypothesis Fu : forall y, holds D u y -> in_type D R y.
  Hypothesis H : r_type_interval D Div R t u = Ok ri.

  Lemma ends : in_type D R (lim_lo D t) /\ in_type D R (lim_hi D t) /\ in_type D R (lim_lo D u) /\ in_type D R (lim_hi D u)
    /\ lim_lo D t <= lim_hi D t /\ lim_lo D u <= lim_hi D u.
  Proof.
    destruct Ht as (_ & _ & A), Hu as (_ & _ & B). splits; try assumption; [apply Ft|apply Ft|apply Fu|apply Fu]; unfold holds; lia.
  Qed.

  Lemma quot_interval : div_interval D R (mkI (CVal (lim_lo D t)) (CVal (lim_hi D t))) (mkI (CVal (lim_lo D u)) (CVal (lim_hi D u))) = Ok ri.
  Proof.
    destruct ends as (A & B & C & E & _). destruct Ht as (T1 & T2 & _), Hu as (U1 & U2 & _).
    rewrite <- H. cbn [r_type_interval]. unfold lim_interval.
    rewrite (proj1 (cast_spec D R _ _ T1) A), (proj1 (cast_spec D R _ _ T2) B),
            (proj1 (cast_spec D R _ _ U1) C), (proj1 (cast_spec D R _ _ U2) E). reflexivity.
  Qed.

  Lemma zero_inside : ~ (0 < lim_lo D u \/ lim_hi D u < 0) -> lim_lo D u <= 0 <= lim_hi D u.
  Proof. lia. Qed.

  Lemma quot_sound : ri = mkI (CErr range_error) (CErr range_error)
    \/ (cr_ok D R (il ri) /\ cr_ok D R (iu ri) /\ forall x y, holds D t x -> holds D u y -> y <> 0 ->
          at_least D R (il ri) (Z.quot x y) /\ at_most D R (iu ri) (Z.quot x y)).
  Proof.
    destruct ends as (A & B & C & E & G & K). pose proof quot_interval as Q. unfold div_interval in Q.
    destruct (nonzero_interval D R (mkI (CVal (lim_lo D u)) (CVal (lim_hi D u)))) eqn:N.
    - apply nonzero_vals in N; try assumption.
      destruct (i_div_sound D R _ _ _ _ A B C E G K N) as (k & Ek & _ & _ & K1 & K2 & S). rewrite Ek in Q. injection Q as <-.
      right. split; [exact K1|split; [exact K2|]]. intros x y Hx Hy _. exact (S x y Hx Hy).
    - assert (Z : lim_lo D u <= 0 <= lim_hi D u).
      { apply zero_inside. intros X. apply (nonzero_vals D R _ _ C E K) in X. congruence. }
      destruct (eight_div_sound D R _ _ _ _ ri A B C E G Z Q) as [X|(_ & _ & K1 & K2 & _ & S)]; [left; exact X|].
      right. split; [exact K1|split; [exact K2|]]. intros x y Hx Hy Y. exact (S x y Hx Hy Y).
  Qed.

  (** a bound is a quotient of members, rounded *)
  Lemma quot_attained : lim_lo D u <> 0 -> lim_hi D u <> 0 -> forall c, c = il ri \/ c = iu ri ->
    exists x y, holds D t x /\ holds D u y /\ y <> 0 /\ rnd_strict D R c (Z.quot x y).
  Proof.
    intros N1 N2 c Hc. destruct ends as (A & B & C & E & G & K). pose proof quot_interval as Q. unfold div_interval in Q.
    assert (P : forall x y r, holds D t x -> holds D u y -> y <> 0 -> cr_div D R (CVal x) (CVal y) = Ok r ->
              cr_ok D R r /\ exists x y, holds D t x /\ holds D u y /\ y <> 0 /\ rnd_strict D R r (Z.quot x y)).
    { intros x y r Hx Hy Y X. destruct (cr_div_vals D R x y (Ft x Hx) (Fu y Hy) Y) as (r' & E' & O & S).
      rewrite E' in X. injection X as <-. split; [exact O|]. exists x, y. auto. }
    assert (hl : holds D t (lim_lo D t) /\ holds D t (lim_hi D t) /\ holds D u (lim_lo D u) /\ holds D u (lim_hi D u)).
    { unfold holds. lia. }
    destruct hl as (h1 & h2 & h3 & h4).
    assert (F : forall vs h l, vs = h :: l -> minmax D R vs = Ok ri ->
              Forall (fun r => cr_ok D R r /\ exists x y, holds D t x /\ holds D u y /\ y <> 0 /\ rnd_strict D R r (Z.quot x y)) vs ->
              exists x y, holds D t x /\ holds D u y /\ y <> 0 /\ rnd_strict D R c (Z.quot x y)).
    { intros vs h l -> Em Fa. rewrite Forall_forall in Fa.
      assert (Ok' : Forall (cr_ok D R) (h :: l)) by (apply Forall_forall; intros z Hz; apply (Fa z Hz)).
      destruct (minmax_spec D R h l Ok') as (i & Ei & Si). rewrite Em in Ei. injection Ei as <-.
      destruct Si as [[_ Ei]|(_ & _ & _ & _ & _ & J1 & J2 & _)].
      - assert (Ec : c = h) by (rewrite Ei in Hc; cbn in Hc; tauto). subst c. apply (Fa h). left. reflexivity.
      - destruct Hc as [->| ->]; [apply (Fa _ J1)|apply (Fa _ J2)]. }
    destruct (nonzero_interval D R (mkI (CVal (lim_lo D u)) (CVal (lim_hi D u)))) eqn:N.
    - apply nonzero_vals in N; try assumption. unfold i_div in Q.
      rewrite (proj2 (excludes_zero_val D R _ _ C E K) N) in Q. unfold minmax_of in Q.
      destruct (seq_res _) as [vs|] eqn:Es; [|discriminate Q]. cbn [rbind] in Q. apply seq_res_inv in Es.
      unfold corners in Es. cbn [il iu] in Es.
      repeat match goal with X : Forall2 _ (_ :: _) _ |- _ => inversion X; clear X; subst | X : Forall2 _ [] _ |- _ => inversion X; clear X; subst end.
      eapply F; [reflexivity|exact Q|]. repeat (apply Forall_cons; [eapply P; [| | |eassumption]; assumption|]). apply Forall_nil.
    - assert (Z : lim_lo D u <= 0 <= lim_hi D u).
      { apply zero_inside. intros X. apply (nonzero_vals D R _ _ C E K) in X. congruence. }
      assert (M : in_type D R (-1)) by (apply Fu; unfold holds; lia).
      assert (g1 : holds D u (-1)) by (unfold holds; lia). assert (g2 : holds D u 1) by (unfold holds; lia).
      unfold minmax_of in Q. destruct (seq_res _) as [vs|] eqn:Es; [|discriminate Q]. cbn [rbind] in Q. apply seq_res_inv in Es.
      unfold eight in Es. cbn [il iu] in Es. rewrite (conv_id D R (-1) M) in Es.
      repeat match goal with X : Forall2 _ (_ :: _) _ |- _ => inversion X; clear X; subst | X : Forall2 _ [] _ |- _ => inversion X; clear X; subst end.
      eapply F; [reflexivity|exact Q|].
      repeat (apply Forall_cons; [eapply P; [| | |eassumption]; (assumption || lia)|]). apply Forall_nil.
  Qed.
End Q.

Lemma quot_ge_lo : forall D R x y, in_type D R x -> in_type D R y -> y <> 0 -> lo D R <= Z.quot x y.
Proof.
  intros D R x y Hx Hy Y. destruct (csigned D R) eqn:S.
  - destruct (Z.eq_dec x (lo D R)) as [->|Nx]; [destruct (Z.eq_dec y (-1)) as [->|Ny]|].
    + rewrite quot_neg1. pose proof (lo_le_0 D R). lia.
    + apply (quot_range D R); auto; tauto.
    + apply (quot_range D R); auto; tauto.
  - apply (quot_range D R); auto. intros (X & _). congruence.
Qed.

(** with two values whose quotient is a value of the result type, the least bound is a quotient and the
    greatest is a quotient, or the greatest value of the type if some quotient is beyond it *)
Lemma quot_tight : forall D R t u ri x0 y0, wf_operand D t -> wf_operand D u ->
  (forall x, holds D t x -> in_type D R x) -> (forall y, holds D u y -> in_type D R y) ->
  r_type_interval D Div R t u = Ok ri -> lim_lo D u <> 0 -> lim_hi D u <> 0 ->
  holds D t x0 -> holds D u y0 -> y0 <> 0 -> in_type D R (Z.quot x0 y0) ->
  (exists x y, holds D t x /\ holds D u y /\ y <> 0 /\ Z.quot x y = bound_lo D R (il ri))
  /\ (exists x y, holds D t x /\ holds D u y /\ y <> 0 /\ Z.min (hi D R) (Z.quot x y) = bound_hi D R (iu ri)).
Proof.
  intros D R t u ri x0 y0 Ht Hu Ft Fu H N1 N2 Hx0 Hy0 Y0 I0.
  assert (S : cr_ok D R (il ri) /\ cr_ok D R (iu ri) /\ forall x y, holds D t x -> holds D u y -> y <> 0 ->
          at_least D R (il ri) (Z.quot x y) /\ at_most D R (iu ri) (Z.quot x y)).
  { destruct (quot_sound D R t u ri Ht Hu Ft Fu H) as [E|S]; [|exact S].
    destruct (quot_attained D R t u ri Ht Hu Ft Fu H N1 N2 (il ri) ltac:(auto)) as (x & y & _ & _ & _ & F).
    rewrite E in F. destruct F. }
  destruct S as (K1 & K2 & S). destruct (S x0 y0 Hx0 Hy0 Y0) as (S1 & S2). split.
  - destruct (quot_attained D R t u ri Ht Hu Ft Fu H N1 N2 (il ri) ltac:(auto)) as (x & y & Hx & Hy & Y & F).
    exists x, y. splits; try assumption. pose proof (quot_ge_lo D R x y (Ft x Hx) (Fu y Hy) Y).
    destruct (il ri) as [v|e]; cbn in *; [exact F|]. destruct e; try (exfalso; exact F); unfold in_type in *; lia.
  - destruct (quot_attained D R t u ri Ht Hu Ft Fu H N1 N2 (iu ri) ltac:(auto)) as (x & y & Hx & Hy & Y & F).
    exists x, y. splits; try assumption. pose proof (quot_ge_lo D R x y (Ft x Hx) (Fu y Hy) Y).
    destruct (iu ri) as [v|e]; cbn in *; [unfold in_type in *; lia|]. destruct e; try (exfalso; exact F); lia.
Qed.


Lemma quot_le_top : forall D R x y, in_type D R x -> y <> 0 -> Z.quot x y <= hi D R + 1.
Proof. intros D R x y Hx Y. pose proof (quot_abs x y Y). pose proof (abs_bound D R x Hx). lia. Qed.

(** the least and the greatest exact results of an operation, and the bounds the library declares *)
Definition hull (D : dmodel) (op : aop) (R : ctype) (t u : otype) (a b : Z) : Prop :=
  exists p q p' q', holds D t p /\ holds D u q /\ holds D t p' /\ holds D u q' /\ (op = Div -> q <> 0 /\ q' <> 0)
    /\ a = Z.max (lo D R) (exact op p q) /\ b = Z.min (hi D R) (exact op p' q')
    /\ (forall x y, holds D t x -> holds D u y -> (op = Div -> y <> 0) -> exact op p q <= exact op x y <= exact op p' q').

Lemma strict_bound : forall D R c z z0, rnd_strict D R c z -> cr_ok D R c -> in_type D R z0 ->
  (z <= z0 -> Z.max (lo D R) z = bound_lo D R c) /\ (z0 <= z -> Z.min (hi D R) z = bound_hi D R c).
Proof.
  intros D R [v|e] z z0 F K I0; cbn in *; [unfold in_type in *; lia|]. destruct e; try tauto; unfold in_type in *; split; intros; lia.
Qed.

Lemma tight : forall D op R t u ri x0 y0, op = Add \/ op = Sub \/ op = Mul \/ op = Div -> wf_operand D t -> wf_operand D u ->
  (forall x, holds D t x -> in_type D R x) -> (forall y, holds D u y -> in_type D R y) ->
  r_type_interval D op R t u = Ok ri -> (op = Div -> lim_lo D u <> 0 /\ lim_hi D u <> 0) ->
  holds D t x0 -> holds D u y0 -> (op = Div -> y0 <> 0) -> in_type D R (exact op x0 y0) ->
  hull D op R t u (bound_lo D R (il ri)) (bound_hi D R (iu ri)).
Proof.
  intros D op R t u ri x0 y0 Hop Ht Hu Ft Fu H NZ Hx0 Hy0 Y0 I0.
  destruct (ends D R t u Ht Hu Ft Fu) as (A & B & C & E & G & K).
  destruct Ht as (T1 & T2 & T3). destruct Hu as (U1 & U2 & U3).
  pose proof (proj1 (cast_spec D R _ _ T1) A) as Ca. pose proof (proj1 (cast_spec D R _ _ T2) B) as Cb.
  pose proof (proj1 (cast_spec D R _ _ U1) C) as Cc. pose proof (proj1 (cast_spec D R _ _ U2) E) as Ce.
  destruct Hop as [->|[->|[->| ->]]]; cbn [exact] in *.
  - cbn [r_type_interval] in H. unfold i_add, lim_interval in H. cbn [il iu] in H. rewrite Ca, Cb, Cc, Ce in H.
    unfold cr_add, lookup in H. cbn [to_sflag sidx nth add_table cr_value rbind] in H.
    destruct (rnd_strict_of_eoo _ _ _ _ (add_spec D R _ _ A C)) as (c1 & E1 & K1 & S1).
    destruct (rnd_strict_of_eoo _ _ _ _ (add_spec D R _ _ B E)) as (c2 & E2 & K2 & S2).
    rewrite E1, E2 in H. cbn [rbind] in H. injection H as <-. cbn [il iu].
    exists (lim_lo D t), (lim_lo D u), (lim_hi D t), (lim_hi D u). cbn [exact]. unfold holds in *.
    splits; try lia; try discriminate.
    + symmetry. apply (strict_bound D R c1 _ (x0 + y0)); auto; lia.
    + symmetry. apply (strict_bound D R c2 _ (x0 + y0)); auto; lia.
  - cbn [r_type_interval] in H. unfold i_sub, lim_interval in H. cbn [il iu] in H. rewrite Ca, Cb, Cc, Ce in H.
    destruct (cr_sub_vals D R _ _ A E) as (c1 & E1 & K1 & S1). destruct (cr_sub_vals D R _ _ B C) as (c2 & E2 & K2 & S2).
    rewrite E1, E2 in H. cbn [rbind] in H. injection H as <-. cbn [il iu].
    exists (lim_lo D t), (lim_hi D u), (lim_hi D t), (lim_lo D u). cbn [exact]. unfold holds in *.
    splits; try lia; try discriminate.
    + symmetry. apply (strict_bound D R c1 _ (x0 - y0)); auto; lia.
    + symmetry. apply (strict_bound D R c2 _ (x0 - y0)); auto; lia.
  - destruct (mul_bounds D R t u ri (conj T1 (conj T2 T3)) (conj U1 (conj U2 U3)) A B C E H)
      as (L & M & BL & BM & (p & q & Hp & Hq & EL) & (p' & q' & Hp' & Hq' & EM) & Q).
    exists p, q, p', q'. cbn [exact]. rewrite <- EL, <- EM. pose proof (Q x0 y0 Hx0 Hy0) as Q0.
    splits; auto; try discriminate.
    + destruct BL as [[IL ->]|[IL X]]; cbn; [unfold in_type in IL; lia|]. destruct (il ri); [discriminate X|]. cbn. unfold in_type in *. lia.
    + destruct BM as [[IM ->]|[IM X]]; cbn; [unfold in_type in IM; lia|]. destruct (iu ri); [discriminate X|]. cbn. unfold in_type in *. lia.
  - destruct (NZ eq_refl) as (N1 & N2). specialize (Y0 eq_refl).
    pose proof (conj T1 (conj T2 T3)) as Ht. pose proof (conj U1 (conj U2 U3)) as Hu.
    change (wf_operand D t) in Ht. change (wf_operand D u) in Hu.
    destruct (quot_attained D R t u ri Ht Hu Ft Fu H N1 N2 (il ri) ltac:(auto)) as (p & q & Hp & Hq & Yq & Sp).
    destruct (quot_attained D R t u ri Ht Hu Ft Fu H N1 N2 (iu ri) ltac:(auto)) as (p' & q' & Hp' & Hq' & Yq' & Sp').
    destruct (quot_sound D R t u ri Ht Hu Ft Fu H) as [X|(K1 & K2 & S)]; [rewrite X in Sp; destruct Sp|].
    assert (Q : forall x y, holds D t x -> holds D u y -> y <> 0 -> Z.quot p q <= Z.quot x y <= Z.quot p' q').
    { destruct (S x0 y0 Hx0 Hy0 Y0) as (Sl & _).
      pose proof (quot_ge_lo D R p q (Ft p Hp) (Fu q Hq) Yq) as G1. pose proof (quot_ge_lo D R p' q' (Ft p' Hp') (Fu q' Hq') Yq') as G2.
      intros x y Hx Hy Y. destruct (S x y Hx Hy Y) as (S1 & S2). pose proof (quot_le_top D R x y (Ft x Hx) Y) as G3.
      split.
      - destruct (il ri) as [v|e]; cbn in *; [lia|]. destruct e; try (exfalso; assumption); unfold in_type in *; lia.
      - destruct (iu ri) as [v|e]; cbn in *; [lia|]. destruct e; try (exfalso; assumption); unfold in_type in *; lia. }
    pose proof (Q x0 y0 Hx0 Hy0 Y0) as Q0.
    exists p, q, p', q'. cbn [exact]. splits; auto.
    + symmetry. apply (strict_bound D R (il ri) _ (Z.quot x0 y0)); auto; lia.
    + symmetry. apply (strict_bound D R (iu ri) _ (Z.quot x0 y0)); auto; lia.
Qed.

Lemma tight_lemma : forall D op t u oi x0 y0, op = Add \/ op = Sub \/ op = Mul \/ op = Div -> wf_operand D t -> wf_operand D u ->
  op_static D op t u = Some oi ->
  let s := oi_type oi in
  (forall x, holds D t x -> in_type D (st s) x) -> (forall y, holds D u y -> in_type D (st s) y) ->
  (op = Div -> lim_lo D u <> 0 /\ lim_hi D u <> 0) ->
  holds D t x0 -> holds D u y0 -> (op = Div -> y0 <> 0) -> in_type D (st s) (exact op x0 y0) ->
  exists p q p' q', holds D t p /\ holds D u q /\ holds D t p' /\ holds D u q' /\ (op = Div -> q <> 0 /\ q' <> 0)
    /\ smin s = Z.max (lo D (st s)) (exact op p q) /\ smax s = Z.min (hi D (st s)) (exact op p' q')
    /\ (forall x y, holds D t x -> holds D u y -> (op = Div -> y <> 0) -> exact op p q <= exact op x y <= exact op p' q').
Proof.
  intros D op t u oi x0 y0 Hop Ht Hu H. cbv zeta. destruct (op_static_inv _ _ _ _ _ H) as (P & ri & _ & _ & _ & A5 & A4 & _).
  rewrite A4. cbn [st smin smax]. intros Ft Fu N Hx0 Hy0 Y0 I0.
  exact (tight D op _ t u ri x0 y0 Hop Ht Hu Ft Fu A5 N Hx0 Hy0 Y0 I0).
Qed.


Lemma narrow_range_division : forall D t t' u u' oi oi' x0 y0,
  wf_operand D t -> wf_operand D u -> wf_operand D t' -> wf_operand D u' ->
  narrowed t t' -> narrowed u u' ->
  op_static D Div t u = Some oi -> op_static D Div t' u' = Some oi' -> by_type (sP (oi_type oi)) ->
  (forall x, holds D t x -> in_type D (st (oi_type oi)) x) -> (forall y, holds D u y -> in_type D (st (oi_type oi)) y) ->
  lim_lo D u' <> 0 -> lim_hi D u' <> 0 ->
  holds D t' x0 -> holds D u' y0 -> y0 <> 0 -> in_type D (st (oi_type oi)) (Z.quot x0 y0) ->
  range_inside (oi_type oi') (oi_type oi).
Proof.
  intros D t t' u u' oi oi' x0 y0 Ht Hu Ht' Hu' N M H H' HP. rewrite (oi_type_R _ _ _ _ _ H).
  intros Ft Fu N1 N2 Hx0 Hy0 Y0 I0.
  destruct (narrowed_type D Div t t' u u' oi oi' N M H H' HP) as (ER & _).
  destruct (op_static_inv _ _ _ _ _ H) as (P & ri & _ & _ & _ & A5 & A4 & _).
  destruct (op_static_inv _ _ _ _ _ H') as (P' & ri' & _ & _ & _ & B5 & B4 & _).
  rewrite ER in *. unfold range_inside. rewrite A4, B4. cbn [smin smax].
  assert (Ft' : forall x, holds D t' x -> in_type D (oi_R oi) x) by (intros x X; apply Ft; eapply narrowed_holds; eassumption).
  assert (Fu' : forall x, holds D u' x -> in_type D (oi_R oi) x) by (intros x X; apply Fu; eapply narrowed_holds; eassumption).
  destruct (quot_tight D _ t' u' ri' x0 y0 Ht' Hu' Ft' Fu' B5 N1 N2 Hx0 Hy0 Y0 I0)
    as ((x & y & Hx & Hy & Y & E) & (p & q & Hp & Hq & Q & F)). rewrite <- E, <- F. clear E F.
  pose proof (narrowed_holds D t t' x N Hx) as Gx. pose proof (narrowed_holds D u u' y M Hy) as Gy.
  pose proof (narrowed_holds D t t' p N Hp) as Gp. pose proof (narrowed_holds D u u' q M Hq) as Gq.
  pose proof (quot_ge_lo D _ x y (Ft x Gx) (Fu y Gy) Y) as L1. pose proof (quot_ge_lo D _ p q (Ft p Gp) (Fu q Gq) Q) as L2.
  destruct (quot_sound D _ t u ri Ht Hu Ft Fu A5) as [-> |(K1 & K2 & S)]; [cbn; lia|].
  destruct (S x y Gx Gy Y) as (S1 & _). destruct (S p q Gp Gq Q) as (_ & S2).
  split.
  - destruct (il ri) as [v|e]; cbn in *; [exact S1|exact L1].
  - destruct (iu ri) as [v|e]; cbn in *; lia.
Qed.

Definition qs (T : ctype) (a b : Z) := OSafe (mkSafe T a b Native strict_exception_policy).

Lemma quot_nonvacuous_lemma :
  exists oi oi', op_static LP64 Div (qs Int (-10) 100) (qs Int (-3) 4) = Some oi
    /\ op_static LP64 Div (qs Int (-2147483648) 7) (qs Int (-3) (-1)) = Some oi'
    /\ smin (oi_type oi) = -100 /\ smax (oi_type oi) = 100
    /\ smin (oi_type oi') = -7 /\ smax (oi_type oi') = 2147483647.
Proof. eexists. eexists. split; [vm_compute; reflexivity|]. split; [vm_compute; reflexivity|]. vm_compute. auto. Qed.

Lemma quot_zero_end_lemma :
  exists D t u oi, wf_operand D t /\ wf_operand D u /\ op_static D Div t u = Some oi
    /\ (forall x, holds D t x -> in_type D (st (oi_type oi)) x) /\ (forall y, holds D u y -> in_type D (st (oi_type oi)) y)
    /\ smin (oi_type oi) = -2147483648
    /\ (forall x y, holds D t x -> holds D u y -> y <> 0 -> 0 <= Z.quot x y <= 100).
Proof.
  exists LP64, (qs Int 0 100), (qs Int 0 5). eexists. split; [|split; [|split; [vm_compute; reflexivity|]]].
  - unfold wf_operand, in_type. cbn. lia.
  - unfold wf_operand, in_type. cbn. lia.
  - splits.
    + intros x Hx. unfold holds, in_type in *. cbn in *. lia.
    + intros x Hx. unfold holds, in_type in *. cbn in *. lia.
    + reflexivity.
    + intros x y Hx Hy Y. unfold holds in *. cbn in Hx, Hy.
      pose proof (quot_pos_range x y ltac:(lia) ltac:(lia)). lia.
Qed.

Lemma quot_narrow_nonvacuous_lemma :
  exists oi oi', op_static LP64 Div (qs Int (-10) 100) (qs Int (-3) 4) = Some oi
    /\ op_static LP64 Div (qs Int 5 50) (qs Int 2 4) = Some oi'
    /\ narrowed (qs Int (-10) 100) (qs Int 5 50) /\ narrowed (qs Int (-3) 4) (qs Int 2 4)
    /\ smin (oi_type oi') = 1 /\ smax (oi_type oi') = 25.
Proof.
  eexists. eexists. split; [vm_compute; reflexivity|]. split; [vm_compute; reflexivity|].
  split; [|split; [|vm_compute; auto]]; right; repeat eexists; lia.
Qed.
