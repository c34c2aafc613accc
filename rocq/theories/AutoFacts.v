(** AutoFacts.v -- the result types of automatic promotion. Proofs only. *)
From Coq Require Import ZArith Bool List Lia.
From Verif Require Import Base CType Spec CTypeFacts Utility UtilityFacts SafeCompare
  CheckedInteger CheckedIntegerFacts CheckedResultOps CheckedResultFacts Interval IntervalFacts
  IntervalOpsFacts ExceptionPolicy Promotion SafeBase SafeSpec SafeFacts SafeDivFacts SafeConvFacts
  SafeStaticFacts PropsArithProofs.
Import ListNotations.
Local Open Scope Z_scope.

Lemma widest_cases : forall D op t u, widest D op t u = intmax D \/ widest D op t u = uintmax D.
Proof. intros D op t u. destruct op; cbn; auto; destruct (_ && _); auto. Qed.

Lemma widest_range : forall D op t u Q, csigned D Q = csigned D (widest D op t u) ->
  lo D (widest D op t u) <= lo D Q /\ hi D Q <= hi D (widest D op t u).
Proof.
  intros D op t u Q. destruct (widest_cases D op t u) as [-> | ->]; intros H.
  - rewrite intmax_signed in H. pose proof (intmax_lo D Q). pose proof (intmax_hi D Q H). auto.
  - rewrite uintmax_unsigned in H. pose proof (uintmax_hi D Q).
    rewrite (lo_unsigned D Q H), (lo_unsigned D _ (uintmax_unsigned D)). lia.
Qed.

Lemma stored_least : forall D tmp mn mx R Q, tmp = intmax D \/ tmp = uintmax D ->
  in_type D tmp mn -> in_type D tmp mx -> mn <= mx -> stored_type D tmp mn mx = Some R ->
  csigned D Q = csigned D tmp -> in_type D Q mn -> in_type D Q mx -> width D R <= width D Q.
Proof.
  intros D tmp mn mx R Q [-> | ->] H1 H2 H3 HR HQ Q1 Q2; unfold stored_type in HR.
  - rewrite intmax_signed in *. destruct (signed_stored_type_spec D mn mx H1 H2) as (T & E & _ & _ & _ & L).
    rewrite HR in E. injection E as <-. auto.
  - rewrite uintmax_unsigned in *.
    destruct (unsigned_stored_type_spec D mn mx) as (T & E & _ & _ & _ & L);
      [pose proof (uintmax_bounds D); unfold in_type in *; lia|assumption|].
    rewrite HR in E. injection E as <-. auto.
Qed.

Lemma auto_inv : forall op D t u x y s m, op = Add \/ op = Sub \/ op = Mul ->
  binary D op t u x y = Some (s, m) -> sP s = Automatic ->
  exists ri, r_type_interval D op (widest D op t u) t u = Ok ri
    /\ stored_type D (widest D op t u) (bound_lo D (widest D op t u) (il ri)) (bound_hi D (widest D op t u) (iu ri))
       = Some (st s).
Proof.
  intros op D t u x y s m Hop H HP.
  destruct (binary_inv _ _ _ _ _ _ _ _ H) as (P & E & R & ri & _ & _ & HR & _ & -> & _).
  cbn [sP st] in *. subst P. cbn [result_base_type] in HR.
  assert (Ha : automatic_result D (PArith op) t u
    = auto_type D (widest D op t u) (r_type_interval D op (widest D op t u) t u)).
  { destruct Hop as [->|[->| ->]]; reflexivity. }
  rewrite Ha in HR. unfold auto_type in HR.
  destruct (r_type_interval D op (widest D op t u) t u) as [i|]; [|discriminate]. exists i. auto.
Qed.

Lemma auto_narrowest : forall op D t u x0 y0 s m, op = Add \/ op = Sub \/ op = Mul ->
  wf_operand D t -> wf_operand D u ->
  binary D op t u x0 y0 = Some (s, m) -> sP s = Automatic ->
  csigned D (st s) = csigned D (widest D op t u)
  /\ (forall x y, holds D t x -> holds D u y -> in_type D (widest D op t u) x -> in_type D (widest D op t u) y ->
      in_type D (widest D op t u) (exact op x y) -> in_type D (st s) (exact op x y))
  /\ (fits_in D (widest D op t u) t -> fits_in D (widest D op t u) u ->
      forall Q, csigned D Q = csigned D (widest D op t u) ->
        (forall x y, holds D t x -> holds D u y -> in_type D Q (exact op x y)) ->
        width D (st s) <= width D Q).
Proof.
  intros op D t u x0 y0 s m Hop Ht Hu H HP.
  destruct (auto_inv op D t u x0 y0 s m Hop H HP) as (ri & Hri & Hst).
  assert (Hf : exact_op op (exact op)).
  { destruct Hop as [->|[->| ->]]; unfold exact_op; auto. }
  destruct (exact_ri _ _ _ _ _ _ _ Hf Ht Hu Hri) as ((W1 & W2 & W3) & Hchk & _).
  destruct (stored_type_spec D _ _ _ _ (widest_cases D op t u) W1 W2 W3 Hst) as (S1 & S2 & S3 & _).
  split; [exact S1|]. split.
  - intros x y Hx Hy Ix Iy Iz. specialize (Hchk x y Hx Hy Ix Iy Iz). unfold in_type in *. lia.
  - intros Ft Fu Q HQ Hall.
    destruct (ri_attained op (exact op) D _ t u ri Hf Ht Hu Hri) as [(p & q & A1 & A2 & A3) (p' & q' & B1 & B2 & B3)].
    destruct (widest_range D op t u Q HQ) as [G1 G2].
    assert (Good : forall a b, holds D t a -> holds D u b ->
      in_type D (widest D op t u) a /\ in_type D (widest D op t u) b /\ in_type D (widest D op t u) (exact op a b)).
    { intros a b Ha Hb. specialize (Hall a b Ha Hb). unfold fits_in, holds, in_type in *. lia. }
    destruct A3 as [E1|[_ N]]; [|exfalso; apply N; apply Good; assumption].
    destruct B3 as [E2|[_ N]]; [|exfalso; apply N; apply Good; assumption].
    apply (stored_least D (widest D op t u) _ _ (st s) Q (widest_cases D op t u) W1 W2 W3 Hst HQ).
    + rewrite E1. cbn [bound_lo]. apply Hall; assumption.
    + rewrite E2. cbn [bound_hi]. apply Hall; assumption.
Qed.

(** a difference of two values of the same type *)
Lemma auto_sub_same : forall D t x y s m,
  wf_operand D t -> holds D t x -> holds D t y ->
  binary D Sub t t x y = Some (s, m) -> throws_arithmetic (sE s) -> sP s = Automatic ->
  holds D t 0 -> (forall a b, holds D t a -> holds D t b -> in_type D (intmax D) (a - b)) ->
  returns m (x - y).
Proof.
  intros D t x y s m Ht Hx Hy H HE HP Z0 Hr.
  assert (HW : widest D Sub t t = intmax D) by reflexivity.
  destruct (auto_narrowest Sub D t t x y s m ltac:(auto) Ht Ht H HP) as (_ & J & _). rewrite HW in J.
  assert (Hin : forall a, holds D t a -> in_type D (intmax D) a).
  { intros a Ha. specialize (Hr a 0 Ha Z0). rewrite Z.sub_0_r in Hr. exact Hr. }
  assert (K : forall a, holds D t a -> in_type D (st s) a).
  { intros a Ha. pose proof (J a 0 Ha Z0 (Hin a Ha) (Hin 0 Z0)) as L. cbn [exact] in L.
    rewrite Z.sub_0_r in L. auto. }
  apply (C38_lemma Sub D t t x y s m); auto.
Qed.
