(** PlainCheck.v -- the compile-time decisions for full-range operands,
    for all data models and types. Proofs only. *)
From Coq Require Import ZArith List Bool Lia.
From Verif Require Import Base CType CTypeFacts Utility UtilityFacts SafeCompare Spec CheckedInteger CheckedIntegerFacts
  CheckedResultOps CheckedResultFacts Interval IntervalFacts IntervalOpsFacts ExceptionPolicy Promotion SafeBase SafeSpec StaticSpec
  SafeFacts SafeDivFacts SafeShiftFacts SafeConvFacts SafePortFacts SafeTraceFacts SafeBitFacts IntervalTotal.
Import ListNotations.
Local Open Scope Z_scope.

Lemma plain_wf : forall D E T o, plain D E T o -> wf_operand D o.
Proof.
  intros D E T o [->| ->]; unfold wf_operand; cbn; (split; [apply lo_in|split; [apply hi_in|]]);
  pose proof (lo_le_0 D T); pose proof (hi_ge_127 D T); lia.
Qed.
Lemma plain_base : forall D E T o, plain D E T o -> base_ty o = T.
Proof. intros D E T o [->| ->]; reflexivity. Qed.
Lemma plain_holds : forall D E T o x, plain D E T o -> (holds D o x <-> in_type D T x).
Proof. intros D E T o x [->| ->]; reflexivity. Qed.
Lemma plain_lim : forall D R E T o, plain D E T o -> lim_interval D R o = lim_interval D R (ORaw T).
Proof. intros D R E T o [->| ->]; reflexivity. Qed.

Definition full_in (D : dmodel) (R T : ctype) : bool := (lo D R <=? lo D T) && (hi D T <=? hi D R).

(** the compile-time decision for each operator *)
Definition plain_check (D : dmodel) (op : aop) (T U : ctype) : bool :=
  let R := built_in_type D op T U in
  match r_type_interval D op R (ORaw T) (ORaw U) with
  | Ok ri =>
      exception_possible D op R (ORaw T) (ORaw U) ri
      || (match op with Add | Sub | Mul => full_in D R T && full_in D R U | _ => false end)
  | UB => false
  end.
(** a right shift whose count can exceed the number of value bits is checked *)
Lemma shr_big_count : forall D R t u ri, wf_operand D u -> digits D R < lim_hi D u ->
  exception_possible D Shr R t u ri = true.
Proof.
  intros D R t u ri (_ & Hu & _) Hd. unfold exception_possible, cr_gt.
  assert (H : cr_lt D R (CVal (conv D R (digits D R))) (iu (lim_interval D R u)) = TTrue).
  { rewrite (conv_id D R _ (digits_in D R)). unfold lim_interval. cbn [iu].
    pose proof (digits_pos D R). pose proof (lo_le_0 D R).
    destruct (cast_spec D R (base_ty u) (lim_hi D u) Hu) as (H1 & H2 & H3).
    destruct (Z_le_gt_dec (lim_hi D u) (hi D R)) as [Hl|Hg].
    - assert (I : in_type D R (lim_hi D u)) by (unfold in_type; lia). rewrite (H1 I).
      rewrite (cr_lt_val D R _ _ (digits_in D R) I). destruct (Z.ltb_spec (digits D R) (lim_hi D u)); [reflexivity|lia].
    - rewrite (H2 ltac:(lia)). reflexivity. }
  rewrite H. reflexivity.
Qed.

Lemma plain_checked : forall D op T U, plain_check D op T U = true.
Proof.
  intros D op T U. unfold plain_check. set (R := built_in_type D op T U).
  assert (WT : wf_operand D (ORaw T)) by (apply (plain_wf D loose_exception_policy T); left; reflexivity).
  assert (WU : wf_operand D (ORaw U)) by (apply (plain_wf D loose_exception_policy U); left; reflexivity).
  pose proof (hi_ge_127 D T). pose proof (hi_ge_127 D U). pose proof (lo_le_0 D T). pose proof (lo_le_0 D U).
  pose proof (digits_pos D R) as HD.
  assert (HH : forall V z, lo D V <= z <= hi D V -> holds D (ORaw V) z) by (intros; unfold holds; cbn; lia).
  assert (HF : op <> Shl -> op <> Shr -> fits D R (ORaw T) /\ fits D R (ORaw U)).
  { intros N1 N2. assert (R = uac D T U) as -> by (unfold R; destruct op; try reflexivity; congruence).
    pose proof (uac_hi_l D T U). pose proof (uac_hi_r D T U). unfold fits. cbn [lim_lo lim_hi].
    destruct (csigned D (uac D T U)) eqn:Es; [|auto].
    pose proof (uac_lo_l D T U Es). pose proof (uac_lo_r D T U Es). auto. }
  destruct (r_type_interval_total D op R (ORaw T) (ORaw U) WT WU) as (ri & Hri & _).
  { intros _. destruct (csigned D R); [left; reflexivity|right; right; right]. cbn [lim_lo lim_hi].
    destruct (width_cases D R) as [E|[E|[E|E]]]; rewrite E; lia. }
  rewrite Hri. destruct (exception_possible D op R (ORaw T) (ORaw U) ri) eqn:Hex; [reflexivity|cbn [orb]].
  assert (HX : forall f, exact_op op f -> forall x y, lo D T <= x <= hi D T -> lo D U <= y <= hi D U -> in_type D R (f x y)).
  { intros f Hf x y Hx Hy. rewrite (exact_exception op f D R _ _ ri Hf) in Hex.
    apply orb_false_elim in Hex. destruct Hex as [X1 X2].
    destruct (exact_ri op f D R _ _ ri Hf WT WU Hri) as (_ & _ & Hunc).
    apply (Hunc X1 X2 x y); apply HH; assumption. }
  destruct op.
  - unfold full_in. pose proof (HX Z.add ltac:(left; auto)) as G. unfold in_type in G.
    pose proof (G (lo D T) 0 ltac:(lia) ltac:(lia)). pose proof (G (hi D T) 0 ltac:(lia) ltac:(lia)).
    pose proof (G 0 (lo D U) ltac:(lia) ltac:(lia)). pose proof (G 0 (hi D U) ltac:(lia) ltac:(lia)). lia.
  - unfold full_in. pose proof (HX Z.sub ltac:(right; left; auto)) as G. unfold in_type in G.
    pose proof (G 0 (hi D U) ltac:(lia) ltac:(lia)). destruct (csigned D R) eqn:Es.
    + pose proof (uac_lo_l D T U Es). pose proof (uac_lo_r D T U Es).
      pose proof (uac_hi_l D T U). pose proof (uac_hi_r D T U). unfold R, built_in_type in *. lia.
    + rewrite (lo_unsigned D R Es) in *. lia.
  - unfold full_in. pose proof (HX Z.mul ltac:(right; right; auto)) as G. unfold in_type in G.
    pose proof (G (lo D T) 1 ltac:(lia) ltac:(lia)). pose proof (G (hi D T) 1 ltac:(lia) ltac:(lia)).
    pose proof (G 1 (lo D U) ltac:(lia) ltac:(lia)). pose proof (G 1 (hi D U) ltac:(lia) ltac:(lia)). lia.
  - destruct HF as [F1 F2]; try discriminate.
    destruct (div_fits D R _ _ ri WT WU F1 F2 Hri) as (_ & _ & Hunc).
    destruct (Hunc Hex 0 0) as (N & _); [apply HH; lia..|congruence].
  - destruct HF as [F1 F2]; try discriminate.
    destruct (mod_fits_unchecked D R _ _ ri WT WU F1 F2 Hri Hex 0 0) as (N & _); [apply HH; lia..|congruence].
  - cbn [exception_possible] in Hex. apply orb_false_elim in Hex. destruct Hex as [X1 X2].
    pose proof (shl_unchecked_count D R _ _ ri WT WU Hri X1 X2) as Hc. cbn [lim_hi] in Hc. lia.
  - rewrite (shr_big_count D R (ORaw T) (ORaw U) ri WU) in Hex; [discriminate|]. cbn [lim_hi]. lia.
Qed.

Definition div_temp_check (D : dmodel) (T U : ctype) : bool :=
  match div_temp D (uac D T U) T U with
  | Some W => (lo D W =? lo D (uac D T U)) && (hi D W =? hi D (uac D T U))
  | None => false
  end.
Lemma div_temp_check_all :
  forallb (fun D => forallb (fun T => forallb (div_temp_check D T) all_ctype) all_ctype) all_dmodel = true.
Proof. vm_compute. reflexivity. Qed.
Lemma div_temp_native : forall D T U, exists W, div_temp D (uac D T U) T U = Some W
  /\ lo D W = lo D (uac D T U) /\ hi D W = hi D (uac D T U).
Proof.
  intros D T U. pose proof div_temp_check_all as H. rewrite forallb_forall in H. specialize (H D (all_dmodel_in D)).
  rewrite forallb_forall in H. specialize (H T (all_ctype_in T)).
  rewrite forallb_forall in H. specialize (H U (all_ctype_in U)). unfold div_temp_check in H.
  destruct (div_temp D (uac D T U) T U) as [W|]; [|discriminate]. exists W. split; [reflexivity|]. lia.
Qed.

