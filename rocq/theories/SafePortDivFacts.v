(** SafePortDivFacts.v -- portability of division under automatic promotion. Proofs only. *)
From Coq Require Import ZArith Bool List Lia.
From Verif Require Import Base CType Spec CTypeFacts Utility UtilityFacts SafeCompare
  CheckedInteger CheckedIntegerFacts CheckedResultOps CheckedResultFacts Interval IntervalFacts
  IntervalOpsFacts ExceptionPolicy Promotion SafeBase SafeSpec SafeFacts SafeDivFacts SafeConvFacts
  SafeBitFacts SafeTraceFacts SafePortFacts SafePortMoreFacts.
Import ListNotations.
Local Open Scope Z_scope.

Lemma div_temp_total : forall D R T U, exists W, div_temp D R T U = Some W.
Proof.
  intros D R T U. pose proof check_div_temp_all as H.
  rewrite forallb_forall in H. specialize (H D (all_dmodel_in D)).
  rewrite forallb_forall in H. specialize (H R (all_ctype_in R)).
  rewrite forallb_forall in H. specialize (H T (all_ctype_in T)).
  rewrite forallb_forall in H. specialize (H U (all_ctype_in U)).
  unfold check_div_temp in H. destruct (div_temp D R T U) as [W|]; [eauto|discriminate].
Qed.

(** what the division of operands that fit the result type does, written with
    the widest type of the result's signedness only *)
Definition div_answer (D : dmodel) (tmp : ctype) (x y : Z) : M Z :=
  if y =? 0 then ([(arithmetic_error, domain_error)], Throw domain_error)
  else if in_range D tmp (Z.quot x y) then ([], Ret (Z.quot x y))
  else ([(arithmetic_error, positive_overflow_error)], Throw positive_overflow_error).

Lemma div_answer_same : forall D D' T T' x y, same D D' T T' -> div_answer D T x y = div_answer D' T' x y.
Proof. intros D D' T T' x y [HL HH]. unfold div_answer, in_range. rewrite HL, HH. reflexivity. Qed.

Lemma checked_div_answer : forall D E R W t u x y, throws_arithmetic E ->
  wf_operand D t -> wf_operand D u -> holds D t x -> holds D u y ->
  automatic_result D (PArith Div) t u = Some R -> fits_in D R t -> fits_in D R u ->
  div_temp D R (base_ty t) (base_ty u) = Some W ->
  checked_run D Div E R W (mret (x, y)) = div_answer D (auto_temp D (base_ty t) (base_ty u)) x y.
Proof.
  intros D E R W t u x y HE Ht Hu Hx Hy HR Ft Fu HW.
  pose proof (auto_signed D Div t u R ltac:(auto) HR) as HSg.
  destruct (work_range D R _ _ W HW) as [R1 R2].
  destruct (auto_temp_work D R _ _ W HW HSg) as [T1 T2].
  set (tmp := auto_temp D (base_ty t) (base_ty u)) in *.
  assert (Ix : in_type D R x /\ in_type D R y) by (unfold fits_in, holds, in_type in *; lia).
  destruct Ix as [Ix Iy].
  assert (Jx : in_type D W x) by (unfold in_type in *; lia).
  assert (Jy : in_type D W y) by (unfold in_type in *; lia).
  unfold checked_run. rewrite mbind_ret. cbn [fst snd checked_op].
  destruct (divide_spec D W x y Jx Jy) as [Hz Hnz]. unfold div_answer.
  destruct (Z.eqb_spec y 0) as [Y|Y].
  - rewrite (Hz Y). cbn [mlift]. rewrite mbind_ret. cbn [dispatch_and_return].
    rewrite dispatch_arith by (try assumption; unfold arithmetic_err; auto). reflexivity.
  - assert (Q : in_type D tmp (Z.quot x y) -> in_type D R (Z.quot x y)).
    { intros K. apply (auto_div_range D t u R x y); auto. }
    assert (L : lo D R <= Z.quot x y).
    { destruct (csigned D R) eqn:ES.
      - destruct (Z.eq_dec x (lo D R)) as [Ex|Ex]; [destruct (Z.eq_dec y (-1)) as [Ey|Ey]|].
        + rewrite Ey. change (-1) with (- (1)). rewrite Z.quot_opp_r by lia. rewrite Z.quot_1_r.
          pose proof (lo_le_0 D R). lia.
        + pose proof (quot_range D R x y Ix Iy Y ltac:(tauto)). unfold in_type in *. lia.
        + pose proof (quot_range D R x y Ix Iy Y ltac:(tauto)). unfold in_type in *. lia.
      - assert (N : ~ (csigned D R = true /\ x = lo D R /\ y = -1)) by (rewrite ES; intros [? _]; discriminate).
        pose proof (quot_range D R x y Ix Iy Y N). unfold in_type in *. lia. }
    assert (B : in_range D tmp (Z.quot x y) = true <-> in_type D tmp (Z.quot x y)).
    { unfold in_range, in_type. rewrite andb_true_iff, !Z.leb_le. tauto. }
    destruct (eoo_cases _ _ _ _ (Hnz Y)) as [[Hi ->]|[[Hi ->]|[Hi ->]]]; cbn [mlift]; rewrite mbind_ret.
    + assert (K : in_type D tmp (Z.quot x y)) by (unfold in_type in *; lia).
      rewrite (proj2 B K), dar_val, mbind_ret, conv_id by auto. reflexivity.
    + cbn [dispatch_and_return]. rewrite dispatch_arith by (try assumption; unfold arithmetic_err; auto).
      destruct (in_range D tmp (Z.quot x y)) eqn:EB; [|reflexivity].
      pose proof (Q (proj1 B eq_refl)). unfold in_type in *. lia.
    + unfold in_type in *. lia.
Qed.

Lemma unchecked_div_answer : forall D R t u x y ri,
  wf_operand D t -> wf_operand D u -> holds D t x -> holds D u y ->
  automatic_result D (PArith Div) t u = Some R -> fits_in D R t -> fits_in D R u ->
  r_type_interval D Div R t u = Ok ri -> exception_possible D Div R t u ri = false ->
  unchecked_run D Div R x y = div_answer D (auto_temp D (base_ty t) (base_ty u)) x y.
Proof.
  intros D R t u x y ri Ht Hu Hx Hy HR Ft Fu Hri Hex.
  pose proof (auto_signed D Div t u R ltac:(auto) HR) as HSg.
  destruct (div_temp_total D R (base_ty t) (base_ty u)) as (W & HW).
  destruct (work_range D R _ _ W HW) as [R1 R2].
  destruct (auto_temp_work D R _ _ W HW HSg) as [T1 T2].
  destruct (div_fits D R t u ri Ht Hu (fits_in_fits _ _ _ Ft) (fits_in_fits _ _ _ Fu) Hri) as (_ & _ & Hunc).
  destruct (Hunc Hex x y Hx Hy) as (Y & Er & _ & _ & Iq).
  unfold unchecked_run, div_answer. rewrite Er. cbn [mlift]. rewrite mbind_ret, conv_id by assumption.
  destruct (Z.eqb_spec y 0); [congruence|].
  assert (in_range D (auto_temp D (base_ty t) (base_ty u)) (Z.quot x y) = true) as ->.
  { unfold in_range, in_type in *. rewrite andb_true_iff, !Z.leb_le. lia. }
  reflexivity.
Qed.

Lemma cast_operand_total : forall D E R o x, wf_operand D o -> holds D o x -> in_type D R x ->
  throws_arithmetic E -> (forall E0, get_ep o = Some E0 -> E0 = E) ->
  cast_operand D E R o x = Some (mret x).
Proof.
  intros D E R o x Ho Hx Hi HE Hep.
  assert (Hnt : on_arithmetic_error E <> HTrap) by (unfold throws_arithmetic in HE; congruence).
  assert (exists m, cast_operand D E R o x = Some m) as [m Hm].
  { unfold cast_operand. rewrite cast_errors_compile by assumption.
    assert (exists fb, static_cast_builtin D R o x = Some fb) as [fb ->]; [|eauto].
    destruct o as [T|s|T N P E1].
    - eexists. reflexivity.
    - cbn [static_cast_builtin]. apply to_builtin_total. rewrite (Hep (sE s) eq_refl). assumption.
    - cbn [static_cast_builtin]. unfold lit_to_builtin, validate.
      assert (x = N) by (unfold holds in Hx; cbn in Hx; lia). subst x.
      assert (HN : in_type D T N) by exact (proj1 Ho).
      assert (validate_static D R (lo D R) (hi D R) T N N = Some true) as ->; [|eauto].
      unfold validate_static. rewrite (proj1 (cast_spec D R T N HN) Hi).
      unfold excludes, includes, cr_ge, cr_le. cbn [il iu].
      rewrite !cr_lt_val by auto using lo_in, hi_in.
      unfold in_type in *.
      destruct (Z.ltb_spec N (lo D R)); [lia|]. destruct (Z.ltb_spec (hi D R) N); [lia|]. reflexivity. }
  rewrite Hm. f_equal. eapply cast_operand_in; eassumption.
Qed.

Section PortDiv.
  Variables (D D' : dmodel) (t u t' u' : otype).
  Hypotheses (Ct : corresponds D D' t t') (Cu : corresponds D D' u u').
  Hypotheses (Wt : wf_operand D t) (Wu : wf_operand D u).
  Hypotheses (Wt' : wf_operand D' t') (Wu' : wf_operand D' u').

  Lemma div_same : forall x y s m, holds D t x -> holds D u y ->
    binary D Div t u x y = Some (s, m) -> sP s = Automatic -> throws_arithmetic (sE s) ->
    fits_in D (st s) t -> fits_in D (st s) u ->
    exists s', binary D' Div t' u' x y = Some (s', m)
      /\ smin s' = smin s /\ smax s' = smax s /\ same D D' (st s) (st s').
  Proof.
    intros x y s m Hx Hy H HP HE Ft Fu.
    assert (Hx' : holds D' t' x) by (destruct Ct as (L1 & L2 & _); unfold holds in *; lia).
    assert (Hy' : holds D' u' y) by (destruct Cu as (L1 & L2 & _); unfold holds in *; lia).
    destruct (binary_inv _ _ _ _ _ _ _ _ H) as (P & E & R & ri & H1 & H2 & H3 & H4 & -> & K).
    cbn [sP sE st smin smax] in *. subst P. cbn [result_base_type] in H3.
    destruct (automatic_div_same D D' t u t' u' Ct Cu Wt Wu Wt' Wu' R H3) as (R' & H3' & HS).
    destruct (common_same D D' t u t' u' Ct Cu Wt Wu Wt' Wu' _ _ H1 H2) as (H1' & H2' & Kt & Ku).
    assert (Ft' : fits_in D' R' t').
    { destruct Ct as (L1 & L2 & _), HS as [HL HH]. unfold fits_in in *. lia. }
    assert (Fu' : fits_in D' R' u').
    { destruct Cu as (L1 & L2 & _), HS as [HL HH]. unfold fits_in in *. lia. }
    pose proof (lim_interval_ok D R t Wt) as It. pose proof (lim_interval_ok D R u Wu) as Iu.
    assert (H4' : r_type_interval D' Div R' t' u' = Ok ri).
    { cbn [r_type_interval] in *.
      rewrite <- (lim_interval_same D D' _ _ t t' Ct Wt Wt' HS), <- (lim_interval_same D D' _ _ u u' Cu Wu Wu' HS).
      rewrite <- (div_interval_same D D' R R') by assumption. assumption. }
    assert (X : exception_possible D' Div R' t' u' ri = exception_possible D Div R t u ri).
    { cbn [exception_possible].
      rewrite <- (lim_interval_same D D' _ _ u u' Cu Wu Wu' HS).
      destruct Iu as [C F]. unfold includes_pt, cr_le.
      rewrite <- !(cr_lt_same D D' R R') by (try assumption; apply zero_in). reflexivity. }
    assert (Hst : op_static D' Div t' u' = Some (mkInfo E R'
       (mkSafe R' (bound_lo D' R' (il ri)) (bound_hi D' R' (iu ri)) Automatic E)
       (exception_possible D' Div R' t' u' ri))).
    { unfold op_static. rewrite H1', H2'. cbn [result_base_type]. rewrite H3', H4'. reflexivity. }
    exists (mkSafe R' (bound_lo D' R' (il ri)) (bound_hi D' R' (iu ri)) Automatic E).
    cbn [sP sE st smin smax].
    split; [|splits; auto; symmetry; auto using bound_lo_same, bound_hi_same].
    unfold binary. rewrite Hst. cbn [oi_checked oi_R oi_E oi_type]. rewrite X.
    assert (A : div_answer D' (auto_temp D' (base_ty t') (base_ty u')) x y
              = div_answer D (auto_temp D (base_ty t) (base_ty u)) x y).
    { destruct Ct as (_ & _ & S1 & _), Cu as (_ & _ & S2 & _).
      destruct (auto_temp_max D D' t u t' u' S1 S2) as (b & -> & ->). symmetry.
      apply div_answer_same, max_same. }
    destruct K as [[X0 ->]|[X1 (W & casts & HW & Hk & Hcmp & ->)]].
    - rewrite X0. do 2 f_equal.
      rewrite (unchecked_div_answer D R t u x y ri) by assumption.
      rewrite (unchecked_div_answer D' R' t' u' x y ri) by (try assumption; congruence). exact A.
    - rewrite X1. cbn [work_type] in *. destruct (div_temp_total D' R' (base_ty t') (base_ty u')) as (W' & HW').
      rewrite HW'. destruct (work_range D R _ _ W HW) as [R1 R2]. destruct (work_range D' R' _ _ W' HW') as [R1' R2'].
      assert (Jx : in_type D W x) by (unfold fits_in, holds, in_type in *; lia).
      assert (Jy : in_type D W y) by (unfold fits_in, holds, in_type in *; lia).
      assert (Jx' : in_type D' W' x) by (unfold fits_in, holds, in_type in *; lia).
      assert (Jy' : in_type D' W' y) by (unfold fits_in, holds, in_type in *; lia).
      apply casting_helper_in in Hk; auto. subst casts.
      assert (Ept : get_ep t = get_ep t' /\ get_ep u = get_ep u')
        by (destruct Ct as (_ & _ & _ & _ & Et & _), Cu as (_ & _ & _ & _ & Eu & _); auto).
      destruct Ept as [Ept Epu]. rewrite Ept in Kt. rewrite Epu in Ku.
      assert (Hk' : casting_helper D' E W' t' u' x y = Some (mret (x, y))).
      { unfold casting_helper. rewrite (cast_operand_total D' E W' t' x), (cast_operand_total D' E W' u' y) by assumption.
        reflexivity. }
      rewrite Hk'.
      assert (Hc' : all_compile E (op_errors D' Div W') = true).
      { unfold op_errors, all_compile. destruct (csigned D' W'); cbn; unfold dispatch_compiles; cbn; rewrite HE; reflexivity. }
      rewrite Hc'. do 2 f_equal.
      rewrite (checked_div_answer D E R W t u x y) by assumption.
      rewrite (checked_div_answer D' E R' W' t' u' x y) by assumption. exact A.
  Qed.
End PortDiv.
