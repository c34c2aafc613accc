(** SafePortFacts.v -- commutativity, portability across data models, ignoring
    policies. Proofs only. *)
From Coq Require Import ZArith Bool List Lia.
From Verif Require Import Base CType Spec CTypeFacts Utility UtilityFacts SafeCompare
  CheckedInteger CheckedIntegerFacts CheckedResultOps CheckedResultFacts Interval IntervalFacts
  IntervalOpsFacts ExceptionPolicy Promotion SafeBase SafeSpec SafeFacts SafeDivFacts SafeConvFacts
  SafeBitFacts SafeTraceFacts.
Import ListNotations.
Local Open Scope Z_scope.

(** ------------------------------------------------------------------ *)
(** exact_or_overflow determines its result *)
Lemma eoo_det : forall D R D' R' z r r', lo D R = lo D' R' -> hi D R = hi D' R' ->
  exact_or_overflow D R z r -> exact_or_overflow D' R' z r' -> r = r'.
Proof.
  intros D R D' R' z r r' HL HH (A1 & A2 & A3) (B1 & B2 & B3). unfold in_type in *.
  destruct (Z_lt_le_dec z (lo D R)); [rewrite A3, B3 by lia; reflexivity|].
  destruct (Z_lt_le_dec (hi D R) z); [rewrite A2, B2 by lia; reflexivity|].
  rewrite A1, B1 by lia. reflexivity.
Qed.

(** ------------------------------------------------------------------ *)
(** commutativity *)
Lemma cr_add_comm : forall D R a b, cr_ok D R a -> cr_ok D R b -> cr_add D R a b = cr_add D R b a.
Proof.
  intros D R [x|e] [y|f] Ha Hb.
  - unfold cr_add. cbn. cbn in Ha, Hb. apply (eoo_det D R D R (x + y)); auto.
    + apply add_spec; assumption.
    + rewrite Z.add_comm. apply add_spec; assumption.
  - destruct f; reflexivity.
  - destruct e; reflexivity.
  - destruct e, f; reflexivity.
Qed.

Lemma cr_mul_comm : forall D R a b, cr_ok D R a -> cr_ok D R b -> cr_mul D R a b = cr_mul D R b a.
Proof.
  intros D R a b Ha Hb. unfold cr_mul.
  assert (K : forall v w, a = CVal v -> b = CVal w -> multiply D R v w = multiply D R w v).
  { intros v w -> ->. cbn in Ha, Hb. apply (eoo_det D R D R (v * w)); auto.
    - apply multiply_spec; assumption.
    - rewrite Z.mul_comm. apply multiply_spec; assumption. }
  assert (N : forall c, cr_ok D R c -> match c with
     | CVal _ => to_pflag D R c = less_than_zero \/ to_pflag D R c = zero \/ to_pflag D R c = greater_than_zero
     | CErr _ => to_pflag D R c = less_than_min \/ to_pflag D R c = greater_than_max \/ to_pflag D R c = indeterminate end).
  { intros [v|e] _; cbn [to_pflag].
    - destruct (tri_bool _); [auto|]. destruct (tri_bool _); auto.
    - destruct e; auto. }
  pose proof (N a Ha) as Na. pose proof (N b Hb) as Nb. clear N.
  destruct a as [v|e], b as [w|f];
  destruct Na as [->|[->| ->]]; destruct Nb as [->|[->| ->]]; cbn; auto.
Qed.

Lemma cle_antisym : forall a b, num a -> num b -> cle a b -> cle b a -> a = b.
Proof.
  intros [v|e] [w|f]; cbn; try destruct e; try destruct f; cbn; try tauto; intros; f_equal; lia.
Qed.

Lemma minmax_perm : forall D R h l l', Forall (cr_ok D R) (h :: l) -> Forall (cr_ok D R) (h :: l') ->
  (forall c, In c (h :: l) <-> In c (h :: l')) ->
  minmax D R (h :: l) = minmax D R (h :: l').
Proof.
  intros D R h l l' Hl Hl' HI.
  destruct (minmax_spec D R h l Hl) as (i & -> & Hi).
  destruct (minmax_spec D R h l' Hl') as (j & -> & Hj).
  f_equal. destruct Hi as [[N ->]|(N1 & N2 & _ & _ & _ & I1 & I2 & N & A)];
  destruct Hj as [[N' ->]|(N1' & N2' & _ & _ & _ & I1' & I2' & N' & A')]; try contradiction; [reflexivity|].
  destruct i as [a b], j as [c d]. cbn [il iu] in *.
  f_equal; apply cle_antisym; auto.
  - apply A; [apply HI|]; assumption.
  - apply A'; [apply HI|]; assumption.
  - apply A'; [apply HI|]; assumption.
  - apply A; [apply HI|]; assumption.
Qed.

Definition i_ok (D : dmodel) (R : ctype) (i : interval) : Prop := cr_ok D R (il i) /\ cr_ok D R (iu i).
Lemma lim_interval_ok : forall D R o, wf_operand D o -> i_ok D R (lim_interval D R o).
Proof. intros D R o (H1 & H2 & _). split; cbn; apply cast_ok; assumption. Qed.

Lemma i_add_comm : forall D R i j, i_ok D R i -> i_ok D R j -> i_add D R i j = i_add D R j i.
Proof.
  intros D R i j [A B] [C E]. unfold i_add.
  rewrite (cr_add_comm D R (il i)), (cr_add_comm D R (iu i)) by assumption. reflexivity.
Qed.
Lemma i_mul_comm : forall D R i j, i_ok D R i -> i_ok D R j -> i_mul D R i j = i_mul D R j i.
Proof.
  intros D R i j [A B] [C E]. unfold i_mul, minmax_of, corners.
  rewrite (cr_mul_comm D R (il j) (il i)), (cr_mul_comm D R (il j) (iu i)),
    (cr_mul_comm D R (iu j) (il i)), (cr_mul_comm D R (iu j) (iu i)) by assumption.
  destruct (cr_mul_total D R (il i) (il j) A C) as (p1 & -> & O1 & _).
  destruct (cr_mul_total D R (il i) (iu j) A E) as (p2 & -> & O2 & _).
  destruct (cr_mul_total D R (iu i) (il j) B C) as (p3 & -> & O3 & _).
  destruct (cr_mul_total D R (iu i) (iu j) B E) as (p4 & -> & O4 & _).
  cbn [seq_res rbind]. apply minmax_perm.
  - repeat (apply Forall_cons; [assumption|]). apply Forall_nil.
  - repeat (apply Forall_cons; [assumption|]). apply Forall_nil.
  - intros c. cbn [In]. tauto.
Qed.

Definition commutative_op (op : aop) : Prop := op = Add \/ op = Mul.

Lemma r_interval_comm : forall D op R t u, commutative_op op -> wf_operand D t -> wf_operand D u ->
  r_type_interval D op R t u = r_type_interval D op R u t.
Proof.
  intros D op R t u Hop Ht Hu.
  pose proof (lim_interval_ok D R t Ht). pose proof (lim_interval_ok D R u Hu).
  destruct Hop as [->| ->]; cbn [r_type_interval]; [apply i_add_comm|apply i_mul_comm]; assumption.
Qed.
Lemma result_type_comm : forall D P op t u, commutative_op op -> wf_operand D t -> wf_operand D u ->
  P = Native \/ P = Automatic ->
  result_base_type D P (PArith op) t u = result_base_type D P (PArith op) u t.
Proof.
  intros D P op t u Hop Ht Hu [->| ->]; cbn [result_base_type].
  - destruct Hop as [->| ->]; cbn [native_result]; rewrite uac_comm; reflexivity.
  - assert (E : auto_temp D (base_ty u) (base_ty t) = auto_temp D (base_ty t) (base_ty u))
      by (unfold auto_temp; rewrite andb_comm; reflexivity).
    set (tmp := auto_temp D (base_ty t) (base_ty u)) in *.
    pose proof (lim_interval_ok D tmp t Ht). pose proof (lim_interval_ok D tmp u Hu).
    destruct Hop as [->| ->]; cbn [automatic_result]; fold tmp; rewrite E;
      [rewrite i_add_comm by assumption|rewrite i_mul_comm by assumption]; reflexivity.
Qed.
Lemma pp_eqb_eq : forall a b, pp_eqb a b = true -> a = b.
Proof.
  intros [| |a b c d e] [| |a' b' c' d' e']; cbn; try congruence.
  rewrite !andb_true_iff, !Z.eqb_eq. intros [[[[-> ->] ->] ->] ->]. reflexivity.
Qed.
Lemma pp_eqb_sym : forall a b, pp_eqb a b = pp_eqb b a.
Proof.
  intros [| |a b c d e] [| |a' b' c' d' e']; cbn; try reflexivity.
  rewrite (Z.eqb_sym a), (Z.eqb_sym b), (Z.eqb_sym c), (Z.eqb_sym d), (Z.eqb_sym e). reflexivity.
Qed.
Lemma handler_eqb_sym : forall a b, handler_eqb a b = handler_eqb b a.
Proof. destruct a, b; reflexivity. Qed.
Lemma ep_eqb_sym : forall a b, ep_eqb a b = ep_eqb b a.
Proof.
  intros a b. unfold ep_eqb. rewrite (handler_eqb_sym (on_arithmetic_error a)),
    (handler_eqb_sym (on_implementation_defined_behavior a)), (handler_eqb_sym (on_undefined_behavior a)),
    (handler_eqb_sym (on_uninitialized_value a)). reflexivity.
Qed.
Lemma common_ep_comm : forall t u, common_ep t u = common_ep u t.
Proof.
  intros t u. unfold common_ep. rewrite orb_comm. destruct (_ || _); [|reflexivity].
  destruct (get_ep t) as [a|], (get_ep u) as [b|]; try reflexivity.
  rewrite ep_eqb_sym. destruct (ep_eqb b a) eqn:E; [|reflexivity]. apply ep_eqb_eq in E. congruence.
Qed.
Lemma common_pp_comm : forall t u, common_pp t u = common_pp u t.
Proof.
  intros t u. unfold common_pp. rewrite orb_comm. destruct (_ || _); [|reflexivity].
  destruct (get_pp t) as [a|], (get_pp u) as [b|]; try reflexivity.
  rewrite pp_eqb_sym. destruct (pp_eqb b a) eqn:E; [|reflexivity]. apply pp_eqb_eq in E. congruence.
Qed.

(** the run of the checked + - * under a throwing policy *)
Lemma checked_run_exact : forall op f D E R t u x y casts, exact_op op f -> throws_arithmetic E ->
  wf_operand D t -> wf_operand D u -> holds D t x -> holds D u y ->
  casting_helper D E R t u x y = Some casts ->
  (in_type D R x /\ in_type D R y /\ in_type D R (f x y) /\ returns (checked_run D op E R R casts) (f x y))
  \/ (~ (in_type D R x /\ in_type D R y /\ in_type D R (f x y)) /\ throws_arith (checked_run D op E R R casts)).
Proof.
  intros op f D E R t u x y casts Hop HE Ht Hu Hx Hy Hc. unfold checked_run.
  destruct (casting_helper_throws _ _ _ _ _ _ _ _ HE Ht Hu Hx Hy Hc) as [(Ix & Iy & ->)|[Hn Tc]].
  - rewrite mbind_ret. cbn [fst snd].
    destruct (eoo_cases _ _ _ _ (exact_checked op f D R x y Hop Ix Iy)) as [[Hi ->]|[[Hi ->]|[Hi ->]]];
      cbn [mlift]; rewrite mbind_ret.
    + left. rewrite dar_val, mbind_ret. unfold returns. rewrite conv_id by assumption. auto.
    + right. split; [unfold in_type in *; lia|]. apply mbind_throws, dar_arith; unfold arithmetic_err; auto.
    + right. split; [unfold in_type in *; lia|]. apply mbind_throws, dar_arith; unfold arithmetic_err; auto.
  - right. split; [tauto|]. apply mbind_throws. assumption.
Qed.
Lemma unchecked_run_exact : forall op f D R t u x y ri, exact_op op f ->
  wf_operand D t -> wf_operand D u -> holds D t x -> holds D u y ->
  r_type_interval D op R t u = Ok ri -> exception_possible D op R t u ri = false ->
  returns (unchecked_run D op R x y) (f x y) /\ in_type D R (f x y).
Proof.
  intros op f D R t u x y ri Hop Ht Hu Hx Hy Hri Hex.
  destruct (exact_ri _ _ _ _ _ _ _ Hop Ht Hu Hri) as (_ & _ & Hunc).
  rewrite (exact_exception op f) in Hex by assumption. apply orb_false_iff in Hex. destruct Hex as [X1 X2].
  destruct (Hunc X1 X2 x y Hx Hy) as (E1 & E2 & E3). split; [|assumption].
  unfold returns, unchecked_run. rewrite E1. cbn [mlift]. rewrite mbind_ret.
  rewrite conv_id by assumption. reflexivity.
Qed.

Lemma commute : forall D op f t u x y s m s' m', commutative_op op -> exact_op op f ->
  (forall a b, f a b = f b a) ->
  wf_operand D t -> wf_operand D u -> holds D t x -> holds D u y ->
  binary D op t u x y = Some (s, m) -> binary D op u t y x = Some (s', m') ->
  sP s = Native \/ sP s = Automatic -> throws_arithmetic (sE s) ->
  s = s' /\ ((exists v, returns m v /\ returns m' v) \/ (throws_arith m /\ throws_arith m')).
Proof.
  intros D op f t u x y s m s' m' Hc Hop Hf Ht Hu Hx Hy H H' HP HE.
  destruct (binary_inv _ _ _ _ _ _ _ _ H) as (P & E & R & ri & H1 & H2 & H3 & H4 & -> & K).
  destruct (binary_inv _ _ _ _ _ _ _ _ H') as (P' & E' & R' & ri' & H1' & H2' & H3' & H4' & -> & K').
  rewrite common_pp_comm, H1 in H1'. injection H1' as <-.
  rewrite common_ep_comm, H2 in H2'. injection H2' as <-. cbn [sP sE] in HP, HE.
  rewrite (result_type_comm D P op u t) in H3' by assumption. rewrite H3 in H3'. injection H3' as <-.
  rewrite (r_interval_comm D op R u t) in H4' by assumption. rewrite H4 in H4'. injection H4' as <-.
  split; [reflexivity|].
  assert (X : exception_possible D op R u t ri = exception_possible D op R t u ri)
    by (rewrite !(exact_exception op f) by assumption; reflexivity).
  rewrite X in K'.
  destruct K as [[X0 ->]|[X1 (W & casts & HW & Hk & _ & ->)]];
  destruct K' as [[X0' ->]|[X1' (W' & casts' & HW' & Hk' & _ & ->)]]; try congruence.
  - left. exists (f x y).
    destruct (unchecked_run_exact op f D R t u x y ri Hop Ht Hu Hx Hy H4 X0) as [A _].
    rewrite <- X in X0. rewrite (r_interval_comm D op R t u) in H4 by assumption.
    destruct (unchecked_run_exact op f D R u t y x ri Hop Hu Ht Hy Hx H4 X0) as [B _].
    rewrite (Hf y x) in B. auto.
  - rewrite (exact_work op f) in HW, HW' by assumption. injection HW as <-. injection HW' as <-.
    pose proof (checked_run_exact op f D E R t u x y casts Hop HE Ht Hu Hx Hy Hk) as C.
    pose proof (checked_run_exact op f D E R u t y x casts' Hop HE Hu Ht Hy Hx Hk') as C'.
    rewrite (Hf y x) in C'.
    destruct C as [(A1 & A2 & A3 & A)|[N T]]; destruct C' as [(A1' & A2' & A3' & A')|[N' T']]; try tauto.
    left. eauto.
Qed.

(** ------------------------------------------------------------------ *)
(** portability *)
Definition same (D D' : dmodel) (R R' : ctype) : Prop := lo D R = lo D' R' /\ hi D R = hi D' R'.

Lemma same_signed : forall D D' R R', same D D' R R' -> csigned D R = csigned D' R'.
Proof.
  intros D D' R R' [HL _].
  destruct (csigned D R) eqn:E, (csigned D' R') eqn:E'; try reflexivity.
  - pose proof (hi_pos_lo D R E). pose proof (hi_ge_127 D R). pose proof (lo_unsigned D' R' E'). lia.
  - pose proof (hi_pos_lo D' R' E'). pose proof (hi_ge_127 D' R'). pose proof (lo_unsigned D R E). lia.
Qed.
Lemma same_of_width : forall D D' R R', width D R = width D' R' -> csigned D R = csigned D' R' -> same D D' R R'.
Proof.
  intros D D' R R' Hw Hs. pose proof (pow_width D R). pose proof (pow_width D' R').
  unfold same. destruct (csigned D R) eqn:E; symmetry in Hs.
  - pose proof (hi_pos_lo D R E). pose proof (hi_pos_lo D' R' Hs). rewrite Hw in *. lia.
  - pose proof (lo_unsigned D R E). pose proof (lo_unsigned D' R' Hs). rewrite Hw in *. lia.
Qed.
Lemma same_ok : forall D D' R R' c, same D D' R R' -> cr_ok D R c -> cr_ok D' R' c.
Proof. intros D D' R R' [v|e] [H1 H2]; cbn; unfold in_type; [lia|auto]. Qed.

Lemma cast_same : forall D D' R R' T T' z, same D D' R R' -> in_type D T z -> in_type D' T' z ->
  cast D R T z = cast D' R' T' z.
Proof.
  intros D D' R R' T T' z HS Hz Hz'. pose proof (same_signed _ _ _ _ HS) as Hg. destruct HS as [HL HH].
  destruct (cast_spec D R T z Hz) as (A1 & A2 & A3). destruct (cast_spec D' R' T' z Hz') as (B1 & B2 & B3).
  unfold in_type in *.
  destruct (Z_lt_le_dec z (lo D R)); [rewrite A3, B3 by lia; rewrite Hg; reflexivity|].
  destruct (Z_lt_le_dec (hi D R) z); [rewrite A2, B2 by lia; reflexivity|].
  rewrite A1, B1 by lia. reflexivity.
Qed.
Lemma cr_lt_same : forall D D' R R' a b, same D D' R R' -> cr_ok D R a -> cr_ok D R b ->
  cr_lt D R a b = cr_lt D' R' a b.
Proof.
  intros D D' R R' a b HS Ha Hb. pose proof (same_ok _ _ _ _ a HS Ha). pose proof (same_ok _ _ _ _ b HS Hb).
  destruct a as [v|e], b as [w|f].
  - cbn [cr_ok] in *. rewrite !cr_lt_val by assumption. reflexivity.
  - destruct f; reflexivity.
  - destruct e; reflexivity.
  - destruct e, f; reflexivity.
Qed.
Lemma cr_add_same : forall D D' R R' a b, same D D' R R' -> cr_ok D R a -> cr_ok D R b ->
  cr_add D R a b = cr_add D' R' a b.
Proof.
  intros D D' R R' a b HS Ha Hb. pose proof (same_ok _ _ _ _ a HS Ha). pose proof (same_ok _ _ _ _ b HS Hb).
  destruct HS as [HL HH]. destruct a as [v|e], b as [w|f].
  - unfold cr_add. cbn in *. apply (eoo_det D R D' R' (v + w)); auto using add_spec.
  - destruct f; reflexivity.
  - destruct e; reflexivity.
  - destruct e, f; reflexivity.
Qed.
Lemma cr_sub_same : forall D D' R R' a b, same D D' R R' -> cr_ok D R a -> cr_ok D R b ->
  cr_sub D R a b = cr_sub D' R' a b.
Proof.
  intros D D' R R' a b HS Ha Hb. pose proof (same_ok _ _ _ _ a HS Ha). pose proof (same_ok _ _ _ _ b HS Hb).
  destruct HS as [HL HH]. destruct a as [v|e], b as [w|f].
  - unfold cr_sub. cbn in *. apply (eoo_det D R D' R' (v - w)); auto using subtract_spec.
  - destruct f; reflexivity.
  - destruct e; reflexivity.
  - destruct e, f; reflexivity.
Qed.
Lemma to_pflag_same : forall D D' R R' a, same D D' R R' -> cr_ok D R a ->
  to_pflag D R a = to_pflag D' R' a.
Proof.
  intros D D' R R' [v|e] HS Ha; cbn [to_pflag]; [|reflexivity].
  unfold cr_gt. rewrite !(cr_lt_same D D' R R') by (try assumption; apply zero_in). reflexivity.
Qed.
Lemma to_pflag_val' : forall D R v, cr_ok D R (CVal v) -> to_pflag D R (CVal v) = less_than_zero
  \/ to_pflag D R (CVal v) = zero \/ to_pflag D R (CVal v) = greater_than_zero.
Proof.
  intros D R v _. cbn [to_pflag]. destruct (tri_bool _); [auto|]. destruct (tri_bool _); auto.
Qed.
Lemma cr_mul_same : forall D D' R R' a b, same D D' R R' -> cr_ok D R a -> cr_ok D R b ->
  cr_mul D R a b = cr_mul D' R' a b.
Proof.
  intros D D' R R' a b HS Ha Hb. pose proof (same_ok _ _ _ _ a HS Ha). pose proof (same_ok _ _ _ _ b HS Hb).
  unfold cr_mul. rewrite <- (to_pflag_same D D' R R' a), <- (to_pflag_same D D' R R' b) by assumption.
  destruct HS as [HL HH]. destruct a as [v|e], b as [w|f].
  - assert (E : multiply D R v w = multiply D' R' v w).
    { cbn in *. apply (eoo_det D R D' R' (v * w)); auto using multiply_spec. }
    cbn [cr_value rbind]. rewrite E. reflexivity.
  - destruct (to_pflag_val' D R v Ha) as [->|[->| ->]]; destruct f; reflexivity.
  - destruct (to_pflag_val' D R w Hb) as [->|[->| ->]]; destruct e; reflexivity.
  - destruct e, f; reflexivity.
Qed.
Lemma minmax_loop_same : forall D D' R R' l mn mx, same D D' R R' -> Forall (cr_ok D R) l ->
  cr_ok D R mn -> cr_ok D R mx ->
  minmax_loop D R l mn mx = minmax_loop D' R' l mn mx.
Proof.
  intros D D' R R' l. induction l as [|c l IH]; intros mn mx HS Hl Hmn Hmx; [reflexivity|].
  inversion Hl; subst. cbn [minmax_loop].
  rewrite (cr_lt_same D D' R R' c mn), (cr_lt_same D D' R R' mx c) by assumption.
  rewrite !IH by assumption. reflexivity.
Qed.
Lemma minmax_same : forall D D' R R' l, same D D' R R' -> Forall (cr_ok D R) l ->
  minmax D R l = minmax D' R' l.
Proof.
  intros D D' R R' [|c l] HS Hl; [reflexivity|]. unfold minmax. inversion Hl; subst.
  rewrite (minmax_loop_same D D' R R') by assumption. reflexivity.
Qed.
Lemma i_add_same : forall D D' R R' i j, same D D' R R' -> i_ok D R i -> i_ok D R j ->
  i_add D R i j = i_add D' R' i j.
Proof.
  intros D D' R R' i j HS [A B] [C E]. unfold i_add.
  rewrite !(cr_add_same D D' R R') by assumption. reflexivity.
Qed.
Lemma i_sub_same : forall D D' R R' i j, same D D' R R' -> i_ok D R i -> i_ok D R j ->
  i_sub D R i j = i_sub D' R' i j.
Proof.
  intros D D' R R' i j HS [A B] [C E]. unfold i_sub.
  rewrite !(cr_sub_same D D' R R') by assumption. reflexivity.
Qed.
Lemma i_mul_same : forall D D' R R' i j, same D D' R R' -> i_ok D R i -> i_ok D R j ->
  i_mul D R i j = i_mul D' R' i j.
Proof.
  intros D D' R R' i j HS [A B] [C E]. unfold i_mul, minmax_of, corners.
  rewrite <- !(cr_mul_same D D' R R') by assumption.
  destruct (cr_mul_total D R (il i) (il j) A C) as (p1 & -> & O1 & _).
  destruct (cr_mul_total D R (il i) (iu j) A E) as (p2 & -> & O2 & _).
  destruct (cr_mul_total D R (iu i) (il j) B C) as (p3 & -> & O3 & _).
  destruct (cr_mul_total D R (iu i) (iu j) B E) as (p4 & -> & O4 & _).
  cbn [seq_res rbind]. apply minmax_same; [assumption|].
  repeat (apply Forall_cons; [assumption|]). apply Forall_nil.
Qed.

Lemma widths : forall D R, width D R = 8 \/ width D R = 16 \/ width D R = 32 \/ width D R = 64.
Proof. destruct D, R; cbn; auto. Qed.
Lemma has_width : forall D w (s : bool), w = 8 \/ w = 16 \/ w = 32 \/ w = 64 ->
  exists T, width D T = w /\ csigned D T = s.
Proof.
  intros D w s Hw.
  assert (exists T, width D T = w /\ csigned D T = true) as [T [A B]].
  { destruct Hw as [->|[->|[->| ->]]].
    - exists SChar. destruct D; split; reflexivity.
    - exists Short. destruct D; split; reflexivity.
    - destruct D; [exists Int|exists Int|exists Int|exists Int|exists Long]; split; reflexivity.
    - exists LLong. destruct D; split; reflexivity. }
  destruct s; [eauto|]. exists (to_unsigned T). rewrite to_unsigned_width, to_unsigned_unsigned. auto.
Qed.
Lemma digits_width : forall D R, digits D R = width D R - (if csigned D R then 1 else 0).
Proof. destruct D, R; reflexivity. Qed.
Lemma int_t_least_same : forall D D' b T T', int_t_least D b = Some T -> int_t_least D' b = Some T' ->
  same D D' T T'.
Proof.
  intros D D' b T T' H H'. apply int_t_least_spec in H. apply int_t_least_spec in H'.
  destruct H as (A1 & A2 & A3), H' as (B1 & B2 & B3).
  apply same_of_width; [|congruence].
  destruct (has_width D' (width D T) true (widths D T)) as (U & W1 & W2).
  destruct (has_width D (width D' T') true (widths D' T')) as (V & V1 & V2).
  pose proof (A3 V V2) as P. pose proof (B3 U W2) as Q. rewrite !digits_width, ?V1, ?W1, ?V2, ?W2, ?A1, ?B1 in *. lia.
Qed.
Lemma uint_t_least_same : forall D D' b T T', uint_t_least D b = Some T -> uint_t_least D' b = Some T' ->
  same D D' T T'.
Proof.
  intros D D' b T T' H H'. apply uint_t_least_spec in H. apply uint_t_least_spec in H'.
  destruct H as (A1 & A2 & A3), H' as (B1 & B2 & B3).
  apply same_of_width; [|congruence].
  destruct (has_width D' (width D T) false (widths D T)) as (U & W1 & W2).
  destruct (has_width D (width D' T') false (widths D' T')) as (V & V1 & V2).
  pose proof (A3 V V2) as P. pose proof (B3 U W2) as Q. rewrite !digits_width, ?V1, ?W1, ?V2, ?W2, ?A1, ?B1 in *. lia.
Qed.
Lemma intmax_same : forall D D', same D D' (intmax D) (intmax D').
Proof. intros. apply same_of_width; destruct D, D'; reflexivity. Qed.
Lemma uintmax_same : forall D D', same D D' (uintmax D) (uintmax D').
Proof. intros. apply same_of_width; destruct D, D'; reflexivity. Qed.
Lemma in_same : forall D D' R R' z, same D D' R R' -> in_type D R z -> in_type D' R' z.
Proof. intros D D' R R' z [H1 H2]. unfold in_type. lia. Qed.
Lemma sbits_same : forall D D' R R' z, same D D' R R' -> in_type D R z ->
  significant_bits D R z = significant_bits D' R' z.
Proof.
  intros D D' R R' z HS Hz. pose proof (in_same _ _ _ _ _ HS Hz).
  rewrite !significant_bits_spec by assumption. reflexivity.
Qed.

Definition max_type (D : dmodel) (b : bool) : ctype := if b then intmax D else uintmax D.
Lemma max_same : forall D D' b, same D D' (max_type D b) (max_type D' b).
Proof. intros D D' []; [apply intmax_same|apply uintmax_same]. Qed.
Lemma max_signed : forall D b, csigned D (max_type D b) = b.
Proof. intros D []; [apply intmax_signed|apply uintmax_unsigned]. Qed.

Lemma stored_type_same : forall D D' b mn mx T,
  in_type D (max_type D b) mn -> in_type D (max_type D b) mx ->
  stored_type D (max_type D b) mn mx = Some T ->
  exists T', stored_type D' (max_type D' b) mn mx = Some T' /\ same D D' T T'.
Proof.
  intros D D' b mn mx T Hmn Hmx H. unfold stored_type in *. rewrite max_signed in *.
  destruct b; cbn [max_type] in *.
  - unfold signed_stored_type in *.
    rewrite <- (sbits_same D D' (intmax D) (intmax D') mn), <- (sbits_same D D' (intmax D) (intmax D') mx)
      by (try assumption; apply intmax_same).
    set (k := util_max (significant_bits D (intmax D) mn) (significant_bits D (intmax D) mx) + 1) in *.
    assert (Hk : k <= 64).
    { unfold k, util_max.
      pose proof (significant_bits_bound D (intmax D) mn Hmn).
      pose proof (significant_bits_bound D (intmax D) mx Hmx).
      assert (digits D (intmax D) = 63) by (destruct D; reflexivity).
      destruct (_ <? _); lia. }
    destruct (int_t_least_total D' k Hk) as (T' & E). exists T'. split; [assumption|].
    eapply int_t_least_same; eassumption.
  - unfold unsigned_stored_type in *.
    rewrite <- (sbits_same D D' (uintmax D) (uintmax D') mx) by (try assumption; apply uintmax_same).
    assert (Hk : significant_bits D (uintmax D) mx <= 64).
    { pose proof (significant_bits_bound D (uintmax D) mx Hmx).
      assert (digits D (uintmax D) = 64) by (destruct D; reflexivity). lia. }
    destruct (uint_t_least_total D' _ Hk) as (T' & E). exists T'. split; [assumption|].
    eapply uint_t_least_same; eassumption.
Qed.
Lemma bound_lo_same : forall D D' R R' c, same D D' R R' -> bound_lo D R c = bound_lo D' R' c.
Proof. intros D D' R R' [v|e] [H1 H2]; cbn; auto. Qed.
Lemma bound_hi_same : forall D D' R R' c, same D D' R R' -> bound_hi D R c = bound_hi D' R' c.
Proof. intros D D' R R' [v|e] [H1 H2]; cbn; auto. Qed.

Definition op_interval (op : aop) : dmodel -> ctype -> interval -> interval -> res interval :=
  match op with Add => i_add | Sub => i_sub | _ => i_mul end.
Lemma op_interval_same : forall op D D' R R' i j, same D D' R R' -> i_ok D R i -> i_ok D R j ->
  op_interval op D R i j = op_interval op D' R' i j.
Proof. intros [] D D' R R' i j HS Hi Hj; cbn [op_interval]; auto using i_add_same, i_sub_same, i_mul_same. Qed.
Lemma op_interval_ok : forall op D R i j k, i_ok D R i -> i_ok D R j -> op_interval op D R i j = Ok k -> i_ok D R k.
Proof.
  intros op D R i j k [A B] [C E] H.
  assert (HA : i_add D R i j = Ok k -> i_ok D R k).
  { unfold i_add. destruct (cr_add_total D R _ _ A C) as (p & -> & ? & _).
    destruct (cr_add_total D R _ _ B E) as (q & -> & ? & _). cbn. intros [= <-]. split; assumption. }
  assert (HB : i_sub D R i j = Ok k -> i_ok D R k).
  { unfold i_sub. destruct (cr_sub_total D R _ _ A E) as (p & -> & ? & _).
    destruct (cr_sub_total D R _ _ B C) as (q & -> & ? & _). cbn. intros [= <-]. split; assumption. }
  assert (HC : i_mul D R i j = Ok k -> i_ok D R k).
  { unfold i_mul, minmax_of, corners.
    destruct (cr_mul_total D R (il i) (il j) A C) as (p1 & -> & O1 & _).
    destruct (cr_mul_total D R (il i) (iu j) A E) as (p2 & -> & O2 & _).
    destruct (cr_mul_total D R (iu i) (il j) B C) as (p3 & -> & O3 & _).
    destruct (cr_mul_total D R (iu i) (iu j) B E) as (p4 & -> & O4 & _).
    cbn [seq_res rbind].
    assert (Hl : Forall (cr_ok D R) [p1; p2; p3; p4])
      by (repeat (apply Forall_cons; [assumption|]); apply Forall_nil).
    destruct (minmax_spec D R p1 [p2; p3; p4] Hl) as (z & -> & [[_ ->]|(_ & _ & O & O' & _)]);
      intros [= <-]; split; assumption. }
  destruct op; auto.
Qed.
Lemma exact_interval : forall op f D R t u, exact_op op f ->
  r_type_interval D op R t u = op_interval op D R (lim_interval D R t) (lim_interval D R u).
Proof. intros op f D R t u [[-> _]|[[-> _]|[-> _]]]; reflexivity. Qed.
Lemma exact_auto : forall op f D t u, exact_op op f ->
  exists b, (forall D' t' u', csigned D' (base_ty t') = csigned D (base_ty t) ->
                              csigned D' (base_ty u') = csigned D (base_ty u) ->
    automatic_result D' (PArith op) t' u'
    = auto_type D' (max_type D' b)
        (op_interval op D' (max_type D' b) (lim_interval D' (max_type D' b) t') (lim_interval D' (max_type D' b) u'))).
Proof.
  intros op f D t u Hop.
  assert (Htmp : forall D' t' u', csigned D' (base_ty t') = csigned D (base_ty t) ->
                              csigned D' (base_ty u') = csigned D (base_ty u) ->
     auto_temp D' (base_ty t') (base_ty u')
     = max_type D' (negb (negb (csigned D (base_ty t)) && negb (csigned D (base_ty u))))).
  { intros D' t' u' H1 H2. unfold auto_temp, max_type. rewrite H1, H2.
    destruct (negb (csigned D (base_ty t)) && negb (csigned D (base_ty u))); reflexivity. }
  destruct Hop as [[-> _]|[[-> _]|[-> _]]].
  - eexists. intros D' t' u' H1 H2. cbn [automatic_result]. rewrite (Htmp D' t' u' H1 H2). reflexivity.
  - exists true. intros D' t' u' H1 H2. reflexivity.
  - eexists. intros D' t' u' H1 H2. cbn [automatic_result]. rewrite (Htmp D' t' u' H1 H2). reflexivity.
Qed.

Section Port.
  Variables (D D' : dmodel) (t u t' u' : otype).
  Hypotheses (Ct : corresponds D D' t t') (Cu : corresponds D D' u u').
  Hypotheses (Wt : wf_operand D t) (Wu : wf_operand D u).
  Hypotheses (Wt' : wf_operand D' t') (Wu' : wf_operand D' u').

  Lemma lim_interval_same : forall R R' o o', corresponds D D' o o' ->
    wf_operand D o -> wf_operand D' o' -> same D D' R R' ->
    lim_interval D R o = lim_interval D' R' o'.
  Proof.
    intros R R' o o' (H1 & H2 & _) (A1 & A2 & _) (B1 & B2 & _) HS.
    unfold lim_interval. rewrite <- H1 in *. rewrite <- H2 in *.
    rewrite (cast_same D D' R R' (base_ty o) (base_ty o') (lim_lo D o) HS A1 B1).
    rewrite (cast_same D D' R R' (base_ty o) (base_ty o') (lim_hi D o) HS A2 B2). reflexivity.
  Qed.

  Lemma automatic_same : forall op f R, exact_op op f ->
    automatic_result D (PArith op) t u = Some R ->
    exists R', automatic_result D' (PArith op) t' u' = Some R' /\ same D D' R R'.
  Proof.
    intros op f R Hop H. destruct (exact_auto op f D t u Hop) as (b & Hb).
    rewrite (Hb D t u eq_refl eq_refl) in H.
    destruct Ct as (_ & _ & S1 & _), Cu as (_ & _ & S2 & _).
    rewrite (Hb D' t' u' (eq_sym S1) (eq_sym S2)).
    pose proof (max_same D D' b) as HS.
    rewrite <- (lim_interval_same _ _ t t' Ct Wt Wt' HS), <- (lim_interval_same _ _ u u' Cu Wu Wu' HS).
    pose proof (lim_interval_ok D (max_type D b) t Wt) as It. pose proof (lim_interval_ok D (max_type D b) u Wu) as Iu.
    rewrite <- (op_interval_same op D D' _ _ _ _ HS It Iu).
    unfold auto_type in *. destruct (op_interval op D _ _ _) as [i|] eqn:Ei; [|discriminate].
    apply op_interval_ok in Ei; [|assumption|assumption]. destruct Ei as [O1 O2].
    rewrite <- (bound_lo_same _ _ _ _ (il i) HS), <- (bound_hi_same _ _ _ _ (iu i) HS).
    apply stored_type_same; [apply bound_lo_in; assumption|apply bound_hi_in; assumption|assumption].
  Qed.

  Lemma cast_operand_same : forall E R R' o o' x m, same D D' R R' -> corresponds D D' o o' ->
    wf_operand D o -> wf_operand D' o' -> holds D o x ->
    throws_arithmetic E -> (forall E0, get_ep o = Some E0 -> E0 = E) ->
    cast_operand D E R o x = Some m -> cast_operand D' E R' o' x = Some m.
  Proof.
    intros E R R' o o' x m HS HC Ho Ho' Hx HE Hep H. unfold cast_operand in *.
    assert (Hx' : holds D' o' x) by (destruct HC as (L1 & L2 & _); unfold holds in *; lia).
    assert (Hnt : on_arithmetic_error E <> HTrap) by (unfold throws_arithmetic in HE; congruence).
    destruct (static_cast_builtin D R o x) as [fb|] eqn:Ef; [|discriminate].
    rewrite cast_errors_compile in H by assumption. injection H as <-.
    assert (exists fb', static_cast_builtin D' R' o' x = Some fb') as [fb' ->].
    { destruct HC as (L1 & L2 & Sg & _ & Ep & Sf).
      destruct o as [T|s|T N P E1], o' as [T'|s'|T' N' P' E']; cbn in Ep, Sf; try contradiction.
      - eexists. reflexivity.
      - cbn [static_cast_builtin]. apply to_builtin_total.
        injection Ep as Ep. rewrite <- Ep, (Hep (sE s) eq_refl). assumption.
      - cbn in L1. subst N' E'. cbn [static_cast_builtin] in *. unfold lit_to_builtin, validate in *.
        assert (V : validate_static D' R' (lo D' R') (hi D' R') T' N N
                    = validate_static D R (lo D R) (hi D R) T N N).
        { destruct Ho as (A & _), Ho' as (B & _). cbn in A, B. unfold validate_static.
          rewrite <- (cast_same D D' R R' T T' N HS A B).
          pose proof (cast_ok D R T N A) as Oc. pose proof (lo_in D R) as OL. pose proof (hi_in D R) as OH.
          destruct (HS) as [HL HH]. rewrite <- HL, <- HH.
          unfold excludes, includes, cr_ge, cr_le, cr_gt. cbn [il iu].
          rewrite <- !(cr_lt_same D D' R R') by assumption. reflexivity. }
        rewrite V. destruct (validate_static D R (lo D R) (hi D R) T N N) as [[|]|]; [eauto| |discriminate].
        destruct E1 as [E1|]; [|discriminate]. rewrite (Hep E1 eq_refl) in *.
        rewrite cast_errors_compile by assumption. eauto. }
    rewrite cast_errors_compile by assumption. f_equal.
    rewrite <- (cast_same D D' R R' (base_ty o) (base_ty o') x HS (holds_in D o x Ho Hx) (holds_in D' o' x Ho' Hx')).
    destruct (cast D R (base_ty o) x) as [v|e] eqn:Ec; [reflexivity|].
    cbn [dispatch_and_return]. rewrite dispatch_arith; [reflexivity|assumption|].
    destruct (cast_err_arith D R (base_ty o) x (holds_in D o x Ho Hx)) as (e' & Ee & He).
    { intros Hi. rewrite (proj1 (cast_spec D R (base_ty o) x (holds_in D o x Ho Hx)) Hi) in Ec. discriminate. }
    congruence.
  Qed.

  Lemma binary_same : forall op f x y s m, exact_op op f -> holds D t x -> holds D u y ->
    binary D op t u x y = Some (s, m) -> sP s = Automatic -> throws_arithmetic (sE s) ->
    exists s', binary D' op t' u' x y = Some (s', m)
      /\ smin s' = smin s /\ smax s' = smax s /\ same D D' (st s) (st s')
      /\ sP s' = sP s /\ sE s' = sE s.
  Proof.
    intros op f x y s m Hop Hx Hy H HP HE.
    assert (Hx' : holds D' t' x) by (destruct Ct as (L1 & L2 & _); unfold holds in *; lia).
    assert (Hy' : holds D' u' y) by (destruct Cu as (L1 & L2 & _); unfold holds in *; lia).
    destruct (binary_inv _ _ _ _ _ _ _ _ H) as (P & E & R & ri & H1 & H2 & H3 & H4 & -> & K).
    cbn [sP sE st smin smax] in *. subst P. cbn [result_base_type] in H3.
    destruct (automatic_same op f R Hop H3) as (R' & H3' & HS).
    assert (Hsafe : is_safe t' = is_safe t /\ is_safe u' = is_safe u).
    { destruct Ct as (_ & _ & _ & _ & _ & Kt), Cu as (_ & _ & _ & _ & _ & Ku).
      destruct t, t', u, u'; try contradiction; auto. }
    destruct Hsafe as [St Su].
    assert (H1' : common_pp t' u' = Some Automatic).
    { destruct Ct as (_ & _ & _ & Pt & _), Cu as (_ & _ & _ & Pu & _).
      unfold common_pp in *. rewrite St, Su, <- Pt, <- Pu. assumption. }
    assert (H2' : common_ep t' u' = Some E).
    { destruct Ct as (_ & _ & _ & _ & Et & _), Cu as (_ & _ & _ & _ & Eu & _).
      unfold common_ep in *. rewrite St, Su, <- Et, <- Eu. assumption. }
    pose proof (lim_interval_ok D R t Wt) as It. pose proof (lim_interval_ok D R u Wu) as Iu.
    assert (H4' : r_type_interval D' op R' t' u' = Ok ri).
    { rewrite (exact_interval op f) in * by assumption.
      rewrite <- (lim_interval_same _ _ t t' Ct Wt Wt' HS), <- (lim_interval_same _ _ u u' Cu Wu Wu' HS).
      rewrite <- (op_interval_same op D D' R R') by assumption. assumption. }
    assert (Hst : op_static D' op t' u' = Some (mkInfo E R'
       (mkSafe R' (bound_lo D' R' (il ri)) (bound_hi D' R' (iu ri)) Automatic E)
       (exception_possible D' op R' t' u' ri))).
    { unfold op_static. rewrite H1', H2'. cbn [result_base_type]. rewrite H3', H4'. reflexivity. }
    assert (X : exception_possible D' op R' t' u' ri = exception_possible D op R t u ri)
      by (rewrite !(exact_exception op f) by assumption; reflexivity).
    exists (mkSafe R' (bound_lo D' R' (il ri)) (bound_hi D' R' (iu ri)) Automatic E).
    cbn [sP sE st smin smax].
    split; [|splits; auto; symmetry; auto using bound_lo_same, bound_hi_same].
    unfold binary. rewrite Hst. cbn [oi_checked oi_R oi_E oi_type]. rewrite X.
    destruct K as [[X0 ->]|[X1 (W & casts & HW & Hk & Hcmp & ->)]].
    - rewrite X0. do 2 f_equal.
      destruct (unchecked_run_exact op f D R t u x y ri Hop Wt Wu Hx Hy H4 X0) as [A _].
      rewrite <- X in X0.
      destruct (unchecked_run_exact op f D' R' t' u' x y ri Hop Wt' Wu' Hx' Hy' H4' X0) as [B _].
      unfold returns in *. congruence.
    - rewrite X1. rewrite (exact_work op f) in * by assumption. injection HW as <-.
      assert (Hk' : casting_helper D' E R' t' u' x y = Some casts).
      { assert (Ept : forall E0, get_ep t = Some E0 -> E0 = E).
        { intros E0 HE0. unfold common_ep in H2. destruct (_ || _); [|discriminate]. rewrite HE0 in H2.
          destruct (get_ep u) as [b|]; [|congruence]. destruct (ep_eqb E0 b) eqn:Q; [|discriminate].
          apply ep_eqb_eq in Q. congruence. }
        assert (Epu : forall E0, get_ep u = Some E0 -> E0 = E).
        { intros E0 HE0. unfold common_ep in H2. destruct (_ || _); [|discriminate]. rewrite HE0 in H2.
          destruct (get_ep t) as [b|]; [|congruence]. destruct (ep_eqb b E0) eqn:Q; [|discriminate].
          congruence. }
        unfold casting_helper in *.
        destruct (cast_operand D E R t x) as [mt|] eqn:E1; [|discriminate].
        destruct (cast_operand D E R u y) as [mu|] eqn:E2; [|discriminate].
        rewrite (cast_operand_same E R R' t t' x mt HS Ct Wt Wt' Hx HE Ept E1).
        rewrite (cast_operand_same E R R' u u' y mu HS Cu Wu Wu' Hy HE Epu E2). assumption. }
      rewrite Hk'.
      assert (Hc' : all_compile E (op_errors D' op R') = true).
      { destruct Hop as [[-> _]|[[-> _]|[-> _]]]; unfold op_errors, all_compile;
        destruct (csigned D' R'); cbn; unfold dispatch_compiles; cbn; rewrite HE; reflexivity. }
      rewrite Hc'. do 2 f_equal.
      unfold checked_run.
      destruct (casting_helper_throws _ _ _ _ _ _ _ _ HE Wt Wu Hx Hy Hk) as [(Ix & Iy & ->)|[_ (e & _ & ->)]];
        [|reflexivity].
      rewrite !mbind_ret. cbn [fst snd].
      pose proof (in_same _ _ _ _ _ HS Ix) as Ix'. pose proof (in_same _ _ _ _ _ HS Iy) as Iy'.
      pose proof (exact_checked op f D R x y Hop Ix Iy) as C.
      pose proof (exact_checked op f D' R' x y Hop Ix' Iy') as C'.
      destruct HS as [HL HH]. rewrite <- (eoo_det _ _ _ _ _ _ _ HL HH C C').
      destruct (eoo_cases _ _ _ _ C) as [[Hi ->]|[[Hi ->]|[Hi ->]]]; cbn [mlift]; rewrite !mbind_ret.
      + rewrite !dar_val, !mbind_ret. rewrite !conv_id; [reflexivity|assumption|].
        unfold in_type in *. lia.
      + cbn [dispatch_and_return]. rewrite dispatch_arith by (unfold arithmetic_err; auto). reflexivity.
      + cbn [dispatch_and_return]. rewrite dispatch_arith by (unfold arithmetic_err; auto). reflexivity.
  Qed.
End Port.

(** ------------------------------------------------------------------ *)
(** policies that ignore arithmetic errors *)
Lemma cast_operand_in : forall D E R o x m, wf_operand D o -> holds D o x -> in_type D R x ->
  cast_operand D E R o x = Some m -> m = mret x.
Proof.
  intros D E R o x m Ho Hx Hi H. unfold cast_operand in H.
  destruct (static_cast_builtin D R o x); [|discriminate]. destruct (all_compile _ _); [|discriminate].
  injection H as <-. rewrite (proj1 (cast_spec D R (base_ty o) x (holds_in D o x Ho Hx)) Hi). reflexivity.
Qed.
Lemma casting_helper_in : forall D E R t u x y m, wf_operand D t -> wf_operand D u ->
  holds D t x -> holds D u y -> in_type D R x -> in_type D R y ->
  casting_helper D E R t u x y = Some m -> m = mret (x, y).
Proof.
  intros D E R t u x y m Ht Hu Hx Hy Ix Iy H. unfold casting_helper in H.
  destruct (cast_operand D E R t x) as [a|] eqn:Ea; [|discriminate].
  destruct (cast_operand D E R u y) as [b|] eqn:Eb; [|discriminate]. injection H as <-.
  apply cast_operand_in in Ea; auto. apply cast_operand_in in Eb; auto. subst. reflexivity.
Qed.

Lemma fin_conv' : forall D R z v, fin D R z = Ok v -> in_type D R v /\ conv D R z = v /\ (csigned D R = true -> v = z).
Proof.
  intros D R z v. unfold fin. destruct (csigned D R) eqn:Es.
  - destruct (in_range D R z) eqn:Er; [|discriminate]. intros [= <-]. apply in_range_iff in Er.
    rewrite conv_id by assumption. auto.
  - intros [= <-]. split; [apply conv_range|]. split; [reflexivity|discriminate].
Qed.

Lemma ignore_value : forall D op f t u x y s m v, exact_op op f ->
  wf_operand D t -> wf_operand D u -> holds D t x -> holds D u y ->
  binary D op t u x y = Some (s, m) -> sP s = Native -> ignores_arithmetic (sE s) ->
  in_type D (st s) x -> in_type D (st s) y ->
  op <> Sub \/ in_type D (st s) (f x y) ->
  built_in D op (base_ty t) (base_ty u) x y = Ok v -> snd m = Ret v.
Proof.
  intros D op f t u x y s m v Hop Ht Hu Hx Hy H HP HE Ix Iy Hs Hb.
  destruct (binary_inv _ _ _ _ _ _ _ _ H) as (P & E & R & ri & H1 & H2 & H3 & H4 & -> & K).
  cbn [sP sE st] in *. subst P. cbn [result_base_type] in H3.
  assert (HR : R = uac D (base_ty t) (base_ty u))
    by (destruct Hop as [[-> _]|[[-> _]|[-> _]]]; cbn in H3; congruence).
  assert (Hb' : fin D R (f x y) = Ok v).
  { destruct Hop as [[-> ->]|[[-> ->]|[-> ->]]]; cbn [built_in] in Hb; unfold c_add, c_sub, c_mul, c_arith in Hb;
    cbv zeta in Hb; rewrite <- HR in Hb; rewrite !conv_id in Hb by assumption; assumption. }
  destruct (fin_conv' _ _ _ _ Hb') as (Iv & Cv & Sv).
  assert (Eraw : raw_op D op R x y = Ok v).
  { assert (Hu2 : uac D R R = R) by (rewrite HR; apply uac_uac).
    destruct Hop as [[-> ->]|[[-> ->]|[-> ->]]]; cbn [raw_op]; unfold c_add, c_sub, c_mul, c_arith;
    cbv zeta; rewrite Hu2, !conv_id by assumption; assumption. }
  destruct K as [[X0 ->]|[X1 (W & casts & HW & Hk & _ & ->)]].
  - unfold unchecked_run. rewrite (conv_id D R x), (conv_id D R y) by assumption.
    rewrite Eraw. cbn [mlift]. rewrite mbind_ret, conv_id by assumption. reflexivity.
  - rewrite (exact_work op f) in HW by assumption. injection HW as <-.
    apply casting_helper_in in Hk; auto. subst casts. unfold checked_run. rewrite mbind_ret. cbn [fst snd].
    destruct (eoo_cases _ _ _ _ (exact_checked op f D R x y Hop Ix Iy)) as [[Hi ->]|Ho].
    + cbn [mlift]. rewrite mbind_ret, dar_val, mbind_ret. rewrite <- Cv. reflexivity.
    + assert (Hfall : op <> Sub -> fallback_op D op R x y = Ok v).
      { intros Hns. destruct Hop as [[-> ->]|[[-> ->]|[-> ->]]]; [exact Eraw|congruence|exact Eraw]. }
      assert (Hout : ~ in_type D R (f x y)) by (unfold in_type; lia).
      assert (exists e, checked_op D op R x y = Ok (CErr e) /\ arithmetic_err e) as (e & -> & He)
        by (destruct Ho as [[_ ->]|[_ ->]]; eexists; (split; [reflexivity|unfold arithmetic_err; auto])).
      cbn [mlift]. rewrite mbind_ret. cbn [dispatch_and_return].
      assert (Hd : dispatch E e = ([(arithmetic_error, e)], Ret tt)).
      { unfold dispatch, policy_handler. unfold ignores_arithmetic in HE.
        destruct He as [->|[->| ->]]; cbn; rewrite HE; reflexivity. }
      rewrite Hd. cbn [mbind app]. cbn [mret].
      rewrite Hfall by tauto. cbn. rewrite conv_id by assumption. reflexivity.
Qed.

(** what compiles under some policy compiles under one that does not trap *)
Lemma op_errors_compile : forall D E op R, on_arithmetic_error E <> HTrap ->
  on_implementation_defined_behavior E <> HTrap -> all_compile E (op_errors D op R) = true.
Proof.
  intros D E op R HA HS. destruct op; unfold op_errors, all_compile; cbv zeta;
  destruct (csigned D R); cbn; unfold dispatch_compiles; cbn;
  destruct (on_arithmetic_error E), (on_implementation_defined_behavior E); cbn; congruence.
Qed.
Lemma cast_operand_compiles : forall D E F R o x m, on_arithmetic_error F <> HTrap ->
  cast_operand D E R o x = Some m -> exists m', cast_operand D F R (with_policy F o) x = Some m'.
Proof.
  intros D E F R o x m HF H. unfold cast_operand in *. rewrite base_ty_with.
  rewrite cast_errors_compile by assumption.
  destruct (static_cast_builtin D R o x) as [fb|] eqn:Ef; [|discriminate].
  assert (exists fb', static_cast_builtin D R (with_policy F o) x = Some fb') as [fb' ->]; [|eauto].
  destruct o as [T|s|T N P E1]; cbn [with_policy static_cast_builtin] in *.
  - eauto.
  - apply to_builtin_total. assumption.
  - unfold lit_to_builtin, validate in *.
    destruct (validate_static D R (lo D R) (hi D R) T N N) as [[|]|]; [eauto| |discriminate].
    destruct E1; [|discriminate]. cbn [option_map]. rewrite cast_errors_compile by assumption. eauto.
Qed.
Lemma binary_compiles : forall D op F t u x y s m, on_arithmetic_error F <> HTrap ->
  on_implementation_defined_behavior F <> HTrap ->
  binary D op t u x y = Some (s, m) ->
  exists s' m', binary D op (with_policy F t) (with_policy F u) x y = Some (s', m')
   /\ OSafe s' = with_policy F (OSafe s).
Proof.
  intros D op F t u x y s m HA HS H.
  destruct (binary_inv _ _ _ _ _ _ _ _ H) as (P & E & R & ri & H1 & H2 & H3 & H4 & -> & K).
  unfold binary, op_static. rewrite common_pp_with, H1, (common_ep_with F t u E H2), result_base_type_with, H3,
    r_type_interval_with, H4, exception_possible_with. cbn [oi_checked oi_R oi_E oi_type].
  destruct K as [[X ->]|[X (W & casts & HW & Hk & _ & ->)]]; rewrite X.
  - do 2 eexists. split; reflexivity.
  - rewrite work_type_with, HW, op_errors_compile by assumption. unfold casting_helper in *.
    destruct (cast_operand D E W t x) eqn:E1; [|discriminate].
    destruct (cast_operand D E W u y) eqn:E2; [|discriminate].
    destruct (cast_operand_compiles D E F W t x _ HA E1) as (a & ->).
    destruct (cast_operand_compiles D E F W u y _ HA E2) as (b & ->).
    do 2 eexists. split; reflexivity.
Qed.
Lemma binary_with_ret : forall D op F t u x y s m s' m' v,
  binary D op (with_policy F t) (with_policy F u) x y = Some (s', m') -> returns m' v ->
  binary D op t u x y = Some (s, m) -> returns m v.
Proof.
  intros D op F t u x y s m s' m' v H' Hr H.
  destruct (binary_inv _ _ _ _ _ _ _ _ H) as (P & E & R & ri & H1 & H2 & H3 & H4 & -> & K).
  destruct (binary_inv _ _ _ _ _ _ _ _ H') as (P' & E' & R' & ri' & H1' & H2' & H3' & H4' & -> & K').
  rewrite common_pp_with, H1 in H1'. injection H1' as <-.
  rewrite (common_ep_with F _ _ _ H2) in H2'. injection H2' as <-.
  rewrite result_base_type_with, H3 in H3'. injection H3' as <-.
  rewrite r_type_interval_with, H4 in H4'. injection H4' as <-.
  rewrite exception_possible_with in K'.
  destruct K as [[X ->]|[X (W & casts & HW & Hk & _ & ->)]];
  destruct K' as [[X' ->]|[X' (W' & casts' & HW' & Hk' & _ & ->)]]; try congruence.
  rewrite work_type_with, HW in HW'. injection HW' as <-.
  unfold checked_run in Hr. apply bind_silent in Hr. destruct Hr as (p & R1 & Hr).
  apply bind_silent in Hr. destruct Hr as (c & R2 & Hr).
  apply bind_silent in Hr. destruct Hr as (r & R3 & Hr).
  apply dar_silent in R3. destruct R3 as (w & -> & ->).
  assert (Hcasts : casts = ([], Ret p)).
  { unfold casting_helper in *.
    destruct (cast_operand D E W t x) as [a|] eqn:Ea; [|discriminate].
    destruct (cast_operand D E W u y) as [b|] eqn:Eb; [|discriminate].
    destruct (cast_operand D F W (with_policy F t) x) as [a'|] eqn:Ea'; [|discriminate].
    destruct (cast_operand D F W (with_policy F u) y) as [b'|] eqn:Eb'; [|discriminate].
    injection Hk as <-. injection Hk' as <-.
    assert (Hsil : forall o z n n' q, cast_operand D E W o z = Some n ->
       cast_operand D F W (with_policy F o) z = Some n' -> n' = ([], Ret q) -> n = ([], Ret q)).
    { intros o z n n' q Q Q' Qn. unfold cast_operand in *. rewrite base_ty_with in Q'.
      destruct (static_cast_builtin D W o z); [|discriminate].
      destruct (static_cast_builtin D W (with_policy F o) z); [|discriminate].
      destruct (all_compile E (cast_errors D W (base_ty o))); [|discriminate].
      destruct (all_compile F (cast_errors D W (base_ty o))); [|discriminate].
      injection Q as <-. injection Q' as <-. apply bind_silent in Qn. destruct Qn as (c & Q1 & Q2).
      apply dar_silent in Q1. destruct Q1 as (w' & -> & ->). exact Q2. }
    apply bind_silent in R1. destruct R1 as (v1 & V1 & R1).
    apply bind_silent in R1. destruct R1 as (v2 & V2 & R1).
    rewrite (Hsil _ _ _ _ v1 Ea Ea' V1), (Hsil _ _ _ _ v2 Eb Eb' V2). exact R1. }
  subst casts. unfold returns, checked_run.
  change (([] : list event), Ret p) with (mret p). rewrite mbind_ret, R2.
  change (([] : list event), Ret (CVal w)) with (mret (CVal w)).
  rewrite mbind_ret, dar_val, mbind_ret. exact Hr.
Qed.

Definition throwing_policy : ep := mkEP HThrow HThrow HThrow HThrow.

Lemma wf_with : forall D F o, wf_operand D o -> wf_operand D (with_policy F o).
Proof. intros D F o H. unfold wf_operand in *. rewrite base_ty_with, lim_lo_with, lim_hi_with. assumption. Qed.
Lemma holds_with : forall D F o x, holds D o x -> holds D (with_policy F o) x.
Proof. intros D F o x H. unfold holds in *. rewrite lim_lo_with, lim_hi_with. assumption. Qed.

(** / under any policy, when the built-in quotient is defined *)
Lemma ignore_div : forall D t u x y s m v,
  wf_operand D t -> wf_operand D u -> holds D t x -> holds D u y ->
  binary D Div t u x y = Some (s, m) -> sP s = Native ->
  in_type D (st s) x -> in_type D (st s) y ->
  built_in D Div (base_ty t) (base_ty u) x y = Ok v -> returns m v.
Proof.
  intros D t u x y s m v Ht Hu Hx Hy H HP Ix Iy Hb.
  destruct (binary_compiles D Div throwing_policy t u x y s m ltac:(discriminate) ltac:(discriminate) H)
    as (s' & m' & H' & Es).
  injection Es as ->.
  apply (binary_with_ret D Div throwing_policy t u x y s m _ m' v H'); [|assumption].
  assert (HR : st s = uac D (base_ty t) (base_ty u)).
  { destruct (binary_inv _ _ _ _ _ _ _ _ H) as (P & E & R & ri & H1 & H2 & H3 & H4 & -> & _).
    cbn [sP st] in *. subst P. cbn in H3. congruence. }
  cbn [built_in] in Hb. unfold c_div in Hb. cbv zeta in Hb. rewrite <- HR in Hb.
  rewrite !conv_id in Hb by assumption.
  destruct (Z.eqb_spec y 0) as [|Hy0]; [discriminate|].
  assert (Hv : v = Z.quot x y /\ in_type D (st s) (Z.quot x y)).
  { destruct (fin_conv' _ _ _ _ Hb) as (A & B & C). destruct (csigned D (st s)) eqn:Es.
    - rewrite <- (C eq_refl). auto.
    - pose proof (lo_unsigned D (st s) Es).
      assert (in_type D (st s) (Z.quot x y)).
      { unfold in_type in *. pose proof (Z.quot_pos x y ltac:(lia) ltac:(lia)).
        pose proof (Z.quot_le_upper_bound x y x ltac:(lia)). nia. }
      rewrite conv_id in B by assumption. auto. }
  destruct Hv as [-> Hq].
  destruct (div_char D _ _ x y _ m' (wf_with D throwing_policy t Ht) (wf_with D throwing_policy u Hu)
    (holds_with D throwing_policy t x Hx) (holds_with D throwing_policy u y Hy) H' eq_refl (or_introl HP))
    as (_ & _ & C).
  destruct (C Hy0) as [(A & _)|[N _]]; [assumption|]. cbn [st] in N. tauto.
Qed.

Lemma ignore_mod : forall D t u x y s m v,
  wf_operand D t -> wf_operand D u -> holds D t x -> holds D u y ->
  binary D Mod t u x y = Some (s, m) -> sP s = Native ->
  in_type D (st s) x -> in_type D (st s) y ->
  ~ (lo D (st s) < 0 /\ x = lo D (st s) /\ y = lo D (st s)) ->
  built_in D Mod (base_ty t) (base_ty u) x y = Ok v -> returns m v.
Proof.
  intros D t u x y s m v Ht Hu Hx Hy H HP Ix Iy Hn Hb.
  destruct (binary_compiles D Mod throwing_policy t u x y s m ltac:(discriminate) ltac:(discriminate) H)
    as (s' & m' & H' & Es).
  injection Es as ->.
  apply (binary_with_ret D Mod throwing_policy t u x y s m _ m' v H'); [|assumption].
  assert (HR : st s = uac D (base_ty t) (base_ty u)).
  { destruct (binary_inv _ _ _ _ _ _ _ _ H) as (P & E & R & ri & H1 & H2 & H3 & H4 & -> & _).
    cbn [sP st] in *. subst P. cbn in H3. congruence. }
  cbn [built_in] in Hb. unfold c_rem in Hb. cbv zeta in Hb. rewrite <- HR in Hb.
  rewrite !conv_id in Hb by assumption.
  destruct (Z.eqb_spec y 0) as [|Hy0]; [discriminate|].
  destruct (fin D (st s) (Z.quot x y)) as [q|] eqn:Ef; [|discriminate]. cbn in Hb. injection Hb as <-.
  assert (Hv : Z.rem x y = remainder x y)
    by (unfold remainder; pose proof (Z.quot_rem' x y); lia).
  rewrite Hv.
  destruct (mod_char D _ _ x y _ m' (wf_with D throwing_policy t Ht) (wf_with D throwing_policy u Hu)
    (holds_with D throwing_policy t x Hx) (holds_with D throwing_policy u y Hy) H' eq_refl (or_introl HP))
    as (_ & C).
  - cbn [st]. intros (L & -> & [->| ->]); [tauto|].
    assert (Es : csigned D (st s) = true).
    { destruct (csigned D (st s)) eqn:E; [reflexivity|]. rewrite (lo_unsigned D _ E) in L. lia. }
    unfold fin in Ef. rewrite Es in Ef. destruct (in_range D (st s) _) eqn:Er; [|discriminate].
    apply in_range_iff in Er. pose proof (hi_pos_lo D (st s) Es).
    replace (Z.quot (lo D (st s)) (-1)) with (- lo D (st s)) in Er
      by (change (-1) with (- (1)); rewrite Z.quot_opp_r, Z.quot_1_r by lia; lia).
    unfold in_type in Er. lia.
  - destruct (C Hy0) as [(A & _)|[N _]]; [assumption|]. cbn [st] in N. tauto.
Qed.
