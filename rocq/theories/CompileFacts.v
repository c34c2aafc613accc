(** CompileFacts.v -- which expressions compile. Proofs only. *)
From Coq Require Import ZArith List Bool Lia.
From Verif Require Import Base CType CTypeFacts Utility UtilityFacts SafeCompare Spec CheckedInteger CheckedIntegerFacts
  CheckedResultOps CheckedResultFacts Interval IntervalFacts IntervalOpsFacts ExceptionPolicy Promotion SafeBase SafeSpec
  SafeFacts SafeDivFacts SafeShiftFacts SafeConvFacts SafeBitFacts SafePortDivFacts SafePortModFacts PropsCheckedProofs CheckedShiftFacts
  StaticSpec PlainCheck PlainFacts IntervalTotal CompileSpec.
Import ListNotations.
Local Open Scope Z_scope.

Lemma pp_eqb_refl : forall a, pp_eqb a a = true.
Proof. intros []; cbn; rewrite ?Z.eqb_refl; reflexivity. Qed.

Lemma agree_common : forall P E t u, policies_agree P E t u -> common_pp t u = Some P /\ common_ep t u = Some E.
Proof.
  intros P E t u (H1 & H2 & H3 & H4). unfold common_pp, common_ep.
  assert (is_safe t || is_safe u = true) as ->.
  { destruct H2 as [H2|H2]; [destruct t|destruct u]; cbn in *; try discriminate; rewrite ?orb_true_r; reflexivity. }
  split.
  - destruct (get_pp t) as [Q|] eqn:A, (get_pp u) as [Q'|] eqn:B.
    + rewrite (H1 Q), (H1 Q') by auto. rewrite pp_eqb_refl. reflexivity.
    + rewrite (H1 Q) by auto. reflexivity.
    + rewrite (H1 Q') by auto. reflexivity.
    + destruct H2; discriminate.
  - destruct (get_ep t) as [Q|] eqn:A, (get_ep u) as [Q'|] eqn:B.
    + rewrite (H3 Q), (H3 Q') by auto. rewrite ep_eqb_refl. reflexivity.
    + rewrite (H3 Q) by auto. reflexivity.
    + rewrite (H3 Q') by auto. reflexivity.
    + destruct H4; discriminate.
Qed.

Lemma errors_compile : forall D E op W, on_arithmetic_error E <> HTrap ->
  (op = Shl \/ op = Shr -> on_implementation_defined_behavior E <> HTrap) -> all_compile E (op_errors D op W) = true.
Proof.
  intros D E op W HA HS.
  assert (A : forall e, arithmetic_err e -> dispatch_compiles E e = true).
  { intros e [->|[->| ->]]; unfold dispatch_compiles; cbn; destruct (on_arithmetic_error E); congruence. }
  assert (S : op = Shl \/ op = Shr -> forall e, shift_err e -> dispatch_compiles E e = true).
  { intros Ho e He. specialize (HS Ho). destruct He as [->|[->| ->]]; unfold dispatch_compiles; cbn;
    destruct (on_implementation_defined_behavior E); congruence. }
  destruct op; unfold op_errors, all_compile; cbv zeta; destruct (csigned D W); cbn [forallb];
  rewrite ?A, ?S by (unfold arithmetic_err, shift_err; auto); reflexivity.
Qed.

Lemma cast_operand_compiles : forall D E R o x, wf_operand D o -> literal_fits D R o ->
  on_arithmetic_error E <> HTrap -> (forall F, get_ep o = Some F -> F = E) -> exists m, cast_operand D E R o x = Some m.
Proof.
  intros D E R o x Ho Hl Hnt HF.
  unfold cast_operand. rewrite cast_errors_compile by assumption.
  assert (exists fb, static_cast_builtin D R o x = Some fb) as [fb ->]; [|eauto].
  destruct o as [T|s|T N P E1]; cbn [static_cast_builtin].
  - eauto.
  - apply to_builtin_total. rewrite (HF (sE s) eq_refl). assumption.
  - cbn in Hl. unfold lit_to_builtin, validate. assert (HN : in_type D T N) by exact (proj1 Ho).
    assert (validate_static D R (lo D R) (hi D R) T N N = Some true) as ->; [|eauto].
    unfold validate_static. rewrite (proj1 (cast_spec D R T N HN) Hl).
    unfold excludes, includes, cr_ge, cr_le. cbn [il iu].
    rewrite !cr_lt_val by auto using lo_in, hi_in. unfold in_type in Hl.
    destruct (Z.ltb_spec N (lo D R)); [lia|]. destruct (Z.ltb_spec (hi D R) N); [lia|]. unfold cr_gt.
    rewrite ?cr_lt_val by auto using lo_in, hi_in.
    destruct (Z.ltb_spec N (lo D R)); [lia|]. destruct (Z.ltb_spec (hi D R) N); [lia|]. reflexivity.
Qed.

Lemma casts_compile : forall D P E R t u x y, wf_operand D t -> wf_operand D u ->
  literal_fits D R t -> literal_fits D R u -> on_arithmetic_error E <> HTrap -> policies_agree P E t u ->
  exists m, casting_helper D E R t u x y = Some m.
Proof.
  intros D P E R t u x y Ht Hu Lt Lu HE (_ & _ & HF & _). unfold casting_helper.
  destruct (cast_operand_compiles D E R t x Ht Lt HE ltac:(auto)) as (a & ->).
  destruct (cast_operand_compiles D E R u y Hu Lu HE ltac:(auto)) as (b & ->). eauto.
Qed.

(** an operator compiles if its result type and the interval of its results are defined *)
Lemma binary_compiles : forall D op P E R t u x y ri, wf_operand D t -> wf_operand D u ->
  policies_agree P E t u -> on_arithmetic_error E <> HTrap -> (op = Shl \/ op = Shr -> on_implementation_defined_behavior E <> HTrap) ->
  result_base_type D P (PArith op) t u = Some R -> r_type_interval D op R t u = Ok ri ->
  (forall W, work_type D op R t u = Some W -> literal_fits D W t /\ literal_fits D W u) ->
  exists m, binary D op t u x y
    = Some (mkSafe R (bound_lo D R (il ri)) (bound_hi D R (iu ri)) P E, m).
Proof.
  intros D op P E R t u x y ri Ht Hu HPE HA HS HR Hri HL.
  destruct (agree_common P E t u HPE) as [EP EE].
  unfold binary, op_static. rewrite EP, EE, HR, Hri. cbn [oi_checked oi_R oi_E oi_type].
  destruct (exception_possible D op R t u ri); [|eauto].
  assert (exists W, work_type D op R t u = Some W) as (W & HW).
  { unfold work_type. destruct op; eauto; apply div_temp_total. }
  rewrite HW. destruct (HL W HW) as [L1 L2].
  destruct (casts_compile D P E W t u x y Ht Hu L1 L2 HA HPE) as (c & ->).
  rewrite errors_compile by assumption. eauto.
Qed.

Lemma same_bounds_fits : forall D R W o, lo D W = lo D R -> hi D W = hi D R -> literal_fits D R o -> literal_fits D W o.
Proof. intros D R W [T|s|T N P E] H1 H2 H; cbn in *; auto. unfold in_type in *. lia. Qed.

Lemma native_compiles : forall D op E t u x y, wf_operand D t -> wf_operand D u ->
  policies_agree Native E t u -> on_arithmetic_error E <> HTrap -> (op = Shl \/ op = Shr -> on_implementation_defined_behavior E <> HTrap) ->
  let R := built_in_type D op (base_ty t) (base_ty u) in
  literal_fits D R t -> literal_fits D R u ->
  (op = Shr -> csigned D R = true \/ lim_hi D t <= 0 \/ (lim_lo D u <> width D R /\ lim_hi D u <> width D R)) ->
  exists s m, binary D op t u x y = Some (s, m) /\ st s = R.
Proof.
  intros D op E t u x y Ht Hu HPE HA HS R Lt Lu Hs.
  destruct (r_type_interval_total D op R t u Ht Hu) as (ri & Hri & _).
  { intros ->. destruct (Hs eq_refl) as [H|[H|H]]; auto. }
  destruct (binary_compiles D op Native E R t u x y ri Ht Hu HPE HA HS) as (m & Hm); auto.
  - intros W HW. unfold work_type in HW. destruct op; try (injection HW as <-; auto);
    destruct (div_temp_native D (base_ty t) (base_ty u)) as (W' & HW' & B1 & B2);
    unfold R, built_in_type in HW; rewrite HW in HW'; injection HW' as <-;
    split; apply (same_bounds_fits D R W); assumption.
  - do 2 eexists. split; [exact Hm|reflexivity].
Qed.

(** the types of automatic promotion *)
Lemma auto_type_total : forall D tmp i, tmp = intmax D \/ tmp = uintmax D ->
  cr_ok D tmp (il i) -> cr_ok D tmp (iu i) -> bound_lo D tmp (il i) <= bound_hi D tmp (iu i) ->
  exists R, auto_type D tmp (Ok i) = Some R.
Proof.
  intros D tmp i Ht H1 H2 H3. cbn [auto_type]. apply bound_lo_in in H1. apply bound_hi_in in H2.
  destruct Ht as [->| ->]; unfold stored_type; rewrite ?intmax_signed, ?uintmax_unsigned.
  - destruct (signed_stored_type_spec D _ _ H1 H2) as (T & E & _). eauto.
  - destruct (unsigned_stored_type_spec D (bound_lo D (uintmax D) (il i)) (bound_hi D (uintmax D) (iu i))) as (T & E & _); eauto.
    unfold in_type in H1. rewrite (lo_unsigned D _ (uintmax_unsigned D)) in H1. lia.
Qed.
Lemma auto_temp_cases : forall D T U, auto_temp D T U = intmax D \/ auto_temp D T U = uintmax D.
Proof. intros. unfold auto_temp. destruct (_ && _); auto. Qed.
Lemma auto_shift_temp_cases : forall D T, auto_shift_temp D T = intmax D \/ auto_shift_temp D T = uintmax D.
Proof. intros. unfold auto_shift_temp. destruct (csigned D T); auto. Qed.

Lemma automatic_total : forall D op t u, wf_operand D t -> wf_operand D u ->
  (op = Shr -> csigned D (base_ty t) = true \/ lim_hi D t <= 0
     \/ (lim_lo D u <> width D (uintmax D) /\ lim_hi D u <> width D (uintmax D))) ->
  exists R, result_base_type D Automatic (PArith op) t u = Some R.
Proof.
  intros D op t u Ht Hu Hs. cbn [result_base_type]. unfold automatic_result.
  set (tmp := auto_temp D (base_ty t) (base_ty u)). set (stmp := auto_shift_temp D (base_ty t)).
  assert (Htmp : tmp = intmax D \/ tmp = uintmax D) by apply auto_temp_cases.
  assert (Hstmp : stmp = intmax D \/ stmp = uintmax D) by apply auto_shift_temp_cases.
  assert (G : forall o X ri, (X = intmax D \/ X = uintmax D) -> o <> Shr -> r_type_interval D o X t u = ri ->
    exists R, auto_type D X ri = Some R).
  { intros o X ri HX Ho H. destruct (r_type_interval_total D o X t u Ht Hu) as (i & Hi & O1 & O2 & L); [congruence|].
    rewrite Hi in H. subst ri. apply auto_type_total; assumption. }
  destruct op.
  - apply (G Add tmp); auto. discriminate.
  - apply (G Sub (intmax D)); auto. discriminate.
  - apply (G Mul tmp); auto. discriminate.
  - apply (G Div tmp); auto. discriminate.
  - destruct (lim_cr_ok D tmp t Ht) as [A B]. destruct (lim_cr_ok D tmp u Hu) as [C E].
    assert (FD : forall a b, cr_ok D tmp a -> cr_ok D tmp b -> exists c, cr_div D tmp a b = Ok c /\ cr_ok D tmp c).
    { intros a b Ha Hb. destruct (cr_div_total D tmp a b Ha Hb) as (c & H1 & H2 & _). eauto. }
    unfold auto_mod_interval. destruct (nonzero_interval D tmp (lim_interval D tmp u)) eqn:Z.
    + unfold i_div. rewrite (nonzero_excludes _ _ _ C E Z).
      destruct (proj1 (corners_total D tmp _ _ _ FD A B C E)) as (i & -> & O1 & O2 & L). apply auto_type_total; assumption.
    + destruct (proj2 (corners_total D tmp _ _ _ (cr_mod_ok D tmp) A B C E)) as (i & -> & O1 & O2 & L).
      apply auto_type_total; assumption.
  - apply (G Shl stmp); auto. discriminate.
  - destruct (lim_cr_ok D stmp t Ht) as [A B]. destruct (lim_cr_ok D stmp u Hu) as [C E].
    unfold i_shr, auto_shr_u.
    assert (K : exists i, minmax_of D stmp (corners (cr_shr D stmp) (lim_interval D stmp t)
        (mkI (if exception (il (lim_interval D stmp u)) then CVal 0 else il (lim_interval D stmp u)) (iu (lim_interval D stmp u)))) = Ok i
      /\ cr_ok D stmp (il i) /\ cr_ok D stmp (iu i) /\ bound_lo D stmp (il i) <= bound_hi D stmp (iu i)).
    { apply minmax_of_total.
      assert (TA : forall v z, in_type D (base_ty t) z -> cast D stmp (base_ty t) z = CVal v -> v = z)
        by (intros v z Hz Hc; destruct (cast_val D stmp (base_ty t) z v Hz Hc); congruence).
      assert (UA : forall v z, in_type D (base_ty u) z -> cast D stmp (base_ty u) z = CVal v -> v = z)
        by (intros v z Hz Hc; destruct (cast_val D stmp (base_ty u) z v Hz Hc); congruence).
      destruct Ht as (Ht1 & Ht2 & Ht3), Hu as (Hu1 & Hu2 & _).
      assert (G2 : forall p c, p = lim_lo D t \/ p = lim_hi D t -> cr_ok D stmp c ->
        (c = CVal 0 \/ c = cast D stmp (base_ty u) (lim_lo D u) \/ c = cast D stmp (base_ty u) (lim_hi D u)) ->
        exists r, cr_shr D stmp (cast D stmp (base_ty t) p) c = Ok r /\ cr_ok D stmp r).
      { intros p c Hp Oc Hc.
        assert (Ip : in_type D (base_ty t) p) by (destruct Hp as [->| ->]; assumption).
        destruct (shr_sound D stmp (cast D stmp (base_ty t) p) c) as (r & H1 & H2 & _);
          [apply cast_ok; assumption|assumption| |eauto].
        intros (v & V0 & VA & HL & HW & HB). apply (TA v p Ip) in VA. subst c.
        assert (Hx : stmp = uintmax D).
        { destruct Hstmp as [X|X]; [|exact X]. rewrite X in HL. pose proof (hi_pos_lo D _ (intmax_signed D)).
          pose proof (hi_ge_127 D (intmax D)). lia. }
        rewrite Hx in *. pose proof (width_cases D (uintmax D)).
        destruct Hc as [X|[X|X]]; [injection X as X; lia|apply eq_sym in X; apply (UA _ _ Hu1) in X|apply eq_sym in X; apply (UA _ _ Hu2) in X];
        destruct (Hs eq_refl) as [Y|[Y|[Y1 Y2]]]; try congruence; try (destruct Hp; lia);
        unfold stmp, auto_shift_temp in Hx; rewrite Y in Hx; pose proof (intmax_signed D) as Q; rewrite Hx, uintmax_unsigned in Q; discriminate. }
      unfold corners. cbn [il iu].
      assert (Z0 : cr_ok D stmp (CVal 0)) by (cbn; apply zero_in).
      unfold lim_interval in *. cbn [il iu] in *.
      repeat constructor; apply G2; auto; destruct (exception (cast D stmp (base_ty u) (lim_lo D u))); auto. }
    destruct K as (i & -> & O1 & O2 & L). apply auto_type_total; assumption.
Qed.

Lemma small_literal : forall D W o, match o with OLit _ N _ _ => 0 <= N <= 127 | _ => True end -> literal_fits D W o.
Proof.
  intros D W [T|s|T N P E] H; cbn in *; auto. pose proof (lo_le_0 D W). pose proof (hi_ge_127 D W). unfold in_type. lia.
Qed.

Lemma automatic_compiles : forall D op E t u x y, wf_operand D t -> wf_operand D u ->
  policies_agree Automatic E t u -> on_arithmetic_error E <> HTrap -> (op = Shl \/ op = Shr -> on_implementation_defined_behavior E <> HTrap) ->
  match t with OLit _ N _ _ => 0 <= N <= 127 | _ => True end ->
  match u with OLit _ N _ _ => 0 <= N <= 127 | _ => True end ->
  (op = Shr -> csigned D (base_ty t) = true \/ lim_hi D t <= 0
     \/ (forall T, lim_lo D u <> width D T /\ lim_hi D u <> width D T)) ->
  exists s m, binary D op t u x y = Some (s, m).
Proof.
  intros D op E t u x y Ht Hu HPE HA HS Lt Lu Hs.
  destruct (automatic_total D op t u Ht Hu) as (R & HR).
  { intros ->. destruct (Hs eq_refl) as [H|[H|H]]; auto. }
  destruct (r_type_interval_total D op R t u Ht Hu) as (ri & Hri & _).
  { intros ->. destruct (Hs eq_refl) as [H|[H|H]]; auto. left.
    cbn [result_base_type automatic_result] in HR. unfold auto_shift_temp in HR. rewrite H in HR.
    unfold auto_type, stored_type in HR. rewrite intmax_signed in HR.
    destruct (i_shr D (intmax D) (lim_interval D (intmax D) t) (auto_shr_u D (intmax D) u)) as [i|]; [|discriminate].
    unfold signed_stored_type in HR. apply int_t_least_spec in HR. tauto. }
  destruct (binary_compiles D op Automatic E R t u x y ri Ht Hu HPE HA HS HR Hri) as (m & Hm); [|eauto].
  intros W HW. split; apply small_literal; assumption.
Qed.

(** comparisons *)
Lemma compare_compiles_R : forall D c P E R t u x y, wf_operand D t -> wf_operand D u ->
  policies_agree P E t u -> on_arithmetic_error E <> HTrap -> result_base_type D P PCmp t u = Some R ->
  literal_fits D R t -> literal_fits D R u -> exists m, compare D c t u x y = Some m.
Proof.
  intros D c P E R t u x y Ht Hu HPE HA HR Lt Lu.
  destruct (agree_common P E t u HPE) as [EP EE]. unfold compare. rewrite EP, EE, HR.
  destruct (casts_compile D P E R t u x y Ht Hu Lt Lu HA HPE) as (k & ->).
  destruct (_ || _), c; repeat match goal with |- context [if ?b then _ else _] => destruct b end; eauto.
Qed.

Lemma native_compare_compiles : forall D c E t u x y, wf_operand D t -> wf_operand D u ->
  policies_agree Native E t u -> on_arithmetic_error E <> HTrap ->
  literal_fits D (uac D (base_ty t) (base_ty u)) t -> literal_fits D (uac D (base_ty t) (base_ty u)) u ->
  exists m, compare D c t u x y = Some m.
Proof.
  intros D c E t u x y Ht Hu HPE HA Lt Lu.
  apply (compare_compiles_R D c Native E (uac D (base_ty t) (base_ty u))); auto.
Qed.

Lemma auto_union_total : forall D t u, wf_operand D t -> wf_operand D u ->
  exists R, result_base_type D Automatic PCmp t u = Some R.
Proof.
  intros D t u Ht Hu. cbn [result_base_type]. unfold automatic_result.
  set (tmp := auto_temp D (base_ty t) (base_ty u)).
  destruct (lim_cr_ok D tmp t Ht) as [A B]. destruct (lim_cr_ok D tmp u Hu) as [C E].
  destruct (auto_temp_cases D (base_ty t) (base_ty u)) as [X|X]; fold tmp in X.
  - rewrite X in *. cbn [auto_type]. unfold stored_type. rewrite intmax_signed.
    destruct (signed_stored_type_spec D
      (bound_lo D (intmax D) (il (auto_union D (intmax D) (lim_interval D (intmax D) t) (lim_interval D (intmax D) u))))
      (bound_hi D (intmax D) (iu (auto_union D (intmax D) (lim_interval D (intmax D) t) (lim_interval D (intmax D) u)))))
      as (T & HT & _); [| |eauto]; unfold auto_union; cbn [il iu].
    + apply bound_lo_in. destruct (tri_bool _); assumption.
    + apply bound_hi_in. destruct (tri_bool _); assumption.
  - apply auto_type_total; auto; unfold auto_union; cbn [il iu].
    + destruct (tri_bool _); assumption.
    + destruct (tri_bool _); assumption.
    + assert (U : csigned D (base_ty t) = false /\ csigned D (base_ty u) = false).
      { unfold tmp, auto_temp in X. destruct (csigned D (base_ty t)), (csigned D (base_ty u)); cbn in X; auto;
        pose proof (intmax_signed D) as Q; rewrite X, uintmax_unsigned in Q; discriminate. }
      assert (V : forall o, wf_operand D o -> csigned D (base_ty o) = false ->
        lim_interval D tmp o = mkI (CVal (lim_lo D o)) (CVal (lim_hi D o))
        /\ in_type D tmp (lim_lo D o) /\ in_type D tmp (lim_hi D o) /\ lim_lo D o <= lim_hi D o).
      { intros o (O1 & O2 & O3) Os. pose proof (uintmax_hi D (base_ty o)) as Q. pose proof (lo_unsigned D _ Os) as L.
        pose proof (lo_unsigned D _ (uintmax_unsigned D)) as L2.
        assert (I1 : in_type D tmp (lim_lo D o)) by (rewrite X; unfold in_type in *; lia).
        assert (I2 : in_type D tmp (lim_hi D o)) by (rewrite X; unfold in_type in *; lia).
        splits; auto. unfold lim_interval. f_equal; apply cast_spec; assumption. }
      destruct (V t Ht ltac:(tauto)) as (-> & I1 & I2 & I3). destruct (V u Hu ltac:(tauto)) as (-> & J1 & J2 & J3).
      cbn [il iu]. rewrite !cr_lt_val by assumption.
      destruct (Z.ltb_spec (lim_lo D t) (lim_lo D u)), (Z.ltb_spec (lim_hi D t) (lim_hi D u)); cbn; lia.
Qed.

Lemma automatic_compare_compiles : forall D c E t u x y, wf_operand D t -> wf_operand D u ->
  policies_agree Automatic E t u -> on_arithmetic_error E <> HTrap ->
  match t with OLit _ N _ _ => 0 <= N <= 127 | _ => True end ->
  match u with OLit _ N _ _ => 0 <= N <= 127 | _ => True end ->
  exists m, compare D c t u x y = Some m.
Proof.
  intros D c E t u x y Ht Hu HPE HA Lt Lu. destruct (auto_union_total D t u Ht Hu) as (R & HR).
  apply (compare_compiles_R D c Automatic E R); auto using small_literal.
Qed.

(** the right shifts that do not compile *)
Lemma seq_res_ub : forall (A : Type) (l : list (res A)), In UB l -> seq_res l = UB.
Proof.
  intros A l. induction l as [|a l IH]; intros H; [destruct H|]. cbn [seq_res].
  destruct H as [->|H]; [reflexivity|]. destruct a as [a|]; [|reflexivity]. cbn [rbind]. rewrite (IH H). reflexivity.
Qed.

Lemma native_shr_rejected : forall D t u x y, wf_operand D t -> wf_operand D u ->
  (forall P, get_pp t = Some P \/ get_pp u = Some P -> P = Native) ->
  let R := promote D (base_ty t) in
  csigned D R = false -> 0 < lim_hi D t -> lim_lo D u = width D R \/ lim_hi D u = width D R ->
  binary D Shr t u x y = None.
Proof.
  intros D t u x y Ht Hu HP R HR H0 Hw. unfold binary, op_static.
  destruct (common_pp t u) as [P|] eqn:EP; [|reflexivity]. destruct (common_ep t u) as [E|]; [|reflexivity].
  assert (P = Native) as ->.
  { unfold common_pp in EP. destruct (is_safe t || is_safe u); [|discriminate].
    destruct (get_pp t) as [a|] eqn:A, (get_pp u) as [b|] eqn:B; try discriminate.
    - destruct (pp_eqb a b); [|discriminate]. injection EP as <-. auto.
    - injection EP as <-. auto.
    - injection EP as <-. auto. }
  cbn [result_base_type native_result]. fold R. cbn [r_type_interval].
  assert (i_shr D R (lim_interval D R t) (lim_interval D R u) = UB) as ->; [|reflexivity].
  unfold i_shr, minmax_of. rewrite seq_res_ub; [reflexivity|].
  destruct Ht as (Ht1 & Ht2 & Ht3), Hu as (Hu1 & Hu2 & _).
  assert (It : in_type D R (lim_hi D t)).
  { pose proof (promote_hi D (base_ty t)). pose proof (lo_unsigned D R HR). unfold R, in_type in *. lia. }
  assert (Iw : in_type D R (width D R)).
  { pose proof (hi_ge_127 D R). pose proof (lo_le_0 D R). unfold in_type. destruct (width_cases D R) as [X|[X|[X|X]]]; lia. }
  assert (Wp : width D (promote D R) = width D R) by (unfold R; rewrite promote_idem; reflexivity).
  assert (U : cr_shr D R (CVal (lim_hi D t)) (CVal (width D R)) = UB).
  { apply shr_by_width; auto. rewrite (lo_unsigned D R HR). auto. }
  unfold corners, lim_interval. cbn [il iu].
  rewrite (proj1 (cast_spec D R (base_ty t) _ Ht2) It).
  destruct Hw as [Hw|Hw]; rewrite Hw in *.
  - rewrite (proj1 (cast_spec D R (base_ty u) _ Hu1) Iw), U. cbn. auto.
  - rewrite (proj1 (cast_spec D R (base_ty u) _ Hu2) Iw), U. cbn. auto 10.
Qed.

(** bitwise operators *)
Lemma round_out_fits : forall D R m, csigned D R = true -> in_type D (to_unsigned R) m ->
  exists k, round_out D (to_unsigned R) m = Ok k /\ (in_range D R k = true <-> m <= hi D R).
Proof.
  intros D R m Hs Hm. rewrite round_out_unsigned by (auto; apply to_unsigned_unsigned).
  eexists. split; [reflexivity|]. rewrite in_range_iff.
  pose proof (lo_unsigned D _ (to_unsigned_unsigned D R)) as L. pose proof (lo_le_0 D R).
  pose proof (pow_digits D R) as Hd. pose proof (digits_pos D R).
  assert (0 <= m) by (unfold in_type in Hm; lia).
  pose proof (Z.log2_nonneg m).
  pose proof (Z.pow_pos_nonneg 2 (1 + Z.log2 m) ltac:(lia) ltac:(lia)).
  unfold in_type. split; intros K.
  - destruct (Z.eq_dec m 0) as [->|N]; [pose proof (hi_ge_127 D R); lia|].
    pose proof (Z.log2_spec m ltac:(lia)) as [_ G]. replace (Z.succ (Z.log2 m)) with (1 + Z.log2 m) in G by lia. lia.
  - split; [lia|]. assert (1 + Z.log2 m <= digits D R).
    { destruct (Z.eq_dec m 0) as [->|N]; [cbn; lia|].
      assert (Z.log2 m < digits D R); [|lia]. apply Z.log2_lt_pow2; lia. }
    pose proof (Z.pow_le_mono_r 2 (1 + Z.log2 m) (digits D R) ltac:(lia) ltac:(lia)). lia.
Qed.

Lemma bitwise_compiles_iff : forall D b P E t u x y, wf_operand D t -> wf_operand D u ->
  P = Native \/ P = Automatic -> policies_agree P E t u ->
  ((exists s m, bitwise D b t u x y = Some (s, m))
   <-> csigned D (uac D (base_ty t) (base_ty u)) = false
       \/ match b with And => 0 <= lim_hi D t \/ 0 <= lim_hi D u | _ => 0 <= lim_hi D t /\ 0 <= lim_hi D u end).
Proof.
  intros D b P E t u x y Ht Hu HP HPE. destruct (agree_common P E t u HPE) as [EP EE].
  set (R := uac D (base_ty t) (base_ty u)).
  unfold bitwise, bitwise_type. rewrite EP, EE.
  assert (result_base_type D P (PBit b) t u = Some R) as ->.
  { destruct HP as [->| ->]; reflexivity. }
  cbv zeta. set (r := to_unsigned R). set (mt := conv D r (lim_hi D t)). set (mu := conv D r (lim_hi D u)).
  assert (It : in_type D r mt) by apply conv_range. assert (Iu : in_type D r mu) by apply conv_range.
  set (m := match b with And => Z.min mt mu | _ => Z.max mt mu end).
  assert (Im : in_type D r m) by (unfold m, in_type in *; destruct b; lia).
  destruct (csigned D R) eqn:Es.
  - destruct (round_out_fits D R m Es Im) as (k & Ek & Hk). fold r in Ek. rewrite Ek.
    assert (C : forall o, wf_operand D o -> hi D (base_ty o) <= hi D R -> lo D R <= lo D (base_ty o) ->
      (conv D r (lim_hi D o) <= hi D R <-> 0 <= lim_hi D o)).
    { intros o (O1 & O2 & O3) Hh Hl. pose proof (to_unsigned_hi_eq D R) as Q. fold r in Q.
      pose proof (lo_unsigned D _ (to_unsigned_unsigned D R)) as L. fold r in L.
      destruct (lo_hi_signed D R Es) as [A B]. pose proof (to_unsigned_hi D R) as TH. fold r in TH.
      assert (Pw : 2 ^ width D R = 2 * 2 ^ (width D R - 1)).
      { rewrite <- Z.pow_succ_r by (destruct (width_cases D R) as [X|[X|[X|X]]]; lia). f_equal. lia. }
      destruct (Z_lt_le_dec (lim_hi D o) 0) as [N|N].
      - assert (conv D r (lim_hi D o) = lim_hi D o + 2 ^ width D R) as ->.
        { apply conv_unique; [unfold in_type in *; lia|]. unfold r. rewrite to_unsigned_width.
          replace (lim_hi D o + 2 ^ width D R - lim_hi D o) with (2 ^ width D R) by lia. apply Z_mod_same_full. }
        unfold in_type in *. lia.
      - rewrite conv_id by (unfold in_type in *; lia). unfold in_type in *. lia. }
    pose proof (C t Ht (uac_hi_l D _ _) (uac_lo_l D _ _ Es)) as Ct.
    pose proof (C u Hu (uac_hi_r D _ _) (uac_lo_r D _ _ Es)) as Cu. fold mt in Ct. fold mu in Cu.
    destruct (in_range D R k) eqn:Er.
    + assert (K : m <= hi D R) by (apply Hk; reflexivity). split; [intros _; right|intros _; eauto].
      unfold m in K. destruct b; lia.
    + split; [intros (s & q & X); discriminate|intros [X|X]; [discriminate|]].
      assert (K : ~ m <= hi D R) by (intros K; apply Hk in K; congruence). exfalso. unfold m in K. destruct b; lia.
  - split; [auto|intros _].
    rewrite round_out_unsigned by (auto; apply to_unsigned_unsigned).
    assert (in_range D R (2 ^ (1 + Z.log2 m) - 1) = true) as ->; [|eauto].
    apply in_range_iff.
    assert (Hr : hi D r = hi D R /\ lo D r = lo D R).
    { rewrite (lo_unsigned D R Es), (lo_unsigned D r (to_unsigned_unsigned D R)). unfold r.
      rewrite to_unsigned_hi_eq. destruct (lo_hi_unsigned D R Es) as [_ ->]. auto. }
    pose proof (lo_unsigned D R Es) as L. pose proof (digits_pos D R).
    destruct (lo_hi_unsigned D R Es) as [_ Hh]. pose proof (unsigned_digits D R Es) as Ud.
    assert (0 <= m) by (unfold in_type in Im; lia). pose proof (Z.log2_nonneg m).
    pose proof (Z.pow_pos_nonneg 2 (1 + Z.log2 m) ltac:(lia) ltac:(lia)).
    assert (1 + Z.log2 m <= width D R).
    { destruct (Z.eq_dec m 0) as [->|N]; [cbn; lia|].
      assert (Z.log2 m < width D R); [|lia]. apply Z.log2_lt_pow2; unfold in_type in *; lia. }
    pose proof (Z.pow_le_mono_r 2 (1 + Z.log2 m) (width D R) ltac:(lia) ltac:(lia)). unfold in_type. lia.
Qed.

(** the forms stated in PropsCompile.v *)
Lemma C72_native_lemma : forall D op E t u x y, op <> Shr -> wf_operand D t -> wf_operand D u ->
  policies_agree Native E t u -> on_arithmetic_error E <> HTrap ->
  (op = Shl -> on_implementation_defined_behavior E <> HTrap) ->
  literal_fits D (built_in_type D op (base_ty t) (base_ty u)) t ->
  literal_fits D (built_in_type D op (base_ty t) (base_ty u)) u ->
  exists s m, binary D op t u x y = Some (s, m).
Proof.
  intros D op E t u x y Ho Ht Hu HPE HA HS Lt Lu.
  destruct (native_compiles D op E t u x y Ht Hu HPE HA) as (s & m & H & _); eauto; try congruence.
  intros [X|X]; [auto|congruence].
Qed.

Lemma C72_right_shift_lemma : forall D E t u x y, wf_operand D t -> wf_operand D u ->
  policies_agree Native E t u -> on_arithmetic_error E <> HTrap -> on_implementation_defined_behavior E <> HTrap ->
  literal_fits D (promote D (base_ty t)) t -> literal_fits D (promote D (base_ty t)) u ->
  ((exists s m, binary D Shr t u x y = Some (s, m))
   <-> ~ (csigned D (promote D (base_ty t)) = false /\ 0 < lim_hi D t
          /\ (lim_lo D u = width D (promote D (base_ty t)) \/ lim_hi D u = width D (promote D (base_ty t))))).
Proof.
  intros D E t u x y Ht Hu HPE HA HS Lt Lu. split.
  - intros (s & m & H) (N1 & N2 & N3). rewrite (native_shr_rejected D t u x y Ht Hu) in H; auto; try discriminate.
    exact (proj1 HPE).
  - intros N. destruct (native_compiles D Shr E t u x y Ht Hu HPE HA) as (s & m & H & _); auto; [|eauto].
    intros _. cbn [built_in_type]. destruct (csigned D (promote D (base_ty t))); [auto|].
    destruct (Z_le_gt_dec (lim_hi D t) 0); [auto|]. right; right. split; intros X; apply N; auto with zarith.
Qed.

Lemma C72_comparisons_lemma : forall D P E t u x y, wf_operand D t -> wf_operand D u ->
  P = Native \/ P = Automatic -> policies_agree P E t u -> on_arithmetic_error E <> HTrap ->
  (forall T N Q F, t = OLit T N Q F \/ u = OLit T N Q F -> 0 <= N <= 127) ->
  (exists m, s_lt D t u x y = Some m) /\ (exists m, s_gt D t u x y = Some m) /\ (exists m, s_le D t u x y = Some m)
  /\ (exists m, s_ge D t u x y = Some m) /\ (exists m, s_eq D t u x y = Some m) /\ (exists m, s_ne D t u x y = Some m).
Proof.
  intros D P E t u x y Ht Hu HP HPE HA HL.
  assert (HPE' : policies_agree P E u t) by (unfold policies_agree in *; intuition auto).
  assert (L : forall R, literal_fits D R t /\ literal_fits D R u).
  { intros R. split; apply small_literal; [destruct t|destruct u]; auto; eapply HL; eauto. }
  assert (G : forall c a b p q, wf_operand D a -> wf_operand D b -> policies_agree P E a b ->
     (forall R, literal_fits D R a /\ literal_fits D R b) -> exists m, compare D c a b p q = Some m).
  { intros c a b p q Ha Hb Hab Hl.
    assert (exists R, result_base_type D P PCmp a b = Some R) as (R & HR).
    { destruct HP as [->| ->]; [cbn; eauto|apply auto_union_total; assumption]. }
    destruct (Hl R). eapply compare_compiles_R; eauto. }
  assert (L' : forall R, literal_fits D R u /\ literal_fits D R t) by (intros R; destruct (L R); auto).
  unfold s_le, s_ge, s_ne, s_lt, s_gt, s_eq.
  destruct (G CLt t u x y Ht Hu HPE L) as (m1 & E1). destruct (G CLt u t y x Hu Ht HPE' L') as (m2 & E2).
  destruct (G CEq t u x y Ht Hu HPE L) as (m3 & E3). rewrite E1, E2, E3. cbn. splits; eauto.
Qed.

Lemma C72_automatic_lemma : forall D op E t u x y, wf_operand D t -> wf_operand D u ->
  policies_agree Automatic E t u -> on_arithmetic_error E <> HTrap ->
  (op = Shl \/ op = Shr -> on_implementation_defined_behavior E <> HTrap) ->
  (forall T N Q F, t = OLit T N Q F \/ u = OLit T N Q F -> 0 <= N <= 127) ->
  (op = Shr -> csigned D (base_ty t) = true \/ lim_hi D t <= 0
     \/ (forall T, lim_lo D u <> width D T /\ lim_hi D u <> width D T)) ->
  exists s m, binary D op t u x y = Some (s, m).
Proof.
  intros D op E t u x y Ht Hu HPE HA HS HL Hs.
  apply (automatic_compiles D op E); auto; [destruct t|destruct u]; auto; eapply HL; eauto.
Qed.
