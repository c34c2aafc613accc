(** SafeTraceFacts.v -- facts about handler calls and policies. Proofs only. *)
From Coq Require Import ZArith Bool List Lia.
From Verif Require Import Base CType Spec CTypeFacts Utility UtilityFacts SafeCompare
  CheckedInteger CheckedIntegerFacts CheckedResultOps CheckedResultFacts Interval IntervalFacts
  IntervalOpsFacts ExceptionPolicy Promotion SafeBase SafeSpec SafeFacts SafeDivFacts SafeConvFacts
  SafeBitFacts.
Import ListNotations.
Local Open Scope Z_scope.

(** ------------------------------------------------------------------ *)
(** one report *)
Lemma class_action : forall e, make_safe_numerics_action e = class_of e.
Proof. destruct e; reflexivity. Qed.

Lemma one_mret : forall (A : Type) (a : A), one_report (mret a).
Proof. intros A a. left. exists a. reflexivity. Qed.
Lemma one_mlift : forall (A : Type) (r : res A), one_report (mlift r).
Proof. intros A [a|]; [left; exists a; reflexivity|right; left; reflexivity]. Qed.
Lemma one_bind : forall (A B : Type) (m : M A) (k : A -> M B),
  one_report m -> (forall a, one_report (k a)) -> one_report (mbind m k).
Proof.
  intros A B m k [[a ->]|[->|[e ->]]] Hk.
  - change (([] : list event), Ret a) with (mret a). rewrite mbind_ret. apply Hk.
  - right; left. reflexivity.
  - right; right. exists e. reflexivity.
Qed.
Lemma one_dar : forall E c, throws_arithmetic E -> throws_shift E ->
  (forall e, c = CErr e -> arithmetic_err e \/ shift_err e) -> one_report (dispatch_and_return E c).
Proof.
  intros E [v|e] HA HS Hc; [apply one_mret|].
  destruct (Hc e eq_refl) as [He|He]; cbn [dispatch_and_return].
  - rewrite dispatch_arith by assumption. right; right. exists e.
    destruct He as [->|[->| ->]]; reflexivity.
  - rewrite dispatch_impl by assumption. right; right. exists e.
    destruct He as [->|[->| ->]]; reflexivity.
Qed.

(** the errors that the checked operations report *)
Definition op_err (r : res checked) : Prop :=
  forall e, r = Ok (CErr e) -> arithmetic_err e \/ shift_err e.

Ltac split_ifs :=
  repeat match goal with
  | H : context [if ?b then _ else _] |- _ => destruct b
  end.

Lemma cast_err : forall D R T x e, cast D R T x = CErr e -> arithmetic_err e \/ shift_err e.
Proof.
  intros D R T x e H. unfold cast, het_cast in H.
  split_ifs; try discriminate; injection H as <-; unfold arithmetic_err; tauto.
Qed.
Lemma het_cast_err : forall D R mn mx T x e, het_cast D R mn mx T x = CErr e -> arithmetic_err e \/ shift_err e.
Proof.
  intros D R mn mx T x e H. unfold het_cast in H.
  split_ifs; try discriminate; injection H as <-; unfold arithmetic_err; tauto.
Qed.

Lemma op_err_bind : forall (A : Type) (m : res A) (k : A -> res checked),
  (forall a, op_err (k a)) -> op_err (rbind m k).
Proof. intros A [a|] k H e Hr; cbn in Hr; [exact (H a e Hr)|discriminate]. Qed.
Lemma op_err_ret : forall D R m, op_err (ret D R m).
Proof. intros D R [z|] e H; cbn in H; discriminate. Qed.
Lemma op_err_val : forall v, op_err (Ok (CVal v)).
Proof. intros v e H. discriminate. Qed.
Lemma op_err_if : forall (b : bool) r1 r2, op_err r1 -> op_err r2 -> op_err (if b then r1 else r2).
Proof. intros [] r1 r2 H1 H2; assumption. Qed.
Lemma op_err_arith : forall e, arithmetic_err e -> op_err (Ok (CErr e)).
Proof. intros e H e' [= <-]. auto. Qed.
Lemma op_err_shift : forall e, shift_err e -> op_err (Ok (CErr e)).
Proof. intros e H e' [= <-]. auto. Qed.
Ltac op_err_tac :=
  repeat first
  [ apply op_err_ret | apply op_err_val
  | apply op_err_arith; unfold arithmetic_err; tauto
  | apply op_err_shift; unfold shift_err; tauto
  | apply op_err_if
  | apply op_err_bind; intros ? ].

Lemma checked_op_err : forall D op W x y, op_err (checked_op D op W x y).
Proof.
  intros D op W x y. destruct op; cbn [checked_op].
  - unfold add. op_err_tac.
  - unfold subtract. op_err_tac.
  - unfold multiply. cbv zeta.
    destruct (csigned D W), (_ <? _);
      unfold multiply_signed_big, multiply_signed_small, multiply_unsigned_big, multiply_unsigned_small;
      cbv zeta; op_err_tac.
  - unfold divide. op_err_tac.
  - unfold modulus. op_err_tac. destruct a; op_err_tac.
  - unfold left_shift, left_shift_detail. op_err_tac.
  - unfold right_shift, right_shift_detail. op_err_tac.
Qed.

Lemma validate_one : forall D R mn mx E T slo shi x m,
  (forall E0, E = Some E0 -> throws_arithmetic E0 /\ throws_shift E0) ->
  validate D R mn mx E T slo shi x = Some m -> one_report m.
Proof.
  intros D R mn mx E T slo shi x m HE H. unfold validate in H.
  destruct (validate_static D R mn mx T slo shi) as [[|]|]; [|destruct E as [E0|]; [|discriminate]|discriminate].
  - injection H as <-. apply one_mret.
  - destruct (HE E0 eq_refl). destruct (all_compile _ _); [|discriminate]. injection H as <-.
    apply one_bind; [|intros; apply one_mlift].
    apply one_dar; auto. intros e. apply het_cast_err.
Qed.
Lemma construct_one : forall D s o x m, throws_arithmetic (sE s) -> throws_shift (sE s) ->
  construct D s o x = Some m -> one_report m.
Proof. intros D s o x m H1 H2 H. eapply validate_one; [|exact H]. intros E0 [= <-]. auto. Qed.
Lemma to_builtin_one : forall D R s x m, throws_arithmetic (sE s) -> throws_shift (sE s) ->
  to_builtin D R s x = Some m -> one_report m.
Proof. intros D R s x m H1 H2 H. eapply validate_one; [|exact H]. intros E0 [= <-]. auto. Qed.

(** the policy, if any, of an operand throws *)

Lemma static_cast_one : forall D R o x m, operand_throws o ->
  static_cast_builtin D R o x = Some m -> one_report m.
Proof.
  intros D R [T|s|T N P E] x m HE H; cbn [static_cast_builtin] in H.
  - injection H as <-. apply one_mret.
  - destruct (HE (sE s) eq_refl). eapply to_builtin_one; eassumption.
  - eapply validate_one; [|exact H]. exact HE.
Qed.
Lemma cast_operand_one : forall D E R o x m, throws_arithmetic E -> throws_shift E -> operand_throws o ->
  cast_operand D E R o x = Some m -> one_report m.
Proof.
  intros D E R o x m HA HS HE H. unfold cast_operand in H.
  destruct (static_cast_builtin D R o x) as [fb|] eqn:Ef; [|discriminate].
  destruct (all_compile _ _); [|discriminate]. injection H as <-.
  apply one_bind.
  - apply one_dar; auto. intros e. apply cast_err.
  - intros [v|e]; [apply one_mret|]. eapply static_cast_one; eassumption.
Qed.
Lemma casting_helper_one : forall D E R t u x y m, throws_arithmetic E -> throws_shift E ->
  operand_throws t -> operand_throws u ->
  casting_helper D E R t u x y = Some m -> one_report m.
Proof.
  intros D E R t u x y m HA HS Ht Hu H. unfold casting_helper in H.
  destruct (cast_operand D E R t x) eqn:E1; [|discriminate].
  destruct (cast_operand D E R u y) eqn:E2; [|discriminate]. injection H as <-.
  apply one_bind; [eapply cast_operand_one; try exact E1; assumption|]. intros a.
  apply one_bind; [eapply cast_operand_one; try exact E2; assumption|]. intros b. apply one_mret.
Qed.

Lemma binary_one : forall D op t u x y s m, operand_throws t -> operand_throws u ->
  throws_arithmetic (sE s) -> throws_shift (sE s) ->
  binary D op t u x y = Some (s, m) -> one_report m.
Proof.
  intros D op t u x y s m Ht Hu HA HS H.
  destruct (binary_inv _ _ _ _ _ _ _ _ H) as (P & E & R & ri & _ & _ & _ & _ & -> & Hm).
  cbn [sE] in *. destruct Hm as [[_ ->]|[_ (W & casts & _ & Hc & _ & ->)]].
  - unfold unchecked_run. apply one_bind; [apply one_mlift|]. intros. apply one_mret.
  - unfold checked_run. apply one_bind; [exact (casting_helper_one _ _ _ _ _ _ _ _ HA HS Ht Hu Hc)|]. intros [a b]. cbn [fst snd].
    pose proof (checked_op_err D op W a b) as He.
    destruct (checked_op D op W a b) as [c|]; [|right; left; reflexivity].
    cbn [mlift]. rewrite mbind_ret. apply one_bind.
    + apply one_dar; auto. intros e Hce. apply He. congruence.
    + intros [v|e]; [apply one_mret|]. apply one_bind; [apply one_mlift|]. intros. apply one_mret.
Qed.
Lemma compare_one : forall D c t u x y m, operand_throws t -> operand_throws u ->
  (forall E, common_ep t u = Some E -> throws_arithmetic E /\ throws_shift E) ->
  compare D c t u x y = Some m -> one_report m.
Proof.
  intros D c t u x y m Ht Hu HE H. unfold compare in H.
  destruct (common_pp t u) as [P|]; [|discriminate].
  destruct (common_ep t u) as [E|]; [|discriminate]. destruct (HE E eq_refl) as [HA HS].
  destruct (result_base_type D P PCmp t u) as [R|]; [|discriminate]. cbv zeta in H.
  destruct (_ || _).
  - destruct (casting_helper D E R t u x y) as [casts|] eqn:Hk; [|discriminate].
    assert (Ho := casting_helper_one _ _ _ _ _ _ _ _ HA HS Ht Hu Hk).
    destruct c.
    + destruct (tri_bool (i_lt _ _ _ _)); [injection H as <-; apply one_mret|].
      destruct (tri_bool (i_gt _ _ _ _)); injection H as <-; [apply one_mret|].
      apply one_bind; [assumption|]. intros. apply one_mret.
    + destruct (tri_bool (tri_not _)); injection H as <-; [apply one_mret|].
      apply one_bind; [assumption|]. intros. apply one_mret.
  - destruct c.
    + destruct (tri_bool (i_lt _ _ _ _)); [injection H as <-; apply one_mret|].
      destruct (tri_bool (i_gt _ _ _ _)); injection H as <-; apply one_mret.
    + destruct (tri_bool (tri_not _)); injection H as <-; apply one_mret.
Qed.
Lemma bitwise_one : forall D b t u x y s m, bitwise D b t u x y = Some (s, m) -> one_report m.
Proof.
  intros D b t u x y s m H.
  destruct (bitwise_inv _ _ _ _ _ _ _ _ H) as (mx & _ & _ & _ & _ & _ & _ & _ & ->). apply one_mret.
Qed.

(** the policies of the operands determine the policy of the result *)
Lemma common_ep_throws : forall t u E, operand_throws t -> operand_throws u ->
  common_ep t u = Some E -> throws_arithmetic E /\ throws_shift E.
Proof.
  intros t u E Ht Hu. unfold common_ep. destruct (_ || _); [|discriminate].
  destruct (get_ep t) as [a|] eqn:Et, (get_ep u) as [b|] eqn:Eu; intros H.
  - destruct (ep_eqb a b); [|discriminate]. injection H as <-. apply Hu. assumption.
  - injection H as <-. apply Ht. assumption.
  - injection H as <-. apply Hu. assumption.
  - discriminate.
Qed.
Lemma eval_binop_ep : forall D op t u x y s m, eval_binop D op t u x y = Some (s, m) ->
  common_ep t u = Some (sE s).
Proof.
  intros D [o|b] t u x y s m H; cbn [eval_binop] in H.
  - apply (binary_policy _ _ _ _ _ _ _ _ H).
  - destruct (bitwise_inv _ _ _ _ _ _ _ _ H) as (mx & _ & H1 & _). assumption.
Qed.
Lemma eval_binop_one : forall D op t u x y s m, operand_throws t -> operand_throws u ->
  eval_binop D op t u x y = Some (s, m) -> one_report m.
Proof.
  intros D op t u x y s m Ht Hu H.
  pose proof (common_ep_throws _ _ _ Ht Hu (eval_binop_ep _ _ _ _ _ _ _ _ H)) as [A B].
  destruct op as [o|b]; cbn [eval_binop] in H.
  - exact (binary_one _ _ _ _ _ _ _ _ Ht Hu A B H).
  - eapply bitwise_one; eassumption.
Qed.
Lemma compound_one : forall D op tgt u x y m, operand_throws tgt -> operand_throws u ->
  compound D op tgt u x y = Some m -> one_report m.
Proof.
  intros D op tgt u x y m Ht Hu H. unfold compound in H.
  destruct (eval_binop D op tgt u x y) as [[rs m0]|] eqn:Ee; [|discriminate].
  pose proof (eval_binop_one _ _ _ _ _ _ _ _ Ht Hu Ee) as Hm.
  pose proof (common_ep_throws _ _ _ Ht Hu (eval_binop_ep _ _ _ _ _ _ _ _ Ee)) as [A B].
  destruct tgt as [T|s|]; [| |discriminate].
  - destruct (to_builtin D T rs 0) as [k0|] eqn:E0; [|discriminate]. injection H as <-.
    apply one_bind; [assumption|]. intros z.
    destruct (to_builtin D T rs z) as [k|] eqn:Ek; [|right; left; reflexivity].
    eapply to_builtin_one; eassumption.
  - destruct (construct D s (OSafe rs) 0) as [k0|] eqn:E0; [|discriminate]. injection H as <-.
    apply one_bind; [assumption|]. intros z.
    destruct (construct D s (OSafe rs) z) as [k|] eqn:Ek; [|right; left; reflexivity].
    destruct (Ht (sE s) eq_refl). eapply construct_one; eassumption.
Qed.

(** ------------------------------------------------------------------ *)
(** trap policies *)
Lemma validate_trap : forall D R mn mx E T slo shi x m,
  in_type D R mn -> in_type D R mx -> in_type D T slo -> in_type D T shi ->
  traps E -> slo <= x <= shi ->
  validate D R mn mx (Some E) T slo shi x = Some m -> mn <= x <= mx /\ returns m x.
Proof.
  intros D R mn mx E T slo shi x m Hmn Hmx Hlo Hhi HE Hx H. unfold validate in H.
  pose proof (validate_static_sound D R mn mx T slo shi Hmn Hmx Hlo Hhi) as Hs.
  destruct (validate_static D R mn mx T slo shi) as [[|]|]; [| |discriminate].
  - injection H as <-. split; [lia|]. unfold returns. rewrite conv_id by (unfold in_type in *; lia). reflexivity.
  - rewrite cast_errors_trap in H by assumption. discriminate.
Qed.
Lemma casting_helper_trap : forall D E R t u x y, traps E -> casting_helper D E R t u x y = None.
Proof.
  intros D E R t u x y HE. unfold casting_helper, cast_operand.
  rewrite !cast_errors_trap by assumption.
  destruct (static_cast_builtin D R t x); reflexivity.
Qed.
Lemma binary_trap : forall D op t u x y s m, traps (sE s) ->
  binary D op t u x y = Some (s, m) ->
  exists P ri, common_pp t u = Some P
    /\ result_base_type D P (PArith op) t u = Some (st s)
    /\ r_type_interval D op (st s) t u = Ok ri
    /\ exception_possible D op (st s) t u ri = false
    /\ smin s = bound_lo D (st s) (il ri) /\ smax s = bound_hi D (st s) (iu ri)
    /\ m = unchecked_run D op (st s) x y.
Proof.
  intros D op t u x y s m HE H.
  destruct (binary_inv _ _ _ _ _ _ _ _ H) as (P & E & R & ri & HP & HEp & HR & Hri & -> & Hm).
  cbn [sE st smin smax] in *. exists P, ri. splits; auto.
  - destruct Hm as [[? _]|[_ (W & casts & _ & Hc & _)]]; [assumption|].
    rewrite casting_helper_trap in Hc by assumption. discriminate.
  - destruct Hm as [[_ ?]|[_ (W & casts & _ & Hc & _)]]; [assumption|].
    rewrite casting_helper_trap in Hc by assumption. discriminate.
Qed.
Lemma unchecked_silent : forall D op R x y, silent (unchecked_run D op R x y).
Proof.
  intros D op R x y. unfold unchecked_run. destruct (raw_op D op R _ _) as [z|].
  - left. exists (conv D R z). reflexivity.
  - right. reflexivity.
Qed.
Lemma arith_trap : forall op f D t u x y s m, exact_op op f ->
  wf_operand D t -> wf_operand D u -> holds D t x -> holds D u y -> traps (sE s) ->
  binary D op t u x y = Some (s, m) ->
  wf_operand D (OSafe s) /\ returns m (f x y) /\ smin s <= f x y <= smax s.
Proof.
  intros op f D t u x y s m Hop Ht Hu Hx Hy HE H.
  destruct (binary_trap _ _ _ _ _ _ _ _ HE H) as (P & ri & HP & HR & Hri & Hex & Hmn & Hmx & ->).
  destruct (exact_ri _ _ _ _ _ _ _ Hop Ht Hu Hri) as ((W1 & W2 & W3) & Hchk & Hunc).
  rewrite (exact_exception op f) in Hex by assumption. apply orb_false_iff in Hex. destruct Hex as [X1 X2].
  destruct (Hunc X1 X2 x y Hx Hy) as (E1 & E2 & E3).
  split; [unfold wf_operand; cbn; rewrite Hmn, Hmx; auto|]. split; [|lia].
  unfold returns, unchecked_run. rewrite E1. cbn [mlift]. rewrite mbind_ret.
  rewrite conv_id by assumption. reflexivity.
Qed.

Lemma compare_trap : forall D c t u x y m,
  (forall E, common_ep t u = Some E -> traps E) ->
  wf_operand D t -> wf_operand D u -> holds D t x -> holds D u y ->
  compare D c t u x y = Some m -> returns m (cmp_exact c x y).
Proof.
  intros D c t u x y m HE Ht Hu Hx Hy H. unfold compare in H.
  destruct (common_pp t u) as [P|]; [|discriminate].
  destruct (common_ep t u) as [E|]; [|discriminate]. specialize (HE E eq_refl).
  destruct (result_base_type D P PCmp t u) as [R|]; [|discriminate]. cbv zeta in H.
  destruct (interval_open (lim_interval D R t) || interval_open (lim_interval D R u)) eqn:Ho.
  - rewrite casting_helper_trap in H by assumption. discriminate.
  - apply orb_false_iff in Ho. destruct Ho as [H1 H2].
    pose proof (lim_interval_vals D R t x Ht Hx H1) as Ix.
    pose proof (lim_interval_vals D R u y Hu Hy H2) as Iy.
    rewrite !conv_id in H by assumption. unfold returns.
    destruct c; cbn [cmp_exact].
    + destruct (i_lt_sound D R t u x y Ht Hu Hx Hy) as [L G]. rewrite c_lt_same in H by assumption.
      destruct (tri_bool (i_lt _ _ _ _)) eqn:A.
      { injection H as <-. rewrite (proj2 (Z.ltb_lt _ _)) by (apply L, tri_bool_true, A). reflexivity. }
      destruct (tri_bool (i_gt _ _ _ _)) eqn:B.
      { injection H as <-. apply tri_bool_true in B. specialize (G B).
        rewrite (proj2 (Z.ltb_ge _ _)) by lia. reflexivity. }
      injection H as <-. reflexivity.
    + rewrite c_eq_same in H by assumption. destruct (tri_bool (tri_not _)) eqn:A.
      { exfalso. apply tri_bool_true, tri_not_true in A. eapply intersect_false; try exact A; eassumption. }
      injection H as <-. reflexivity.
Qed.

(** ------------------------------------------------------------------ *)
(** independence of the exception policy *)
Lemma bind_silent : forall (A B : Type) (m : M A) (k : A -> M B) b,
  mbind m k = ([], Ret b) -> exists a, m = ([], Ret a) /\ k a = ([], Ret b).
Proof.
  intros A B [tr [a|e| |]] k b H; cbn in H; try discriminate.
  destruct (k a) as [tr' o] eqn:Ek. injection H as H1 H2. apply app_eq_nil in H1. destruct H1 as [-> ->].
  exists a. rewrite Ek, H2. auto.
Qed.
Lemma dar_silent : forall E c r, dispatch_and_return E c = ([], Ret r) -> exists v, c = CVal v /\ r = CVal v.
Proof.
  intros E [v|e] r H; cbn in H; [injection H as <-; eauto|].
  exfalso. unfold dispatch in H. destruct (policy_handler E _) as [[| |]|]; cbn in H; discriminate.
Qed.

Lemma base_ty_with : forall F o, base_ty (with_policy F o) = base_ty o.
Proof. destruct o; reflexivity. Qed.
Lemma lim_lo_with : forall D F o, lim_lo D (with_policy F o) = lim_lo D o.
Proof. destruct o; reflexivity. Qed.
Lemma lim_hi_with : forall D F o, lim_hi D (with_policy F o) = lim_hi D o.
Proof. destruct o; reflexivity. Qed.
Lemma get_pp_with : forall F o, get_pp (with_policy F o) = get_pp o.
Proof. destruct o; reflexivity. Qed.
Lemma get_ep_with : forall F o, get_ep (with_policy F o) = option_map (fun _ => F) (get_ep o).
Proof. destruct o; reflexivity. Qed.
Lemma is_safe_with : forall F o, is_safe (with_policy F o) = is_safe o.
Proof. destruct o; reflexivity. Qed.
Lemma lim_interval_with : forall D R F o, lim_interval D R (with_policy F o) = lim_interval D R o.
Proof. destruct o; reflexivity. Qed.
Lemma common_pp_with : forall F t u, common_pp (with_policy F t) (with_policy F u) = common_pp t u.
Proof. intros. unfold common_pp. rewrite !is_safe_with, !get_pp_with. reflexivity. Qed.
Lemma common_ep_with : forall F t u E, common_ep t u = Some E ->
  common_ep (with_policy F t) (with_policy F u) = Some F.
Proof.
  intros F t u E. unfold common_ep. rewrite !is_safe_with, !get_ep_with.
  destruct (_ || _); [|discriminate].
  destruct (get_ep t) as [a|], (get_ep u) as [b|]; cbn; try rewrite ep_eqb_refl; auto. discriminate.
Qed.
Lemma result_base_type_with : forall D P op F t u,
  result_base_type D P op (with_policy F t) (with_policy F u) = result_base_type D P op t u.
Proof. intros D P op F t u. destruct t, u; reflexivity. Qed.
Lemma r_type_interval_with : forall D op R F t u,
  r_type_interval D op R (with_policy F t) (with_policy F u) = r_type_interval D op R t u.
Proof. intros. unfold r_type_interval. rewrite !lim_interval_with. reflexivity. Qed.
Lemma exception_possible_with : forall D op R F t u ri,
  exception_possible D op R (with_policy F t) (with_policy F u) ri = exception_possible D op R t u ri.
Proof. intros. unfold exception_possible. rewrite !lim_interval_with. reflexivity. Qed.
Lemma work_type_with : forall D op R F t u,
  work_type D op R (with_policy F t) (with_policy F u) = work_type D op R t u.
Proof. intros. unfold work_type. rewrite !base_ty_with. reflexivity. Qed.

Lemma cast_operand_with : forall D E F R o x m m' v,
  cast_operand D E R o x = Some m -> cast_operand D F R (with_policy F o) x = Some m' ->
  m = ([], Ret v) -> m' = ([], Ret v).
Proof.
  intros D E F R o x m m' v H H' Hm. unfold cast_operand in *. rewrite base_ty_with in H'.
  destruct (static_cast_builtin D R o x) as [fb|]; [|discriminate].
  destruct (static_cast_builtin D R (with_policy F o) x) as [fb'|]; [|discriminate].
  destruct (all_compile E _); [|discriminate]. destruct (all_compile F _); [|discriminate].
  injection H as <-. injection H' as <-.
  apply bind_silent in Hm. destruct Hm as (a & H1 & H2). apply dar_silent in H1.
  destruct H1 as (w & Ec & ->). rewrite Ec. cbn in H2. cbn. exact H2.
Qed.
Lemma casting_helper_with : forall D E F R t u x y m m' p,
  casting_helper D E R t u x y = Some m ->
  casting_helper D F R (with_policy F t) (with_policy F u) x y = Some m' ->
  m = ([], Ret p) -> m' = ([], Ret p).
Proof.
  intros D E F R t u x y m m' p H H' Hm. unfold casting_helper in *.
  destruct (cast_operand D E R t x) as [a|] eqn:Ea; [|discriminate].
  destruct (cast_operand D E R u y) as [b|] eqn:Eb; [|discriminate].
  destruct (cast_operand D F R (with_policy F t) x) as [a'|] eqn:Ea'; [|discriminate].
  destruct (cast_operand D F R (with_policy F u) y) as [b'|] eqn:Eb'; [|discriminate].
  injection H as <-. injection H' as <-.
  apply bind_silent in Hm. destruct Hm as (v & H1 & Hm).
  apply bind_silent in Hm. destruct Hm as (w & H2 & Hm).
  rewrite (cast_operand_with _ _ _ _ _ _ _ _ v Ea Ea' H1).
  change (([] : list event), Ret v) with (mret v). rewrite mbind_ret.
  rewrite (cast_operand_with _ _ _ _ _ _ _ _ w Eb Eb' H2).
  change (([] : list event), Ret w) with (mret w). rewrite mbind_ret. exact Hm.
Qed.
Lemma binary_with : forall D op F t u x y s m s' m' v,
  binary D op t u x y = Some (s, m) ->
  binary D op (with_policy F t) (with_policy F u) x y = Some (s', m') ->
  returns m v -> returns m' v /\ OSafe s' = with_policy F (OSafe s).
Proof.
  intros D op F t u x y s m s' m' v H H' Hm.
  destruct (binary_inv _ _ _ _ _ _ _ _ H) as (P & E & R & ri & HP & HE & HR & Hri & -> & Hc).
  destruct (binary_inv _ _ _ _ _ _ _ _ H') as (P' & E' & R' & ri' & HP' & HE' & HR' & Hri' & -> & Hc').
  rewrite (common_ep_with F _ _ _ HE) in HE'. injection HE' as <-.
  rewrite common_pp_with, HP in HP'. injection HP' as <-.
  rewrite result_base_type_with, HR in HR'. injection HR' as <-.
  rewrite r_type_interval_with, Hri in Hri'. injection Hri' as <-.
  rewrite exception_possible_with in Hc'. split; [|reflexivity].
  destruct Hc as [[X ->]|[X (W & casts & HW & Hk & _ & ->)]];
  destruct Hc' as [[X' ->]|[X' (W' & casts' & HW' & Hk' & _ & ->)]]; try congruence.
  rewrite work_type_with, HW in HW'. injection HW' as <-.
  unfold checked_run in Hm. apply bind_silent in Hm. destruct Hm as (p & H1 & Hm).
  apply bind_silent in Hm. destruct Hm as (c & H2 & Hm).
  apply bind_silent in Hm. destruct Hm as (r & H3 & Hm).
  apply dar_silent in H3. destruct H3 as (w & -> & ->).
  unfold checked_run. rewrite (casting_helper_with _ _ _ _ _ _ _ _ _ _ p Hk Hk' H1).
  change (([] : list event), Ret p) with (mret p). rewrite mbind_ret. rewrite H2.
  change (([] : list event), Ret (CVal w)) with (mret (CVal w)). rewrite mbind_ret.
  rewrite dar_val, mbind_ret. exact Hm.
Qed.
Lemma validate_with : forall D R mn mx E F T slo shi x m m' v,
  validate D R mn mx E T slo shi x = Some m ->
  validate D R mn mx F T slo shi x = Some m' -> returns m v -> returns m' v.
Proof.
  intros D R mn mx E F T slo shi x m m' v H H' Hm. unfold validate in *.
  destruct (validate_static D R mn mx T slo shi) as [[|]|]; [congruence| |discriminate].
  destruct E as [E0|]; [|discriminate]. destruct F as [F0|]; [|discriminate].
  destruct (all_compile E0 _); [|discriminate]. destruct (all_compile F0 _); [|discriminate].
  injection H as <-. injection H' as <-.
  apply bind_silent in Hm. destruct Hm as (c & H1 & Hm). apply dar_silent in H1.
  destruct H1 as (w & -> & ->). exact Hm.
Qed.
Lemma compare_with : forall D c F t u x y m m' v,
  compare D c t u x y = Some m ->
  compare D c (with_policy F t) (with_policy F u) x y = Some m' ->
  returns m v -> returns m' v.
Proof.
  intros D c F t u x y m m' v H H' Hm. unfold compare in H, H'.
  rewrite common_pp_with in H'. destruct (common_pp t u) as [P|]; [|discriminate].
  destruct (common_ep t u) as [E|] eqn:HE; [|discriminate].
  rewrite (common_ep_with F _ _ _ HE) in H'. rewrite result_base_type_with in H'.
  destruct (result_base_type D P PCmp t u) as [R|]; [|discriminate]. cbv zeta in H, H'.
  rewrite !lim_interval_with in H'.
  destruct (_ || _).
  - destruct (casting_helper D E R t u x y) as [k|] eqn:Hk; [|discriminate].
    destruct (casting_helper D F R (with_policy F t) (with_policy F u) x y) as [k'|] eqn:Hk'; [|discriminate].
    assert (HG : forall (g : Z * Z -> bool), returns (mbind k (fun p => mret (g p))) v ->
                 returns (mbind k' (fun p => mret (g p))) v).
    { intros g Hg. apply bind_silent in Hg. destruct Hg as (p & H1 & H2).
      rewrite (casting_helper_with _ _ _ _ _ _ _ _ _ _ p Hk Hk' H1). exact H2. }
    destruct c.
    + destruct (tri_bool (i_lt _ _ _ _)); [congruence|].
      destruct (tri_bool (i_gt _ _ _ _)); [congruence|].
      injection H as <-. injection H' as <-. apply (HG (fun p => less_than D R R (fst p) (snd p))). exact Hm.
    + destruct (tri_bool (tri_not _)); [congruence|].
      injection H as <-. injection H' as <-. apply (HG (fun p => equal D R R (fst p) (snd p))). exact Hm.
  - destruct c.
    + destruct (tri_bool (i_lt _ _ _ _)); [congruence|].
      destruct (tri_bool (i_gt _ _ _ _)); congruence.
    + destruct (tri_bool (tri_not _)); congruence.
Qed.
