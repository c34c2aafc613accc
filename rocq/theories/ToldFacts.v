(** ToldFacts.v -- lemmas for C57 (expressions) and C100. *)
From Coq Require Import ZArith Bool List Lia.
From Verif Require Import Base CType Spec Utility SafeCompare CheckedInteger CheckedResultOps Interval
  ExceptionPolicy Promotion SafeBase SafeSpec SafeFacts SafeConvFacts SafeBitFacts SafeTraceFacts SafePortFacts Program ToldSpec.
Import ListNotations.
Local Open Scope Z_scope.

Lemma told_ret : forall (A : Type) Es (a : A), told Es (mret a).
Proof. intros A Es a. apply Forall_nil. Qed.
Lemma told_undef : forall (A : Type) Es, told Es (@mundef A).
Proof. intros A Es. apply Forall_nil. Qed.
Lemma told_lift : forall (A : Type) Es (r : res A), told Es (mlift r).
Proof. intros A Es [a|]; [apply told_ret|apply told_undef]. Qed.
Lemma let_pass_mono : forall (Es Fs : ep -> Prop) l, (forall E, Es E -> Fs E) ->
  Forall (let_pass Es) l -> Forall (let_pass Fs) l.
Proof.
  intros Es Fs l H. apply Forall_impl. intros ev (H1 & E & HE & H2). split; [exact H1|]. exists E. auto.
Qed.
Lemma told_mono : forall (A : Type) (Es Fs : ep -> Prop) (m : M A), (forall E, Es E -> Fs E) -> told Es m -> told Fs m.
Proof.
  intros A Es Fs [tr [a|e| |]] H Hm; cbn in *.
  - exact (let_pass_mono _ _ _ H Hm).
  - destruct Hm as (l & -> & Hl & E & HE & Ht). exists l. split; [reflexivity|]. split; [exact (let_pass_mono _ _ _ H Hl)|].
    exists E. auto.
  - exact (let_pass_mono _ _ _ H Hm).
  - exact Hm.
Qed.
Lemma told_bind : forall (A B : Type) Es (m : M A) (k : A -> M B),
  told Es m -> (forall a, told Es (k a)) -> told Es (mbind m k).
Proof.
  intros A B Es [tr [a|e| |]] k Hm Hk; cbn [mbind].
  - specialize (Hk a). destruct (k a) as [tr' [b|e| |]]; cbn in *.
    + apply Forall_app. auto.
    + destruct Hk as (l & -> & Hl & HE). exists (tr ++ l). split; [apply app_assoc|]. split; [apply Forall_app; auto|exact HE].
    + apply Forall_app. auto.
    + exact Hk.
  - exact Hm.
  - exact Hm.
  - exact Hm.
Qed.

Lemma told_dispatch : forall (Es : ep -> Prop) E e, Es E -> dispatch_compiles E e = true -> told Es (dispatch E e).
Proof.
  intros Es E e HE H. unfold dispatch, dispatch_compiles in *. rewrite class_action in *.
  assert (HA : forall h, policy_handler E (class_of e) = Some h -> answers E e h).
  { intros h. unfold answers, policy_handler. destruct (class_of e); intros [= <-]; reflexivity. }
  destruct (policy_handler E (class_of e)) as [[| |]|] eqn:Hp; try discriminate.
  - exists []. split; [reflexivity|]. split; [constructor|]. exists E. auto.
  - constructor; [|constructor]. split; [reflexivity|]. exists E. auto.
Qed.
Lemma told_dar : forall (Es : ep -> Prop) E c, Es E -> (forall e, c = CErr e -> dispatch_compiles E e = true) ->
  told Es (dispatch_and_return E c).
Proof.
  intros Es E [v|e] HE H; cbn [dispatch_and_return]; [apply told_ret|].
  apply told_bind; [apply told_dispatch; auto|]. intros _. apply told_ret.
Qed.

(** the errors that can occur are among those whose dispatch is compiled *)
Lemma all_compile_in : forall E es e, all_compile E es = true -> In e es -> dispatch_compiles E e = true.
Proof. intros E es e H Hi. exact (proj1 (forallb_forall _ _) H e Hi). Qed.
Lemma het_cast_in : forall D R mn mx T x e, het_cast D R mn mx T x = CErr e -> In e (cast_errors D R T).
Proof.
  intros D R mn mx T x e H. unfold het_cast in H. unfold cast_errors.
  destruct (csigned D R), (csigned D T);
  repeat match goal with
  | H : context [if ?b then _ else _] |- _ => destruct b
  end; try discriminate; injection H as <-; cbn; auto.
Qed.
Lemma cast_in : forall D R T x e, cast D R T x = CErr e -> In e (cast_errors D R T).
Proof. intros D R T x e H. exact (het_cast_in _ _ _ _ _ _ _ H). Qed.

Definition errs_in (es : list err) (r : res checked) : Prop := forall e, r = Ok (CErr e) -> In e es.
Lemma errs_bind : forall (A : Type) es (m : res A) (k : A -> res checked), (forall a, errs_in es (k a)) -> errs_in es (rbind m k).
Proof. intros A es [a|] k H e Hr; cbn in Hr; [exact (H a e Hr)|discriminate]. Qed.
Lemma errs_ret : forall es D R m, errs_in es (ret D R m).
Proof. intros es D R [z|] e H; cbn in H; discriminate. Qed.
Lemma errs_val : forall es v, errs_in es (Ok (CVal v)).
Proof. intros es v e H. discriminate. Qed.
Lemma errs_err : forall es e, In e es -> errs_in es (Ok (CErr e)).
Proof. intros es e H e' [= <-]. exact H. Qed.
Lemma errs_if : forall es (b : bool) r1 r2, errs_in es r1 -> errs_in es r2 -> errs_in es (if b then r1 else r2).
Proof. intros es [] r1 r2 H1 H2; assumption. Qed.
Ltac errs_tac :=
  repeat first
  [ apply errs_ret | apply errs_val
  | apply errs_err; cbn; tauto
  | apply errs_if
  | apply errs_bind; intros ? ].

Lemma checked_op_in : forall D op W x y, errs_in (op_errors D op W) (checked_op D op W x y).
Proof.
  intros D op W x y. unfold op_errors. destruct op; cbn [checked_op].
  - unfold add. destruct (csigned D W); errs_tac.
  - unfold subtract. destruct (csigned D W); errs_tac.
  - unfold multiply. cbv zeta.
    destruct (csigned D W), (_ <? _);
      unfold multiply_signed_big, multiply_signed_small, multiply_unsigned_big, multiply_unsigned_small;
      cbv zeta; errs_tac.
  - unfold divide. destruct (csigned D W); errs_tac.
  - unfold modulus. destruct (csigned D W); errs_tac. destruct a; errs_tac.
  - unfold left_shift, left_shift_detail. errs_tac.
  - unfold right_shift, right_shift_detail. destruct (csigned D W); cbn [andb]; errs_tac.
Qed.

Lemma validate_told : forall (Es : ep -> Prop) D R mn mx E T slo shi x m,
  (forall E0, E = Some E0 -> Es E0) -> validate D R mn mx E T slo shi x = Some m -> told Es m.
Proof.
  intros Es D R mn mx E T slo shi x m HE H. unfold validate in H.
  destruct (validate_static D R mn mx T slo shi) as [[|]|]; [|destruct E as [E0|]; [|discriminate]|discriminate].
  - injection H as <-. apply told_ret.
  - destruct (all_compile E0 _) eqn:Ha; [|discriminate]. injection H as <-.
    apply told_bind; [|intros a; apply told_lift].
    apply told_dar; [auto|]. intros e He. eapply all_compile_in; [exact Ha|]. exact (het_cast_in _ _ _ _ _ _ _ He).
Qed.
Lemma construct_told : forall D s o x m, construct D s o x = Some m -> told (fun E => E = sE s) m.
Proof. intros D s o x m H. eapply validate_told; [|exact H]. intros E0 [= <-]. reflexivity. Qed.
Lemma to_builtin_told : forall D R s x m, to_builtin D R s x = Some m -> told (fun E => E = sE s) m.
Proof. intros D R s x m H. eapply validate_told; [|exact H]. intros E0 [= <-]. reflexivity. Qed.
Lemma static_cast_told : forall D R o x m, static_cast_builtin D R o x = Some m -> told (fun E => get_ep o = Some E) m.
Proof.
  intros D R [T|s|T N P E] x m H; cbn [static_cast_builtin get_ep] in *.
  - injection H as <-. apply told_ret.
  - eapply told_mono; [|exact (to_builtin_told _ _ _ _ _ H)]. intros E ->. reflexivity.
  - eapply validate_told; [|exact H]. intros E0 He. exact He.
Qed.

Lemma common_ep_operand : forall t u E F, common_ep t u = Some E -> get_ep t = Some F \/ get_ep u = Some F -> F = E.
Proof.
  intros t u E F. unfold common_ep. destruct (_ || _); [|discriminate].
  destruct (get_ep t) as [a|], (get_ep u) as [b|]; intros H [Hf|Hf]; try discriminate;
    try congruence; destruct (ep_eqb a b) eqn:He; try discriminate; apply ep_eqb_eq in He; congruence.
Qed.
Lemma common_pp_operand : forall t u P Q, common_pp t u = Some P -> get_pp t = Some Q \/ get_pp u = Some Q -> Q = P.
Proof.
  intros t u P Q. unfold common_pp. destruct (_ || _); [|discriminate].
  destruct (get_pp t) as [a|], (get_pp u) as [b|]; intros H [Hf|Hf]; try discriminate;
    try congruence; destruct (pp_eqb a b) eqn:He; try discriminate; apply pp_eqb_eq in He; congruence.
Qed.
Lemma common_ep_from : forall t u E, common_ep t u = Some E -> get_ep t = Some E \/ get_ep u = Some E.
Proof.
  intros t u E. unfold common_ep. destruct (_ || _); [|discriminate].
  destruct (get_ep t) as [a|], (get_ep u) as [b|]; intros H; try discriminate; auto.
  destruct (ep_eqb a b); [auto|discriminate].
Qed.

Lemma cast_operand_told : forall (Es : ep -> Prop) D E R o x m, Es E -> (forall F, get_ep o = Some F -> Es F) ->
  cast_operand D E R o x = Some m -> told Es m.
Proof.
  intros Es D E R o x m HE HF H. unfold cast_operand in H.
  destruct (static_cast_builtin D R o x) as [fb|] eqn:Ef; [|discriminate].
  destruct (all_compile E _) eqn:Ha; [|discriminate]. injection H as <-.
  apply told_bind.
  - apply told_dar; [exact HE|]. intros e He. eapply all_compile_in; [exact Ha|]. exact (cast_in _ _ _ _ _ He).
  - intros [v|e]; [apply told_ret|]. eapply told_mono; [|exact (static_cast_told _ _ _ _ _ Ef)]. exact HF.
Qed.
Lemma casting_helper_told : forall D E R t u x y m, common_ep t u = Some E ->
  casting_helper D E R t u x y = Some m -> told (fun F => F = E) m.
Proof.
  intros D E R t u x y m HE H. unfold casting_helper in H.
  destruct (cast_operand D E R t x) as [mx|] eqn:Ex; [|discriminate].
  destruct (cast_operand D E R u y) as [my|] eqn:Ey; [|discriminate]. injection H as <-.
  apply told_bind; [|intros a; apply told_bind; [|intros b; apply told_ret]].
  - eapply cast_operand_told; [| |exact Ex]; [reflexivity|]. intros F HF. eapply common_ep_operand; [exact HE|auto].
  - eapply cast_operand_told; [| |exact Ey]; [reflexivity|]. intros F HF. eapply common_ep_operand; [exact HE|auto].
Qed.

Lemma binary_told : forall D op t u x y s m, binary D op t u x y = Some (s, m) -> told (fun F => F = sE s) m.
Proof.
  intros D op t u x y s m H. destruct (binary_policy _ _ _ _ _ _ _ _ H) as [HE _].
  unfold binary in H. destruct (op_static D op t u) as [oi|] eqn:Hs; [|discriminate].
  assert (HEE : oi_E oi = sE (oi_type oi)).
  { unfold op_static in Hs. destruct (common_pp t u); [|discriminate]. destruct (common_ep t u); [|discriminate].
    destruct (result_base_type _ _ _ _ _); [|discriminate]. destruct (r_type_interval _ _ _ _ _); [|discriminate].
    injection Hs as <-. reflexivity. }
  destruct (oi_checked oi).
  - destruct (work_type _ _ _ _ _) as [W|]; [|discriminate].
    destruct (casting_helper _ _ _ _ _ _ _) as [casts|] eqn:Hc; [|discriminate].
    destruct (all_compile _ _) eqn:Ha; [|discriminate]. injection H as <- <-.
    rewrite HEE in *. unfold checked_run. apply told_bind; [exact (casting_helper_told _ _ _ _ _ _ _ _ HE Hc)|].
    intros p. pose proof (checked_op_in D op W (fst p) (snd p)) as Hin.
    destruct (checked_op D op W (fst p) (snd p)) as [c|] eqn:Ec.
    + cbn [mlift]. rewrite mbind_ret.
      apply told_bind; [|intros [v|e]; [apply told_ret|apply told_bind; [apply told_lift|intros r; apply told_ret]]].
      apply told_dar; [reflexivity|]. intros e ->. eapply all_compile_in; [exact Ha|]. exact (Hin e eq_refl).
    + apply told_undef.
  - injection H as <- <-. unfold unchecked_run. apply told_bind; [apply told_lift|]. intros r. apply told_ret.
Qed.
Lemma eval_binop_told : forall D op t u x y s m, eval_binop D op t u x y = Some (s, m) -> told (fun F => F = sE s) m.
Proof.
  intros D [o|b] t u x y s m H; cbn [eval_binop] in H; [exact (binary_told _ _ _ _ _ _ _ _ H)|].
  destruct (bitwise_inv _ _ _ _ _ _ _ _ H) as (mx & _ & _ & _ & _ & _ & _ & _ & ->). apply told_ret.
Qed.
Lemma compare_told : forall D c t u x y m, compare D c t u x y = Some m ->
  told (fun F => get_ep t = Some F \/ get_ep u = Some F) m.
Proof.
  intros D c t u x y m H. unfold compare in H.
  destruct (common_pp t u) as [P|]; [|discriminate]. destruct (common_ep t u) as [E|] eqn:HE; [|discriminate].
  destruct (result_base_type D P PCmp t u) as [R|]; [|discriminate]. cbv zeta in H.
  assert (HV : forall v, (if interval_open (lim_interval D R t) || interval_open (lim_interval D R u)
      then match casting_helper D E R t u x y with
           | Some casts => Some (mbind casts (fun p => mret (match c with
               | CLt => less_than D R R (fst p) (snd p) | CEq => equal D R R (fst p) (snd p) end)))
           | None => None end
      else Some (mret (match c with CLt => c_lt D R R (conv D R x) (conv D R y)
                                  | CEq => c_eq D R R (conv D R x) (conv D R y) end))) = Some v ->
    told (fun F => get_ep t = Some F \/ get_ep u = Some F) v).
  { intros v Hv. destruct (_ || _).
    - destruct (casting_helper D E R t u x y) as [casts|] eqn:Hc; [|discriminate]. injection Hv as <-.
      apply told_bind; [|intros p; apply told_ret].
      eapply told_mono; [|exact (casting_helper_told _ _ _ _ _ _ _ _ HE Hc)].
      intros F ->. exact (common_ep_from _ _ _ HE).
    - injection Hv as <-. apply told_ret. }
  match type of H with match ?o with Some _ => _ | None => None end = _ => destruct o as [v|] eqn:Ev; [|discriminate] end.
  specialize (HV v eq_refl).
  destruct c; repeat match type of H with (if ?b then _ else _) = _ => destruct b end;
    injection H as <-; first [exact HV|apply told_ret].
Qed.
Lemma told_not : forall Es m, told Es m -> told Es (mnot m).
Proof. intros Es m H. apply told_bind; [exact H|]. intros b. apply told_ret. Qed.
Lemma relop_told : forall D r t u x y m, eval_relop D r t u x y = Some m ->
  told (fun F => get_ep t = Some F \/ get_ep u = Some F) m.
Proof.
  assert (HM : forall o m Es, (forall m0, o = Some m0 -> told Es m0) -> option_map mnot o = Some m -> told Es m).
  { intros [m0|] m Es H1 H2; [|discriminate]. injection H2 as <-. apply told_not. auto. }
  intros D r t u x y m H. destruct r; cbn [eval_relop] in H; unfold s_lt, s_gt, s_le, s_ge, s_eq, s_ne in H.
  - exact (compare_told _ _ _ _ _ _ _ H).
  - eapply told_mono; [|exact (compare_told _ _ _ _ _ _ _ H)]. intros F [HF|HF]; auto.
  - eapply HM; [|exact H]. intros m0 H0. eapply told_mono; [|exact (compare_told _ _ _ _ _ _ _ H0)]. intros F [HF|HF]; auto.
  - eapply HM; [|exact H]. intros m0 H0. exact (compare_told _ _ _ _ _ _ _ H0).
  - exact (compare_told _ _ _ _ _ _ _ H).
  - eapply HM; [|exact H]. intros m0 H0. exact (compare_told _ _ _ _ _ _ _ H0).
Qed.

Lemma convert_told : forall D tgt src x m, convert D tgt src x = Some m -> told (checker tgt src) m.
Proof.
  intros D [T|s|T N P E] src x m H; cbn [convert] in H; [|exact (construct_told _ _ _ _ _ H)|discriminate].
  destruct src as [U|s|U N P E].
  - destruct (ctype_eqb T U); [|discriminate]. injection H as <-. apply told_ret.
  - eapply told_mono; [|exact (to_builtin_told _ _ _ _ _ H)]. intros E ->. reflexivity.
  - eapply validate_told; [|exact H]. intros E0 He. exact He.
Qed.
Lemma run_told : forall (A : Type) Es (o : option (M A)), (forall m, o = Some m -> told Es m) -> told Es (run o).
Proof. intros A Es [m|] H; cbn [run]; [exact (H m eq_refl)|apply told_undef]. Qed.
Lemma run_snd_told : forall (A B : Type) Es (o : option (B * M A)), (forall b m, o = Some (b, m) -> told Es m) -> told Es (run_snd o).
Proof. intros A B Es [[b m]|] H; cbn [run_snd]; [exact (H b m eq_refl)|apply told_undef]. Qed.
Lemma read_told : forall Es s v, told Es (read s v).
Proof. intros Es s v. unfold read. destruct (s v); [apply told_ret|apply told_undef]. Qed.
Lemma both_told : forall Es first a b, told Es a -> told Es b -> told Es (both first a b).
Proof.
  intros Es [] a b Ha Hb; cbn [both].
  - apply told_bind; [exact Ha|]. intros x. apply told_bind; [exact Hb|]. intros y. apply told_ret.
  - apply told_bind; [exact Hb|]. intros y. apply told_bind; [exact Ha|]. intros x. apply told_ret.
Qed.

Lemma type_occurs : forall D G e t E, type_of D G e = Some t -> get_ep t = Some E -> occurs G e E.
Proof.
  intros D G. induction e as [o z|v|op f a IHa b IHb|a IHa|a IHa|o a IHa]; intros t E Ht HE; cbn [type_of occurs] in *.
  - congruence.
  - congruence.
  - destruct (type_of D G a) as [ta|]; [|discriminate]. destruct (type_of D G b) as [tb|]; [|discriminate].
    destruct (eval_binop D op ta tb 0 0) as [[s m]|] eqn:Eb; [|discriminate]. injection Ht as <-. injection HE as <-.
    apply eval_binop_ep, common_ep_from in Eb. destruct Eb as [H|H]; [left|right]; eauto.
  - destruct (type_of D G a) as [[|s|]|]; try discriminate.
    destruct (unary_minus D s 0) as [[s' m]|] eqn:Eb; [|discriminate]. injection Ht as <-. injection HE as <-.
    apply binary_policy in Eb. destruct Eb as [Eb _]. apply common_ep_from in Eb. destruct Eb as [H|H]; [discriminate|eauto].
  - destruct (type_of D G a) as [[|s|]|]; try discriminate. cbn in Ht. injection Ht as <-. eauto.
  - destruct (type_of D G a) as [ta|]; [|discriminate]. destruct (convert D o ta 0); [|discriminate].
    injection Ht as <-. auto.
Qed.

Lemma eval_told : forall D G s e, told (occurs G e) (eval D G s e).
Proof.
  intros D G s. induction e as [o z|v|op f a IHa b IHb|a IHa|a IHa|o a IHa]; cbn [eval].
  - apply told_ret.
  - apply read_told.
  - destruct (type_of D G a) as [ta|] eqn:Ea; [|apply told_undef].
    destruct (type_of D G b) as [tb|] eqn:Eb; [|apply told_undef].
    apply told_bind.
    + apply both_told; [eapply told_mono; [|exact IHa]|eapply told_mono; [|exact IHb]]; intros E HE; cbn [occurs]; auto.
    + intros p. apply run_snd_told. intros rs m Hm.
      eapply told_mono; [|exact (eval_binop_told _ _ _ _ _ _ _ _ Hm)]. intros E ->.
      apply eval_binop_ep, common_ep_from in Hm. destruct Hm as [H|H]; [left|right]; eapply type_occurs; eassumption.
  - destruct (type_of D G a) as [[|ts|]|] eqn:Ea; try apply told_undef.
    apply told_bind; [exact IHa|]. intros x. apply run_snd_told. intros rs m Hm.
    eapply told_mono; [|exact (binary_told _ _ _ _ _ _ _ _ Hm)]. intros E ->.
    apply binary_policy in Hm. destruct Hm as [Hm _]. apply common_ep_from in Hm. destruct Hm as [H|H]; [discriminate|].
    cbn [occurs]. eapply type_occurs; eassumption.
  - destruct (type_of D G a) as [[|ts|]|] eqn:Ea; try apply told_undef.
    apply told_bind; [exact IHa|]. intros x. apply told_ret.
  - destruct (type_of D G a) as [ta|] eqn:Ea; [|apply told_undef].
    apply told_bind; [eapply told_mono; [|exact IHa]; intros E HE; cbn [occurs]; auto|].
    intros x. apply run_told. intros m Hm. eapply told_mono; [|exact (convert_told _ _ _ _ _ Hm)].
    intros E HE. cbn [occurs]. destruct o as [T|ts|T N P F]; cbn [checker get_ep] in *.
    + right. eapply type_occurs; eassumption.
    + left. congruence.
    + right. eapply type_occurs; eassumption.
Qed.
Lemma cond_told : forall D G s c, told (occurs_cond G c) (eval_cond D G s c).
Proof.
  intros D G s [r f a b]. cbn [eval_cond].
  destruct (type_of D G a) as [ta|] eqn:Ea; [|apply told_undef].
  destruct (type_of D G b) as [tb|] eqn:Eb; [|apply told_undef].
  apply told_bind.
  - apply both_told; [eapply told_mono; [|exact (eval_told D G s a)]|eapply told_mono; [|exact (eval_told D G s b)]];
      intros E HE; cbn [occurs_cond]; auto.
  - intros p. apply run_told. intros m Hm. eapply told_mono; [|exact (relop_told _ _ _ _ _ _ _ Hm)].
    intros E [H|H]; cbn [occurs_cond]; [left|right]; eapply type_occurs; eassumption.
Qed.
Lemma compound_told : forall D op tgt u x y m, compound D op tgt u x y = Some m ->
  told (fun E => get_ep tgt = Some E \/ get_ep u = Some E) m.
Proof.
  intros D op tgt u x y m H. unfold compound in H.
  destruct (eval_binop D op tgt u x y) as [[rs m0]|] eqn:Ee; [|discriminate].
  pose proof (eval_binop_told _ _ _ _ _ _ _ _ Ee) as Hm0.
  pose proof (common_ep_from _ _ _ (eval_binop_ep _ _ _ _ _ _ _ _ Ee)) as Hc.
  assert (Hrs : forall E, E = sE rs -> get_ep tgt = Some E \/ get_ep u = Some E) by (intros E ->; exact Hc).
  destruct tgt as [T|s|T N P E].
  - destruct (to_builtin D T rs 0); [|discriminate]. injection H as <-.
    apply told_bind; [exact (told_mono _ _ _ _ Hrs Hm0)|]. intros r.
    destruct (to_builtin D T rs r) as [k|] eqn:Ek; [|apply told_undef].
    exact (told_mono _ _ _ _ Hrs (to_builtin_told _ _ _ _ _ Ek)).
  - destruct (construct D s (OSafe rs) 0); [|discriminate]. injection H as <-.
    apply told_bind; [exact (told_mono _ _ _ _ Hrs Hm0)|]. intros r.
    destruct (construct D s (OSafe rs) r) as [k|] eqn:Ek; [|apply told_undef].
    eapply told_mono; [|exact (construct_told _ _ _ _ _ Ek)]. intros E ->. left. reflexivity.
  - discriminate.
Qed.

(** programs: what is raised was thrown by a policy of the program *)
Definition thrown (Es : ep -> Prop) (r : result) : Prop :=
  match r with RRaised e => exists E, Es E /\ answers E e HThrow | _ => True end.
Lemma thrown_mono : forall (Es Fs : ep -> Prop) r, (forall E, Es E -> Fs E) -> thrown Es r -> thrown Fs r.
Proof. intros Es Fs [|e|] H Hr; cbn in *; auto. destruct Hr as (E & HE & Ha). exists E. auto. Qed.
Lemma told_thrown : forall (A : Type) Es (m : M A) e, told Es m -> snd m = Throw e -> exists E, Es E /\ answers E e HThrow.
Proof. intros A Es [tr o] e H Ho. cbn in Ho. subst o. destruct H as (l & _ & _ & H). exact H. Qed.
Lemma finish_thrown : forall (A : Type) Es s (m : M A) w s' r, told Es m -> finish s m w = (s', r) -> thrown Es r.
Proof.
  intros A Es s m w s' r Hm H. unfold finish in H.
  destruct (snd m) as [a|e| |] eqn:Eo; injection H as <- <-; cbn [thrown]; auto. exact (told_thrown _ _ _ _ Hm Eo).
Qed.
Lemma loop_thrown : forall Es (cnd : store -> M bool) body n s s' r,
  (forall s, told Es (cnd s)) -> (forall s s1 r, body s = Some (s1, r) -> thrown Es r) ->
  loop cnd body n s = Some (s', r) -> thrown Es r.
Proof.
  intros Es cnd body. induction n as [|n IH]; intros s s' r Hc Hb H; cbn [loop] in H; [discriminate|].
  destruct (snd (cnd s)) as [[|]|e| |] eqn:Ec.
  - destruct (body s) as [[s1 [|e|]]|] eqn:Eb; try discriminate.
    + exact (IH _ _ _ Hc Hb H).
    + injection H as <- <-. exact (Hb _ _ _ Eb).
    + injection H as <- <-. exact I.
  - injection H as <- <-. exact I.
  - injection H as <- <-. exact (told_thrown _ _ _ _ (Hc s) Ec).
  - injection H as <- <-. exact I.
  - injection H as <- <-. exact I.
Qed.
Lemma default_told : forall s m, default_ctor s = Some m -> told (fun E => E = sE s) m.
Proof.
  intros s m H. unfold default_ctor in H. destruct (dispatch_compiles _ _) eqn:Ed; [|discriminate]. injection H as <-.
  apply told_dispatch; [reflexivity|exact Ed].
Qed.
Lemma inc_told : forall D s x m, increment D s x = Some m -> told (fun E => E = sE s) m.
Proof.
  intros D s x m H. eapply told_mono; [|exact (compound_told _ _ _ _ _ _ _ H)]. intros E [HE|HE]; cbn in HE; congruence.
Qed.
Lemma dec_told : forall D s x m, decrement D s x = Some m -> told (fun E => E = sE s) m.
Proof.
  intros D s x m H. eapply told_mono; [|exact (compound_told _ _ _ _ _ _ _ H)]. intros E [HE|HE]; cbn in HE; congruence.
Qed.
Lemma post_told : forall D s x m (inc : bool), (if inc then post_increment D s x else post_decrement D s x) = Some m ->
  told (fun E => E = sE s) m.
Proof.
  intros D s x m [|] H; unfold post_increment, post_decrement in H.
  - destruct (increment D s x) as [k|] eqn:Ek; [|discriminate]. injection H as <-.
    apply told_bind; [exact (inc_told _ _ _ _ Ek)|]. intros n. apply told_ret.
  - destruct (decrement D s x) as [k|] eqn:Ek; [|discriminate]. injection H as <-.
    apply told_bind; [exact (dec_told _ _ _ _ Ek)|]. intros n. apply told_ret.
Qed.

Lemma exec_thrown : forall n D G c s s' r, exec n D G s c = Some (s', r) -> thrown (occurs_cmd G c) r.
Proof.
  intros n D G. induction c as [|v|v e|op v e|v|v|inc w v|a IHa b IHb|c a IHa b IHb|c a IHa|a IHa b IHb];
    intros s s' r H; cbn [exec] in H.
  - injection H as <- <-. exact I.
  - destruct (G v) as [T|t|T N P E] eqn:Ev; try (injection H as <- <-; exact I).
    injection H as H. eapply thrown_mono; [|eapply finish_thrown; [|exact H]; apply run_told; exact (default_told t)].
    intros E ->. cbn [occurs_cmd]. rewrite Ev. reflexivity.
  - destruct (type_of D G e) as [t|] eqn:Et; [|injection H as <- <-; exact I].
    injection H as H. eapply finish_thrown; [|exact H]. apply told_bind.
    + eapply told_mono; [|exact (eval_told D G s e)]. intros E HE. cbn [occurs_cmd]. auto.
    + intros x. apply run_told. intros m Hm. eapply told_mono; [|exact (convert_told _ _ _ _ _ Hm)].
      intros E HE. cbn [occurs_cmd]. destruct (G v) as [T|ts|T N P F]; cbn [checker get_ep] in *.
      * right. eapply type_occurs; eassumption.
      * left. congruence.
      * right. eapply type_occurs; eassumption.
  - destruct (type_of D G e) as [t|] eqn:Et; [|injection H as <- <-; exact I].
    injection H as H. eapply finish_thrown; [|exact H]. apply told_bind.
    + eapply told_mono; [|exact (eval_told D G s e)]. intros E HE. cbn [occurs_cmd]. auto.
    + intros y. apply told_bind; [apply read_told|]. intros x. apply run_told. intros m Hm.
      eapply told_mono; [|exact (compound_told _ _ _ _ _ _ _ Hm)].
      intros E [HE|HE]; cbn [occurs_cmd]; [left; exact HE|right; eapply type_occurs; eassumption].
  - destruct (G v) as [T|t|T N P E] eqn:Ev; try (injection H as <- <-; exact I).
    injection H as H. eapply finish_thrown; [|exact H]. apply told_bind; [apply read_told|]. intros x. apply run_told.
    intros m Hm. eapply told_mono; [|exact (inc_told _ _ _ _ Hm)]. intros E ->. cbn [occurs_cmd]. rewrite Ev. reflexivity.
  - destruct (G v) as [T|t|T N P E] eqn:Ev; try (injection H as <- <-; exact I).
    injection H as H. eapply finish_thrown; [|exact H]. apply told_bind; [apply read_told|]. intros x. apply run_told.
    intros m Hm. eapply told_mono; [|exact (dec_told _ _ _ _ Hm)]. intros E ->. cbn [occurs_cmd]. rewrite Ev. reflexivity.
  - destruct (G v) as [T|t|T N P E] eqn:Ev; try (injection H as <- <-; exact I).
    destruct (G w) as [T|t'|T N P E] eqn:Ew; try (injection H as <- <-; exact I).
    match type of H with match ?f with _ => _ end = _ => destruct f as [s1 r1] eqn:Ef end.
    assert (H1 : thrown (occurs_cmd G (CPost inc w v)) r1).
    { eapply finish_thrown; [|exact Ef]. apply told_bind; [apply read_told|]. intros x. apply run_told.
      intros m Hm. eapply told_mono; [|exact (post_told _ _ _ _ _ Hm)]. intros E ->. cbn [occurs_cmd]. rewrite Ev. auto. }
    destruct r1 as [|e1|].
    + destruct (snd (read s v)) as [old|e| |]; try (injection H as <- <-; exact I).
      injection H as H. eapply finish_thrown; [|exact H]. apply run_told. intros m Hm.
      eapply told_mono; [|exact (construct_told _ _ _ _ _ Hm)]. intros E ->. cbn [occurs_cmd]. rewrite Ew. auto.
    + injection H as <- <-. exact H1.
    + injection H as <- <-. exact I.
  - destruct (exec n D G s a) as [[s1 [|e|]]|] eqn:Ea; try discriminate.
    + eapply thrown_mono; [|exact (IHb _ _ _ H)]. intros E HE. cbn [occurs_cmd]. auto.
    + injection H as <- <-. eapply thrown_mono; [|exact (IHa _ _ _ Ea)]. intros E HE. cbn [occurs_cmd]. auto.
    + injection H as <- <-. exact I.
  - destruct (snd (eval_cond D G s c)) as [[|]|e| |] eqn:Ec.
    + eapply thrown_mono; [|exact (IHa _ _ _ H)]. intros E HE. cbn [occurs_cmd]. auto.
    + eapply thrown_mono; [|exact (IHb _ _ _ H)]. intros E HE. cbn [occurs_cmd]. auto.
    + injection H as <- <-. destruct (told_thrown _ _ _ _ (cond_told D G s c) Ec) as (E & HE & Ha).
      exists E. cbn [occurs_cmd]. auto.
    + injection H as <- <-. exact I.
    + injection H as <- <-. exact I.
  - eapply loop_thrown; [| |exact H].
    + intros s0. eapply told_mono; [|exact (cond_told D G s0 c)]. intros E HE. cbn [occurs_cmd]. auto.
    + intros s0 s1 r1 H1. eapply thrown_mono; [|exact (IHa _ _ _ H1)]. intros E HE. cbn [occurs_cmd]. auto.
  - destruct (exec n D G s a) as [[s1 [|e|]]|] eqn:Ea; try discriminate.
    + injection H as <- <-. exact I.
    + eapply thrown_mono; [|exact (IHb _ _ _ H)]. intros E HE. cbn [occurs_cmd]. auto.
    + injection H as <- <-. exact I.
Qed.

(** C57: operands of an expression share their policies *)
Lemma expr_policies : forall D G e t, type_of D G e = Some t ->
  (forall E, occurs_outside G e E -> get_ep t = Some E) /\ (forall P, promotes G e P -> get_pp t = Some P).
Proof.
  intros D G. induction e as [o z|v|op f a IHa b IHb|a IHa|a IHa|o a IHa]; intros t Ht;
    cbn [type_of occurs_outside promotes] in *.
  - injection Ht as <-. auto.
  - injection Ht as <-. auto.
  - destruct (type_of D G a) as [ta|]; [|discriminate]. destruct (type_of D G b) as [tb|]; [|discriminate].
    destruct (IHa _ eq_refl) as [A1 A2]. destruct (IHb _ eq_refl) as [B1 B2].
    destruct (eval_binop D op ta tb 0 0) as [[s m]|] eqn:Eb; [|discriminate]. injection Ht as <-.
    pose proof (eval_binop_ep _ _ _ _ _ _ _ _ Eb) as HE.
    assert (HP : common_pp ta tb = Some (sP s)).
    { destruct op as [o|o]; cbn [eval_binop] in Eb.
      - apply (binary_policy _ _ _ _ _ _ _ _ Eb).
      - destruct (bitwise_inv _ _ _ _ _ _ _ _ Eb) as (mx & HP & _). exact HP. }
    cbn [get_ep get_pp]. split.
    + intros E [H|H]; f_equal; symmetry; (eapply common_ep_operand; [exact HE|]); auto.
    + intros P [H|H]; f_equal; symmetry; (eapply common_pp_operand; [exact HP|]); auto.
  - destruct (type_of D G a) as [[|s|]|]; try discriminate. destruct (IHa _ eq_refl) as [A1 A2].
    destruct (unary_minus D s 0) as [[s' m]|] eqn:Eb; [|discriminate]. injection Ht as <-.
    apply binary_policy in Eb. destruct Eb as [HE HP]. cbn [fst get_ep get_pp]. split.
    + intros E H. f_equal. symmetry. eapply common_ep_operand; [exact HE|]. auto.
    + intros P H. f_equal. symmetry. eapply common_pp_operand; [exact HP|]. auto.
  - destruct (type_of D G a) as [[|s|]|]; try discriminate. cbn in Ht. injection Ht as <-. auto.
  - destruct (type_of D G a) as [ta|]; [|discriminate]. destruct (convert D o ta 0); [|discriminate].
    injection Ht as <-. auto.
Qed.
Lemma compare_common : forall D c t u x y m, compare D c t u x y = Some m ->
  (exists E, common_ep t u = Some E) /\ (exists P, common_pp t u = Some P).
Proof.
  intros D c t u x y m H. unfold compare in H.
  destruct (common_pp t u) as [P|]; [|discriminate]. destruct (common_ep t u) as [E|]; [|discriminate]. eauto.
Qed.
Lemma cond_policies : forall D G r f a b, cond_compiles D G (Cond r f a b) = true ->
  (forall E F, (occurs_outside G a E \/ occurs_outside G b E) -> (occurs_outside G a F \/ occurs_outside G b F) -> E = F)
  /\ (forall P Q, (promotes G a P \/ promotes G b P) -> (promotes G a Q \/ promotes G b Q) -> P = Q).
Proof.
  intros D G r f a b H. cbn [cond_compiles] in H.
  destruct (type_of D G a) as [ta|] eqn:Ea; [|discriminate]. destruct (type_of D G b) as [tb|] eqn:Eb; [|discriminate].
  destruct (expr_policies _ _ _ _ Ea) as [A1 A2]. destruct (expr_policies _ _ _ _ Eb) as [B1 B2].
  assert (HC : (exists E, forall F, get_ep ta = Some F \/ get_ep tb = Some F -> F = E)
            /\ (exists P, forall Q, get_pp ta = Some Q \/ get_pp tb = Some Q -> Q = P)).
  { assert (H2 : exists c t u x y m, compare D c t u x y = Some m /\ ((t = ta /\ u = tb) \/ (t = tb /\ u = ta))).
    { destruct r; cbn [eval_relop] in H; unfold s_lt, s_gt, s_le, s_ge, s_eq, s_ne in H;
      unfold s_lt, s_gt, s_eq in H;
      match type of H with context [compare ?D ?c ?t ?u ?x ?y] =>
        destruct (compare D c t u x y) as [m|] eqn:Em; [|discriminate];
        exists c, t, u, x, y, m; split; [exact Em|auto] end. }
    destruct H2 as (c & t & u & x & y & m & Hm & Htu). destruct (compare_common _ _ _ _ _ _ _ Hm) as [[E HE] [P HP]].
    split; [exists E; intros F HF; eapply common_ep_operand; [exact HE|]|
            exists P; intros Q HQ; eapply common_pp_operand; [exact HP|]];
      destruct Htu as [[-> ->]|[-> ->]]; tauto. }
  destruct HC as [[E HE] [P HP]]. split.
  - intros E1 E2 H1 H2. rewrite (HE E1), (HE E2); [reflexivity| |]; [destruct H2|destruct H1]; auto.
  - intros P1 P2 H1 H2. rewrite (HP P1), (HP P2); [reflexivity| |]; [destruct H2|destruct H1]; auto.
Qed.

Lemma cast_free_occurs : forall G e E, cast_free e -> occurs G e E -> occurs_outside G e E.
Proof.
  intros G e E. induction e as [o z|v|op f a IHa b IHb|a IHa|a IHa|o a IHa]; cbn [cast_free occurs occurs_outside]; auto.
  - intros [Ha Hb] [H|H]; auto.
  - intros [].
Qed.
Lemma one_policy : forall D G s e t, cast_free e -> type_of D G e = Some t -> told (fun E => get_ep t = Some E) (eval D G s e).
Proof.
  intros D G s e t Hc Ht. eapply told_mono; [|exact (eval_told D G s e)].
  intros E HE. apply (proj1 (expr_policies _ _ _ _ Ht)). exact (cast_free_occurs _ _ _ Hc HE).
Qed.
Lemma exec_raised : forall n D G c s s' e, exec n D G s c = Some (s', RRaised e) ->
  exists E, occurs_cmd G c E /\ answers E e HThrow.
Proof. intros n D G c s s' e H. exact (exec_thrown _ _ _ _ _ _ _ H). Qed.
Lemma never_raised : forall n D G c s s' e, (forall E, occurs_cmd G c E -> ~ answers E e HThrow) ->
  exec n D G s c <> Some (s', RRaised e).
Proof. intros n D G c s s' e H He. destruct (exec_raised _ _ _ _ _ _ _ He) as (E & HE & Ha). exact (H E HE Ha). Qed.
