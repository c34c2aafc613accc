(** BoolFacts.v -- facts about the conversions between safe integers and bool.
    Proofs only. *)
From Coq Require Import ZArith Bool List Lia.
From Verif Require Import Base CType Spec CTypeFacts Utility UtilityFacts SafeCompare
  CheckedInteger CheckedIntegerFacts CheckedResultOps CheckedResultFacts Interval IntervalFacts
  IntervalOpsFacts ExceptionPolicy Promotion SafeBase SafeSpec SafeFacts SafeDivFacts SafeConvFacts
  Program ProgramSpec ProgramFacts BoolConv BoolSpec.
Import ListNotations.
Local Open Scope Z_scope.

Lemma b2z_small : forall b, 0 <= Z.b2z b <= 127.
Proof. destruct b; cbn; lia. Qed.

Lemma less_than_bool_spec : forall D T t b, in_type D T t -> less_than_bool D T t b = (t <? Z.b2z b).
Proof.
  intros D T t b Ht. unfold less_than_bool. pose proof (b2z_small b) as Hb. destruct (csigned D T) eqn:E.
  - rewrite c_lt_int_r by (auto; lia). destruct (Z.ltb_spec t 0).
    + symmetry. apply Z.ltb_lt. lia.
    + rewrite conv_id by (apply to_unsigned_in; assumption).
      rewrite c_lt_int_r by (auto; apply to_unsigned_in; assumption). reflexivity.
  - rewrite c_lt_int_r by auto. reflexivity.
Qed.

Lemma bool_less_than_spec : forall D U b u, in_type D U u -> bool_less_than D U b u = (Z.b2z b <? u).
Proof.
  intros D T b t Ht. unfold bool_less_than. pose proof (b2z_small b) as Hb. destruct (csigned D T) eqn:E.
  - rewrite c_lt_int_r by (auto; lia). destruct (Z.ltb_spec t 0).
    + symmetry. apply Z.ltb_ge. lia.
    + rewrite conv_id by (apply to_unsigned_in; assumption).
      rewrite c_lt_int_l by (auto; apply to_unsigned_in; assumption). reflexivity.
  - rewrite c_lt_int_l by auto. reflexivity.
Qed.

Lemma cast_to_bool_spec : forall D T t, in_type D T t ->
  (t < 0 /\ cast_to_bool D T t = CErr domain_error)
  \/ (1 < t /\ cast_to_bool D T t = CErr positive_overflow_error)
  \/ (flag t /\ cast_to_bool D T t = CVal t).
Proof.
  intros D T t Ht. unfold cast_to_bool, flag. rewrite less_than_bool_spec, bool_less_than_spec by assumption.
  cbn [Z.b2z]. destruct (csigned D T) eqn:E.
  - destruct (Z.ltb_spec t 0); [left; split; [assumption|reflexivity]|].
    destruct (Z.ltb_spec 1 t); [right; left; split; [assumption|reflexivity]|].
    right; right. assert (t = 0 \/ t = 1) as [-> | ->] by lia; split; auto.
  - pose proof (lo_unsigned D T E).
    destruct (Z.ltb_spec 1 t); [right; left; split; [assumption|reflexivity]|].
    destruct (Z.ltb_spec t 0); [unfold in_type in *; lia|].
    right; right. assert (t = 0 \/ t = 1) as [-> | ->] by lia; split; auto.
Qed.

(** the static part *)
Definition static_to_bool (D : dmodel) (T : ctype) (slo shi : Z) : option bool :=
  let t_interval := mkI (cast_to_bool D T slo) (cast_to_bool D T shi) in
  let r_interval := mkI (CVal 0) (CVal 1) in
  if tri_bool (excludes D Int r_interval t_interval) then None
  else Some (tri_bool (includes D Int r_interval t_interval)).

Lemma static_to_bool_spec : forall D T slo shi, in_type D T slo -> in_type D T shi -> slo <= shi ->
  static_to_bool D T slo shi =
    if 1 <? slo then None else Some ((0 <=? slo) && (shi <=? 1)).
Proof.
  intros D T a b Ha Hb Hab. unfold static_to_bool, flag in *.
  destruct (cast_to_bool_spec D T a Ha) as [[Ka ->]|[[Ka ->]|[Ka ->]]];
  destruct (cast_to_bool_spec D T b Hb) as [[Kb ->]|[[Kb ->]|[Kb ->]]]; unfold flag in *; try lia;
  try (destruct Ka as [-> | ->]); try (destruct Kb as [-> | ->]); try lia;
  repeat match goal with
    | |- context [?x <? ?y] => destruct (Z.ltb_spec x y); try lia
    | |- context [?x <=? ?y] => destruct (Z.leb_spec x y); try lia
    end; destruct D; vm_compute; reflexivity.
Qed.

Lemma validate_to_bool_unfold : forall D E T slo shi x,
  validate_to_bool D E T slo shi x =
  match static_to_bool D T slo shi with
  | None => None
  | Some true => Some (mret (to_b x))
  | Some false =>
      match E with
      | None => None
      | Some E =>
          if all_compile E (to_bool_errors D T) then
            Some (mbind (dispatch_and_return E (cast_to_bool D T x))
                        (fun rx => mbind (mlift (cr_value rx)) (fun z => mret (to_b z))))
          else None
      end
  end.
Proof.
  intros. unfold validate_to_bool, static_to_bool. cbv zeta.
  destruct (tri_bool (excludes _ _ _ _)); [reflexivity|]. destruct (tri_bool (includes _ _ _ _)); reflexivity.
Qed.

Lemma validate_to_bool_char : forall D E T slo shi x m,
  in_type D T slo -> in_type D T shi -> slo <= x <= shi ->
  (forall E0, E = Some E0 -> throws_arithmetic E0) ->
  validate_to_bool D E T slo shi x = Some m ->
  (flag x /\ returns m (x =? 1))
  \/ (x < 0 /\ m = ([(arithmetic_error, domain_error)], Throw domain_error))
  \/ (1 < x /\ m = ([(arithmetic_error, positive_overflow_error)], Throw positive_overflow_error)).
Proof.
  intros D E T slo shi x m Hl Hh Hx HE H. rewrite validate_to_bool_unfold in H.
  rewrite static_to_bool_spec in H by (auto; lia).
  destruct (Z.ltb_spec 1 slo) as [A|A]; [discriminate|].
  destruct ((0 <=? slo) && (shi <=? 1)) eqn:B.
  - apply andb_true_iff in B. destruct B as [B1 B2]. apply Z.leb_le in B1, B2. injection H as <-.
    left. assert (x = 0 \/ x = 1) as F by lia. split; [exact F|].
    destruct F as [-> | ->]; reflexivity.
  - destruct E as [E0|]; [|discriminate]. destruct (all_compile _ _); [|discriminate]. injection H as <-.
    specialize (HE E0 eq_refl).
    destruct (cast_to_bool_spec D T x ltac:(unfold in_type in *; lia)) as [[K ->]|[[K ->]|[K ->]]].
    + right; left. split; [assumption|]. cbn [dispatch_and_return].
      unfold dispatch_and_return. rewrite (dispatch_arith E0 domain_error HE) by (unfold arithmetic_err; auto). reflexivity.
    + right; right. split; [assumption|].
      unfold dispatch_and_return. rewrite (dispatch_arith E0 positive_overflow_error HE) by (unfold arithmetic_err; auto). reflexivity.
    + left. split; [assumption|]. destruct K as [-> | ->]; reflexivity.
Qed.

Lemma safe_bounds : forall D T, lo D T <= 0 /\ 127 <= hi D T.
Proof. destruct D, T; vm_compute; split; congruence. Qed.

Lemma C93_test_lemma : forall D o x m, wf_operand D o -> holds D o x ->
  (forall E, get_ep o = Some E -> throws_arithmetic E) -> (forall T, o <> ORaw T) ->
  to_bool D o x = Some m ->
  (flag x /\ returns m (x =? 1))
  \/ (x < 0 /\ m = ([(arithmetic_error, domain_error)], Throw domain_error))
  \/ (1 < x /\ m = ([(arithmetic_error, positive_overflow_error)], Throw positive_overflow_error)).
Proof.
  intros D o x m W Hx HE HR H. pose proof (holds_in D o x W Hx) as Hi.
  destruct o as [T|s|T N P E]; cbn [to_bool] in H.
  - exfalso. eapply HR. reflexivity.
  - cbn [base_ty] in Hi. apply (validate_to_bool_char D (Some (sE s)) (st s) _ _ x m (lo_in D (st s)) (hi_in D (st s)) Hi); [|assumption].
    intros E0 [= <-]. apply HE. reflexivity.
  - cbn [base_ty] in Hi. assert (x = N) by (unfold holds in Hx; cbn in Hx; lia). subst x.
    apply (validate_to_bool_char D E T N N N m Hi Hi); [lia| |assumption].
    intros E0 ->. apply HE. reflexivity.
Qed.

Lemma to_bool_errors_compile : forall D E T, on_arithmetic_error E <> HTrap ->
  all_compile E (to_bool_errors D T) = true.
Proof.
  intros D E T H. unfold to_bool_errors, all_compile. destruct (csigned D T); cbn; unfold dispatch_compiles; cbn;
  destruct (on_arithmetic_error E); cbn; congruence.
Qed.
Lemma to_bool_errors_trap : forall D E T, on_arithmetic_error E = HTrap ->
  all_compile E (to_bool_errors D T) = false.
Proof.
  intros D E T H. unfold to_bool_errors, all_compile.
  destruct (csigned D T); cbn; unfold dispatch_compiles; cbn; rewrite H; reflexivity.
Qed.

Lemma C93_compiles_lemma : forall D s x,
  to_bool D (OSafe s) x <> None <-> on_arithmetic_error (sE s) <> HTrap.
Proof.
  intros D s x. cbn [to_bool]. rewrite validate_to_bool_unfold.
  pose proof (safe_bounds D (st s)) as [A B].
  rewrite static_to_bool_spec by (auto using lo_in, hi_in; lia).
  destruct (Z.ltb_spec 1 (lo D (st s))); [lia|].
  replace (hi D (st s) <=? 1) with false by (symmetry; apply Z.leb_gt; lia).
  rewrite andb_false_r. split.
  - intros H1 H2. rewrite to_bool_errors_trap in H1 by assumption. congruence.
  - intros H1. rewrite to_bool_errors_compile by assumption. discriminate.
Qed.

Lemma C93_literal_lemma : forall D T N P E x, in_type D T N ->
  (1 < N -> to_bool D (OLit T N P E) x = None)
  /\ (flag N -> to_bool D (OLit T N P E) x = Some (mret (N =? 1)))
  /\ (N < 0 -> to_bool D (OLit T N P None) x = None).
Proof.
  intros D T N P E x HN. cbn [to_bool]. rewrite !validate_to_bool_unfold.
  rewrite static_to_bool_spec by (auto; lia). unfold flag. split; [|split].
  - intros H. destruct (Z.ltb_spec 1 N); [reflexivity|lia].
  - intros [-> | ->]; reflexivity.
  - intros H. destruct (Z.ltb_spec 1 N); [lia|]. destruct (Z.leb_spec 0 N); [lia|]. reflexivity.
Qed.

(** from bool *)
Lemma cast_from_bool_spec : forall D R mn mx b, in_type D R mn -> in_type D R mx ->
  cast_from_bool D R mn mx b =
    if (mn <=? Z.b2z b) && (Z.b2z b <=? mx) then CVal (Z.b2z b) else CErr positive_overflow_error.
Proof.
  intros D R mn mx b Hn Hx. unfold cast_from_bool.
  rewrite less_than_bool_spec, bool_less_than_spec by assumption.
  destruct (Z.ltb_spec mx (Z.b2z b)), (Z.ltb_spec (Z.b2z b) mn), (Z.leb_spec mn (Z.b2z b)),
    (Z.leb_spec (Z.b2z b) mx); try lia; cbn [andb]; try reflexivity.
  rewrite conv_id; [reflexivity|]. unfold in_type in *. lia.
Qed.

Lemma cr_lt_vals : forall D R a b, in_type D R a -> in_type D R b ->
  cr_lt D R (CVal a) (CVal b) = if a <? b then TTrue else TFalse.
Proof.
  intros D R a b Ha Hb. unfold cr_lt. cbn. rewrite c_lt_same by assumption. destruct (a <? b); reflexivity.
Qed.

Lemma construct_bool_unfold : forall D s b, wf_operand D (OSafe s) ->
  construct_bool D s b =
  if (1 <? smin s) || (smax s <? 0) then None
  else if (smin s <=? 0) && (1 <=? smax s) then Some (mret (Z.b2z b))
  else if all_compile (sE s) [positive_overflow_error] then
    Some (mbind (dispatch_and_return (sE s) (cast_from_bool D (st s) (smin s) (smax s) b))
                (fun rx => mlift (cr_value rx)))
  else None.
Proof.
  intros D s b W. destruct W as (W1 & W2 & W3); cbn [base_ty lim_lo lim_hi] in W1, W2, W3.
  pose proof (safe_bounds D (st s)) as [A B].
  unfold construct_bool. cbv zeta. rewrite !cast_from_bool_spec with (mn := lo D (st s)) by auto using lo_in, hi_in.
  assert (forall c, (lo D (st s) <=? Z.b2z c) && (Z.b2z c <=? hi D (st s)) = true) as K.
  { intros c. apply andb_true_iff. rewrite !Z.leb_le. destruct c; cbn; lia. }
  rewrite !K. cbn [Z.b2z]. unfold excludes, includes, cr_ge, cr_le. cbn [il iu].
  assert (in_type D (st s) 0) by (unfold in_type; lia). assert (in_type D (st s) 1) by (unfold in_type; lia).
  assert (in_type D (st s) (smin s)) by (unfold in_type in *; lia).
  assert (in_type D (st s) (smax s)) by (unfold in_type in *; lia).
  rewrite !cr_lt_vals by assumption.
  destruct (Z.ltb_spec 1 (smin s)), (Z.ltb_spec (smax s) 0), (Z.ltb_spec (smax s) 1), (Z.ltb_spec 0 (smin s)),
    (Z.leb_spec (smin s) 0), (Z.leb_spec 1 (smax s)); try lia; cbn; try reflexivity.
  rewrite conv_id; [reflexivity|]. unfold in_type in *; destruct b; cbn; lia.
Qed.

Lemma C93_from_bool_lemma : forall D s b m, wf_operand D (OSafe s) -> throws_arithmetic (sE s) ->
  construct_bool D s b = Some m ->
  (smin s <= Z.b2z b <= smax s /\ returns m (Z.b2z b))
  \/ (~ (smin s <= Z.b2z b <= smax s) /\ throws_arith m).
Proof.
  intros D s b m W HE H. rewrite construct_bool_unfold in H by assumption.
  destruct ((1 <? smin s) || (smax s <? 0)); [discriminate|].
  destruct ((smin s <=? 0) && (1 <=? smax s)) eqn:B.
  - apply andb_true_iff in B. destruct B as [B1 B2]. apply Z.leb_le in B1, B2. injection H as <-.
    left. split; [destruct b; cbn; lia|reflexivity].
  - destruct (all_compile _ _); [|discriminate]. injection H as <-.
    destruct W as (W1 & W2 & W3); cbn [base_ty lim_lo lim_hi] in W1, W2, W3.
    rewrite cast_from_bool_spec by (unfold in_type in *; lia).
    destruct (Z.leb_spec (smin s) (Z.b2z b)), (Z.leb_spec (Z.b2z b) (smax s)); cbn [andb];
    try (left; split; [lia|reflexivity]);
    right; (split; [lia|]); apply mbind_throws; apply dar_arith; auto; unfold arithmetic_err; auto.
Qed.

Lemma C93_from_bool_compiles_lemma : forall D s b, wf_operand D (OSafe s) -> on_arithmetic_error (sE s) <> HTrap ->
  (construct_bool D s b <> None <-> smin s <= 0 <= smax s \/ smin s <= 1 <= smax s).
Proof.
  intros D s b W HE. rewrite construct_bool_unfold by assumption. destruct W as (W1 & W2 & W3); cbn [base_ty lim_lo lim_hi] in W1, W2, W3.
  assert (all_compile (sE s) [positive_overflow_error] = true) as ->.
  { unfold all_compile, dispatch_compiles. cbn. destruct (on_arithmetic_error (sE s)); cbn; congruence. }
  destruct (Z.ltb_spec 1 (smin s)), (Z.ltb_spec (smax s) 0), (Z.leb_spec (smin s) 0), (Z.leb_spec 1 (smax s)); cbn;
  (split; [intros K; try congruence; lia|intros K; try discriminate; lia]).
Qed.

Lemma C93_flag_lemma : forall D s b, wf_operand D (OSafe s) -> smin s <= 0 -> 1 <= smax s ->
  on_arithmetic_error (sE s) <> HTrap ->
  construct_bool D s b = Some (mret (Z.b2z b)) /\ to_bool D (OSafe s) (Z.b2z b) = Some (mret b).
Proof.
  intros D s b W H0 H1 HE. split.
  - rewrite construct_bool_unfold by assumption.
    destruct (Z.ltb_spec 1 (smin s)), (Z.ltb_spec (smax s) 0), (Z.leb_spec (smin s) 0), (Z.leb_spec 1 (smax s)); try lia; reflexivity.
  - cbn [to_bool]. rewrite validate_to_bool_unfold. pose proof (safe_bounds D (st s)) as [A B].
    rewrite static_to_bool_spec by (auto using lo_in, hi_in; lia).
    destruct (Z.ltb_spec 1 (lo D (st s))); [lia|].
    replace (hi D (st s) <=? 1) with false by (symmetry; apply Z.leb_gt; lia).
    rewrite andb_false_r, to_bool_errors_compile by assumption.
    destruct (cast_to_bool_spec D (st s) (Z.b2z b)) as [[K ?]|[[K ?]|[K ->]]];
      [unfold in_type; destruct b; cbn; lia|destruct b; cbn in K; lia|destruct b; cbn in K; lia|].
    destruct b; reflexivity.
Qed.

(** conditions *)
Lemma to_bool_any : forall D o x y m, to_bool D o x = Some m -> exists k, to_bool D o y = Some k.
Proof.
  intros D o x y m. destruct o as [T|s|T N P E]; cbn [to_bool]; [eauto| |eauto].
  rewrite !validate_to_bool_unfold.
  destruct (static_to_bool _ _ _ _) as [[|]|]; [eauto| |discriminate].
  destruct (all_compile _ _); [eauto|discriminate].
Qed.

Lemma C93_conditions_lemma : forall n D G s i t, (forall v, type_ok n D (G v)) -> store_ok D G s i ->
  test_ok n D t -> test_compiles D G t = true ->
  (exists b, test_value i t = Some b /\ returns (eval_test D G s t) b) \/ throws_arith (eval_test D G s t).
Proof.
  intros n D G s i t HG Hs. induction t as [e|c|a IHa|a IHa b IHb|a IHa b IHb];
  intros Ht Hc; cbn [test_ok test_compiles test_value eval_test] in *.
  - destruct (type_of D G e) as [o|] eqn:Eo; [|discriminate].
    destruct (to_bool D o 0) as [m0|] eqn:E0; [|discriminate].
    destruct (expr_char n D G s i e o HG Hs Ht Eo) as [To [(z & V & R & B)|T]]; [|right; apply mbind_throws; assumption].
    destruct (to_bool_any D o 0 z m0 E0) as [k Ek].
    rewrite V. unfold returns in R. rewrite R. change ([], Ret z) with (mret z). rewrite mbind_ret, Ek. cbn [run option_map].
    destruct To as (W & EE & _). destruct o as [U|u|U N P E].
    + injection Ek as <-. left. eexists. split; [reflexivity|]. reflexivity.
    + destruct (C93_test_lemma D _ z k W B EE ltac:(discriminate) Ek) as [[F K]|[[F ->]|[F ->]]].
      * left. eexists. split; [reflexivity|]. destruct F as [-> | ->]; exact K.
      * right. eexists. split; [|reflexivity]. unfold arithmetic_err; auto.
      * right. eexists. split; [|reflexivity]. unfold arithmetic_err; auto.
    + destruct (C93_test_lemma D _ z k W B EE ltac:(discriminate) Ek) as [[F K]|[[F ->]|[F ->]]].
      * left. eexists. split; [reflexivity|]. destruct F as [-> | ->]; exact K.
      * right. eexists. split; [|reflexivity]. unfold arithmetic_err; auto.
      * right. eexists. split; [|reflexivity]. unfold arithmetic_err; auto.
  - exact (cond_char n D G s i c HG Hs Ht Hc).
  - destruct (IHa Ht Hc) as [(b & V & R)|T]; [left|right; apply mbind_throws; assumption].
    exists (negb b). rewrite V. unfold returns in R |- *. rewrite R. split; reflexivity.
  - apply andb_true_iff in Hc. destruct Hc as [Ca Cb], Ht as [Ta Tb].
    destruct (IHa Ta Ca) as [(x & V & R)|T]; [|right; apply mbind_throws; assumption].
    rewrite V. unfold returns in R. rewrite R. change ([], Ret x) with (mret x). rewrite mbind_ret.
    destruct x; [apply IHb; assumption|]. left. exists false. split; reflexivity.
  - apply andb_true_iff in Hc. destruct Hc as [Ca Cb], Ht as [Ta Tb].
    destruct (IHa Ta Ca) as [(x & V & R)|T]; [|right; apply mbind_throws; assumption].
    rewrite V. unfold returns in R. rewrite R. change ([], Ret x) with (mret x). rewrite mbind_ret.
    destruct x; [|apply IHb; assumption]. left. exists true. split; reflexivity.
Qed.

Lemma C93_flags_lemma : forall n D G s i t, (forall v, type_ok n D (G v)) -> store_ok D G s i ->
  test_compiles D G t = true -> tests_flags i t ->
  exists b, test_value i t = Some b /\ returns (eval_test D G s t) b.
Proof.
  intros n D G s i t HG Hs. induction t as [e|c|a IHa|a IHa b IHb|a IHa b IHb];
  intros Hc Hf; cbn [tests_flags test_compiles test_value eval_test] in *.
  - destruct Hf as (v & -> & F). cbn [type_of eval value] in *.
    destruct (to_bool D (G v) 0) as [m0|] eqn:E0; [|discriminate].
    destruct (to_bool_any D _ 0 (i v) m0 E0) as [k Ek].
    destruct (Hs v) as [S1 S2]. unfold read. rewrite S1, mbind_ret, Ek. cbn [run option_map].
    eexists. split; [reflexivity|]. destruct (HG v) as (W & EE & _).
    destruct (G v) as [U|u|U N P E] eqn:EG.
    + injection Ek as <-. reflexivity.
    + destruct (C93_test_lemma D _ _ k W S2 EE ltac:(discriminate) Ek) as [[_ K]|[[K _]|[K _]]];
      [|destruct F; lia|destruct F; lia]. destruct F as [F|F]; rewrite F in *; exact K.
    + destruct (C93_test_lemma D _ _ k W S2 EE ltac:(discriminate) Ek) as [[_ K]|[[K _]|[K _]]];
      [|destruct F; lia|destruct F; lia]. destruct F as [F|F]; rewrite F in *; exact K.
  - contradiction.
  - destruct (IHa Hc Hf) as (b & V & R).
    exists (negb b). rewrite V. unfold returns in R |- *. rewrite R. split; reflexivity.
  - apply andb_true_iff in Hc. destruct Hc as [Ca Cb], Hf as [Ta Tb].
    destruct (IHa Ca Ta) as (x & V & R).
    rewrite V. unfold returns in R. rewrite R. change ([], Ret x) with (mret x). rewrite mbind_ret.
    destruct x; [apply IHb; assumption|]. exists false. split; reflexivity.
  - apply andb_true_iff in Hc. destruct Hc as [Ca Cb], Hf as [Ta Tb].
    destruct (IHa Ca Ta) as (x & V & R).
    rewrite V. unfold returns in R. rewrite R. change ([], Ret x) with (mret x). rewrite mbind_ret.
    destruct x; [|apply IHb; assumption]. exists true. split; reflexivity.
Qed.
