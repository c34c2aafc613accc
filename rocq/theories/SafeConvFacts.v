(** SafeConvFacts.v -- facts about construction, conversion, comparison,
    compound assignment and increment of safe types. Proofs only. *)
From Coq Require Import ZArith Bool List Lia.
From Verif Require Import Base CType Spec CTypeFacts Utility UtilityFacts SafeCompare
  CheckedInteger CheckedIntegerFacts CheckedResultOps CheckedResultFacts Interval IntervalFacts
  IntervalOpsFacts ExceptionPolicy Promotion SafeBase SafeSpec SafeFacts SafeDivFacts.
Import ListNotations.
Local Open Scope Z_scope.

(** ------------------------------------------------------------------ *)
(** three-valued connectives *)
Lemma tri_bool_true : forall a, tri_bool a = true -> a = TTrue.
Proof. destruct a; cbn; congruence. Qed.
Lemma tri_and_true : forall a b, tri_and a b = TTrue -> a = TTrue /\ b = TTrue.
Proof. destruct a, b; cbn; intros; try discriminate; auto. Qed.
Lemma tri_or_true : forall a b, tri_or a b = TTrue -> a = TTrue \/ b = TTrue.
Proof. destruct a, b; cbn; intros; try discriminate; auto. Qed.
Lemma tri_or_false' : forall a b, tri_or a b = TFalse -> a = TFalse /\ b = TFalse.
Proof. destruct a, b; cbn; intros; try discriminate; auto. Qed.
Lemma tri_not_true : forall a, tri_not a = TTrue -> a = TFalse.
Proof. destruct a; cbn; congruence. Qed.
Lemma tri_not_false : forall a, tri_not a = TFalse -> a = TTrue.
Proof. destruct a; cbn; congruence. Qed.

(** ------------------------------------------------------------------ *)
(** validation *)
Lemma validate_static_sound : forall D R mn mx T slo shi,
  in_type D R mn -> in_type D R mx -> in_type D T slo -> in_type D T shi ->
  match validate_static D R mn mx T slo shi with
  | Some true => mn <= slo /\ shi <= mx
  | Some false => True
  | None => shi < mn \/ mx < slo
  end.
Proof.
  intros D R mn mx T slo shi Hmn Hmx Hlo Hhi. unfold validate_static.
  pose proof (cast_stands D R T slo Hlo) as Sl. pose proof (cast_ok D R T slo Hlo) as Ol.
  pose proof (cast_stands D R T shi Hhi) as Sh. pose proof (cast_ok D R T shi Hhi) as Oh.
  destruct (tri_bool (excludes D R _ _)) eqn:Ex.
  - apply tri_bool_true in Ex. unfold excludes in Ex. cbn [il iu] in Ex.
    apply tri_or_true in Ex. destruct Ex as [Ex|Ex].
    + left. pose proof (proj1 (cr_lt_sound D R _ _ Oh (Hmn : cr_ok D R (CVal mn))) Ex shi mn Sh eq_refl). lia.
    + right. pose proof (proj1 (cr_lt_sound D R _ _ (Hmx : cr_ok D R (CVal mx)) Ol) Ex mx slo eq_refl Sl). lia.
  - destruct (tri_bool (includes D R _ _)) eqn:Ei; [|exact I].
    apply tri_bool_true in Ei. unfold includes in Ei. cbn [il iu] in Ei.
    apply tri_and_true in Ei. destruct Ei as [E1 E2]. unfold cr_ge, cr_le, cr_gt in E1, E2.
    apply tri_not_true in E1. apply tri_not_true in E2.
    pose proof (proj2 (cr_lt_sound D R _ _ (Hmx : cr_ok D R (CVal mx)) Oh) E1 mx shi eq_refl Sh).
    pose proof (proj2 (cr_lt_sound D R _ _ Ol (Hmn : cr_ok D R (CVal mn))) E2 slo mn Sl eq_refl).
    lia.
Qed.

Lemma validate_char : forall D R mn mx E T slo shi x m,
  in_type D R mn -> in_type D R mx -> in_type D T slo -> in_type D T shi ->
  (forall E0, E = Some E0 -> throws_arithmetic E0) ->
  slo <= x <= shi ->
  validate D R mn mx E T slo shi x = Some m ->
  (mn <= x <= mx /\ m = mret x) \/ (~ (mn <= x <= mx) /\ throws_arith m).
Proof.
  intros D R mn mx E T slo shi x m Hmn Hmx Hlo Hhi HE Hx Hv. unfold validate in Hv.
  pose proof (validate_static_sound D R mn mx T slo shi Hmn Hmx Hlo Hhi) as Hs.
  destruct (validate_static D R mn mx T slo shi) as [[|]|]; [| |discriminate].
  - injection Hv as <-. left. split; [lia|]. rewrite conv_id by (unfold in_type in *; lia). reflexivity.
  - destruct E as [E0|]; [|discriminate]. specialize (HE E0 eq_refl).
    destruct (all_compile E0 (cast_errors D R T)); [|discriminate]. injection Hv as <-.
    destruct (het_cast_spec D R mn mx T x Hmn Hmx ltac:(unfold in_type in *; lia)) as [H1 H2].
    destruct (Z_le_dec mn x) as [A|A]; [destruct (Z_le_dec x mx) as [B|B]|].
    + left. split; [lia|]. rewrite H1 by lia. reflexivity.
    + right. destruct (H2 ltac:(lia)) as (e & -> & _ & _ & _ & He). split; [lia|].
      apply mbind_throws. apply dar_arith; [assumption|]. unfold arithmetic_err. tauto.
    + right. destruct (H2 ltac:(lia)) as (e & -> & _ & _ & _ & He). split; [lia|].
      apply mbind_throws. apply dar_arith; [assumption|]. unfold arithmetic_err. tauto.
Qed.

(** whether it compiles does not depend on the value *)
Lemma validate_compiles : forall D R mn mx E T slo shi x y m,
  validate D R mn mx E T slo shi x = Some m -> exists k, validate D R mn mx E T slo shi y = Some k.
Proof.
  intros D R mn mx E T slo shi x y m. unfold validate.
  destruct (validate_static D R mn mx T slo shi) as [[|]|]; [eauto| |discriminate].
  destruct E as [E0|]; [|discriminate]. destruct (all_compile _ _); [eauto|discriminate].
Qed.

(** a policy whose arithmetic handler does not trap *)
Lemma cast_errors_compile : forall D E R T, on_arithmetic_error E <> HTrap ->
  all_compile E (cast_errors D R T) = true.
Proof.
  intros D E R T H. unfold cast_errors, all_compile.
  destruct (csigned D R), (csigned D T); cbn; unfold dispatch_compiles; cbn;
  destruct (on_arithmetic_error E); cbn; congruence.
Qed.
Lemma cast_errors_trap : forall D E R T, on_arithmetic_error E = HTrap ->
  all_compile E (cast_errors D R T) = false.
Proof.
  intros D E R T H. unfold cast_errors, all_compile.
  destruct (csigned D R), (csigned D T); cbn; unfold dispatch_compiles; cbn; rewrite H; reflexivity.
Qed.

Lemma validate_none : forall D R mn mx E T slo shi x,
  in_type D R mn -> in_type D R mx -> in_type D T slo -> in_type D T shi ->
  on_arithmetic_error E <> HTrap -> slo <= x <= shi ->
  validate D R mn mx (Some E) T slo shi x = None -> ~ (mn <= x <= mx).
Proof.
  intros D R mn mx E T slo shi x Hmn Hmx Hlo Hhi HE Hx Hv. unfold validate in Hv.
  pose proof (validate_static_sound D R mn mx T slo shi Hmn Hmx Hlo Hhi) as Hs.
  destruct (validate_static D R mn mx T slo shi) as [[|]|]; [discriminate| |lia].
  rewrite cast_errors_compile in Hv by assumption. discriminate.
Qed.

(** ------------------------------------------------------------------ *)
(** construction and conversion *)
Lemma construct_char : forall D s o x m,
  wf_operand D (OSafe s) -> wf_operand D o -> throws_arithmetic (sE s) -> holds D o x ->
  construct D s o x = Some m ->
  (smin s <= x <= smax s /\ m = mret x) \/ (~ (smin s <= x <= smax s) /\ throws_arith m).
Proof.
  intros D s o x m (W1 & W2 & _) (V1 & V2 & _) HE Hx Hc. cbn in W1, W2.
  eapply validate_char; [exact W1|exact W2|exact V1|exact V2| |exact Hx|exact Hc].
  intros E0 [= <-]. assumption.
Qed.
Lemma construct_compiles : forall D s o x y m,
  construct D s o x = Some m -> exists k, construct D s o y = Some k.
Proof. intros D s o x y m H. eapply validate_compiles. exact H. Qed.
Lemma construct_none : forall D s o x,
  wf_operand D (OSafe s) -> wf_operand D o -> throws_arithmetic (sE s) -> holds D o x ->
  construct D s o x = None -> ~ (smin s <= x <= smax s).
Proof.
  intros D s o x (W1 & W2 & _) (V1 & V2 & _) HE Hx Hc. cbn in W1, W2.
  eapply validate_none; [exact W1|exact W2|exact V1|exact V2| |exact Hx|exact Hc].
  unfold throws_arithmetic in HE. congruence.
Qed.

Lemma to_builtin_char : forall D R s x m,
  throws_arithmetic (sE s) -> in_type D (st s) x ->
  to_builtin D R s x = Some m ->
  (in_type D R x /\ m = mret x) \/ (~ in_type D R x /\ throws_arith m).
Proof.
  intros D R s x m HE Hx Hc.
  pose proof (lo_in D R). pose proof (hi_in D R).
  pose proof (lo_in D (st s)). pose proof (hi_in D (st s)).
  eapply (validate_char D R (lo D R) (hi D R) (Some (sE s)) (st s) (lo D (st s)) (hi D (st s)));
    try eassumption.
  intros E0 [= <-]. assumption.
Qed.
Lemma to_builtin_compiles : forall D R s x y m,
  to_builtin D R s x = Some m -> exists k, to_builtin D R s y = Some k.
Proof. intros D R s x y m H. eapply validate_compiles. exact H. Qed.
Lemma to_builtin_total : forall D R s x, on_arithmetic_error (sE s) <> HTrap ->
  exists m, to_builtin D R s x = Some m.
Proof.
  intros D R s x HE. unfold to_builtin.
  destruct (validate D R (lo D R) (hi D R) (Some (sE s)) (st s) (lo D (st s)) (hi D (st s)) 0) as [m|] eqn:Hv.
  - eapply validate_compiles. exact Hv.
  - exfalso. eapply validate_none in Hv; try apply lo_in; try apply hi_in; try assumption.
    + pose proof (zero_in D R). unfold in_type in *. tauto.
    + pose proof (zero_in D (st s)). exact H.
Qed.

(** base_value(t) of a safe t: the conversion to the stored type is elided
    (for every exception policy) and is the identity *)
Lemma base_value_elided : forall D s x, in_type D (st s) x ->
  to_builtin D (st s) s x = Some (mret x).
Proof.
  intros D s x Hx. unfold to_builtin, validate, validate_static.
  pose proof (lo_in D (st s)) as L. pose proof (hi_in D (st s)) as H.
  rewrite (proj1 (cast_spec D (st s) (st s) _ L) L), (proj1 (cast_spec D (st s) (st s) _ H) H).
  unfold excludes, includes, cr_ge, cr_le, cr_gt. cbn [il iu].
  rewrite !cr_lt_val by assumption.
  pose proof (lo_le_0 D (st s)). pose proof (hi_ge_127 D (st s)).
  rewrite !Z.ltb_irrefl. rewrite (proj2 (Z.ltb_ge _ _)) by lia. cbn.
  rewrite conv_id by assumption. reflexivity.
Qed.

(** ------------------------------------------------------------------ *)
(** comparison *)
Lemma lim_interval_vals : forall D R o x, wf_operand D o -> holds D o x ->
  interval_open (lim_interval D R o) = false -> in_type D R x.
Proof.
  intros D R o x (W1 & W2 & W3) Hx Ho. unfold interval_open, lim_interval in Ho. cbn [il iu] in Ho.
  apply orb_false_iff in Ho. destruct Ho as [H1 H2].
  destruct (cast D R (base_ty o) (lim_lo D o)) as [a|] eqn:Ea; [|discriminate].
  destruct (cast D R (base_ty o) (lim_hi D o)) as [b|] eqn:Eb; [|discriminate].
  apply cast_val in Ea; [|assumption]. apply cast_val in Eb; [|assumption].
  unfold holds, in_type in *. lia.
Qed.

Lemma i_lt_sound : forall D R t u x y,
  wf_operand D t -> wf_operand D u -> holds D t x -> holds D u y ->
  (i_lt D R (lim_interval D R t) (lim_interval D R u) = TTrue -> x < y)
  /\ (i_gt D R (lim_interval D R t) (lim_interval D R u) = TTrue -> x > y).
Proof.
  intros D R t u x y (T1 & T2 & T3) (U1 & U2 & U3) Hx Hy. unfold holds in *.
  pose proof (cast_stands D R _ _ T1) as S1. pose proof (cast_ok D R _ _ T1) as O1.
  pose proof (cast_stands D R _ _ T2) as S2. pose proof (cast_ok D R _ _ T2) as O2.
  pose proof (cast_stands D R _ _ U1) as S3. pose proof (cast_ok D R _ _ U1) as O3.
  pose proof (cast_stands D R _ _ U2) as S4. pose proof (cast_ok D R _ _ U2) as O4.
  unfold i_lt, i_gt, lim_interval, cr_gt. cbn [il iu].
  destruct (tri_bool (cr_lt D R (cast D R (base_ty t) (lim_hi D t)) (cast D R (base_ty u) (lim_lo D u)))) eqn:A.
  - apply tri_bool_true in A. pose proof (proj1 (cr_lt_sound D R _ _ O2 O3) A _ _ S2 S3).
    split; [lia|]. destruct (tri_bool _) eqn:B; [|discriminate].
    apply tri_bool_true in B. pose proof (proj1 (cr_lt_sound D R _ _ O4 O1) B _ _ S4 S1). lia.
  - destruct (tri_bool (cr_lt D R (cast D R (base_ty u) (lim_hi D u)) _)) eqn:B; [|split; discriminate].
    split; [discriminate|]. intros _.
    apply tri_bool_true in B. pose proof (proj1 (cr_lt_sound D R _ _ O4 O1) B _ _ S4 S1). lia.
Qed.

Lemma intersect_false : forall D R t u x y,
  wf_operand D t -> wf_operand D u -> holds D t x -> holds D u y ->
  intersect D R (lim_interval D R t) (lim_interval D R u) = TFalse -> False.
Proof.
  intros D R t u x y (T1 & T2 & T3) (U1 & U2 & U3) Hx Hy Hi. unfold holds in *.
  pose proof (cast_stands D R _ _ T1) as S1. pose proof (cast_ok D R _ _ T1) as O1.
  pose proof (cast_stands D R _ _ T2) as S2. pose proof (cast_ok D R _ _ T2) as O2.
  pose proof (cast_stands D R _ _ U1) as S3. pose proof (cast_ok D R _ _ U1) as O3.
  pose proof (cast_stands D R _ _ U2) as S4. pose proof (cast_ok D R _ _ U2) as O4.
  unfold intersect, lim_interval, cr_ge, cr_le, cr_gt in Hi. cbn [il iu] in Hi.
  apply tri_or_false' in Hi. destruct Hi as [A B]. apply tri_not_false in A. apply tri_not_false in B.
  pose proof (proj1 (cr_lt_sound D R _ _ O2 O3) A _ _ S2 S3).
  pose proof (proj1 (cr_lt_sound D R _ _ O4 O1) B _ _ S4 S1). lia.
Qed.

Definition cmp_exact (c : cmpop) (x y : Z) : bool :=
  match c with CLt => x <? y | CEq => x =? y end.

Lemma compare_char : forall D c t u x y m,
  (forall E, common_ep t u = Some E -> throws_arithmetic E) ->
  wf_operand D t -> wf_operand D u -> holds D t x -> holds D u y ->
  compare D c t u x y = Some m ->
  m = mret (cmp_exact c x y) \/ throws_arith m.
Proof.
  intros D c t u x y m HE Ht Hu Hx Hy Hc. unfold compare in Hc.
  destruct (common_pp t u) as [P|]; [|discriminate].
  destruct (common_ep t u) as [E|]; [|discriminate]. specialize (HE E eq_refl).
  destruct (result_base_type D P PCmp t u) as [R|]; [|discriminate]. cbv zeta in Hc.
  destruct (interval_open (lim_interval D R t) || interval_open (lim_interval D R u)) eqn:Ho.
  - destruct (casting_helper D E R t u x y) as [casts|] eqn:Hk; [|discriminate].
    assert (Hv : mbind casts (fun p => mret (match c with
              | CLt => less_than D R R (fst p) (snd p)
              | CEq => equal D R R (fst p) (snd p) end)) = mret (cmp_exact c x y)
              \/ throws_arith (mbind casts (fun p => mret (match c with
              | CLt => less_than D R R (fst p) (snd p)
              | CEq => equal D R R (fst p) (snd p) end)))).
    { destruct (casting_helper_throws _ _ _ _ _ _ _ _ HE Ht Hu Hx Hy Hk) as [(Ix & Iy & ->)|[_ T]].
      - left. rewrite mbind_ret. cbn [fst snd]. destruct c; cbn [cmp_exact].
        + rewrite less_than_spec by assumption. reflexivity.
        + rewrite equal_spec by assumption. reflexivity.
      - right. apply mbind_throws. assumption. }
    destruct c.
    + destruct (i_lt_sound D R t u x y Ht Hu Hx Hy) as [L G].
      destruct (tri_bool (i_lt _ _ _ _)) eqn:A.
      { injection Hc as <-. left. cbn. rewrite (proj2 (Z.ltb_lt _ _)) by (apply L, tri_bool_true, A). reflexivity. }
      destruct (tri_bool (i_gt _ _ _ _)) eqn:B.
      { injection Hc as <-. left. cbn. apply tri_bool_true in B. specialize (G B).
        rewrite (proj2 (Z.ltb_ge _ _)) by lia. reflexivity. }
      injection Hc as <-. exact Hv.
    + destruct (tri_bool (tri_not _)) eqn:A.
      { exfalso. apply tri_bool_true, tri_not_true in A. eapply intersect_false; try exact A; eassumption. }
      injection Hc as <-. exact Hv.
  - apply orb_false_iff in Ho. destruct Ho as [H1 H2].
    pose proof (lim_interval_vals D R t x Ht Hx H1) as Ix.
    pose proof (lim_interval_vals D R u y Hu Hy H2) as Iy.
    rewrite !conv_id in Hc by assumption. left.
    destruct c.
    + destruct (i_lt_sound D R t u x y Ht Hu Hx Hy) as [L G]. rewrite c_lt_same in Hc by assumption.
      destruct (tri_bool (i_lt _ _ _ _)) eqn:A.
      { injection Hc as <-. cbn. rewrite (proj2 (Z.ltb_lt _ _)) by (apply L, tri_bool_true, A). reflexivity. }
      destruct (tri_bool (i_gt _ _ _ _)) eqn:B.
      { injection Hc as <-. cbn. apply tri_bool_true in B. specialize (G B).
        rewrite (proj2 (Z.ltb_ge _ _)) by lia. reflexivity. }
      injection Hc as <-. reflexivity.
    + rewrite c_eq_same in Hc by assumption. destruct (tri_bool (tri_not _)) eqn:A.
      { exfalso. apply tri_bool_true, tri_not_true in A. eapply intersect_false; try exact A; eassumption. }
      injection Hc as <-. reflexivity.
Qed.

(** when a comparison throws, an operand is not representable in the type in
    which the values are compared *)
Lemma compare_throws : forall D c t u x y m,
  (forall E, common_ep t u = Some E -> throws_arithmetic E) ->
  wf_operand D t -> wf_operand D u -> holds D t x -> holds D u y ->
  compare D c t u x y = Some m -> throws_arith m ->
  exists P R, common_pp t u = Some P /\ result_base_type D P PCmp t u = Some R
    /\ (~ in_type D R x \/ ~ in_type D R y).
Proof.
  intros D c t u x y m HE Ht Hu Hx Hy Hc (e & _ & Hm). unfold compare in Hc.
  destruct (common_pp t u) as [P|]; [|discriminate].
  destruct (common_ep t u) as [E|]; [|discriminate]. specialize (HE E eq_refl).
  destruct (result_base_type D P PCmp t u) as [R|] eqn:HR; [|discriminate]. cbv zeta in Hc.
  exists P, R. split; [reflexivity|]. split; [assumption|].
  destruct (interval_open (lim_interval D R t) || interval_open (lim_interval D R u)) eqn:Ho.
  - destruct (casting_helper D E R t u x y) as [casts|] eqn:Hk; [|discriminate].
    destruct (casting_helper_throws _ _ _ _ _ _ _ _ HE Ht Hu Hx Hy Hk) as [(Ix & Iy & ->)|[T _]];
      [exfalso|assumption].
    destruct c.
    + destruct (tri_bool (i_lt _ _ _ _)); [injection Hc as <-; discriminate|].
      destruct (tri_bool (i_gt _ _ _ _)); [injection Hc as <-; discriminate|]. rewrite mbind_ret in Hc. injection Hc as <-; discriminate.
    + destruct (tri_bool (tri_not _)); [injection Hc as <-; discriminate|]. rewrite mbind_ret in Hc. injection Hc as <-; discriminate.
  - exfalso. destruct c.
    + destruct (tri_bool (i_lt _ _ _ _)); [injection Hc as <-; discriminate|].
      destruct (tri_bool (i_gt _ _ _ _)); injection Hc as <-; discriminate.
    + destruct (tri_bool (tri_not _)); injection Hc as <-; discriminate.
Qed.

(** ------------------------------------------------------------------ *)
(** compound assignment *)
Lemma compound_safe : forall D op s u x y m,
  wf_operand D (OSafe s) -> throws_arithmetic (sE s) ->
  compound D op (OSafe s) u x y = Some m ->
  exists rs m0, eval_binop D op (OSafe s) u x y = Some (rs, m0)
  /\ forall z, returns m0 z -> wf_operand D (OSafe rs) -> smin rs <= z <= smax rs ->
     (smin s <= z <= smax s /\ returns m z) \/ (~ (smin s <= z <= smax s) /\ throws_arith m).
Proof.
  intros D op s u x y m Hs HE Hc. unfold compound in Hc.
  destruct (eval_binop D op (OSafe s) u x y) as [[rs m0]|] eqn:Ee; [|discriminate].
  destruct (construct D s (OSafe rs) 0) as [k0|] eqn:E0; [|discriminate]. injection Hc as <-.
  exists rs, m0. split; [reflexivity|]. intros z Hm Hw Hz. rewrite Hm.
  destruct (construct_compiles D s (OSafe rs) 0 z k0 E0) as (k & Ek).
  change (([] : list event), Ret z) with (mret z : M Z). rewrite mbind_ret. cbv beta. rewrite Ek.
  destruct (construct_char D s (OSafe rs) z k Hs Hw HE Hz Ek) as [[A ->]|[A B]]; [left|right]; split; auto.
  reflexivity.
Qed.
Lemma compound_raw : forall D op T u x y m,
  (forall rs m0, eval_binop D op (ORaw T) u x y = Some (rs, m0) -> throws_arithmetic (sE rs)) ->
  compound D op (ORaw T) u x y = Some m ->
  exists rs m0, eval_binop D op (ORaw T) u x y = Some (rs, m0)
  /\ forall z, returns m0 z -> in_type D (st rs) z ->
     (in_type D T z /\ returns m z) \/ (~ in_type D T z /\ throws_arith m).
Proof.
  intros D op T u x y m HE Hc. unfold compound in Hc.
  destruct (eval_binop D op (ORaw T) u x y) as [[rs m0]|] eqn:Ee; [|discriminate].
  destruct (to_builtin D T rs 0) as [k0|] eqn:E0; [|discriminate]. injection Hc as <-.
  exists rs, m0. split; [reflexivity|]. intros z Hm Hz. rewrite Hm.
  destruct (to_builtin_compiles D T rs 0 z k0 E0) as (k & Ek).
  change (([] : list event), Ret z) with (mret z : M Z). rewrite mbind_ret. cbv beta. rewrite Ek.
  destruct (to_builtin_char D T rs z k (HE _ _ eq_refl) Hz Ek) as [[A ->]|[A B]]; [left|right]; split; auto.
  reflexivity.
Qed.
Lemma compound_passes_throw : forall D op tgt u x y m,
  compound D op tgt u x y = Some m ->
  exists rs m0, eval_binop D op tgt u x y = Some (rs, m0)
  /\ (throws_arith m0 -> throws_arith m) /\ (throws_impl m0 -> throws_impl m).
Proof.
  intros D op tgt u x y m Hc. unfold compound in Hc.
  destruct (eval_binop D op tgt u x y) as [[rs m0]|] eqn:Ee; [|discriminate].
  exists rs, m0. split; [reflexivity|].
  destruct tgt as [T|s|]; [| |discriminate].
  - destruct (to_builtin D T rs 0); [|discriminate]. injection Hc as <-.
    split; [apply mbind_throws|apply mbind_throws_impl].
  - destruct (construct D s (OSafe rs) 0); [|discriminate]. injection Hc as <-.
    split; [apply mbind_throws|apply mbind_throws_impl].
Qed.

(** the policy of the result of t op u, when t is safe and u is built-in, or
    when u has the same policies *)
Lemma binary_policy : forall D op t u x y rs m, binary D op t u x y = Some (rs, m) ->
  common_ep t u = Some (sE rs) /\ common_pp t u = Some (sP rs).
Proof.
  intros D op t u x y rs m H.
  destruct (binary_inv _ _ _ _ _ _ _ _ H) as (P & E & R & ri & HP & HEp & _ & _ & -> & _). auto.
Qed.
Lemma handler_eqb_eq : forall a b, handler_eqb a b = true -> a = b.
Proof. destruct a, b; cbn; congruence. Qed.
Lemma ep_eqb_eq : forall a b, ep_eqb a b = true -> a = b.
Proof.
  intros [a1 a2 a3 a4] [b1 b2 b3 b4]. unfold ep_eqb. cbn.
  rewrite !andb_true_iff. intros [[[H1 H2] H3] H4].
  f_equal; apply handler_eqb_eq; assumption.
Qed.
Lemma ep_eqb_refl : forall a, ep_eqb a a = true.
Proof. intros [[] [] [] []]; reflexivity. Qed.
Lemma common_ep_safe_l : forall s u E, common_ep (OSafe s) u = Some E -> E = sE s.
Proof.
  intros s u E. unfold common_ep. cbn [is_safe orb get_ep].
  destruct (get_ep u) as [b|]; [|congruence].
  destruct (ep_eqb (sE s) b) eqn:Q; [|discriminate]. apply ep_eqb_eq in Q. congruence.
Qed.
Lemma common_ep_safe_r : forall t s E, common_ep t (OSafe s) = Some E -> E = sE s.
Proof.
  intros t s E. unfold common_ep. rewrite (orb_true_r (is_safe t) : (is_safe t || is_safe (OSafe s)) = true).
  cbn [get_ep]. destruct (get_ep t) as [b|]; [|congruence].
  destruct (ep_eqb b (sE s)) eqn:Q; [|discriminate]. congruence.
Qed.

(** += -= *= on a safe variable: the exact value is stored, or an exception *)
Lemma compound_exact : forall op f D s u x y m, exact_op op f ->
  wf_operand D (OSafe s) -> wf_operand D u -> holds D (OSafe s) x -> holds D u y ->
  throws_arithmetic (sE s) ->
  compound D (BA op) (OSafe s) u x y = Some m ->
  (returns m (f x y) /\ smin s <= f x y <= smax s) \/ throws_arith m.
Proof.
  intros op f D s u x y m Hop Hs Hu Hx Hy HE Hc.
  destruct (compound_safe D (BA op) s u x y m Hs HE Hc) as (rs & m0 & Ee & K).
  destruct (compound_passes_throw D (BA op) (OSafe s) u x y m Hc) as (rs' & m0' & Ee' & KT & _).
  rewrite Ee in Ee'. injection Ee' as <- <-. cbn [eval_binop] in Ee.
  assert (HEr : throws_arithmetic (sE rs)).
  { destruct (binary_policy _ _ _ _ _ _ _ _ Ee) as [P1 _]. apply common_ep_safe_l in P1. rewrite P1. assumption. }
  destruct (arith_exact op f D (OSafe s) u x y rs m0 Hop Hs Hu Hx Hy Ee HEr) as [Hw [[Hr Hz]|Ht]].
  - destruct (K _ Hr Hw Hz) as [[A B]|[A B]]; auto.
  - right. auto.
Qed.

(** /= under native promotion *)
Lemma compound_div : forall D s u x y m,
  wf_operand D (OSafe s) -> wf_operand D u -> holds D (OSafe s) x -> holds D u y ->
  throws_arithmetic (sE s) -> sP s = Native ->
  compound D (BA Div) (OSafe s) u x y = Some m ->
  (y <> 0 /\ returns m (Z.quot x y) /\ smin s <= Z.quot x y <= smax s) \/ throws_arith m.
Proof.
  intros D s u x y m Hs Hu Hx Hy HE HP Hc.
  destruct (compound_safe D (BA Div) s u x y m Hs HE Hc) as (rs & m0 & Ee & K).
  destruct (compound_passes_throw D (BA Div) (OSafe s) u x y m Hc) as (rs' & m0' & Ee' & KT & _).
  rewrite Ee in Ee'. injection Ee' as <- <-. cbn [eval_binop] in Ee.
  destruct (binary_policy _ _ _ _ _ _ _ _ Ee) as [P1 P2].
  assert (HEr : throws_arithmetic (sE rs)) by (apply common_ep_safe_l in P1; rewrite P1; assumption).
  assert (HPr : sP rs = Native).
  { unfold common_pp in P2. cbn [is_safe orb get_pp] in P2. rewrite HP in P2.
    destruct (get_pp u) as [b|]; [|congruence]. destruct b; cbn in P2; congruence. }
  destruct (div_char D (OSafe s) u x y rs m0 Hs Hu Hx Hy Ee HEr ltac:(left; assumption)) as (Hw & H0 & H1).
  destruct (Z.eq_dec y 0) as [->|Hy0]; [right; auto|].
  destruct (H1 Hy0) as [(Hr & _ & _ & _ & Hz)|[_ Ht]]; [|right; auto].
  destruct (K _ Hr Hw Hz) as [[A B]|[A B]]; auto.
Qed.
