(** ProgramFacts.v -- proofs about Program.v. *)
From Coq Require Import ZArith Bool List Lia Arith.
From Verif Require Import Base CType Spec CTypeFacts Utility UtilityFacts SafeCompare
  CheckedInteger CheckedIntegerFacts CheckedResultOps CheckedResultFacts Interval IntervalFacts
  IntervalOpsFacts ExceptionPolicy Promotion SafeBase SafeSpec SafeFacts SafeDivFacts SafeShiftFacts
  SafeConvFacts SafeBitFacts SafeTraceFacts SafePortFacts PropsConvProofs Program ProgramSpec.
Import ListNotations.
Local Open Scope Z_scope.

(** ------------------------------------------------------------------ *)
(** compilation does not depend on the values of the operands *)
Lemma static_cast_any : forall D R o x y m, static_cast_builtin D R o x = Some m ->
  exists k, static_cast_builtin D R o y = Some k.
Proof.
  intros D R o x y m H. destruct o as [T|s|T N P E]; cbn [static_cast_builtin] in *.
  - eauto.
  - exact (to_builtin_compiles D R s x y m H).
  - eauto.
Qed.
Lemma cast_operand_any : forall D E R o x y m, cast_operand D E R o x = Some m ->
  exists k, cast_operand D E R o y = Some k.
Proof.
  intros D E R o x y m H. unfold cast_operand in *.
  destruct (static_cast_builtin D R o x) as [f|] eqn:Ef; [|discriminate].
  destruct (static_cast_any D R o x y f Ef) as (k & ->).
  destruct (all_compile E _); [|discriminate]. eauto.
Qed.
Lemma casting_helper_any : forall D E R t u x y x' y' m, casting_helper D E R t u x y = Some m ->
  exists k, casting_helper D E R t u x' y' = Some k.
Proof.
  intros D E R t u x y x' y' m H. unfold casting_helper in *.
  destruct (cast_operand D E R t x) eqn:E1; [|discriminate].
  destruct (cast_operand D E R u y) eqn:E2; [|discriminate].
  destruct (cast_operand_any D E R t x x' _ E1) as (a & ->).
  destruct (cast_operand_any D E R u y y' _ E2) as (b & ->). eauto.
Qed.
Lemma binary_any : forall D op t u x y x' y' s m, binary D op t u x y = Some (s, m) ->
  exists k, binary D op t u x' y' = Some (s, k).
Proof.
  intros D op t u x y x' y' s m H. unfold binary in *.
  destruct (op_static D op t u) as [oi|]; [|discriminate].
  destruct (oi_checked oi).
  - destruct (work_type D op (oi_R oi) t u) as [W|]; [|discriminate].
    destruct (casting_helper D (oi_E oi) W t u x y) eqn:E; [|discriminate].
    destruct (casting_helper_any D _ _ t u x y x' y' _ E) as (k & ->).
    destruct (all_compile _ _); [|discriminate]. injection H as <- _. eauto.
  - injection H as <- _. eauto.
Qed.
Lemma eval_binop_any : forall D op t u x y x' y' s m, eval_binop D op t u x y = Some (s, m) ->
  exists k, eval_binop D op t u x' y' = Some (s, k).
Proof.
  intros D [op|b] t u x y x' y' s m H; cbn [eval_binop] in *.
  - exact (binary_any D op t u x y x' y' s m H).
  - unfold bitwise in *. destruct (bitwise_type D b t u); [|discriminate]. injection H as <- _. eauto.
Qed.
Lemma compare_any : forall D c t u x y x' y' m, compare D c t u x y = Some m ->
  exists k, compare D c t u x' y' = Some k.
Proof.
  intros D c t u x y x' y' m H. unfold compare in *.
  destruct (common_pp t u); [|discriminate]. destruct (common_ep t u) as [E|]; [|discriminate].
  destruct (result_base_type D _ PCmp t u) as [R|]; [|discriminate]. cbv zeta in *.
  destruct (interval_open _ || interval_open _).
  - destruct (casting_helper D E R t u x y) eqn:E1; [|discriminate].
    destruct (casting_helper_any D E R t u x y x' y' _ E1) as (k & ->).
    destruct c; [destruct (tri_bool (i_lt _ _ _ _)); [eauto|]; destruct (tri_bool (i_gt _ _ _ _)); eauto|].
    destruct (tri_bool (tri_not _)); eauto.
  - destruct c; [destruct (tri_bool (i_lt _ _ _ _)); [eauto|]; destruct (tri_bool (i_gt _ _ _ _)); eauto|].
    destruct (tri_bool (tri_not _)); eauto.
Qed.
Lemma option_map_any : forall (A B : Type) (f : A -> B) o o' m, option_map f o = Some m ->
  (forall a, o = Some a -> exists a', o' = Some a') -> exists k, option_map f o' = Some k.
Proof.
  intros A B f o o' m H K. destruct o as [a|]; [|discriminate]. destruct (K a eq_refl) as (a' & ->). cbn. eauto.
Qed.
Lemma eval_relop_any : forall D r t u x y x' y' m, eval_relop D r t u x y = Some m ->
  exists k, eval_relop D r t u x' y' = Some k.
Proof.
  intros D r t u x y x' y' m H.
  destruct r; cbn [eval_relop] in *; unfold s_le, s_ge, s_ne, s_gt, s_lt, s_eq in *;
  try (eapply compare_any; exact H);
  (eapply option_map_any; [exact H|intros a Ha; eapply compare_any; exact Ha]).
Qed.
Lemma convert_any : forall D tgt src x y m, convert D tgt src x = Some m ->
  exists k, convert D tgt src y = Some k.
Proof.
  intros D tgt src x y m H. destruct tgt as [T|s|T N P E]; cbn [convert] in *.
  - destruct src as [U|s|U N P E].
    + destruct (ctype_eqb T U); [eauto|discriminate].
    + exact (to_builtin_compiles D T s x y m H).
    + eauto.
  - exact (construct_compiles D s src x y m H).
  - discriminate.
Qed.
Lemma compound_any : forall D op tgt u x y x' y' m, compound D op tgt u x y = Some m ->
  exists k, compound D op tgt u x' y' = Some k.
Proof.
  intros D op tgt u x y x' y' m H. unfold compound in *.
  destruct (eval_binop D op tgt u x y) as [[rs m0]|] eqn:E; [|discriminate].
  destruct (eval_binop_any D op tgt u x y x' y' rs m0 E) as (k & ->).
  destruct tgt as [T|s|T N P F].
  - destruct (to_builtin D T rs 0); [eauto|discriminate].
  - destruct (construct D s (OSafe rs) 0); [eauto|discriminate].
  - discriminate.
Qed.

(** ------------------------------------------------------------------ *)
(** conversions *)
Lemma holds_in_base : forall D o x, wf_operand D o -> holds D o x -> in_type D (base_ty o) x.
Proof. exact holds_in. Qed.

Lemma ctype_eqb_eq : forall a b, ctype_eqb a b = true -> a = b.
Proof. destruct a, b; cbn; intros; congruence. Qed.

Lemma convert_char : forall n D tgt src x m, type_ok n D tgt -> type_ok n D src -> holds D src x ->
  convert D tgt src x = Some m ->
  (holds D tgt x /\ returns m x) \/ throws_arith m.
Proof.
  intros n D tgt src x m (Wt & Et & _) (Ws & Es & _) Hx H.
  destruct tgt as [T|s|T N P E]; cbn [convert] in H.
  - destruct src as [U|s|U N P E].
    + destruct (ctype_eqb T U) eqn:E; [|discriminate]. apply ctype_eqb_eq in E. subst U.
      injection H as <-. left. split; [assumption|reflexivity].
    + pose proof (holds_in D _ x Ws Hx) as Hi. cbn [base_ty] in Hi.
      destruct (to_builtin_char D T s x m (Es (sE s) eq_refl) Hi H) as [[A ->]|[_ A]]; [left|right; assumption].
      split; [exact A|reflexivity].
    + unfold holds in Hx. cbn [lim_lo lim_hi] in Hx. assert (x = N) by lia. subst x.
      assert (HN : in_type D U N) by (destruct Ws as (A & _); exact A).
      destruct (C46_lemma D T U N E HN) as [A B]; [intros E0 HE; apply Es; exact HE|].
      destruct (in_range D T N) eqn:Er.
      * apply in_range_iff in Er. destruct (A Er) as (k & K & R). rewrite H in K. injection K as <-.
        left. split; [exact Er|exact R].
      * right. apply B; [|exact H]. intros K. apply in_range_iff in K. congruence.
  - destruct (construct_char D s src x m Wt Ws (Et (sE s) eq_refl) Hx H) as [[A ->]|[_ A]]; [left|right; assumption].
    split; [exact A|reflexivity].
  - discriminate.
Qed.

(** ------------------------------------------------------------------ *)
(** operators *)
Lemma result_type_ok : forall n D op t u x y s m,
  type_ok n D t -> type_ok n D u -> binary D op t u x y = Some (s, m) -> wf_operand D (OSafe s) ->
  type_ok n D (OSafe s) /\ throws_arithmetic (sE s) /\ (n = true -> sP s = Native).
Proof.
  intros n D op t u x y s m (_ & Et & Pt) (_ & Eu & Pu) H W.
  destruct (binary_policy _ _ _ _ _ _ _ _ H) as [HE HP].
  assert (K1 : throws_arithmetic (sE s)) by (destruct (common_ep_in _ _ _ HE); auto).
  assert (K2 : n = true -> sP s = Native)
    by (intros Hn; destruct (common_pp_in _ _ _ HP); auto).
  splits; auto. unfold type_ok. cbn [get_ep get_pp]. splits; auto.
  - intros E [= <-]. assumption.
  - intros Hn P [= <-]. auto.
Qed.

Lemma policy_throws : forall n D op t u x y s m,
  type_ok n D t -> type_ok n D u -> binary D op t u x y = Some (s, m) ->
  throws_arithmetic (sE s) /\ (n = true -> sP s = Native).
Proof.
  intros n D op t u x y s m (_ & Et & Pt) (_ & Eu & Pu) H.
  destruct (binary_policy _ _ _ _ _ _ _ _ H) as [HE HP]. split.
  - destruct (common_ep_in _ _ _ HE); auto.
  - intros Hn. destruct (common_pp_in _ _ _ HP); auto.
Qed.

Lemma op_char : forall n D op t u x y s m, op_ok n op ->
  type_ok n D t -> type_ok n D u -> holds D t x -> holds D u y ->
  eval_binop D op t u x y = Some (s, m) ->
  type_ok n D (OSafe s)
  /\ ((exists z, math_op op x y = Some z /\ returns m z /\ holds D (OSafe s) z) \/ throws_arith m).
Proof.
  intros n D op t u x y s m Hop Ht Hu Hx Hy H.
  assert (K : exists o, op = BA o) by (destruct Hop as [->|[->|[->|[-> _]]]]; eauto).
  destruct K as (o & ->). cbn [eval_binop] in H.
  destruct (policy_throws n D o t u x y s m Ht Hu H) as [HE HN].
  pose proof (proj1 Ht) as Wt. pose proof (proj1 Hu) as Wu.
  destruct Hop as [E|[E|[E|[E Hn]]]]; injection E as ->.
  - destruct (arith_exact Add Z.add D t u x y s m ltac:(left; auto) Wt Wu Hx Hy H HE) as [W [[R Hr]|T]];
    (split; [apply (result_type_ok n D Add t u x y s m); assumption|]); [left|right; assumption].
    exists (x + y). auto.
  - destruct (arith_exact Sub Z.sub D t u x y s m ltac:(right; left; auto) Wt Wu Hx Hy H HE) as [W [[R Hr]|T]];
    (split; [apply (result_type_ok n D Sub t u x y s m); assumption|]); [left|right; assumption].
    exists (x - y). auto.
  - destruct (arith_exact Mul Z.mul D t u x y s m ltac:(right; right; auto) Wt Wu Hx Hy H HE) as [W [[R Hr]|T]];
    (split; [apply (result_type_ok n D Mul t u x y s m); assumption|]); [left|right; assumption].
    exists (x * y). auto.
  - destruct (div_char D t u x y s m Wt Wu Hx Hy H HE ltac:(left; auto)) as (W & Z0 & Q).
    split; [apply (result_type_ok n D Div t u x y s m); assumption|].
    cbn [math_op]. destruct (Z.eqb_spec y 0) as [E|N]; [right; auto|].
    destruct (Q N) as [(R & _ & _ & _ & Hr)|[_ T]]; [left|right; assumption].
    exists (Z.quot x y). auto.
Qed.

Lemma compound_char : forall n D op tgt u x y m, op_ok n op ->
  type_ok n D tgt -> type_ok n D u -> holds D tgt x -> holds D u y ->
  compound D op tgt u x y = Some m ->
  (exists z, math_op op x y = Some z /\ returns m z /\ holds D tgt z) \/ throws_arith m.
Proof.
  intros n D op tgt u x y m Hop Ht Hu Hx Hy H.
  destruct tgt as [T|s|T N P E].
  - assert (HEs : forall rs m0, eval_binop D op (ORaw T) u x y = Some (rs, m0) -> throws_arithmetic (sE rs)).
    { intros rs m0 K. destruct (op_char n D op (ORaw T) u x y rs m0 Hop Ht Hu Hx Hy K) as [(_ & E & _) _].
      apply E. reflexivity. }
    destruct (compound_raw D op T u x y m HEs H) as (rs & m0 & Eb & K).
    destruct (op_char n D op (ORaw T) u x y rs m0 Hop Ht Hu Hx Hy Eb) as [(W & _) [(z & M1 & M2 & M3)|T1]].
    + destruct (K z M2) as [[A B]|[_ B]]; [apply (holds_in D (OSafe rs) z W M3)| |right; assumption].
      left. exists z. auto.
    + right. destruct (compound_passes_throw D op (ORaw T) u x y m H) as (rs' & m0' & Eb' & K' & _).
      rewrite Eb in Eb'. injection Eb' as <- <-. auto.
  - pose proof Ht as (Wt & Et & Pt).
    destruct (compound_safe D op s u x y m Wt (Et (sE s) eq_refl) H) as (rs & m0 & Eb & K).
    destruct (op_char n D op (OSafe s) u x y rs m0 Hop Ht Hu Hx Hy Eb)
      as [(W & _) [(z & M1 & M2 & M3)|T1]].
    + destruct (K z M2 W M3) as [[A B]|[_ B]]; [|right; assumption]. left. exists z. auto.
    + right. destruct (compound_passes_throw D op (OSafe s) u x y m H) as (rs' & m0' & Eb' & K' & _).
      rewrite Eb in Eb'. injection Eb' as <- <-. auto.
  - exfalso. unfold compound in H. destruct (eval_binop D op (OLit T N P E) u x y) as [[? ?]|]; discriminate.
Qed.

Lemma unary_minus_char : forall n D s x rs m, type_ok n D (OSafe s) -> holds D (OSafe s) x ->
  unary_minus D s x = Some (rs, m) ->
  type_ok n D (OSafe rs) /\ ((returns m (- x) /\ holds D (OSafe rs) (- x)) \/ throws_arith m).
Proof.
  intros n D s x rs m Hs Hx H. pose proof Hs as (W & E & P).
  destruct (C32_minus D s x rs m W Hx (E _ eq_refl) H) as [Wr K]. split.
  - assert (Ti : type_ok n D (ORaw Int)).
    { split; [apply (wf_int_lit D 0); lia|]. split; intros; discriminate. }
    apply (result_type_ok n D Sub (ORaw Int) (OSafe s) 0 x rs m Ti Hs H Wr).
  - destruct K as [[A B]|T]; [left|right]; auto.
Qed.

(** ------------------------------------------------------------------ *)
(** expressions *)
Lemma bind_ret : forall (A B : Type) (m : M A) (k : A -> M B) a, returns m a -> mbind m k = k a.
Proof.
  intros A B m k a ->. change (([] : list event), Ret a) with (mret a). apply mbind_ret.
Qed.

Lemma both_char : forall first ma mb,
  (exists x, returns ma x) \/ throws_arith ma -> (exists y, returns mb y) \/ throws_arith mb ->
  (exists x y, returns ma x /\ returns mb y /\ returns (both first ma mb) (x, y))
  \/ throws_arith (both first ma mb).
Proof.
  intros first ma mb [(x & Hx)|Tx] [(y & Hy)|Ty]; unfold both.
  - left. exists x, y. splits; auto. destruct first.
    + rewrite (bind_ret _ _ _ _ _ Hx), (bind_ret _ _ _ _ _ Hy). reflexivity.
    + rewrite (bind_ret _ _ _ _ _ Hy), (bind_ret _ _ _ _ _ Hx). reflexivity.
  - right. destruct first.
    + rewrite (bind_ret _ _ _ _ _ Hx). apply mbind_throws. assumption.
    + apply mbind_throws. assumption.
  - right. destruct first.
    + apply mbind_throws. assumption.
    + rewrite (bind_ret _ _ _ _ _ Hy). apply mbind_throws. assumption.
  - right. destruct first; apply mbind_throws; assumption.
Qed.

Definition expr_result (n : bool) (D : dmodel) (i : nat -> Z) (e : expr) (t : otype) (m : M Z) : Prop :=
  type_ok n D t
  /\ ((exists z, value i e = Some z /\ returns m z /\ holds D t z) \/ throws_arith m).

Lemma expr_char : forall n D G s i e t, (forall v, type_ok n D (G v)) -> store_ok D G s i ->
  expr_ok n D e -> type_of D G e = Some t -> expr_result n D i e t (eval D G s e).
Proof.
  intros n D G s i e. induction e as [o z|v|op first a IHa b IHb|a IHa|a IHa|o a IHa];
  intros t HG Hs He Ht; cbn [type_of eval expr_ok] in *.
  - injection Ht as <-. destruct He as [H1 H2]. split; [assumption|]. left. exists z. auto.
    split; [reflexivity|]. split; [reflexivity|assumption].
  - injection Ht as <-. split; [apply HG|]. destruct (Hs v) as [H1 H2]. left. exists (i v).
    split; [reflexivity|]. split; [|assumption]. unfold read. rewrite H1. reflexivity.
  - destruct He as (Hop & Ha & Hb).
    destruct (type_of D G a) as [ta|]; [|discriminate]. destruct (type_of D G b) as [tb|]; [|discriminate].
    destruct (eval_binop D op ta tb 0 0) as [[rs m0]|] eqn:Eb; [|discriminate]. cbn in Ht. injection Ht as <-.
    destruct (IHa ta HG Hs Ha eq_refl) as [Ta Ra]. destruct (IHb tb HG Hs Hb eq_refl) as [Tb Rb].
    assert (Trs : type_ok n D (OSafe rs)).
    { destruct (eval_binop_any D op ta tb 0 0 (lim_lo D ta) (lim_lo D tb) rs m0 Eb) as (k & K).
      apply (op_char n D op ta tb (lim_lo D ta) (lim_lo D tb) rs k Hop Ta Tb); [| |assumption].
      - destruct Ta as ((_ & _ & L) & _). unfold holds. lia.
      - destruct Tb as ((_ & _ & L) & _). unfold holds. lia. }
    split; [assumption|].
    destruct (both_char first (eval D G s a) (eval D G s b)) as [(x & y & Hx & Hy & Hp)|T].
    + destruct Ra as [(x & _ & Hx & _)|T]; [left; eauto|right; assumption].
    + destruct Rb as [(y & _ & Hy & _)|T]; [left; eauto|right; assumption].
    + destruct Ra as [(x' & Vx & Hx' & Ix)|T]; [|exfalso; destruct T as (e & _ & T); rewrite T in Hx; discriminate].
      destruct Rb as [(y' & Vy & Hy' & Iy)|T]; [|exfalso; destruct T as (e & _ & T); rewrite T in Hy; discriminate].
      assert (x' = x) by (unfold returns in *; congruence). assert (y' = y) by (unfold returns in *; congruence).
      subst x' y'. rewrite (bind_ret _ _ _ _ _ Hp). cbn [fst snd].
      destruct (eval_binop_any D op ta tb 0 0 x y rs m0 Eb) as (k & K). rewrite K. cbn [run_snd].
      destruct (op_char n D op ta tb x y rs k Hop Ta Tb Ix Iy K) as [_ [(z & M1 & M2 & M3)|T]]; [left|right; assumption].
      exists z. split; [cbn [value]; rewrite Vx, Vy; exact M1|split; [exact M2|exact M3]].
    + right. apply mbind_throws. assumption.
  - destruct (type_of D G a) as [[T|ts|T N P E]|]; try discriminate.
    destruct (unary_minus D ts 0) as [[rs m0]|] eqn:Eb; [|discriminate]. cbn in Ht. injection Ht as <-.
    destruct (IHa (OSafe ts) HG Hs He eq_refl) as [Ta Ra].
    assert (Ht : forall x, exists k, unary_minus D ts x = Some (rs, k))
      by (intros x; unfold unary_minus in *; exact (binary_any D Sub _ _ 0 0 0 x rs m0 Eb)).
    assert (Trs : type_ok n D (OSafe rs)).
    { destruct (Ht (smin ts)) as (k & K). apply (unary_minus_char n D ts (smin ts) rs k Ta); [|assumption].
      destruct Ta as ((_ & _ & L) & _). unfold holds. cbn in *. lia. }
    split; [assumption|]. destruct Ra as [(x & Vx & Hx & Ix)|T].
    + rewrite (bind_ret _ _ _ _ _ Hx). destruct (Ht x) as (k & K). rewrite K. cbn [run_snd].
      destruct (unary_minus_char n D ts x rs k Ta Ix K) as [_ [[M2 M3]|T]]; [left|right; assumption].
      exists (- x). split; [cbn [value]; rewrite Vx; reflexivity|split; [exact M2|exact M3]].
    + right. apply mbind_throws. assumption.
  - destruct (type_of D G a) as [[T|ts|T N P E]|]; try discriminate.
    cbn in Ht. injection Ht as <-.
    destruct (IHa (OSafe ts) HG Hs He eq_refl) as [Ta Ra]. split; [assumption|].
    destruct Ra as [(x & Vx & Hx & Ix)|T].
    + left. exists x. split; [exact Vx|]. split; [|exact Ix]. rewrite (bind_ret _ _ _ _ _ Hx). reflexivity.
    + right. apply mbind_throws. assumption.
  - destruct He as [To Ha]. destruct (type_of D G a) as [ta|]; [|discriminate].
    destruct (convert D o ta 0) as [m0|] eqn:Ec; [|discriminate]. cbn in Ht. injection Ht as <-.
    destruct (IHa ta HG Hs Ha eq_refl) as [Ta Ra]. split; [assumption|].
    destruct Ra as [(x & Vx & Hx & Ix)|T].
    + rewrite (bind_ret _ _ _ _ _ Hx). destruct (convert_any D o ta 0 x m0 Ec) as (k & K). rewrite K. cbn [run].
      destruct (convert_char n D o ta x k To Ta Ix K) as [[A B]|T]; [left|right; assumption].
      exists x. auto.
    + right. apply mbind_throws. assumption.
Qed.

(** ------------------------------------------------------------------ *)
(** conditions *)
Lemma eval_relop_char : forall n D r t u x y m, type_ok n D t -> type_ok n D u ->
  holds D t x -> holds D u y -> eval_relop D r t u x y = Some m ->
  returns m (math_rel r x y) \/ throws_arith m.
Proof.
  intros n D r t u x y m (Wt & Et & _) (Wu & Eu & _) Hx Hy H.
  destruct (C29_lemma D t u x y Wt Wu Hx Hy) as (A1 & A2 & A3 & A4 & A5 & A6).
  { intros E [K|K]; auto. }
  destruct r; cbn [eval_relop math_rel] in *; auto.
Qed.

Lemma cond_char : forall n D G s i c, (forall v, type_ok n D (G v)) -> store_ok D G s i ->
  cond_ok n D c -> cond_compiles D G c = true ->
  (exists t, truth i c = Some t /\ returns (eval_cond D G s c) t) \/ throws_arith (eval_cond D G s c).
Proof.
  intros n D G s i [r first a b] HG Hs [Ha Hb] Hc. cbn [cond_compiles eval_cond] in *.
  destruct (type_of D G a) as [ta|] eqn:Eta; [|discriminate].
  destruct (type_of D G b) as [tb|] eqn:Etb; [|discriminate].
  destruct (eval_relop D r ta tb 0 0) as [m0|] eqn:Er; [|discriminate].
  destruct (expr_char n D G s i a ta HG Hs Ha Eta) as [Ta Ra].
  destruct (expr_char n D G s i b tb HG Hs Hb Etb) as [Tb Rb].
  destruct (both_char first (eval D G s a) (eval D G s b)) as [(x & y & Hx & Hy & Hp)|T].
  - destruct Ra as [(x & _ & Hx & _)|T]; [left; eauto|right; assumption].
  - destruct Rb as [(y & _ & Hy & _)|T]; [left; eauto|right; assumption].
  - destruct Ra as [(x' & Vx & Hx' & Ix)|T]; [|exfalso; destruct T as (e & _ & T); rewrite T in Hx; discriminate].
    destruct Rb as [(y' & Vy & Hy' & Iy)|T]; [|exfalso; destruct T as (e & _ & T); rewrite T in Hy; discriminate].
    assert (x' = x) by (unfold returns in *; congruence). assert (y' = y) by (unfold returns in *; congruence).
    subst x' y'. rewrite (bind_ret _ _ _ _ _ Hp). cbn [fst snd].
    destruct (eval_relop_any D r ta tb 0 0 x y m0 Er) as (k & K). rewrite K. cbn [run].
    destruct (eval_relop_char n D r ta tb x y k Ta Tb Ix Iy K) as [R|T]; [left|right; assumption].
    exists (math_rel r x y). split; [|assumption]. cbn [truth]. rewrite Vx, Vy. reflexivity.
  - right. apply mbind_throws. assumption.
Qed.

(** ------------------------------------------------------------------ *)
(** commands *)
Lemma store_ok_upd : forall D G s i v z, store_ok D G s i -> holds D (G v) z ->
  store_ok D G (upd s v (Some z)) (upd i v z).
Proof.
  intros D G s i v z Hs Hz w. unfold upd. destruct (Nat.eqb_spec w v) as [->|]; [auto|apply Hs].
Qed.

(** what an execution that ended with store s' and result r must satisfy *)
Definition good (D : dmodel) (G : tenv) (i : nat -> Z) (c : cmd) (s' : store) (r : result) : Prop :=
  exists i', store_ok D G s' i'
  /\ ((r = RDone /\ ideal i c i' true) \/ (exists e, r = RRaised e /\ ideal i c i' false)).

Lemma finish_good : forall (A : Type) D G i c s (m : M A) write,
  store_ok D G s i -> ideal i c i false ->
  (exists a i', returns m a /\ store_ok D G (write a) i' /\ ideal i c i' true) \/ throws_arith m ->
  good D G i c (fst (finish s m write)) (snd (finish s m write)).
Proof.
  intros A D G i c s m write Hs Hr [(a & i' & -> & Ha & Hi)|(e & _ & ->)]; unfold finish; cbn.
  - exists i'. split; [assumption|]. left. auto.
  - exists i. split; [assumption|]. right. eauto.
Qed.

Lemma good_of_pair : forall D G i c (p : store * result) s' r, p = (s', r) ->
  good D G i c (fst p) (snd p) -> good D G i c s' r.
Proof. intros D G i c p s' r -> H. exact H. Qed.

Lemma loop_good : forall n D G c a, (forall v, type_ok n D (G v)) -> cond_ok n D c -> cond_compiles D G c = true ->
  forall body,
  (forall s i s' r, store_ok D G s i -> body s = Some (s', r) -> good D G i a s' r) ->
  forall k s i s' r, store_ok D G s i -> loop (fun s => eval_cond D G s c) body k s = Some (s', r) ->
  good D G i (CWhile c a) s' r.
Proof.
  intros n D G c a HG Hc Hcc body Hbody. induction k as [|k IH]; intros s i s' r Hs H; cbn [loop] in H; [discriminate|].
  destruct (cond_char n D G s i c HG Hs Hc Hcc) as [(t & Ht & Rt)|(e & _ & Te)].
  - rewrite Rt in H. cbn [snd] in H. destruct t.
    + destruct (body s) as [[s1 r1]|] eqn:Eb; [|discriminate].
      destruct (Hbody s i s1 r1 Hs Eb) as (i1 & Hs1 & [[-> I1]|(e & -> & I1)]).
      * destruct (IH s1 i1 s' r Hs1 H) as (i2 & Hs2 & K). exists i2. split; [assumption|].
        destruct K as [[-> I2]|(e & -> & I2)]; [left|right; exists e]; (split; [reflexivity|]);
        eapply I_while; eassumption.
      * injection H as <- <-. exists i1. split; [assumption|]. right. exists e. split; [reflexivity|].
        apply I_while_body_raise; assumption.
    + injection H as <- <-. exists i. split; [assumption|]. left. split; [reflexivity|]. apply I_while_end. assumption.
  - rewrite Te in H. cbn [snd] in H. injection H as <- <-. exists i. split; [assumption|].
    right. exists e. split; [reflexivity|]. apply I_while_raise.
Qed.

Lemma exec_good : forall n D G fuel, (forall v, type_ok n D (G v)) ->
  forall c s i s' r, cmd_ok n D G c -> compiles D G c = true -> store_ok D G s i ->
  exec fuel D G s c = Some (s', r) -> good D G i c s' r.
Proof.
  intros n D G fuel HG. induction c as [|v|v e|op v e|v|v|inc w v|a IHa b IHb|c a IHa b IHb|c a IHa|a IHa b IHb];
  intros s i s' r Hok Hc Hs H; cbn [exec cmd_ok compiles] in *.
  - injection H as <- <-. exists i. split; [assumption|]. left. split; [reflexivity|apply I_skip].
  - destruct (G v) as [T|t|T N P E] eqn:EG; try discriminate.
    destruct (default_ctor t) as [m|] eqn:Ed; [|discriminate]. cbn [run] in H. injection H as H.
    specialize (Hok (sE t) eq_refl). unfold default_ctor in Ed.
    destruct (dispatch_compiles (sE t) uninitialized_value) eqn:Edc; [|discriminate]. injection Ed as <-.
    unfold dispatch_compiles in Edc. unfold dispatch in H. cbn in *.
    destruct (on_uninitialized_value (sE t)); try congruence. cbn in H. injection H as <- <-.
    exists i. split; [assumption|]. right. eexists. split; [reflexivity|]. apply I_default_raise.
  - destruct (type_of D G e) as [t|] eqn:Et; [|discriminate].
    destruct (convert D (G v) t 0) as [m0|] eqn:Ec; [|discriminate]. injection H as H.
    refine (good_of_pair _ _ _ _ _ _ _ H _). apply finish_good; [assumption|apply I_assign_raise|].
    destruct (expr_char n D G s i e t HG Hs Hok Et) as [Te [(x & Vx & Hx & Ix)|T]].
    + rewrite (bind_ret _ _ _ _ _ Hx). destruct (convert_any D (G v) t 0 x m0 Ec) as (k & K). rewrite K. cbn [run].
      destruct (convert_char n D (G v) t x k (HG v) Te Ix K) as [[A B]|T]; [left|right; assumption].
      exists x, (upd i v x). splits; auto using store_ok_upd. apply I_assign. assumption.
    + right. apply mbind_throws. assumption.
  - destruct Hok as [Hop He]. destruct (type_of D G e) as [t|] eqn:Et; [|discriminate].
    destruct (compound D op (G v) t 0 0) as [m0|] eqn:Ec; [|discriminate]. injection H as H.
    refine (good_of_pair _ _ _ _ _ _ _ H _). apply finish_good; [assumption|apply I_compound_raise|].
    destruct (expr_char n D G s i e t HG Hs He Et) as [Te [(y & Vy & Hy & Iy)|T]].
    + rewrite (bind_ret _ _ _ _ _ Hy). destruct (Hs v) as [Ev Iv]. unfold read. rewrite Ev, mbind_ret.
      destruct (compound_any D op (G v) t 0 0 (i v) y m0 Ec) as (k & K). rewrite K. cbn [run].
      destruct (compound_char n D op (G v) t (i v) y k Hop (HG v) Te Iv Iy K) as [(z & M1 & M2 & M3)|T];
        [left|right; assumption].
      exists z, (upd i v z). splits; auto using store_ok_upd. eapply I_compound; eassumption.
    + right. apply mbind_throws. assumption.
  - pose proof (HG v) as Tv. destruct (Hs v) as [Ev Iv].
    destruct (G v) as [T|t|T N P E] eqn:EG; try discriminate.
    destruct (increment D t 0) as [m0|] eqn:Ec; [|discriminate]. injection H as H.
    refine (good_of_pair _ _ _ _ _ _ _ H _). apply finish_good; [assumption|apply I_inc_raise|].
    unfold read. rewrite Ev, mbind_ret. destruct Tv as (Wv & Pv & _).
    destruct (compound_any D (BA Add) (OSafe t) (ORaw Int) 0 1 (i v) 1 m0 Ec) as (k & K).
    unfold increment. rewrite K. cbn [run].
    destruct (C32_increment D t (i v) k Wv Iv (Pv _ eq_refl) K) as [[A B]|T]; [left|right; assumption].
    exists (i v + 1), (upd i v (i v + 1)). splits; auto; [|apply I_inc].
    apply store_ok_upd; [assumption|]. rewrite EG. exact B.
  - pose proof (HG v) as Tv. destruct (Hs v) as [Ev Iv].
    destruct (G v) as [T|t|T N P E] eqn:EG; try discriminate.
    destruct (decrement D t 0) as [m0|] eqn:Ec; [|discriminate]. injection H as H.
    refine (good_of_pair _ _ _ _ _ _ _ H _). apply finish_good; [assumption|apply I_dec_raise|].
    unfold read. rewrite Ev, mbind_ret. destruct Tv as (Wv & Pv & _).
    destruct (compound_any D (BA Sub) (OSafe t) (ORaw Int) 0 1 (i v) 1 m0 Ec) as (k & K).
    unfold decrement. rewrite K. cbn [run].
    destruct (C32_decrement D t (i v) k Wv Iv (Pv _ eq_refl) K) as [[A B]|T]; [left|right; assumption].
    exists (i v - 1), (upd i v (i v - 1)). splits; auto; [|apply I_dec].
    apply store_ok_upd; [assumption|]. rewrite EG. exact B.
  - pose proof (HG v) as Tv. pose proof (HG w) as Tw. destruct (Hs v) as [Ev Iv].
    destruct (G v) as [T|t|T N P E] eqn:EG; try discriminate.
    destruct (G w) as [T|t'|T N P E] eqn:EW; try discriminate.
    assert (Hm : exists m0 m1, (if inc then post_increment D t 0 else post_decrement D t 0) = Some m0
                 /\ construct D t' (OSafe t) 0 = Some m1).
    { destruct (if inc then post_increment D t 0 else post_decrement D t 0); [|discriminate].
      destruct (construct D t' (OSafe t) 0); [eauto|discriminate]. }
    destruct Hm as (m0 & m1 & Em & Ec). unfold read in H. rewrite Ev in H. rewrite mbind_ret in H.
    assert (Hk : exists k, (if inc then post_increment D t (i v) else post_decrement D t (i v)) = Some k).
    { destruct inc; unfold post_increment, post_decrement, increment, decrement in *.
      - destruct (compound D (BA Add) (OSafe t) (ORaw Int) 0 1) as [p|] eqn:Ep; [|discriminate].
        destruct (compound_any _ _ _ _ 0 1 (i v) 1 p Ep) as (k & ->). cbn. eauto.
      - destruct (compound D (BA Sub) (OSafe t) (ORaw Int) 0 1) as [p|] eqn:Ep; [|discriminate].
        destruct (compound_any _ _ _ _ 0 1 (i v) 1 p Ep) as (k & ->). cbn. eauto. }
    destruct Hk as (k & K). rewrite K in H. cbn [run snd mret] in H.
    pose proof Tv as (Wv & Pv & _).
    assert (Hp : (returns k (i v, if inc then i v + 1 else i v - 1)
                  /\ holds D (OSafe t) (if inc then i v + 1 else i v - 1)) \/ throws_arith k).
    { destruct (C32_post D t (i v) k Wv Iv (Pv _ eq_refl)) as [A B]. destruct inc; [apply A|apply B]; assumption. }
    destruct Hp as [[-> Hn]|(e & _ & ->)]; cbn [finish snd fst] in H.
    + injection H as H. set (i1 := upd i v (if inc then i v + 1 else i v - 1)).
      assert (Hs1 : store_ok D G (upd s v (Some (if inc then i v + 1 else i v - 1))) i1)
        by (apply store_ok_upd; [assumption|rewrite EG; exact Hn]).
      destruct (construct_compiles D t' (OSafe t) 0 (i v) m1 Ec) as (k1 & K1). rewrite K1 in H. cbn [run] in H.
      destruct (convert_char n D (OSafe t') (OSafe t) (i v) k1 Tw Tv Iv K1) as [[A ->]|(e & _ & ->)];
      cbn [finish snd] in H; injection H as <- <-.
      * exists (upd i1 w (i v)). split; [apply store_ok_upd; [assumption|rewrite EW; exact A]|].
        left. split; [reflexivity|apply I_post].
      * exists i1. split; [assumption|]. right. exists e. split; [reflexivity|apply I_post_raise2].
    + injection H as <- <-. exists i. split; [assumption|]. right. exists e. split; [reflexivity|apply I_post_raise1].
  - apply andb_prop in Hc. destruct Hc as [Ca Cb]. destruct Hok as [Oa Ob].
    destruct (exec fuel D G s a) as [[s1 r1]|] eqn:Ea; [|discriminate].
    destruct (IHa s i s1 r1 Oa Ca Hs Ea) as (i1 & Hs1 & [[-> I1]|(e & -> & I1)]).
    + destruct (IHb s1 i1 s' r Ob Cb Hs1 H) as (i2 & Hs2 & K). exists i2. split; [assumption|].
      destruct K as [[-> I2]|(e & -> & I2)]; [left|right; exists e]; (split; [reflexivity|]);
      eapply I_seq; eassumption.
    + injection H as <- <-. exists i1. split; [assumption|]. right. exists e. split; [reflexivity|].
      apply I_seq_raise. assumption.
  - apply andb_prop in Hc. destruct Hc as [Cc Cb]. apply andb_prop in Cc. destruct Cc as [Cc Ca].
    destruct Hok as (Oc & Oa & Ob).
    destruct (cond_char n D G s i c HG Hs Oc Cc) as [(t & Ht & Rt)|(e & _ & Te)].
    + rewrite Rt in H. cbn [snd] in H.
      assert (K : good D G i (if t then a else b) s' r) by (destruct t; eauto).
      destruct K as (i1 & Hs1 & K). exists i1. split; [assumption|].
      destruct K as [[-> I2]|(e & -> & I2)]; [left|right; exists e]; (split; [reflexivity|]);
      eapply I_if; eassumption.
    + rewrite Te in H. cbn [snd] in H. injection H as <- <-. exists i. split; [assumption|].
      right. exists e. split; [reflexivity|]. apply I_if_raise.
  - apply andb_prop in Hc. destruct Hc as [Cc Ca]. destruct Hok as (Oc & Oa).
    refine (loop_good n D G c a HG Oc Cc (fun s => exec fuel D G s a) _ fuel s i s' r Hs H).
    intros s0 i0 s1 r1 Hs0 H0. exact (IHa s0 i0 s1 r1 Oa Ca Hs0 H0).
  - apply andb_prop in Hc. destruct Hc as [Ca Cb]. destruct Hok as [Oa Ob].
    destruct (exec fuel D G s a) as [[s1 r1]|] eqn:Ea; [|discriminate].
    destruct (IHa s i s1 r1 Oa Ca Hs Ea) as (i1 & Hs1 & [[-> I1]|(e & -> & I1)]).
    + injection H as <- <-. exists i1. split; [assumption|]. left. split; [reflexivity|]. apply I_try. assumption.
    + destruct (IHb s1 i1 s' r Ob Cb Hs1 H) as (i2 & Hs2 & K). exists i2. split; [assumption|].
      destruct K as [[-> I2]|(e' & -> & I2)]; [left|right; exists e']; (split; [reflexivity|]);
      eapply I_try_catch; eassumption.
Qed.
