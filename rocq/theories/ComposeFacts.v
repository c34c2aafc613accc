(** ComposeFacts.v -- proofs about expressions and programs with all operators. *)
From Coq Require Import ZArith Bool List Lia Arith.
From Verif Require Import Base CType Spec CTypeFacts Utility UtilityFacts SafeCompare
  CheckedInteger CheckedIntegerFacts CheckedResultOps CheckedResultFacts Interval IntervalFacts
  IntervalOpsFacts ExceptionPolicy Promotion SafeBase SafeSpec SafeFacts SafeDivFacts SafeShiftFacts
  SafeConvFacts SafeBitFacts SafeTraceFacts SafePortFacts PropsArithProofs PropsConvProofs Program ProgramSpec
  ProgramFacts ComposeSpec.
Import ListNotations.
Local Open Scope Z_scope.

Lemma fails_throw : forall (A : Type) (m : M A), fails m -> exists l e, m = (l, Throw e).
Proof. intros A m [(e & _ & H)|(e & _ & H)]; eauto. Qed.
Lemma mbind_fails : forall (A B : Type) (m : M A) (k : A -> M B), fails m -> fails (mbind m k).
Proof.
  intros A B m k [H|(e & He & ->)]; [left; apply mbind_throws; assumption|right].
  exists e. split; [assumption|reflexivity].
Qed.

(** ------------------------------------------------------------------ *)
(** operators *)
Lemma eval_policy : forall D op t u x y s m, eval_binop D op t u x y = Some (s, m) ->
  common_ep t u = Some (sE s) /\ common_pp t u = Some (sP s).
Proof.
  intros D [op|b] t u x y s m H; cbn [eval_binop] in H.
  - exact (binary_policy _ _ _ _ _ _ _ _ H).
  - destruct (bitwise_inv _ _ _ _ _ _ _ _ H) as (mx & A & B & _). auto.
Qed.
Lemma eval_fine : forall n D op t u x y s m, type_fine n D t -> type_fine n D u ->
  eval_binop D op t u x y = Some (s, m) ->
  throws_arithmetic (sE s) /\ throws_shift (sE s) /\ (n = true -> sP s = Native)
  /\ (wf_operand D (OSafe s) -> type_fine n D (OSafe s)).
Proof.
  intros n D op t u x y s m ((_ & Et & Pt) & St) ((_ & Eu & Pu) & Su) H.
  destruct (eval_policy _ _ _ _ _ _ _ _ H) as [HE HP].
  assert (K1 : throws_arithmetic (sE s)) by (destruct (common_ep_in _ _ _ HE); auto).
  assert (K2 : throws_shift (sE s)) by (destruct (common_ep_in _ _ _ HE); auto).
  assert (K3 : n = true -> sP s = Native) by (intros Hn; destruct (common_pp_in _ _ _ HP); auto).
  splits; auto. intros W. split; [split; [assumption|split]|]; cbn [get_ep get_pp].
  - intros E [= <-]. assumption.
  - intros Hn P [= <-]. auto.
  - intros E [= <-]. assumption.
Qed.

Lemma exact_char : forall n D op t u x y s m, exact_operator n D op t u s ->
  type_fine n D t -> type_fine n D u -> holds D t x -> holds D u y ->
  eval_binop D op t u x y = Some (s, m) ->
  type_fine n D (OSafe s)
  /\ ((exists z, math_op op x y = Some z /\ returns m z /\ holds D (OSafe s) z) \/ fails m).
Proof.
  intros n D op t u x y s m Hop Ht Hu Hx Hy H.
  destruct (eval_fine n D op t u x y s m Ht Hu H) as (HE & HS & HN & HT).
  pose proof (proj1 (proj1 Ht)) as Wt. pose proof (proj1 (proj1 Hu)) as Wu.
  destruct op as [[| | | | | |]|b]; cbn [exact_operator eval_binop] in Hop, H.
  - destruct (op_char n D (BA Add) t u x y s m ltac:(left; auto) (proj1 Ht) (proj1 Hu) Hx Hy H) as [(W & _) K].
    split; [auto|]. destruct K as [K|K]; [left; exact K|right; left; exact K].
  - destruct (op_char n D (BA Sub) t u x y s m ltac:(right; left; auto) (proj1 Ht) (proj1 Hu) Hx Hy H) as [(W & _) K].
    split; [auto|]. destruct K as [K|K]; [left; exact K|right; left; exact K].
  - destruct (op_char n D (BA Mul) t u x y s m ltac:(do 2 right; left; auto) (proj1 Ht) (proj1 Hu) Hx Hy H) as [(W & _) K].
    split; [auto|]. destruct K as [K|K]; [left; exact K|right; left; exact K].
  - destruct (op_char n D (BA Div) t u x y s m ltac:(do 3 right; auto) (proj1 Ht) (proj1 Hu) Hx Hy H) as [(W & _) K].
    split; [auto|]. destruct K as [K|K]; [left; exact K|right; left; exact K].
  - contradiction.
  - destruct Hop as [Hp [[H1 H2]|Hd]]; unfold holds in *.
    + destruct (C26_nonneg D t u x y s m Wt Wu Hx Hy H HE HS ltac:(lia) ltac:(lia) Hp) as [W [[R I]|K]];
      (split; [auto|]); [left|right; exact K].
      exists (x * 2 ^ y). auto.
    + destruct (C26_wide D t u x y s m Wt Wu Hx Hy H HE HS Hp Hd) as (W & [[R I]|K] & _);
      (split; [auto|]); [left|right; exact K].
      exists (x * 2 ^ y). auto.
  - assert (Hc : csigned D (st s) = true \/ (0 <= lim_lo D u /\ y <> digits D (st s))).
    { unfold holds in *. destruct Hop as [Hs|[H0 H1]]; [left|right]; auto. split; [assumption|]. lia. }
    destruct (C27_lemma D t u x y s m Wt Wu Hx Hy H HE HS Hc) as (W & [[R I]|K] & _);
    (split; [auto|]); [left|right; exact K].
    exists (x / 2 ^ y). auto.
  - destruct Hop as (H1 & H2 & HP).
    destruct (C28_range D b t u x y s m Wt Wu Hx Hy H HP) as (W & R & I); try (unfold holds in *; lia).
    split; [auto|]. left. exists (bit_op b x y). auto.
Qed.

(** the value is right, and inside the underlying type *)
Lemma storable_char : forall n D op t u x y s m, storable D op t u s ->
  type_fine n D t -> type_fine n D u -> holds D t x -> holds D u y ->
  eval_binop D op t u x y = Some (s, m) ->
  (exists z, math_op op x y = Some z /\ returns m z /\ in_type D (st s) z) \/ fails m.
Proof.
  intros n D op t u x y s m Hop Ht Hu Hx Hy H.
  destruct (eval_fine n D op t u x y s m Ht Hu H) as (HE & HS & HN & HT).
  pose proof (proj1 (proj1 Ht)) as Wt. pose proof (proj1 (proj1 Hu)) as Wu.
  destruct op as [[| | | | | |]|b]; cbn [storable eval_binop] in Hop, H; try contradiction.
  - destruct Hop as [Hl Hm].
    destruct (mod_char D t u x y s m Wt Wu Hx Hy H HE Hl) as [A B].
    { pose proof (lo_le_0 D (st s)). unfold holds in *. intros (N & -> & K). lia. }
    cbn [math_op]. destruct (Z.eqb_spec y 0) as [->|N]; [right; left; auto|].
    destruct (B N) as [[R I]|[_ K]]; [left|right; left; assumption].
    exists (Z.rem x y). rewrite Z.rem_eq by assumption. auto.
  - destruct Hop as (Ft & Fu & HP). left.
    destruct (bitwise_value D b t u x y s m H HP) as (Es & R & I).
    assert (E : built_in_bit D b (base_ty t) (base_ty u) x y = bit_op b x y).
    { rewrite built_in_bit_eq, <- Es. unfold fits_in, holds in *.
      rewrite !conv_id by (unfold in_type; lia). reflexivity. }
    rewrite E in R, I. exists (bit_op b x y). auto.
Qed.

(** ------------------------------------------------------------------ *)
(** conversions *)
Lemma construct_absorbs : forall D w s x m, wf_operand D (OSafe w) -> throws_arithmetic (sE w) ->
  smin w <= lo D (st s) -> hi D (st s) <= smax w -> in_type D (st s) x ->
  construct D w (OSafe s) x = Some m -> smin w <= x <= smax w /\ m = mret x.
Proof.
  intros D w s x m (W1 & W2 & _) HE Hl Hh Hx H. cbn in W1, W2. unfold construct, validate in H.
  assert (I : smin w <= x <= smax w) by (unfold in_type in Hx; lia).
  destruct (validate_static _ _ _ _ _ _ _) as [[|]|]; [| |discriminate].
  - injection H as <-. split; [assumption|]. rewrite conv_id by (unfold in_type in *; lia). reflexivity.
  - cbn [base_ty] in H. destruct (all_compile _ _); [|discriminate]. injection H as <-. split; [assumption|].
    destruct (het_cast_spec D (st w) (smin w) (smax w) (st s) x W1 W2 Hx) as [A _].
    rewrite A by assumption. reflexivity.
Qed.

(** the result of an expression whose value goes to [tgt] *)
Definition outcome_ok (n : bool) (D : dmodel) (tgt : option otype) (t : otype) (v : option Z) (m : M Z) : Prop :=
  (type_fine n D t /\ ((exists z, v = Some z /\ returns m z /\ holds D t z) \/ fails m))
  \/ (exists s, t = OSafe s /\ throws_arithmetic (sE s) /\ absorbs D tgt s
      /\ ((exists z, v = Some z /\ returns m z /\ in_type D (st s) z) \/ fails m)).

Lemma outcome_none : forall n D t v m, outcome_ok n D None t v m ->
  type_fine n D t /\ ((exists z, v = Some z /\ returns m z /\ holds D t z) \/ fails m).
Proof. intros n D t v m [H|(s & _ & _ & [] & _)]; assumption. Qed.

(** an expression's value converted to tgt *)
Lemma outcome_convert : forall n D tgt t v m m0, type_fine n D tgt ->
  outcome_ok n D (Some tgt) t v m -> convert D tgt t 0 = Some m0 ->
  (exists z, v = Some z /\ returns (mbind m (fun x => run (convert D tgt t x))) z /\ holds D tgt z)
  \/ fails (mbind m (fun x => run (convert D tgt t x))).
Proof.
  intros n D tgt t v m m0 Tt H Hc.
  destruct H as [[Ts [(z & Hv & Hr & Hh)|F]]|(s & -> & HE & Ha & [(z & Hv & Hr & Hi)|F])];
  try (right; apply mbind_fails; assumption).
  - rewrite (bind_ret _ _ _ _ _ Hr). destruct (convert_any D tgt t 0 z m0 Hc) as (k & K). rewrite K. cbn [run].
    destruct (convert_char n D tgt t z k (proj1 Tt) (proj1 Ts) Hh K) as [[A B]|T]; [left|right; left; assumption].
    exists z. auto.
  - rewrite (bind_ret _ _ _ _ _ Hr). destruct (convert_any D tgt (OSafe s) 0 z m0 Hc) as (k & K). rewrite K. cbn [run].
    destruct tgt as [T|w|T N P E]; cbn [convert absorbs] in K, Ha.
    + destruct (to_builtin_char D T s z k HE Hi K) as [[A ->]|[_ A]]; [left|right; left; assumption].
      exists z. splits; auto. reflexivity.
    + destruct Tt as ((W & Et & _) & _).
      destruct (construct_absorbs D w s z k W (Et _ eq_refl) (proj1 Ha) (proj2 Ha) Hi K) as [A ->].
      left. exists z. splits; auto. reflexivity.
    + contradiction.
Qed.

(** ------------------------------------------------------------------ *)
(** expressions *)
Lemma both_fails : forall first ma mb,
  (exists x, returns ma x) \/ fails ma -> (exists y, returns mb y) \/ fails mb ->
  (exists x y, returns ma x /\ returns mb y /\ returns (both first ma mb) (x, y))
  \/ fails (both first ma mb).
Proof.
  intros first ma mb [(x & Hx)|Tx] [(y & Hy)|Ty]; unfold both.
  - left. exists x, y. splits; auto. destruct first.
    + rewrite (bind_ret _ _ _ _ _ Hx), (bind_ret _ _ _ _ _ Hy). reflexivity.
    + rewrite (bind_ret _ _ _ _ _ Hy), (bind_ret _ _ _ _ _ Hx). reflexivity.
  - right. destruct first.
    + rewrite (bind_ret _ _ _ _ _ Hx). apply mbind_fails. assumption.
    + apply mbind_fails. assumption.
  - right. destruct first.
    + apply mbind_fails. assumption.
    + rewrite (bind_ret _ _ _ _ _ Hy). apply mbind_fails. assumption.
  - right. destruct first; apply mbind_fails; assumption.
Qed.
Lemma returns_fails : forall (A : Type) (m : M A) x, returns m x -> fails m -> False.
Proof. intros A m x H F. destruct (fails_throw _ _ F) as (l & e & T). rewrite T in H. discriminate. Qed.

Lemma wf_lo : forall D o, wf_operand D o -> holds D o (lim_lo D o).
Proof. intros D o (_ & _ & L). unfold holds. lia. Qed.

Lemma expr_char2 : forall n D G s i e tgt t, (forall v, type_fine n D (G v)) -> store_ok D G s i ->
  expr_fine n D G tgt e -> type_of D G e = Some t -> outcome_ok n D tgt t (value i e) (eval D G s e).
Proof.
  intros n D G s i e. induction e as [o z|v|op first a IHa b IHb|a IHa|a IHa|o a IHa];
  intros tgt t HG Hs He Ht; cbn [type_of eval expr_fine value] in *.
  - injection Ht as <-. destruct He as [H1 H2]. left. split; [assumption|]. left. exists z.
    split; [reflexivity|]. split; [reflexivity|assumption].
  - injection Ht as <-. left. split; [apply HG|]. destruct (Hs v) as [H1 H2]. left. exists (i v).
    split; [reflexivity|]. split; [|assumption]. unfold read. rewrite H1. reflexivity.
  - destruct He as (Ha & Hb & Hop).
    destruct (type_of D G a) as [ta|]; [|discriminate]. destruct (type_of D G b) as [tb|]; [|discriminate].
    destruct (eval_binop D op ta tb 0 0) as [[rs m0]|] eqn:Eb; [|discriminate]. cbn in Ht. injection Ht as <-.
    destruct (outcome_none _ _ _ _ _ (IHa None ta HG Hs Ha eq_refl)) as [Ta Ra].
    destruct (outcome_none _ _ _ _ _ (IHb None tb HG Hs Hb eq_refl)) as [Tb Rb].
    specialize (Hop ta tb eq_refl eq_refl rs m0 Eb).
    destruct (eval_fine n D op ta tb 0 0 rs m0 Ta Tb Eb) as (HE & _ & _ & _).
    assert (Hk : forall x y, returns (eval D G s a) x -> returns (eval D G s b) y ->
              holds D ta x /\ value i a = Some x /\ holds D tb y /\ value i b = Some y).
    { intros x y Hx Hy. destruct Ra as [(x' & Vx & Hx' & Ix)|T]; [|exfalso; eauto using returns_fails].
      destruct Rb as [(y' & Vy & Hy' & Iy)|T]; [|exfalso; eauto using returns_fails].
      assert (x' = x) by (unfold returns in *; congruence). assert (y' = y) by (unfold returns in *; congruence).
      subst x' y'. auto. }
    destruct Hop as [Hop|[Hop Hab]]; [left|right].
    + split.
      { destruct (eval_binop_any D op ta tb 0 0 (lim_lo D ta) (lim_lo D tb) rs m0 Eb) as (k & K).
        apply (exact_char n D op ta tb (lim_lo D ta) (lim_lo D tb) rs k Hop Ta Tb); [| |assumption];
        apply wf_lo; [apply Ta|apply Tb]. }
      destruct (both_fails first (eval D G s a) (eval D G s b)) as [(x & y & Hx & Hy & Hp)|T].
      * destruct Ra as [(x & _ & Hx & _)|T]; [left; eauto|right; assumption].
      * destruct Rb as [(y & _ & Hy & _)|T]; [left; eauto|right; assumption].
      * destruct (Hk x y Hx Hy) as (Ix & Vx & Iy & Vy).
        rewrite (bind_ret _ _ _ _ _ Hp). cbn [fst snd].
        destruct (eval_binop_any D op ta tb 0 0 x y rs m0 Eb) as (k & K). rewrite K. cbn [run_snd].
        destruct (exact_char n D op ta tb x y rs k Hop Ta Tb Ix Iy K) as [_ [(z & M1 & M2 & M3)|T]]; [left|right; assumption].
        exists z. rewrite Vx, Vy. auto.
      * right. apply mbind_fails. assumption.
    + exists rs. splits; auto.
      destruct (both_fails first (eval D G s a) (eval D G s b)) as [(x & y & Hx & Hy & Hp)|T].
      * destruct Ra as [(x & _ & Hx & _)|T]; [left; eauto|right; assumption].
      * destruct Rb as [(y & _ & Hy & _)|T]; [left; eauto|right; assumption].
      * destruct (Hk x y Hx Hy) as (Ix & Vx & Iy & Vy).
        rewrite (bind_ret _ _ _ _ _ Hp). cbn [fst snd].
        destruct (eval_binop_any D op ta tb 0 0 x y rs m0 Eb) as (k & K). rewrite K. cbn [run_snd].
        destruct (storable_char n D op ta tb x y rs k Hop Ta Tb Ix Iy K) as [(z & M1 & M2 & M3)|T]; [left|right; assumption].
        exists z. rewrite Vx, Vy. auto.
      * right. apply mbind_fails. assumption.
  - destruct (type_of D G a) as [[T|ts|T N P E]|]; try discriminate.
    destruct (unary_minus D ts 0) as [[rs m0]|] eqn:Eb; [|discriminate]. cbn in Ht. injection Ht as <-.
    destruct (outcome_none _ _ _ _ _ (IHa None (OSafe ts) HG Hs He eq_refl)) as [Ta Ra].
    assert (Ht : forall x, exists k, unary_minus D ts x = Some (rs, k))
      by (intros x; unfold unary_minus in *; exact (binary_any D Sub _ _ 0 0 0 x rs m0 Eb)).
    assert (Ti : type_fine n D (ORaw Int)).
    { split; [|intros E [=]]. split; [apply (wf_int_lit D 0); lia|]. split; intros; discriminate. }
    assert (Trs : type_fine n D (OSafe rs)).
    { destruct (Ht (smin ts)) as (k & K).
      destruct (unary_minus_char n D ts (smin ts) rs k (proj1 Ta)) as [(W & _) _]; [|assumption|].
      - exact (wf_lo D (OSafe ts) (proj1 (proj1 Ta))).
      - exact (proj2 (proj2 (proj2 (eval_fine n D (BA Sub) (ORaw Int) (OSafe ts) 0 0 rs m0 Ti Ta Eb))) W). }
    left. split; [assumption|]. destruct Ra as [(x & Vx & Hx & Ix)|T].
    + rewrite (bind_ret _ _ _ _ _ Hx). destruct (Ht x) as (k & K). rewrite K. cbn [run_snd].
      destruct (unary_minus_char n D ts x rs k (proj1 Ta) Ix K) as [_ [[M2 M3]|T]]; [left|right; left; assumption].
      exists (- x). rewrite Vx. auto.
    + right. apply mbind_fails. assumption.
  - destruct (type_of D G a) as [[T|ts|T N P E]|]; try discriminate.
    cbn in Ht. injection Ht as <-.
    destruct (outcome_none _ _ _ _ _ (IHa None (OSafe ts) HG Hs He eq_refl)) as [Ta Ra]. left. split; [assumption|].
    destruct Ra as [(x & Vx & Hx & Ix)|T].
    + left. exists x. split; [exact Vx|]. split; [|exact Ix]. rewrite (bind_ret _ _ _ _ _ Hx). reflexivity.
    + right. apply mbind_fails. assumption.
  - destruct He as [To Ha]. destruct (type_of D G a) as [ta|]; [|discriminate].
    destruct (convert D o ta 0) as [m0|] eqn:Ec; [|discriminate]. cbn in Ht. injection Ht as <-.
    left. split; [assumption|].
    exact (outcome_convert n D o ta _ _ m0 To (IHa (Some o) ta HG Hs Ha eq_refl) Ec).
Qed.

Lemma compound_char2 : forall n D op tgt u x y m,
  operator_fine n D (Some tgt) op tgt u ->
  type_fine n D tgt -> type_fine n D u -> holds D tgt x -> holds D u y ->
  compound D op tgt u x y = Some m ->
  (exists z, math_op op x y = Some z /\ returns m z /\ holds D tgt z) \/ fails m.
Proof.
  intros n D op tgt u x y m Hop Ht Hu Hx Hy H.
  assert (K : exists rs m0 c0, eval_binop D op tgt u x y = Some (rs, m0) /\ convert D tgt (OSafe rs) 0 = Some c0
              /\ m = mbind m0 (fun z => run (convert D tgt (OSafe rs) z))).
  { unfold compound in H. destruct (eval_binop D op tgt u x y) as [[rs m0]|]; [|discriminate].
    destruct tgt as [T|s|T N P E]; [| |discriminate].
    - destruct (to_builtin D T rs 0) as [c0|] eqn:Ec; [|discriminate]. injection H as <-.
      exists rs, m0, c0. splits; auto.
    - destruct (construct D s (OSafe rs) 0) as [c0|] eqn:Ec; [|discriminate]. injection H as <-.
      exists rs, m0, c0. splits; auto. }
  destruct K as (rs & m0 & c0 & Eb & Ec & ->).
  destruct (eval_binop_any D op tgt u x y 0 0 rs m0 Eb) as (k0 & E0). specialize (Hop rs k0 E0).
  destruct (eval_fine n D op tgt u x y rs m0 Ht Hu Eb) as (HE & _ & _ & _).
  apply (outcome_convert n D tgt (OSafe rs) (math_op op x y) m0 c0 Ht); [|assumption].
  destruct Hop as [Hop|[Hop Hab]]; [left|right].
  - exact (exact_char n D op tgt u x y rs m0 Hop Ht Hu Hx Hy Eb).
  - exists rs. splits; auto. exact (storable_char n D op tgt u x y rs m0 Hop Ht Hu Hx Hy Eb).
Qed.

(** ------------------------------------------------------------------ *)
(** conditions *)
Lemma cond_char2 : forall n D G s i c, (forall v, type_fine n D (G v)) -> store_ok D G s i ->
  cond_fine n D G c -> cond_compiles D G c = true ->
  (exists t, truth i c = Some t /\ returns (eval_cond D G s c) t) \/ fails (eval_cond D G s c).
Proof.
  intros n D G s i [r first a b] HG Hs [Ha Hb] Hc. cbn [cond_compiles eval_cond] in *.
  destruct (type_of D G a) as [ta|] eqn:Eta; [|discriminate].
  destruct (type_of D G b) as [tb|] eqn:Etb; [|discriminate].
  destruct (eval_relop D r ta tb 0 0) as [m0|] eqn:Er; [|discriminate].
  destruct (outcome_none _ _ _ _ _ (expr_char2 n D G s i a None ta HG Hs Ha Eta)) as [Ta Ra].
  destruct (outcome_none _ _ _ _ _ (expr_char2 n D G s i b None tb HG Hs Hb Etb)) as [Tb Rb].
  destruct (both_fails first (eval D G s a) (eval D G s b)) as [(x & y & Hx & Hy & Hp)|T].
  - destruct Ra as [(x & _ & Hx & _)|T]; [left; eauto|right; assumption].
  - destruct Rb as [(y & _ & Hy & _)|T]; [left; eauto|right; assumption].
  - destruct Ra as [(x' & Vx & Hx' & Ix)|T]; [|exfalso; eauto using returns_fails].
    destruct Rb as [(y' & Vy & Hy' & Iy)|T]; [|exfalso; eauto using returns_fails].
    assert (x' = x) by (unfold returns in *; congruence). assert (y' = y) by (unfold returns in *; congruence).
    subst x' y'. rewrite (bind_ret _ _ _ _ _ Hp). cbn [fst snd].
    destruct (eval_relop_any D r ta tb 0 0 x y m0 Er) as (k & K). rewrite K. cbn [run].
    destruct (eval_relop_char n D r ta tb x y k (proj1 Ta) (proj1 Tb) Ix Iy K) as [R|T]; [left|right; left; assumption].
    exists (math_rel r x y). split; [|assumption]. cbn [truth]. rewrite Vx, Vy. reflexivity.
  - right. apply mbind_fails. assumption.
Qed.

(** ------------------------------------------------------------------ *)
(** commands *)
Lemma finish_good2 : forall (A : Type) D G i c s (m : M A) write,
  store_ok D G s i -> ideal i c i false ->
  (exists a i', returns m a /\ store_ok D G (write a) i' /\ ideal i c i' true) \/ fails m ->
  good D G i c (fst (finish s m write)) (snd (finish s m write)).
Proof.
  intros A D G i c s m write Hs Hr [(a & i' & -> & Ha & Hi)|(l & e & ->)%fails_throw]; unfold finish; cbn.
  - exists i'. split; [assumption|]. left. auto.
  - exists i. split; [assumption|]. right. eauto.
Qed.

Lemma loop_good2 : forall n D G c a, (forall v, type_fine n D (G v)) -> cond_fine n D G c -> cond_compiles D G c = true ->
  forall body,
  (forall s i s' r, store_ok D G s i -> body s = Some (s', r) -> good D G i a s' r) ->
  forall k s i s' r, store_ok D G s i -> loop (fun s => eval_cond D G s c) body k s = Some (s', r) ->
  good D G i (CWhile c a) s' r.
Proof.
  intros n D G c a HG Hc Hcc body Hbody. induction k as [|k IH]; intros s i s' r Hs H; cbn [loop] in H; [discriminate|].
  destruct (cond_char2 n D G s i c HG Hs Hc Hcc) as [(t & Ht & Rt)|(l & e & Te)%fails_throw].
  - rewrite Rt in H. cbn [snd] in H. destruct t.
    + destruct (body s) as [[s1 r1]|] eqn:Eb; [|discriminate].
      destruct (Hbody s i s1 r1 Hs Eb) as (i1 & Hs1 & [[-> I1]|(e & -> & I1)]).
      * destruct (IH s1 i1 s' r Hs1 H) as (i2 & Hs2 & K). exists i2. split; [assumption|].
        destruct K as [[-> I2]|(e & -> & I2)]; [left|right; exists e]; (split; [reflexivity|]);
        eapply I_while; eassumption.
      * injection H as <- <-. exists i1. split; [assumption|]. right. exists e. split; [reflexivity|].
        apply I_while_body_raise; assumption.
    + injection H as <- <-. exists i. split; [assumption|]. left. split; [reflexivity|]. apply I_while_end. assumption.
  - rewrite Te in H. cbn [snd] in H. injection H as <- <-. exists i. split; [assumption|].
    right. exists e. split; [reflexivity|]. apply I_while_raise.
Qed.

Lemma exec_good2 : forall n D G fuel, (forall v, type_fine n D (G v)) ->
  forall c s i s' r, cmd_fine n D G c -> compiles D G c = true -> store_ok D G s i ->
  exec fuel D G s c = Some (s', r) -> good D G i c s' r.
Proof.
  intros n D G fuel HG. induction c as [|v|v e|op v e|v|v|inc w v|a IHa b IHb|c a IHa b IHb|c a IHa|a IHa b IHb];
  intros s i s' r Hok Hc Hs H; cbn [exec cmd_fine compiles] in *.
  - injection H as <- <-. exists i. split; [assumption|]. left. split; [reflexivity|apply I_skip].
  - destruct (G v) as [T|t|T N P E] eqn:EG; try discriminate.
    destruct (default_ctor t) as [m|] eqn:Ed; [|discriminate]. cbn [run] in H. injection H as H.
    specialize (Hok (sE t) eq_refl). unfold default_ctor in Ed.
    destruct (dispatch_compiles (sE t) uninitialized_value) eqn:Edc; [|discriminate]. injection Ed as <-.
    unfold dispatch_compiles in Edc. unfold dispatch in H. cbn in *.
    destruct (on_uninitialized_value (sE t)); try congruence. cbn in H. injection H as <- <-.
    exists i. split; [assumption|]. right. eexists. split; [reflexivity|]. apply I_default_raise.
  - destruct (type_of D G e) as [t|] eqn:Et; [|discriminate].
    destruct (convert D (G v) t 0) as [m0|] eqn:Ec; [|discriminate]. injection H as H.
    refine (good_of_pair _ _ _ _ _ _ _ H _). apply finish_good2; [assumption|apply I_assign_raise|].
    destruct (outcome_convert n D (G v) t _ _ m0 (HG v) (expr_char2 n D G s i e (Some (G v)) t HG Hs Hok Et) Ec)
      as [(x & Vx & Hx & Ix)|T]; [left|right; assumption].
    exists x, (upd i v x). splits; auto using store_ok_upd. apply I_assign. assumption.
  - destruct Hok as [He Hop]. destruct (type_of D G e) as [t|] eqn:Et; [|discriminate].
    destruct (compound D op (G v) t 0 0) as [m0|] eqn:Ec; [|discriminate]. injection H as H.
    refine (good_of_pair _ _ _ _ _ _ _ H _). apply finish_good2; [assumption|apply I_compound_raise|].
    destruct (outcome_none _ _ _ _ _ (expr_char2 n D G s i e None t HG Hs He Et)) as [Te [(y & Vy & Hy & Iy)|T]].
    + rewrite (bind_ret _ _ _ _ _ Hy). destruct (Hs v) as [Ev Iv]. unfold read. rewrite Ev, mbind_ret.
      destruct (compound_any D op (G v) t 0 0 (i v) y m0 Ec) as (k & K). rewrite K. cbn [run].
      destruct (compound_char2 n D op (G v) t (i v) y k (Hop t eq_refl) (HG v) Te Iv Iy K) as [(z & M1 & M2 & M3)|T];
        [left|right; assumption].
      exists z, (upd i v z). splits; auto using store_ok_upd. eapply I_compound; eassumption.
    + right. apply mbind_fails. assumption.
  - pose proof (HG v) as Tv. destruct (Hs v) as [Ev Iv].
    destruct (G v) as [T|t|T N P E] eqn:EG; try discriminate.
    destruct (increment D t 0) as [m0|] eqn:Ec; [|discriminate]. injection H as H.
    refine (good_of_pair _ _ _ _ _ _ _ H _). apply finish_good2; [assumption|apply I_inc_raise|].
    unfold read. rewrite Ev, mbind_ret. destruct Tv as ((Wv & Pv & _) & _).
    destruct (compound_any D (BA Add) (OSafe t) (ORaw Int) 0 1 (i v) 1 m0 Ec) as (k & K).
    unfold increment. rewrite K. cbn [run].
    destruct (C32_increment D t (i v) k Wv Iv (Pv _ eq_refl) K) as [[A B]|T]; [left|right; left; assumption].
    exists (i v + 1), (upd i v (i v + 1)). splits; auto; [|apply I_inc].
    apply store_ok_upd; [assumption|]. rewrite EG. exact B.
  - pose proof (HG v) as Tv. destruct (Hs v) as [Ev Iv].
    destruct (G v) as [T|t|T N P E] eqn:EG; try discriminate.
    destruct (decrement D t 0) as [m0|] eqn:Ec; [|discriminate]. injection H as H.
    refine (good_of_pair _ _ _ _ _ _ _ H _). apply finish_good2; [assumption|apply I_dec_raise|].
    unfold read. rewrite Ev, mbind_ret. destruct Tv as ((Wv & Pv & _) & _).
    destruct (compound_any D (BA Sub) (OSafe t) (ORaw Int) 0 1 (i v) 1 m0 Ec) as (k & K).
    unfold decrement. rewrite K. cbn [run].
    destruct (C32_decrement D t (i v) k Wv Iv (Pv _ eq_refl) K) as [[A B]|T]; [left|right; left; assumption].
    exists (i v - 1), (upd i v (i v - 1)). splits; auto; [|apply I_dec].
    apply store_ok_upd; [assumption|]. rewrite EG. exact B.
  - pose proof (HG v) as Tv. pose proof (HG w) as Tw. destruct (Hs v) as [Ev Iv].
    destruct (G v) as [T|t|T N P E] eqn:EG; try discriminate.
    destruct (G w) as [T|t'|T N P E] eqn:EW; try discriminate.
    assert (Hm : exists m0 m1, (if inc then post_increment D t 0 else post_decrement D t 0) = Some m0
                 /\ construct D t' (OSafe t) 0 = Some m1).
    { destruct (if inc then post_increment D t 0 else post_decrement D t 0); [|discriminate].
      destruct (construct D t' (OSafe t) 0); [eauto|discriminate]. }
    destruct Hm as (m0 & m1 & Em & Ec). unfold read in H. rewrite Ev in H. rewrite mbind_ret in H.
    assert (Hk : exists k, (if inc then post_increment D t (i v) else post_decrement D t (i v)) = Some k).
    { destruct inc; unfold post_increment, post_decrement, increment, decrement in *.
      - destruct (compound D (BA Add) (OSafe t) (ORaw Int) 0 1) as [p|] eqn:Ep; [|discriminate].
        destruct (compound_any _ _ _ _ 0 1 (i v) 1 p Ep) as (k & ->). cbn. eauto.
      - destruct (compound D (BA Sub) (OSafe t) (ORaw Int) 0 1) as [p|] eqn:Ep; [|discriminate].
        destruct (compound_any _ _ _ _ 0 1 (i v) 1 p Ep) as (k & ->). cbn. eauto. }
    destruct Hk as (k & K). rewrite K in H. cbn [run snd mret] in H.
    pose proof Tv as ((Wv & Pv & _) & _).
    assert (Hp : (returns k (i v, if inc then i v + 1 else i v - 1)
                  /\ holds D (OSafe t) (if inc then i v + 1 else i v - 1)) \/ throws_arith k).
    { destruct (C32_post D t (i v) k Wv Iv (Pv _ eq_refl)) as [A B]. destruct inc; [apply A|apply B]; assumption. }
    destruct Hp as [[-> Hn]|(e & _ & ->)]; cbn [finish snd fst] in H.
    + injection H as H. set (i1 := upd i v (if inc then i v + 1 else i v - 1)).
      assert (Hs1 : store_ok D G (upd s v (Some (if inc then i v + 1 else i v - 1))) i1)
        by (apply store_ok_upd; [assumption|rewrite EG; exact Hn]).
      destruct (construct_compiles D t' (OSafe t) 0 (i v) m1 Ec) as (k1 & K1). rewrite K1 in H. cbn [run] in H.
      destruct (convert_char n D (OSafe t') (OSafe t) (i v) k1 (proj1 Tw) (proj1 Tv) Iv K1) as [[A ->]|(e & _ & ->)];
      cbn [finish snd] in H; injection H as <- <-.
      * exists (upd i1 w (i v)). split; [apply store_ok_upd; [assumption|rewrite EW; exact A]|].
        left. split; [reflexivity|apply I_post].
      * exists i1. split; [assumption|]. right. exists e. split; [reflexivity|apply I_post_raise2].
    + injection H as <- <-. exists i. split; [assumption|]. right. exists e. split; [reflexivity|apply I_post_raise1].
  - apply andb_prop in Hc. destruct Hc as [Ca Cb]. destruct Hok as [Oa Ob].
    destruct (exec fuel D G s a) as [[s1 r1]|] eqn:Ea; [|discriminate].
    destruct (IHa s i s1 r1 Oa Ca Hs Ea) as (i1 & Hs1 & [[-> I1]|(e & -> & I1)]).
    + destruct (IHb s1 i1 s' r Ob Cb Hs1 H) as (i2 & Hs2 & K). exists i2. split; [assumption|].
      destruct K as [[-> I2]|(e & -> & I2)]; [left|right; exists e]; (split; [reflexivity|]);
      eapply I_seq; eassumption.
    + injection H as <- <-. exists i1. split; [assumption|]. right. exists e. split; [reflexivity|].
      apply I_seq_raise. assumption.
  - apply andb_prop in Hc. destruct Hc as [Cc Cb]. apply andb_prop in Cc. destruct Cc as [Cc Ca].
    destruct Hok as (Oc & Oa & Ob).
    destruct (cond_char2 n D G s i c HG Hs Oc Cc) as [(t & Ht & Rt)|(l & e & Te)%fails_throw].
    + rewrite Rt in H. cbn [snd] in H.
      assert (K : good D G i (if t then a else b) s' r) by (destruct t; eauto).
      destruct K as (i1 & Hs1 & K). exists i1. split; [assumption|].
      destruct K as [[-> I2]|(e & -> & I2)]; [left|right; exists e]; (split; [reflexivity|]);
      eapply I_if; eassumption.
    + rewrite Te in H. cbn [snd] in H. injection H as <- <-. exists i. split; [assumption|].
      right. exists e. split; [reflexivity|]. apply I_if_raise.
  - apply andb_prop in Hc. destruct Hc as [Cc Ca]. destruct Hok as (Oc & Oa).
    refine (loop_good2 n D G c a HG Oc Cc (fun s => exec fuel D G s a) _ fuel s i s' r Hs H).
    intros s0 i0 s1 r1 Hs0 H0. exact (IHa s0 i0 s1 r1 Oa Ca Hs0 H0).
  - apply andb_prop in Hc. destruct Hc as [Ca Cb]. destruct Hok as [Oa Ob].
    destruct (exec fuel D G s a) as [[s1 r1]|] eqn:Ea; [|discriminate].
    destruct (IHa s i s1 r1 Oa Ca Hs Ea) as (i1 & Hs1 & [[-> I1]|(e & -> & I1)]).
    + injection H as <- <-. exists i1. split; [assumption|]. left. split; [reflexivity|]. apply I_try. assumption.
    + destruct (IHb s1 i1 s' r Ob Cb Hs1 H) as (i2 & Hs2 & K). exists i2. split; [assumption|].
      destruct K as [[-> I2]|(e' & -> & I2)]; [left|right; exists e']; (split; [reflexivity|]);
      eapply I_try_catch; eassumption.
Qed.

Lemma C73_expr : forall nat D G s i e t,
  (forall v, type_fine nat D (G v)) -> store_ok D G s i ->
  expr_fine nat D G None e -> type_of D G e = Some t ->
  (exists z, value i e = Some z /\ returns (eval D G s e) z /\ holds D t z)
  \/ fails (eval D G s e).
Proof.
  intros nat D G s i e t HG Hs He Ht.
  apply (outcome_none nat D t _ _ (expr_char2 nat D G s i e None t HG Hs He Ht)).
Qed.
Lemma C73_cmd : forall nat D G fuel c s i s' r,
  (forall v, type_fine nat D (G v)) -> store_ok D G s i ->
  cmd_fine nat D G c -> compiles D G c = true ->
  exec fuel D G s c = Some (s', r) ->
  exists i', store_ok D G s' i'
  /\ ((r = RDone /\ ideal i c i' true) \/ (exists e, r = RRaised e /\ ideal i c i' false)).
Proof.
  intros nat D G fuel c s i s' r HG Hs Hc Hk H.
  exact (exec_good2 nat D G fuel HG c s i s' r Hc Hk Hs H).
Qed.
