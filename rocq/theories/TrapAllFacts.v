(** TrapAllFacts.v -- proofs about programs with all operators under trap policies. *)
From Coq Require Import ZArith Bool List Lia Arith.
From Verif Require Import Base CType Spec CTypeFacts Utility UtilityFacts SafeCompare
  CheckedInteger CheckedIntegerFacts CheckedResultOps CheckedResultFacts Interval IntervalFacts
  IntervalOpsFacts ExceptionPolicy Promotion SafeBase SafeSpec SafeFacts SafeDivFacts SafeShiftFacts
  SafeConvFacts SafeBitFacts SafeTraceFacts SafePortFacts PropsConvProofs PropsArithProofs PropsPolicyProofs
  Program ProgramSpec ProgramFacts ComposeSpec ComposeFacts TrapSpec TrapFacts TrapPolicyFacts TrapAllSpec.
Import ListNotations.
Local Open Scope Z_scope.

Definition dep : ep := default_exception_policy.

Lemma trap_fine : forall n D o, type_trap n D o -> type_fine n D (with_policy dep o).
Proof.
  intros n D o (W & _ & P).
  assert (K : forall E, get_ep (with_policy dep o) = Some E -> E = dep).
  { intros E. rewrite get_ep_with. destruct (get_ep o); cbn; intros [= <-]; reflexivity. }
  split; [split; [apply wf_with; assumption|split]|].
  - intros E H. rewrite (K E H). reflexivity.
  - intros Hn Q. rewrite get_pp_with. auto.
  - intros E H. rewrite (K E H). vm_compute. auto.
Qed.

Lemma silent_fails : forall (A : Type) (m : M A), silent m -> fails m -> False.
Proof. intros A m [(a & ->)| ->] F; destruct (fails_throw _ _ F) as (l & e & K); discriminate. Qed.

Lemma exact_with : forall n D op t u s, exact_operator n D op t u s ->
  exact_operator n D op (with_policy dep t) (with_policy dep u) (sw dep s).
Proof.
  intros n D op t u s H. destruct op as [[| | | | | |]|b]; cbn [exact_operator sw st sP] in *;
  rewrite ?lim_lo_with, ?lim_hi_with; assumption.
Qed.
Lemma storable_with : forall D op t u s, storable D op t u s ->
  storable D op (with_policy dep t) (with_policy dep u) (sw dep s).
Proof.
  intros D op t u s H. destruct op as [[| | | | | |]|b]; cbn [storable] in *; try assumption.
  - unfold result_large_enough, fits_in in *. cbn [sw st sP] in *. rewrite ?lim_lo_with, ?lim_hi_with, ?base_ty_with. assumption.
  - unfold fits_in in *. cbn [sw st sP] in *. rewrite ?lim_lo_with, ?lim_hi_with. assumption.
Qed.

Lemma quiet_type : forall n D op t u x y s m, type_trap n D t -> type_trap n D u ->
  eval_binop D op t u x y = Some (s, m) ->
  traps (sE s) /\ (wf_operand D (OSafe s) -> type_trap n D (OSafe s)).
Proof.
  intros n D op t u x y s m (_ & Et & Pt) (_ & Eu & Pu) H.
  destruct (eval_policy _ _ _ _ _ _ _ _ H) as [HE HP].
  assert (K1 : traps (sE s)) by (destruct (common_ep_in _ _ _ HE); auto).
  assert (K2 : n = true -> sP s = Native) by (intros Hn; destruct (common_pp_in _ _ _ HP); auto).
  split; [assumption|]. intros W. split; [assumption|split]; cbn [get_ep get_pp].
  - intros E [= <-]. assumption.
  - intros Hn P [= <-]. auto.
Qed.

Lemma quiet_exact : forall n D op t u x y s m, exact_operator n D op t u s ->
  type_trap n D t -> type_trap n D u -> holds D t x -> holds D u y ->
  eval_binop D op t u x y = Some (s, m) ->
  type_trap n D (OSafe s) /\ exists z, math_op op x y = Some z /\ returns m z /\ holds D (OSafe s) z.
Proof.
  intros n D op t u x y s m Hop Ht Hu Hx Hy H.
  destruct (quiet_type n D op t u x y s m Ht Hu H) as [HE HT].
  destruct (binop_same dep D op t u x y s m (proj1 (proj2 Ht)) (proj1 (proj2 Hu)) H) as [_ H'].
  destruct (exact_char n D op _ _ x y _ m (exact_with n D op t u s Hop) (trap_fine n D t Ht) (trap_fine n D u Hu)
    (holds_with D dep t x Hx) (holds_with D dep u y Hy) H') as [T K].
  split; [apply HT; exact (proj1 (proj1 T))|].
  destruct K as [K|K]; [exact K|]. exfalso. exact (silent_fails _ _ (C36_silent op D t u x y s m HE H) K).
Qed.
Lemma quiet_storable : forall n D op t u x y s m, storable D op t u s ->
  type_trap n D t -> type_trap n D u -> holds D t x -> holds D u y ->
  eval_binop D op t u x y = Some (s, m) ->
  exists z, math_op op x y = Some z /\ returns m z /\ in_type D (st s) z.
Proof.
  intros n D op t u x y s m Hop Ht Hu Hx Hy H.
  destruct (quiet_type n D op t u x y s m Ht Hu H) as [HE HT].
  destruct (binop_same dep D op t u x y s m (proj1 (proj2 Ht)) (proj1 (proj2 Hu)) H) as [_ H'].
  destruct (storable_char n D op _ _ x y _ m (storable_with D op t u s Hop) (trap_fine n D t Ht) (trap_fine n D u Hu)
    (holds_with D dep t x Hx) (holds_with D dep u y Hy) H') as [K|K]; [exact K|].
  exfalso. exact (silent_fails _ _ (C36_silent op D t u x y s m HE H) K).
Qed.

Lemma construct_absorbs_trap : forall D w s x m, wf_operand D (OSafe w) -> traps (sE w) ->
  smin w <= lo D (st s) -> hi D (st s) <= smax w -> in_type D (st s) x ->
  construct D w (OSafe s) x = Some m -> smin w <= x <= smax w /\ returns m x.
Proof.
  intros D w s x m (W1 & W2 & _) HE Hl Hh Hx H. cbn in W1, W2. unfold construct, validate in H.
  assert (I : smin w <= x <= smax w) by (unfold in_type in Hx; lia).
  destruct (validate_static _ _ _ _ _ _ _) as [[|]|]; [| |discriminate].
  - injection H as <-. split; [assumption|]. rewrite conv_id by (unfold in_type in *; lia). reflexivity.
  - rewrite cast_errors_trap in H by assumption. discriminate.
Qed.

(** the value of an expression that is converted to [tgt], if anything *)
Definition quiet_ok (n : bool) (D : dmodel) (tgt : option otype) (t : otype) (v : option Z) (m : M Z) : Prop :=
  exists z, v = Some z /\ returns m z
  /\ ((type_trap n D t /\ holds D t z)
      \/ (exists s, t = OSafe s /\ traps (sE s) /\ absorbs D tgt s /\ in_type D (st s) z)).

Lemma quiet_none : forall n D t v m, quiet_ok n D None t v m ->
  type_trap n D t /\ exists z, v = Some z /\ returns m z /\ holds D t z.
Proof. intros n D t v m (z & A & B & [[C1 C2]|(s & _ & _ & [] & _)]). eauto. Qed.

Lemma quiet_convert : forall n D tgt t v m m0, type_trap n D tgt ->
  quiet_ok n D (Some tgt) t v m -> convert D tgt t 0 = Some m0 ->
  exists z, v = Some z /\ returns (mbind m (fun x => run (convert D tgt t x))) z /\ holds D tgt z.
Proof.
  intros n D tgt t v m m0 Tt (z & Hv & Hr & K) Hc. exists z. split; [assumption|].
  rewrite (bind_ret _ _ _ _ _ Hr). destruct (convert_any D tgt t 0 z m0 Hc) as (k & E). rewrite E. cbn [run].
  destruct K as [[Ts Hh]|(s & -> & HE & Ha & Hi)].
  - destruct (trap_convert n D tgt t z k Tt Ts Hh E) as [A B]. auto.
  - destruct tgt as [T|w|T N P Q]; cbn [convert absorbs] in E, Ha.
    + destruct (C36_to_builtin D T s z k Hi HE E) as [A B]. auto.
    + destruct Tt as (W & Et & _).
      destruct (construct_absorbs_trap D w s z k W (Et _ eq_refl) (proj1 Ha) (proj2 Ha) Hi E) as [A B]. auto.
    + contradiction.
Qed.

Lemma quiet_expr : forall n D G s i e tgt t, (forall v, type_trap n D (G v)) -> store_ok D G s i ->
  expr_quiet n D G tgt e -> type_of D G e = Some t -> quiet_ok n D tgt t (value i e) (eval D G s e).
Proof.
  intros n D G s i e. induction e as [o z|v|op first a IHa b IHb|a IHa|a IHa|o a IHa];
  intros tgt t HG Hs He Ht; cbn [type_of eval expr_quiet value] in *.
  - injection Ht as <-. exists z. split; [reflexivity|]. split; [reflexivity|]. left. assumption.
  - injection Ht as <-. destruct (Hs v) as [H1 H2]. exists (i v). split; [reflexivity|].
    split; [unfold read; rewrite H1; reflexivity|]. left. auto.
  - destruct He as (Ha & Hb & Hop).
    destruct (type_of D G a) as [ta|]; [|discriminate]. destruct (type_of D G b) as [tb|]; [|discriminate].
    destruct (eval_binop D op ta tb 0 0) as [[rs m0]|] eqn:Eb; [|discriminate]. cbn in Ht. injection Ht as <-.
    destruct (quiet_none _ _ _ _ _ (IHa None ta HG Hs Ha eq_refl)) as (Ta & x & Vx & Hx & Ix).
    destruct (quiet_none _ _ _ _ _ (IHb None tb HG Hs Hb eq_refl)) as (Tb & y & Vy & Hy & Iy).
    specialize (Hop ta tb eq_refl eq_refl rs m0 Eb).
    destruct (eval_binop_any D op ta tb 0 0 x y rs m0 Eb) as (k & K).
    destruct (quiet_type n D op ta tb x y rs k Ta Tb K) as [HE _].
    unfold quiet_ok. rewrite Vx, Vy, (bind_ret _ _ _ _ _ (both_returns first _ _ x y Hx Hy)). cbn [fst snd].
    rewrite K. cbn [run_snd].
    destruct Hop as [Hop|[Hop Hab]].
    + destruct (quiet_exact n D op ta tb x y rs k Hop Ta Tb Ix Iy K) as (Tr & z & M1 & M2 & M3).
      exists z. auto.
    + destruct (quiet_storable n D op ta tb x y rs k Hop Ta Tb Ix Iy K) as (z & M1 & M2 & M3).
      exists z. split; [assumption|]. split; [assumption|]. right. exists rs. auto.
  - destruct (type_of D G a) as [[T|ts|T N P E]|]; try discriminate.
    destruct (unary_minus D ts 0) as [[rs m0]|] eqn:Eb; [|discriminate]. cbn in Ht. injection Ht as <-.
    destruct (quiet_none _ _ _ _ _ (IHa None (OSafe ts) HG Hs He eq_refl)) as (Ta & x & Vx & Hx & Ix).
    assert (K : exists k, unary_minus D ts x = Some (rs, k))
      by (unfold unary_minus in *; exact (binary_any D Sub _ _ 0 0 0 x rs m0 Eb)).
    destruct K as (k & K). destruct (trap_minus n D ts x rs k Ta Ix K) as (Tr & M2 & M3).
    exists (- x). rewrite Vx, (bind_ret _ _ _ _ _ Hx), K. cbn [run_snd option_map]. auto.
  - destruct (type_of D G a) as [[T|ts|T N P E]|]; try discriminate.
    cbn in Ht. injection Ht as <-.
    destruct (quiet_none _ _ _ _ _ (IHa None (OSafe ts) HG Hs He eq_refl)) as (Ta & x & Vx & Hx & Ix).
    exists x. rewrite Vx, (bind_ret _ _ _ _ _ Hx). cbn [run_snd unary_plus].
    split; [reflexivity|]. split; [reflexivity|]. left. auto.
  - destruct He as [To Ha]. destruct (type_of D G a) as [ta|]; [|discriminate].
    destruct (convert D o ta 0) as [m0|] eqn:Ec; [|discriminate]. cbn in Ht. injection Ht as <-.
    destruct (quiet_convert n D o ta _ _ m0 To (IHa (Some o) ta HG Hs Ha eq_refl) Ec) as (z & A & B & C).
    exists z. auto.
Qed.

Lemma quiet_compound : forall n D op tgt u x y m,
  operator_fine n D (Some tgt) op tgt u ->
  type_trap n D tgt -> type_trap n D u -> holds D tgt x -> holds D u y ->
  compound D op tgt u x y = Some m ->
  exists z, math_op op x y = Some z /\ returns m z /\ holds D tgt z.
Proof.
  intros n D op tgt u x y m Hop Ht Hu Hx Hy H.
  assert (K : exists rs m0 c0, eval_binop D op tgt u x y = Some (rs, m0) /\ convert D tgt (OSafe rs) 0 = Some c0
              /\ m = mbind m0 (fun z => run (convert D tgt (OSafe rs) z))).
  { unfold compound in H. destruct (eval_binop D op tgt u x y) as [[rs m0]|]; [|discriminate].
    destruct tgt as [T|s|T N P E]; [| |discriminate].
    - destruct (to_builtin D T rs 0) as [c0|] eqn:Ec; [|discriminate]. injection H as <-.
      exists rs, m0, c0. splits; auto.
    - destruct (construct D s (OSafe rs) 0) as [c0|] eqn:Ec; [|discriminate]. injection H as <-.
      exists rs, m0, c0. splits; auto. }
  destruct K as (rs & m0 & c0 & Eb & Ec & ->).
  destruct (eval_binop_any D op tgt u x y 0 0 rs m0 Eb) as (k0 & E0). specialize (Hop rs k0 E0).
  destruct (quiet_type n D op tgt u x y rs m0 Ht Hu Eb) as [HE _].
  apply (quiet_convert n D tgt (OSafe rs) (math_op op x y) m0 c0 Ht); [|assumption].
  destruct Hop as [Hop|[Hop Hab]].
  - destruct (quiet_exact n D op tgt u x y rs m0 Hop Ht Hu Hx Hy Eb) as (Tr & z & M1 & M2 & M3).
    exists z. auto.
  - destruct (quiet_storable n D op tgt u x y rs m0 Hop Ht Hu Hx Hy Eb) as (z & M1 & M2 & M3).
    exists z. split; [assumption|]. split; [assumption|]. right. exists rs. auto.
Qed.

Lemma quiet_cond : forall n D G s i c, (forall v, type_trap n D (G v)) -> store_ok D G s i ->
  cond_quiet n D G c -> cond_compiles D G c = true ->
  exists t, truth i c = Some t /\ returns (eval_cond D G s c) t.
Proof.
  intros n D G s i [r first a b] HG Hs [Ha Hb] Hc. cbn [cond_compiles eval_cond truth] in *.
  destruct (type_of D G a) as [ta|] eqn:Eta; [|discriminate].
  destruct (type_of D G b) as [tb|] eqn:Etb; [|discriminate].
  destruct (eval_relop D r ta tb 0 0) as [m0|] eqn:Er; [|discriminate].
  destruct (quiet_none _ _ _ _ _ (quiet_expr n D G s i a None ta HG Hs Ha Eta)) as (Ta & x & Vx & Hx & Ix).
  destruct (quiet_none _ _ _ _ _ (quiet_expr n D G s i b None tb HG Hs Hb Etb)) as (Tb & y & Vy & Hy & Iy).
  destruct (eval_relop_any D r ta tb 0 0 x y m0 Er) as (k & K).
  pose proof (trap_relop n D r ta tb x y k Ta Tb Ix Iy K) as R.
  exists (math_rel r x y). rewrite Vx, Vy. split; [reflexivity|].
  rewrite (bind_ret _ _ _ _ _ (both_returns first _ _ x y Hx Hy)). cbn [fst snd]. rewrite K. exact R.
Qed.

Lemma quiet_loop : forall n D G c, (forall v, type_trap n D (G v)) -> cond_quiet n D G c -> cond_compiles D G c = true ->
  forall body mbody, (forall s i, store_ok D G s i -> agrees D G (body s) (mbody i)) ->
  forall k s i, store_ok D G s i ->
  agrees D G (loop (fun s => eval_cond D G s c) body k s) (math_loop (fun i => truth i c) mbody k i).
Proof.
  intros n D G c HG Hc Hcc body mbody Hbody. induction k as [|k IH]; intros s i Hs; cbn [loop math_loop]; [reflexivity|].
  destruct (quiet_cond n D G s i c HG Hs Hc Hcc) as (t & Ht & Rt). rewrite Ht, Rt. cbn [snd]. destruct t.
  - pose proof (Hbody s i Hs) as B. destruct (mbody i) as [i1| |]; cbn in B.
    + destruct B as (s1 & -> & Hs1). apply IH. assumption.
    + rewrite B. reflexivity.
    + contradiction.
  - cbn. eauto.
Qed.

Lemma quiet_exec : forall n D G fuel, (forall v, type_trap n D (G v)) ->
  forall c s i, cmd_quiet n D G c -> compiles D G c = true -> store_ok D G s i ->
  agrees D G (exec fuel D G s c) (math_exec fuel i c).
Proof.
  intros n D G fuel HG. induction c as [|v|v e|op v e|v|v|inc w v|a IHa b IHb|c a IHa b IHb|c a IHa|a IHa b IHb];
  intros s i Hok Hc Hs.
  - apply (trap_exec n D G fuel HG CSkip s i I Hc Hs).
  - apply (trap_exec n D G fuel HG (CDefault v) s i Hok Hc Hs).
  - cbn [exec math_exec cmd_quiet compiles] in *.
    destruct (type_of D G e) as [t|] eqn:Et; [|discriminate].
    destruct (convert D (G v) t 0) as [m0|] eqn:Ec; [|discriminate].
    destruct (quiet_convert n D (G v) t _ _ m0 (HG v) (quiet_expr n D G s i e (Some (G v)) t HG Hs Hok Et) Ec)
      as (x & Vx & Hx & Ix). rewrite Vx.
    apply (finish_returns _ D G s _ _ x); [exact Hx|apply store_ok_upd; assumption].
  - cbn [exec math_exec cmd_quiet compiles] in *.
    destruct Hok as [He Hop]. destruct (type_of D G e) as [t|] eqn:Et; [|discriminate].
    destruct (compound D op (G v) t 0 0) as [m0|] eqn:Ec; [|discriminate].
    destruct (quiet_none _ _ _ _ _ (quiet_expr n D G s i e None t HG Hs He Et)) as (Te & y & Vy & Hy & Iy). rewrite Vy.
    destruct (Hs v) as [Ev Iv].
    destruct (compound_any D op (G v) t 0 0 (i v) y m0 Ec) as (k & K).
    destruct (quiet_compound n D op (G v) t (i v) y k (Hop t eq_refl) (HG v) Te Iv Iy K) as (z & M1 & M2 & M3). rewrite M1.
    apply (finish_returns _ D G s _ _ z); [|apply store_ok_upd; assumption].
    rewrite (bind_ret _ _ _ _ _ Hy). unfold read. rewrite Ev, mbind_ret, K. exact M2.
  - apply (trap_exec n D G fuel HG (CInc v) s i I Hc Hs).
  - apply (trap_exec n D G fuel HG (CDec v) s i I Hc Hs).
  - apply (trap_exec n D G fuel HG (CPost inc w v) s i I Hc Hs).
  - cbn [exec math_exec cmd_quiet compiles] in *.
    apply andb_prop in Hc. destruct Hc as [Ca Cb]. destruct Hok as [Oa Ob].
    pose proof (IHa s i Oa Ca Hs) as A. destruct (math_exec fuel i a) as [i1| |]; cbn in A.
    + destruct A as (s1 & -> & Hs1). apply IHb; assumption.
    + rewrite A. reflexivity.
    + contradiction.
  - cbn [exec math_exec cmd_quiet compiles] in *.
    apply andb_prop in Hc. destruct Hc as [Cc Cb]. apply andb_prop in Cc. destruct Cc as [Cc Ca].
    destruct Hok as (Oc & Oa & Ob).
    destruct (quiet_cond n D G s i c HG Hs Oc Cc) as (t & Ht & Rt). rewrite Ht, Rt. cbn [snd].
    destruct t; auto.
  - cbn [exec math_exec cmd_quiet compiles] in *.
    apply andb_prop in Hc. destruct Hc as [Cc Ca]. destruct Hok as (Oc & Oa).
    apply (quiet_loop n); auto.
  - cbn [exec math_exec cmd_quiet compiles] in *.
    apply andb_prop in Hc. destruct Hc as [Ca Cb]. destruct Hok as [Oa Ob].
    pose proof (IHa s i Oa Ca Hs) as A. destruct (math_exec fuel i a) as [i1| |]; cbn in A.
    + destruct A as (s1 & -> & Hs1). cbn. eauto.
    + rewrite A. reflexivity.
    + contradiction.
Qed.

Lemma C79_expr_lemma : forall nat D G s i e t,
  (forall v, type_trap nat D (G v)) -> store_ok D G s i -> expr_quiet nat D G None e -> type_of D G e = Some t ->
  exists z, value i e = Some z /\ returns (eval D G s e) z /\ holds D t z.
Proof. intros nat D G s i e t HG Hs He Ht. exact (proj2 (quiet_none _ _ _ _ _ (quiet_expr nat D G s i e None t HG Hs He Ht))). Qed.

Lemma C79_lemma : forall nat D G fuel c s i,
  (forall v, type_trap nat D (G v)) -> store_ok D G s i ->
  cmd_quiet nat D G c -> compiles D G c = true ->
  (exists s' i', exec fuel D G s c = Some (s', RDone) /\ store_ok D G s' i' /\ math_exec fuel i c = Finished i')
  \/ (exec fuel D G s c = None /\ math_exec fuel i c = Unfinished).
Proof.
  intros nat D G fuel c s i HG Hs Hc Hcc.
  pose proof (quiet_exec nat D G fuel HG c s i Hc Hcc Hs) as A. unfold agrees in A.
  destruct (math_exec fuel i c) as [i'| |]; [left|right|contradiction].
  - destruct A as (s' & A & B). exists s', i'. auto.
  - auto.
Qed.

(** ------------------------------------------------------------------ *)
(** nothing is ever raised, whatever the operators *)
Lemma mbind_silent : forall (A B : Type) (m : M A) (k : A -> M B), silent m -> (forall a, silent (k a)) -> silent (mbind m k).
Proof.
  intros A B m k [(a & ->)| ->] H; cbn; [|right; reflexivity].
  destruct (H a) as [(b & ->)| ->]; [left; eauto|right; reflexivity].
Qed.
Lemma ret_silent : forall (A : Type) (a : A), silent (mret a).
Proof. intros A a. left. exists a. reflexivity. Qed.
Lemma undef_silent : forall A, silent (@mundef A).
Proof. intros A. right. reflexivity. Qed.
Lemma run_silent : forall (A : Type) (o : option (M A)), (forall m, o = Some m -> silent m) -> silent (run o).
Proof. intros A [m|] H; cbn; [auto|apply undef_silent]. Qed.
Lemma run_snd_silent : forall (A B : Type) (o : option (B * M A)), (forall b m, o = Some (b, m) -> silent m) -> silent (run_snd o).
Proof. intros A B [[b m]|] H; cbn; [eauto|apply undef_silent]. Qed.
Lemma read_silent : forall s v, silent (read s v).
Proof. intros s v. unfold read. destruct (s v); [apply ret_silent|apply undef_silent]. Qed.
Lemma both_silent : forall first a b, silent a -> silent b -> silent (both first a b).
Proof. intros [|] a b Ha Hb; unfold both; repeat (apply mbind_silent; [assumption|intros]); apply ret_silent. Qed.

Lemma validate_silent : forall D R mn mx Eo T slo shi x m, (forall E, Eo = Some E -> traps E) ->
  validate D R mn mx Eo T slo shi x = Some m -> silent m.
Proof.
  intros D R mn mx Eo T slo shi x m HE H. unfold validate in H.
  destruct (validate_static D R mn mx T slo shi) as [[|]|]; [|destruct Eo as [E|]|]; try discriminate.
  - injection H as <-. apply ret_silent.
  - rewrite cast_errors_trap in H by (apply HE; reflexivity). discriminate.
Qed.
Lemma construct_silent : forall D s o x m, traps (sE s) -> construct D s o x = Some m -> silent m.
Proof. intros D s o x m HE H. refine (validate_silent _ _ _ _ _ _ _ _ _ _ _ H). intros E [= <-]. exact HE. Qed.
Lemma to_builtin_silent : forall D R s x m, traps (sE s) -> to_builtin D R s x = Some m -> silent m.
Proof. intros D R s x m HE H. refine (validate_silent _ _ _ _ _ _ _ _ _ _ _ H). intros E [= <-]. exact HE. Qed.
Lemma convert_silent : forall D tgt src x m, type_traps tgt -> type_traps src -> convert D tgt src x = Some m -> silent m.
Proof.
  intros D tgt src x m Ht Hs H. destruct tgt as [T|s|T N P E]; cbn [convert] in H; [| |discriminate].
  - destruct src as [U|s|U N P E].
    + destruct (ctype_eqb T U); [|discriminate]. injection H as <-. apply ret_silent.
    + exact (to_builtin_silent D T s x m (Hs _ eq_refl) H).
    + refine (validate_silent _ _ _ _ _ _ _ _ _ _ _ H). intros E0 ->. apply Hs. reflexivity.
  - exact (construct_silent D s src x m (Ht _ eq_refl) H).
Qed.
Lemma binop_traps : forall D op t u x y s m, type_traps t -> type_traps u ->
  eval_binop D op t u x y = Some (s, m) -> traps (sE s) /\ silent m.
Proof.
  intros D op t u x y s m Ht Hu H. destruct (binop_same dep D op t u x y s m Ht Hu H) as [K _].
  split; [assumption|]. exact (C36_silent op D t u x y s m K H).
Qed.
Lemma compound_silent : forall D op tgt u x y m, type_traps tgt -> type_traps u ->
  compound D op tgt u x y = Some m -> silent m.
Proof.
  intros D op tgt u x y m Ht Hu H. unfold compound in H.
  destruct (eval_binop D op tgt u x y) as [[rs m0]|] eqn:Eb; [|discriminate].
  destruct (binop_traps D op tgt u x y rs m0 Ht Hu Eb) as [HE S0].
  destruct tgt as [T|s|T N P E]; [| |discriminate].
  - destruct (to_builtin D T rs 0); [|discriminate]. injection H as <-. apply mbind_silent; [assumption|].
    intros z. destruct (to_builtin D T rs z) as [k|] eqn:Ek; [|apply undef_silent].
    exact (to_builtin_silent D T rs z k HE Ek).
  - destruct (construct D s (OSafe rs) 0); [|discriminate]. injection H as <-. apply mbind_silent; [assumption|].
    intros z. destruct (construct D s (OSafe rs) z) as [k|] eqn:Ek; [|apply undef_silent].
    exact (construct_silent D s (OSafe rs) z k (Ht _ eq_refl) Ek).
Qed.
Lemma compare_silent : forall D c t u x y m, type_traps t -> type_traps u -> compare D c t u x y = Some m -> silent m.
Proof.
  intros D c t u x y m Ht Hu H. unfold compare in H.
  destruct (common_pp t u) as [P|]; [|discriminate].
  destruct (common_ep t u) as [E|] eqn:Ec; [|discriminate].
  assert (HE : traps E) by (destruct (common_ep_in _ _ _ Ec); auto).
  destruct (result_base_type D P PCmp t u) as [R|]; [|discriminate]. cbv zeta in H.
  destruct (interval_open (lim_interval D R t) || interval_open (lim_interval D R u)).
  - rewrite casting_helper_trap in H by assumption. discriminate.
  - destruct c.
    + destruct (tri_bool (i_lt D R _ _)); [injection H as <-; apply ret_silent|].
      destruct (tri_bool (i_gt D R _ _)); injection H as <-; apply ret_silent.
    + destruct (tri_bool (tri_not _)); injection H as <-; apply ret_silent.
Qed.
Lemma mnot_silent : forall m, silent m -> silent (mnot m).
Proof. intros m H. apply mbind_silent; [assumption|]. intros b. apply ret_silent. Qed.
Lemma relop_silent : forall D r t u x y m, type_traps t -> type_traps u -> eval_relop D r t u x y = Some m -> silent m.
Proof.
  intros D r t u x y m Ht Hu H.
  destruct r; cbn [eval_relop] in H; unfold s_lt, s_gt, s_le, s_ge, s_eq, s_ne, s_lt, s_gt, s_eq in H;
  try (match type of H with option_map mnot ?o = _ =>
         destruct o as [m0|] eqn:E; [|discriminate]; injection H as <-; apply mnot_silent;
         revert E; clear -Ht Hu; intros H end);
  revert H; apply compare_silent; assumption.
Qed.

Lemma expr_silent : forall D G s e, (forall v, type_traps (G v)) -> expr_traps e ->
  silent (eval D G s e) /\ forall t, type_of D G e = Some t -> type_traps t.
Proof.
  intros D G s e HG. induction e as [o z|v|op first a IHa b IHb|a IHa|a IHa|o a IHa]; intros He;
  cbn [type_of eval expr_traps] in *.
  - split; [apply ret_silent|]. intros t [= <-]. assumption.
  - split; [apply read_silent|]. intros t [= <-]. auto.
  - destruct He as [Ea Eb]. destruct (IHa Ea) as [Sa Ta]. destruct (IHb Eb) as [Sb Tb].
    destruct (type_of D G a) as [ta|]; [|split; [apply undef_silent|discriminate]].
    destruct (type_of D G b) as [tb|]; [|split; [apply undef_silent|discriminate]].
    specialize (Ta ta eq_refl). specialize (Tb tb eq_refl). split.
    + apply mbind_silent; [apply both_silent; assumption|]. intros [x y]. apply run_snd_silent.
      intros rs m E. exact (proj2 (binop_traps D op ta tb _ _ rs m Ta Tb E)).
    + intros t H. destruct (eval_binop D op ta tb 0 0) as [[rs m]|] eqn:E; [|discriminate].
      injection H as <-. apply type_traps_safe. exact (proj1 (binop_traps D op ta tb _ _ rs m Ta Tb E)).
  - destruct (IHa He) as [Sa Ta].
    destruct (type_of D G a) as [[T|ts|T N P E]|]; try (split; [apply undef_silent|discriminate]).
    specialize (Ta _ eq_refl). split.
    + apply mbind_silent; [assumption|]. intros x. apply run_snd_silent. intros rs m E. unfold unary_minus in E.
      exact (proj2 (binop_traps D (BA Sub) _ _ _ _ rs m (type_traps_raw Int) Ta E)).
    + intros t H. destruct (unary_minus D ts 0) as [[rs m]|] eqn:E; [|discriminate]. injection H as <-.
      apply type_traps_safe. exact (proj1 (binop_traps D (BA Sub) _ _ _ _ rs m (type_traps_raw Int) Ta E)).
  - destruct (IHa He) as [Sa Ta].
    destruct (type_of D G a) as [[T|ts|T N P E]|]; try (split; [apply undef_silent|discriminate]). split.
    + apply mbind_silent; [assumption|]. intros x. apply ret_silent.
    + intros t [= <-]. auto.
  - destruct He as [Eo Ea]. destruct (IHa Ea) as [Sa Ta].
    destruct (type_of D G a) as [ta|]; [|split; [apply undef_silent|discriminate]]. split.
    + apply mbind_silent; [assumption|]. intros x. apply run_silent. intros m.
      apply convert_silent; [assumption|]. auto.
    + intros t H. destruct (convert D o ta 0); [|discriminate]. injection H as <-. assumption.
Qed.

Lemma cond_silent : forall D G s c, (forall v, type_traps (G v)) -> cond_traps c -> silent (eval_cond D G s c).
Proof.
  intros D G s [r first a b] HG [Ha Hb]. cbn [eval_cond].
  destruct (expr_silent D G s a HG Ha) as [Sa Ta]. destruct (expr_silent D G s b HG Hb) as [Sb Tb].
  destruct (type_of D G a) as [ta|]; [|apply undef_silent].
  destruct (type_of D G b) as [tb|]; [|apply undef_silent].
  apply mbind_silent; [apply both_silent; assumption|]. intros p. apply run_silent. intros m.
  apply relop_silent; auto.
Qed.
Lemma finish_silent : forall (A : Type) s (m : M A) write s' e, silent m -> finish s m write <> (s', RRaised e).
Proof. intros A s m write s' e [(a & ->)| ->]; cbn; discriminate. Qed.

Lemma exec_never : forall D G fuel, (forall v, type_traps (G v)) -> forall c, cmd_traps c ->
  forall s s' e, exec fuel D G s c <> Some (s', RRaised e).
Proof.
  intros D G fuel HG.
  induction c as [|v|v ex|op v ex|v|v|inc w v|a IHa b IHb|c a IHa b IHb|c a IHa|a IHa b IHb];
  intros Hok s s' e; cbn [exec cmd_traps] in *.
  - discriminate.
  - contradiction.
  - destruct (expr_silent D G s ex HG Hok) as [Se Te].
    destruct (type_of D G ex) as [t|]; [|discriminate]. intros [= H]. revert H. apply finish_silent.
    apply mbind_silent; [assumption|]. intros x. apply run_silent. intros m. apply convert_silent; auto.
  - destruct (expr_silent D G s ex HG Hok) as [Se Te].
    destruct (type_of D G ex) as [t|]; [|discriminate]. intros [= H]. revert H. apply finish_silent.
    apply mbind_silent; [assumption|]. intros y. apply mbind_silent; [apply read_silent|]. intros x.
    apply run_silent. intros m. apply compound_silent; auto.
  - pose proof (HG v) as Tv. destruct (G v) as [T|t|T N P E]; try discriminate. intros [= H]. revert H. apply finish_silent.
    apply mbind_silent; [apply read_silent|]. intros x. apply run_silent. intros m.
    apply compound_silent; [assumption|apply type_traps_raw].
  - pose proof (HG v) as Tv. destruct (G v) as [T|t|T N P E]; try discriminate. intros [= H]. revert H. apply finish_silent.
    apply mbind_silent; [apply read_silent|]. intros x. apply run_silent. intros m.
    apply compound_silent; [assumption|apply type_traps_raw].
  - pose proof (HG v) as Tv. pose proof (HG w) as Tw. destruct (G v) as [T|t|T N P E]; try discriminate.
    destruct (G w) as [T|t'|T N P E]; try discriminate.
    assert (S0 : silent (mbind (read s v) (fun x => run (if inc then post_increment D t x else post_decrement D t x)))).
    { apply mbind_silent; [apply read_silent|]. intros x. apply run_silent. intros m H.
      assert (K : exists m0, (if inc then increment D t x else decrement D t x) = Some m0
                  /\ m = mbind m0 (fun z => mret (x, z))).
      { destruct inc; unfold post_increment, post_decrement in H;
        [destruct (increment D t x)|destruct (decrement D t x)]; cbn in H; try discriminate;
        injection H as <-; eauto. }
      destruct K as (m0 & K & ->). apply mbind_silent; [|intros z; apply ret_silent].
      destruct inc; revert K; apply compound_silent; auto using type_traps_raw. }
    unfold finish at 1.
    destruct S0 as [(p & ->)| ->]; cbn [snd].
    + destruct (snd (read s v)); try (intros [= H]; discriminate).
      intros [= H]. revert H. apply finish_silent. apply run_silent. intros m. apply construct_silent. auto.
    + destruct (snd (read s v)); intros [=].
  - destruct Hok as [Ha Hb]. destruct (exec fuel D G s a) as [[s1 [|e1|]]|] eqn:Ea; try discriminate.
    + apply IHb; assumption.
    + exfalso. exact (IHa Ha s s1 e1 Ea).
  - destruct Hok as (Hc & Ha & Hb).
    destruct (cond_silent D G s c HG Hc) as [([|] & ->)| ->]; cbn [snd]; [apply IHa|apply IHb|discriminate]; assumption.
  - destruct Hok as [Hc Ha]. generalize fuel at 2. intros k. revert s. induction k as [|k IH]; intros s; cbn [loop]; [discriminate|].
    destruct (cond_silent D G s c HG Hc) as [([|] & ->)| ->]; cbn [snd]; [|discriminate|discriminate].
    destruct (exec fuel D G s a) as [[s1 [|e1|]]|] eqn:Ea; try discriminate.
    + apply IH.
    + exfalso. exact (IHa Ha s s1 e1 Ea).
  - destruct Hok as [Ha Hb]. destruct (exec fuel D G s a) as [[s1 [|e1|]]|] eqn:Ea; try discriminate.
    exfalso. exact (IHa Ha s s1 e1 Ea).
Qed.
