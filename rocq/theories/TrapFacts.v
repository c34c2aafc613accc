(** TrapFacts.v -- proofs about programs under trap policies. *)
From Coq Require Import ZArith Bool List Lia Arith.
From Verif Require Import Base CType Spec CTypeFacts Utility UtilityFacts SafeCompare
  CheckedInteger CheckedIntegerFacts CheckedResultOps CheckedResultFacts Interval IntervalFacts
  IntervalOpsFacts ExceptionPolicy Promotion SafeBase SafeSpec SafeFacts SafeDivFacts SafeShiftFacts
  SafeConvFacts SafeBitFacts SafeTraceFacts SafePortFacts PropsConvProofs PropsArithProofs PropsPolicyProofs
  Program ProgramSpec ProgramFacts TrapSpec.
Import ListNotations.
Local Open Scope Z_scope.

Lemma trap_convert : forall n D tgt src x m, type_trap n D tgt -> type_trap n D src -> holds D src x ->
  convert D tgt src x = Some m -> holds D tgt x /\ returns m x.
Proof.
  intros n D tgt src x m (Wt & Et & _) (Ws & Es & _) Hx H.
  destruct tgt as [T|s|T N P E]; cbn [convert] in H.
  - destruct src as [U|s|U N P E].
    + destruct (ctype_eqb T U) eqn:E; [|discriminate]. apply ctype_eqb_eq in E. subst U.
      injection H as <-. split; [assumption|reflexivity].
    + pose proof (holds_in D _ x Ws Hx) as Hi. cbn [base_ty] in Hi.
      exact (C36_to_builtin D T s x m Hi (Es (sE s) eq_refl) H).
    + unfold holds in Hx. cbn [lim_lo lim_hi] in Hx. assert (x = N) by lia. subst x.
      assert (HN : in_type D U N) by (destruct Ws as (A & _); exact A). unfold lit_to_builtin in H.
      destruct E as [E|].
      * exact (validate_trap D T (lo D T) (hi D T) E U N N N m (lo_in D T) (hi_in D T) HN HN (Es E eq_refl) ltac:(lia) H).
      * unfold validate in H.
        pose proof (validate_static_sound D T (lo D T) (hi D T) U N N (lo_in D T) (hi_in D T) HN HN) as Hs.
        destruct (validate_static D T (lo D T) (hi D T) U N N) as [[|]|]; try discriminate.
        injection H as <-. assert (I : in_type D T N) by (unfold in_type; lia).
        split; [exact I|]. rewrite conv_id by assumption. reflexivity.
  - exact (C36_construct D s src x m Wt Ws (Et (sE s) eq_refl) Hx H).
  - discriminate.
Qed.

Lemma trap_result_type : forall n D op t u x y s m,
  type_trap n D t -> type_trap n D u -> binary D op t u x y = Some (s, m) ->
  traps (sE s) /\ (n = true -> sP s = Native)
  /\ (wf_operand D (OSafe s) -> type_trap n D (OSafe s)).
Proof.
  intros n D op t u x y s m (_ & Et & Pt) (_ & Eu & Pu) H.
  destruct (binary_policy _ _ _ _ _ _ _ _ H) as [HE HP].
  assert (K1 : traps (sE s)) by (destruct (common_ep_in _ _ _ HE); auto).
  assert (K2 : n = true -> sP s = Native) by (intros Hn; destruct (common_pp_in _ _ _ HP); auto).
  splits; auto. intros W. unfold type_trap. cbn [get_ep get_pp]. splits; auto.
  - intros E [= <-]. assumption.
  - intros Hn P [= <-]. auto.
Qed.

Lemma trap_div : forall D t u x y s m, wf_operand D t -> wf_operand D u -> holds D t x -> holds D u y ->
  traps (sE s) -> sP s = Native -> binary D Div t u x y = Some (s, m) ->
  wf_operand D (OSafe s) /\ y <> 0 /\ returns m (Z.quot x y) /\ smin s <= Z.quot x y <= smax s.
Proof.
  intros D t u x y s m Ht Hu Hx Hy HE HN H.
  destruct (binary_trap _ _ _ _ _ _ _ _ HE H) as (P & ri & HP & HR & Hri & Hex & Hmn & Hmx & ->).
  destruct (binary_policy _ _ _ _ _ _ _ _ H) as [_ HP']. rewrite HP in HP'. injection HP' as ->. rewrite HN in *.
  destruct (large_enough_fits D Native Div (st s) t u 0 0 (sE s) Ht Hu ltac:(auto) HR ltac:(left; reflexivity)) as (Ft & Fu & _).
  destruct (div_fits D (st s) t u ri Ht Hu Ft Fu Hri) as ((W1 & W2 & W3) & Hchk & Hunc).
  destruct (Hunc Hex x y Hx Hy) as (Hy0 & Er & Ix & Iy & Iq).
  split; [unfold wf_operand; cbn; rewrite Hmn, Hmx; auto|]. split; [exact Hy0|]. rewrite Hmn, Hmx.
  split; [|apply Hchk; auto]. unfold returns, unchecked_run. rewrite Er. cbn [mlift].
  rewrite mbind_ret, conv_id by assumption. reflexivity.
Qed.

Lemma trap_op : forall n D op t u x y s m, op_ok n op ->
  type_trap n D t -> type_trap n D u -> holds D t x -> holds D u y ->
  eval_binop D op t u x y = Some (s, m) ->
  type_trap n D (OSafe s)
  /\ exists z, math_op op x y = Some z /\ returns m z /\ holds D (OSafe s) z.
Proof.
  intros n D op t u x y s m Hop Ht Hu Hx Hy H.
  assert (K : exists o, op = BA o) by (destruct Hop as [->|[->|[->|[-> _]]]]; eauto).
  destruct K as (o & ->). cbn [eval_binop] in H.
  destruct (trap_result_type n D o t u x y s m Ht Hu H) as (HE & HN & HT).
  pose proof (proj1 Ht) as Wt. pose proof (proj1 Hu) as Wu.
  assert (K : wf_operand D (OSafe s) /\ exists z, math_op (BA o) x y = Some z /\ returns m z /\ holds D (OSafe s) z).
  { destruct Hop as [E|[E|[E|[E Hn]]]]; injection E as ->.
    - destruct (C36_arith Add D t u x y s m ltac:(auto) Wt Wu Hx Hy HE H) as (W & R & I).
      split; [exact W|]. exists (x + y). auto.
    - destruct (C36_arith Sub D t u x y s m ltac:(auto) Wt Wu Hx Hy HE H) as (W & R & I).
      split; [exact W|]. exists (x - y). auto.
    - destruct (C36_arith Mul D t u x y s m ltac:(auto) Wt Wu Hx Hy HE H) as (W & R & I).
      split; [exact W|]. exists (x * y). auto.
    - destruct (trap_div D t u x y s m Wt Wu Hx Hy HE (HN Hn) H) as (W & N0 & R & I).
      split; [exact W|]. exists (Z.quot x y). cbn [math_op]. destruct (Z.eqb_spec y 0); [contradiction|]. auto. }
  destruct K as [W K]. auto.
Qed.

Lemma trap_compound : forall n D op tgt u x y m, op_ok n op ->
  type_trap n D tgt -> type_trap n D u -> holds D tgt x -> holds D u y ->
  compound D op tgt u x y = Some m ->
  exists z, math_op op x y = Some z /\ returns m z /\ holds D tgt z.
Proof.
  intros n D op tgt u x y m Hop Ht Hu Hx Hy H. unfold compound in H.
  destruct (eval_binop D op tgt u x y) as [[rs m0]|] eqn:Eb; [|discriminate].
  destruct (trap_op n D op tgt u x y rs m0 Hop Ht Hu Hx Hy Eb) as (Tr & z & M1 & M2 & M3).
  destruct tgt as [T|s|T N P E]; [| |discriminate].
  - destruct (to_builtin D T rs 0) as [k0|] eqn:E0; [|discriminate]. injection H as <-.
    destruct (to_builtin_compiles D T rs 0 z k0 E0) as (k & K).
    destruct (trap_convert n D (ORaw T) (OSafe rs) z k Ht Tr M3 K) as [A B].
    exists z. splits; auto. unfold returns. rewrite (bind_ret _ _ _ _ _ M2), K. exact B.
  - destruct (construct D s (OSafe rs) 0) as [k0|] eqn:E0; [|discriminate]. injection H as <-.
    destruct (construct_compiles D s (OSafe rs) 0 z k0 E0) as (k & K).
    destruct (trap_convert n D (OSafe s) (OSafe rs) z k Ht Tr M3 K) as [A B].
    exists z. splits; auto. unfold returns. rewrite (bind_ret _ _ _ _ _ M2), K. exact B.
Qed.

Lemma trap_int : forall n D, type_trap n D (ORaw Int).
Proof. intros n D. split; [apply (wf_int_lit D 0); lia|]. split; intros; discriminate. Qed.

Lemma holds_int_1 : forall D, holds D (ORaw Int) 1.
Proof. intros D. apply (wf_int_lit D 1). lia. Qed.

Lemma trap_minus : forall n D s x rs m, type_trap n D (OSafe s) -> holds D (OSafe s) x ->
  unary_minus D s x = Some (rs, m) ->
  type_trap n D (OSafe rs) /\ returns m (- x) /\ holds D (OSafe rs) (- x).
Proof.
  intros n D s x rs m Hs Hx H. unfold unary_minus in H.
  assert (H0 : holds D (ORaw Int) 0).
  { unfold holds. cbn. pose proof (zero_in D Int) as Z0. unfold in_type in Z0. exact Z0. }
  destruct (trap_op n D (BA Sub) (ORaw Int) (OSafe s) 0 x rs m) as (T & z & M1 & M2 & M3); auto using trap_int.
  - unfold op_ok. auto.
  - cbn [math_op exact] in M1. injection M1 as <-. replace (0 - x) with (- x) in * by lia. auto.
Qed.

Lemma both_returns : forall first ma mb x y, returns ma x -> returns mb y -> returns (both first ma mb) (x, y).
Proof.
  intros first ma mb x y Hx Hy. unfold both. destruct first.
  - rewrite (bind_ret _ _ _ _ _ Hx), (bind_ret _ _ _ _ _ Hy). reflexivity.
  - rewrite (bind_ret _ _ _ _ _ Hy), (bind_ret _ _ _ _ _ Hx). reflexivity.
Qed.

Lemma trap_expr : forall n D G s i e t, (forall v, type_trap n D (G v)) -> store_ok D G s i ->
  expr_trap n D e -> type_of D G e = Some t ->
  type_trap n D t /\ exists z, value i e = Some z /\ returns (eval D G s e) z /\ holds D t z.
Proof.
  intros n D G s i e. induction e as [o z|v|op first a IHa b IHb|a IHa|a IHa|o a IHa];
  intros t HG Hs He Ht; cbn [type_of eval expr_trap] in *.
  - injection Ht as <-. destruct He as [H1 H2]. split; [assumption|]. exists z.
    split; [reflexivity|]. split; [reflexivity|assumption].
  - injection Ht as <-. split; [apply HG|]. destruct (Hs v) as [H1 H2]. exists (i v).
    split; [reflexivity|]. split; [|assumption]. unfold read. rewrite H1. reflexivity.
  - destruct He as (Hop & Ha & Hb).
    destruct (type_of D G a) as [ta|]; [|discriminate]. destruct (type_of D G b) as [tb|]; [|discriminate].
    destruct (eval_binop D op ta tb 0 0) as [[rs m0]|] eqn:Eb; [|discriminate]. cbn in Ht. injection Ht as <-.
    destruct (IHa ta HG Hs Ha eq_refl) as (Ta & x & Vx & Hx & Ix).
    destruct (IHb tb HG Hs Hb eq_refl) as (Tb & y & Vy & Hy & Iy).
    destruct (eval_binop_any D op ta tb 0 0 x y rs m0 Eb) as (k & K).
    destruct (trap_op n D op ta tb x y rs k Hop Ta Tb Ix Iy K) as (Tr & z & M1 & M2 & M3).
    split; [assumption|]. exists z. cbn [value]. rewrite Vx, Vy.
    rewrite (bind_ret _ _ _ _ _ (both_returns first _ _ x y Hx Hy)). cbn [fst snd]. rewrite K. cbn [run_snd].
    split; [exact M1|]. split; [exact M2|exact M3].
  - destruct (type_of D G a) as [[T|ts|T N P E]|]; try discriminate.
    destruct (unary_minus D ts 0) as [[rs m0]|] eqn:Eb; [|discriminate]. cbn in Ht. injection Ht as <-.
    destruct (IHa (OSafe ts) HG Hs He eq_refl) as (Ta & x & Vx & Hx & Ix).
    assert (K : exists k, unary_minus D ts x = Some (rs, k))
      by (unfold unary_minus in *; exact (binary_any D Sub _ _ 0 0 0 x rs m0 Eb)).
    destruct K as (k & K). destruct (trap_minus n D ts x rs k Ta Ix K) as (Tr & M2 & M3).
    split; [assumption|]. exists (- x). cbn [value]. rewrite Vx, (bind_ret _ _ _ _ _ Hx), K. cbn [run_snd option_map].
    split; [reflexivity|]. split; [exact M2|exact M3].
  - destruct (type_of D G a) as [[T|ts|T N P E]|]; try discriminate.
    cbn in Ht. injection Ht as <-.
    destruct (IHa (OSafe ts) HG Hs He eq_refl) as (Ta & x & Vx & Hx & Ix). split; [assumption|].
    exists x. split; [exact Vx|]. split; [|exact Ix]. rewrite (bind_ret _ _ _ _ _ Hx). reflexivity.
  - destruct He as [To Ha]. destruct (type_of D G a) as [ta|]; [|discriminate].
    destruct (convert D o ta 0) as [m0|] eqn:Ec; [|discriminate]. cbn in Ht. injection Ht as <-.
    destruct (IHa ta HG Hs Ha eq_refl) as (Ta & x & Vx & Hx & Ix). split; [assumption|].
    destruct (convert_any D o ta 0 x m0 Ec) as (k & K).
    destruct (trap_convert n D o ta x k To Ta Ix K) as [A B].
    exists x. split; [exact Vx|]. rewrite (bind_ret _ _ _ _ _ Hx), K. auto.
Qed.

Lemma trap_relop : forall n D r t u x y m, type_trap n D t -> type_trap n D u ->
  holds D t x -> holds D u y -> eval_relop D r t u x y = Some m -> returns m (math_rel r x y).
Proof.
  intros n D r t u x y m (Wt & Et & _) (Wu & Eu & _) Hx Hy H.
  destruct (C36_compare D t u x y Wt Wu Hx Hy) as (A1 & A2 & A3 & A4 & A5 & A6).
  { intros E [K|K]; auto. }
  destruct r; cbn [eval_relop math_rel] in *; auto.
Qed.

Lemma trap_cond : forall n D G s i c, (forall v, type_trap n D (G v)) -> store_ok D G s i ->
  cond_trap n D c -> cond_compiles D G c = true ->
  exists t, truth i c = Some t /\ returns (eval_cond D G s c) t.
Proof.
  intros n D G s i [r first a b] HG Hs [Ha Hb] Hc. cbn [cond_compiles eval_cond truth] in *.
  destruct (type_of D G a) as [ta|] eqn:Eta; [|discriminate].
  destruct (type_of D G b) as [tb|] eqn:Etb; [|discriminate].
  destruct (eval_relop D r ta tb 0 0) as [m0|] eqn:Er; [|discriminate].
  destruct (trap_expr n D G s i a ta HG Hs Ha Eta) as (Ta & x & Vx & Hx & Ix).
  destruct (trap_expr n D G s i b tb HG Hs Hb Etb) as (Tb & y & Vy & Hy & Iy).
  destruct (eval_relop_any D r ta tb 0 0 x y m0 Er) as (k & K).
  pose proof (trap_relop n D r ta tb x y k Ta Tb Ix Iy K) as R.
  exists (math_rel r x y). rewrite Vx, Vy. split; [reflexivity|].
  rewrite (bind_ret _ _ _ _ _ (both_returns first _ _ x y Hx Hy)). cbn [fst snd]. rewrite K. exact R.
Qed.

(** what a run of the program must satisfy, given the run of the specification *)
Definition agrees (D : dmodel) (G : tenv) (r : option (store * result)) (e : ending) : Prop :=
  match e with
  | Finished i => exists s, r = Some (s, RDone) /\ store_ok D G s i
  | Unfinished => r = None
  | Meaningless => False
  end.

Lemma finish_returns : forall (A : Type) D G s (m : M A) write a i,
  returns m a -> store_ok D G (write a) i ->
  agrees D G (Some (finish s m write)) (Finished i).
Proof. intros A D G s m write a i -> H. cbn. eauto. Qed.

Lemma trap_loop : forall n D G c, (forall v, type_trap n D (G v)) -> cond_trap n D c -> cond_compiles D G c = true ->
  forall body mbody, (forall s i, store_ok D G s i -> agrees D G (body s) (mbody i)) ->
  forall k s i, store_ok D G s i ->
  agrees D G (loop (fun s => eval_cond D G s c) body k s) (math_loop (fun i => truth i c) mbody k i).
Proof.
  intros n D G c HG Hc Hcc body mbody Hbody. induction k as [|k IH]; intros s i Hs; cbn [loop math_loop]; [reflexivity|].
  destruct (trap_cond n D G s i c HG Hs Hc Hcc) as (t & Ht & Rt). rewrite Ht, Rt. cbn [snd]. destruct t.
  - pose proof (Hbody s i Hs) as B. destruct (mbody i) as [i1| |]; cbn in B.
    + destruct B as (s1 & -> & Hs1). apply IH. assumption.
    + rewrite B. reflexivity.
    + contradiction.
  - cbn. eauto.
Qed.

Lemma trap_exec : forall n D G fuel, (forall v, type_trap n D (G v)) ->
  forall c s i, cmd_trap n D G c -> compiles D G c = true -> store_ok D G s i ->
  agrees D G (exec fuel D G s c) (math_exec fuel i c).
Proof.
  intros n D G fuel HG. induction c as [|v|v e|op v e|v|v|inc w v|a IHa b IHb|c a IHa b IHb|c a IHa|a IHa b IHb];
  intros s i Hok Hc Hs; cbn [exec math_exec cmd_trap compiles] in *.
  - cbn. eauto.
  - exfalso. destruct (G v) as [T|t|T N P E] eqn:EG; try discriminate.
    specialize (Hok (sE t) eq_refl). unfold default_ctor, dispatch_compiles in Hc. cbn in Hc. rewrite Hok in Hc.
    discriminate.
  - destruct (type_of D G e) as [t|] eqn:Et; [|discriminate].
    destruct (convert D (G v) t 0) as [m0|] eqn:Ec; [|discriminate].
    destruct (trap_expr n D G s i e t HG Hs Hok Et) as (Te & x & Vx & Hx & Ix). rewrite Vx.
    destruct (convert_any D (G v) t 0 x m0 Ec) as (k & K).
    destruct (trap_convert n D (G v) t x k (HG v) Te Ix K) as [A B].
    apply (finish_returns _ D G s _ _ x); [|apply store_ok_upd; assumption].
    rewrite (bind_ret _ _ _ _ _ Hx), K. exact B.
  - destruct Hok as [Hop He]. destruct (type_of D G e) as [t|] eqn:Et; [|discriminate].
    destruct (compound D op (G v) t 0 0) as [m0|] eqn:Ec; [|discriminate].
    destruct (trap_expr n D G s i e t HG Hs He Et) as (Te & y & Vy & Hy & Iy). rewrite Vy.
    destruct (Hs v) as [Ev Iv].
    destruct (compound_any D op (G v) t 0 0 (i v) y m0 Ec) as (k & K).
    destruct (trap_compound n D op (G v) t (i v) y k Hop (HG v) Te Iv Iy K) as (z & M1 & M2 & M3). rewrite M1.
    apply (finish_returns _ D G s _ _ z); [|apply store_ok_upd; assumption].
    rewrite (bind_ret _ _ _ _ _ Hy). unfold read. rewrite Ev, mbind_ret, K. exact M2.
  - pose proof (HG v) as Tv. destruct (Hs v) as [Ev Iv].
    destruct (G v) as [T|t|T N P E] eqn:EG; try discriminate.
    destruct (increment D t 0) as [m0|] eqn:Ec; [|discriminate].
    destruct (compound_any D (BA Add) (OSafe t) (ORaw Int) 0 1 (i v) 1 m0 Ec) as (k & K).
    destruct (trap_compound n D (BA Add) (OSafe t) (ORaw Int) (i v) 1 k ltac:(unfold op_ok; auto) Tv (trap_int n D) Iv
      (holds_int_1 D) K) as (z & M1 & M2 & M3). cbn [math_op exact] in M1. injection M1 as <-.
    apply (finish_returns _ D G s _ _ (i v + 1)); [|apply store_ok_upd; [assumption|rewrite EG; assumption]].
    unfold read. rewrite Ev, mbind_ret. unfold increment. rewrite K. exact M2.
  - pose proof (HG v) as Tv. destruct (Hs v) as [Ev Iv].
    destruct (G v) as [T|t|T N P E] eqn:EG; try discriminate.
    destruct (decrement D t 0) as [m0|] eqn:Ec; [|discriminate].
    destruct (compound_any D (BA Sub) (OSafe t) (ORaw Int) 0 1 (i v) 1 m0 Ec) as (k & K).
    destruct (trap_compound n D (BA Sub) (OSafe t) (ORaw Int) (i v) 1 k ltac:(unfold op_ok; auto) Tv (trap_int n D) Iv
      (holds_int_1 D) K) as (z & M1 & M2 & M3). cbn [math_op exact] in M1. injection M1 as <-.
    apply (finish_returns _ D G s _ _ (i v - 1)); [|apply store_ok_upd; [assumption|rewrite EG; assumption]].
    unfold read. rewrite Ev, mbind_ret. unfold decrement. rewrite K. exact M2.
  - pose proof (HG v) as Tv. pose proof (HG w) as Tw. destruct (Hs v) as [Ev Iv].
    destruct (G v) as [T|t|T N P E] eqn:EG; try discriminate.
    destruct (G w) as [T|t'|T N P E] eqn:EW; try discriminate.
    assert (Hm : exists m1, construct D t' (OSafe t) 0 = Some m1
       /\ exists k, (if inc then post_increment D t (i v) else post_decrement D t (i v)) = Some k
         /\ returns k (i v, if inc then i v + 1 else i v - 1)
         /\ holds D (OSafe t) (if inc then i v + 1 else i v - 1)).
    { destruct (construct D t' (OSafe t) 0) as [m1|];
        [|destruct (if inc then post_increment D t 0 else post_decrement D t 0); discriminate].
      exists m1. split; [reflexivity|].
      destruct inc; unfold post_increment, post_decrement, increment, decrement in *.
      - destruct (compound D (BA Add) (OSafe t) (ORaw Int) 0 1) as [p|] eqn:Ep; [|discriminate].
        destruct (compound_any _ _ _ _ 0 1 (i v) 1 p Ep) as (k & K). rewrite K.
        destruct (trap_compound n D (BA Add) (OSafe t) (ORaw Int) (i v) 1 k ltac:(unfold op_ok; auto) Tv (trap_int n D) Iv
          (holds_int_1 D) K) as (z & M1 & M2 & M3). cbn [math_op exact] in M1. injection M1 as <-.
        cbn. eexists. split; [reflexivity|]. split; [|assumption].
        rewrite (bind_ret _ _ _ _ _ M2). reflexivity.
      - destruct (compound D (BA Sub) (OSafe t) (ORaw Int) 0 1) as [p|] eqn:Ep; [|discriminate].
        destruct (compound_any _ _ _ _ 0 1 (i v) 1 p Ep) as (k & K). rewrite K.
        destruct (trap_compound n D (BA Sub) (OSafe t) (ORaw Int) (i v) 1 k ltac:(unfold op_ok; auto) Tv (trap_int n D) Iv
          (holds_int_1 D) K) as (z & M1 & M2 & M3). cbn [math_op exact] in M1. injection M1 as <-.
        cbn. eexists. split; [reflexivity|]. split; [|assumption].
        rewrite (bind_ret _ _ _ _ _ M2). reflexivity. }
    destruct Hm as (m1 & Ec & k & K & Rk & Hn).
    unfold read. rewrite Ev, mbind_ret, K. cbn [run snd mret]. rewrite Rk. cbn [finish snd].
    set (i1 := upd i v (if inc then i v + 1 else i v - 1)).
    assert (Hs1 : store_ok D G (upd s v (Some (if inc then i v + 1 else i v - 1))) i1)
      by (apply store_ok_upd; [assumption|rewrite EG; exact Hn]).
    destruct (construct_compiles D t' (OSafe t) 0 (i v) m1 Ec) as (k1 & K1). rewrite K1. cbn [run].
    destruct (trap_convert n D (OSafe t') (OSafe t) (i v) k1 Tw Tv Iv K1) as [A B].
    apply (finish_returns _ D G _ _ _ (i v) _ B). apply store_ok_upd; [assumption|rewrite EW; exact A].
  - apply andb_prop in Hc. destruct Hc as [Ca Cb]. destruct Hok as [Oa Ob].
    pose proof (IHa s i Oa Ca Hs) as A. destruct (math_exec fuel i a) as [i1| |]; cbn in A.
    + destruct A as (s1 & -> & Hs1). apply IHb; assumption.
    + rewrite A. reflexivity.
    + contradiction.
  - apply andb_prop in Hc. destruct Hc as [Cc Cb]. apply andb_prop in Cc. destruct Cc as [Cc Ca].
    destruct Hok as (Oc & Oa & Ob).
    destruct (trap_cond n D G s i c HG Hs Oc Cc) as (t & Ht & Rt). rewrite Ht, Rt. cbn [snd].
    destruct t; auto.
  - apply andb_prop in Hc. destruct Hc as [Cc Ca]. destruct Hok as (Oc & Oa).
    apply (trap_loop n); auto.
  - apply andb_prop in Hc. destruct Hc as [Ca Cb]. destruct Hok as [Oa Ob].
    pose proof (IHa s i Oa Ca Hs) as A. destruct (math_exec fuel i a) as [i1| |]; cbn in A.
    + destruct A as (s1 & -> & Hs1). cbn. eauto.
    + rewrite A. reflexivity.
    + contradiction.
Qed.
