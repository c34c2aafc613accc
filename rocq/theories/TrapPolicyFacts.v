(** TrapPolicyFacts.v -- a program that compiles under trap policies is the same
    computation under every other policy. *)
From Coq Require Import ZArith Bool List Lia Arith.
From Verif Require Import Base CType Spec CTypeFacts Utility UtilityFacts SafeCompare
  CheckedInteger CheckedIntegerFacts CheckedResultOps CheckedResultFacts Interval IntervalFacts
  IntervalOpsFacts ExceptionPolicy Promotion SafeBase SafeSpec SafeFacts SafeDivFacts SafeShiftFacts
  SafeConvFacts SafeBitFacts SafeTraceFacts SafePortFacts PropsConvProofs PropsArithProofs PropsPolicyProofs
  Program ProgramSpec ProgramFacts TrapSpec.
Import ListNotations.
Local Open Scope Z_scope.

Definition sw (F : ep) (s : safe_t) : safe_t := mkSafe (st s) (smin s) (smax s) (sP s) F.
Lemma with_sw : forall F s, with_policy F (OSafe s) = OSafe (sw F s).
Proof. reflexivity. Qed.

Lemma validate_trap_same : forall D R mn mx E T slo shi x m E',
  (forall E0, E = Some E0 -> traps E0) ->
  validate D R mn mx E T slo shi x = Some m -> validate D R mn mx E' T slo shi x = Some m.
Proof.
  intros D R mn mx E T slo shi x m E' HE H. unfold validate in *.
  destruct (validate_static D R mn mx T slo shi) as [[|]|]; [assumption| |discriminate].
  destruct E as [E|]; [|discriminate]. rewrite cast_errors_trap in H; [discriminate|]. apply HE. reflexivity.
Qed.

Lemma construct_same : forall F D s o x m, traps (sE s) -> construct D s o x = Some m ->
  construct D (sw F s) (with_policy F o) x = Some m.
Proof.
  intros F D s o x m HE H. unfold construct in *. rewrite base_ty_with, lim_lo_with, lim_hi_with.
  cbn [sw st smin smax sE]. refine (validate_trap_same _ _ _ _ _ _ _ _ _ _ _ _ H). intros E0 [= <-]. assumption.
Qed.
Lemma to_builtin_same : forall F D R s x m, traps (sE s) -> to_builtin D R s x = Some m ->
  to_builtin D R (sw F s) x = Some m.
Proof.
  intros F D R s x m HE H. unfold to_builtin in *. cbn [sw st smin smax sE].
  refine (validate_trap_same _ _ _ _ _ _ _ _ _ _ _ _ H). intros E0 [= <-]. assumption.
Qed.
Lemma convert_same : forall F D tgt src x m, type_traps tgt -> type_traps src ->
  convert D tgt src x = Some m -> convert D (with_policy F tgt) (with_policy F src) x = Some m.
Proof.
  intros F D tgt src x m Ht Hs H. destruct tgt as [T|s|T N P E]; cbn [convert with_policy] in *; [| |discriminate].
  - destruct src as [U|s|U N P E]; cbn [with_policy]; [assumption| |].
    + apply to_builtin_same; [|assumption]. apply Hs. reflexivity.
    + unfold lit_to_builtin in *. refine (validate_trap_same _ _ _ _ _ _ _ _ _ _ _ _ H).
      intros E0 ->. apply Hs. reflexivity.
  - apply (construct_same F D s src x m); [|assumption]. apply Ht. reflexivity.
Qed.

Lemma binary_same : forall F D op t u x y s m, type_traps t -> type_traps u ->
  binary D op t u x y = Some (s, m) ->
  traps (sE s) /\ binary D op (with_policy F t) (with_policy F u) x y = Some (sw F s, m).
Proof.
  intros F D op t u x y s m Ht Hu H.
  destruct (binary_policy _ _ _ _ _ _ _ _ H) as [HE HP].
  assert (K1 : traps (sE s)) by (destruct (common_ep_in _ _ _ HE); auto).
  split; [assumption|].
  destruct (binary_inv _ _ _ _ _ _ _ _ H) as (P & E & R & ri & H1 & H2 & H3 & H4 & -> & K).
  unfold binary, op_static. rewrite common_pp_with, H1, (common_ep_with F t u E H2), result_base_type_with, H3,
    r_type_interval_with, H4, exception_possible_with. cbn [oi_checked oi_R oi_E oi_type].
  destruct K as [[X ->]|[X (W & casts & HW & Hk & _ & ->)]].
  - rewrite X. reflexivity.
  - cbn [sE] in K1. rewrite casting_helper_trap in Hk by assumption. discriminate.
Qed.
Lemma bitwise_same : forall F D b t u x y s m, type_traps t -> type_traps u ->
  bitwise D b t u x y = Some (s, m) ->
  traps (sE s) /\ bitwise D b (with_policy F t) (with_policy F u) x y = Some (sw F s, m).
Proof.
  intros F D b t u x y s m Ht Hu H. unfold bitwise in *.
  destruct (bitwise_type D b t u) as [s0|] eqn:Et; [|discriminate].
  unfold bitwise_type in *. rewrite common_pp_with.
  destruct (common_pp t u) as [P|]; [|discriminate].
  destruct (common_ep t u) as [E|] eqn:Ec; [|discriminate]. rewrite (common_ep_with F t u E Ec).
  rewrite result_base_type_with, !lim_hi_with.
  destruct (result_base_type D P (PBit b) t u) as [R|]; [|discriminate]. cbv zeta in *.
  destruct (round_out D _ _) as [mx|]; [|discriminate].
  destruct (in_range D R mx); [|discriminate]. injection Et as <-. cbn [st] in *. injection H as <- <-.
  split; [|reflexivity]. cbn [sE]. destruct (common_ep_in _ _ _ Ec); auto.
Qed.
Lemma binop_same : forall F D op t u x y s m, type_traps t -> type_traps u ->
  eval_binop D op t u x y = Some (s, m) ->
  traps (sE s) /\ eval_binop D op (with_policy F t) (with_policy F u) x y = Some (sw F s, m).
Proof. intros F D [o|b]; cbn [eval_binop]; [apply binary_same|apply bitwise_same]. Qed.

Lemma type_traps_safe : forall s, traps (sE s) -> type_traps (OSafe s).
Proof. intros s H E [= <-]. assumption. Qed.
Lemma type_traps_raw : forall T, type_traps (ORaw T).
Proof. intros T E H. discriminate. Qed.

Lemma compound_same : forall F D op tgt u x y m, type_traps tgt -> type_traps u ->
  compound D op tgt u x y = Some m ->
  compound D op (with_policy F tgt) (with_policy F u) x y = Some m.
Proof.
  intros F D op tgt u x y m Ht Hu H. unfold compound in *.
  destruct (eval_binop D op tgt u x y) as [[rs m0]|] eqn:Eb; [|discriminate].
  destruct (binop_same F D op tgt u x y rs m0 Ht Hu Eb) as [HE ->].
  assert (Hbind : forall (k1 k2 : Z -> M Z), (forall r, k1 r = k2 r) -> mbind m0 k1 = mbind m0 k2).
  { intros k1 k2 K. destruct m0 as [tr [r|e| |]]; cbn; [rewrite K|..]; reflexivity. }
  destruct tgt as [T|s|T N P E]; cbn [with_policy]; [| |discriminate].
  - destruct (to_builtin D T rs 0) as [k0|] eqn:E0; [|discriminate]. injection H as <-.
    rewrite (to_builtin_same F D T rs 0 k0 HE E0). f_equal.
    apply Hbind. intros r. destruct (to_builtin_compiles D T rs 0 r k0 E0) as (q & Q).
    rewrite Q, (to_builtin_same F D T rs r q HE Q). reflexivity.
  - assert (HE' : traps (sE s)) by (apply Ht; reflexivity).
    destruct (construct D s (OSafe rs) 0) as [k0|] eqn:E0; [|discriminate]. injection H as <-.
    pose proof (construct_same F D s (OSafe rs) 0 k0 HE' E0) as C0. rewrite with_sw in C0. fold (sw F s). rewrite C0. f_equal.
    apply Hbind. intros r. destruct (construct_compiles D s (OSafe rs) 0 r k0 E0) as (q & Q).
    pose proof (construct_same F D s (OSafe rs) r q HE' Q) as Q'. rewrite with_sw in Q'. rewrite Q, Q'. reflexivity.
Qed.

Lemma compare_same : forall F D c t u x y m, type_traps t -> type_traps u ->
  compare D c t u x y = Some m -> compare D c (with_policy F t) (with_policy F u) x y = Some m.
Proof.
  intros F D c t u x y m Ht Hu H. unfold compare in *. rewrite common_pp_with.
  destruct (common_pp t u) as [P|]; [|discriminate].
  destruct (common_ep t u) as [E|] eqn:Ec; [|discriminate]. rewrite (common_ep_with F t u E Ec), result_base_type_with.
  destruct (result_base_type D P PCmp t u) as [R|]; [|discriminate]. cbv zeta in *.
  rewrite !lim_interval_with.
  assert (HE : traps E) by (destruct (common_ep_in _ _ _ Ec); auto).
  destruct (interval_open _ || interval_open _); [|assumption].
  rewrite casting_helper_trap in H by assumption. discriminate.
Qed.
Lemma relop_same : forall F D r t u x y m, type_traps t -> type_traps u ->
  eval_relop D r t u x y = Some m -> eval_relop D r (with_policy F t) (with_policy F u) x y = Some m.
Proof.
  intros F D r t u x y m Ht Hu H.
  assert (K : forall c a b p q m0, (a = t /\ b = u) \/ (a = u /\ b = t) -> compare D c a b p q = Some m0 ->
     compare D c (with_policy F a) (with_policy F b) p q = Some m0)
    by (intros c a b p q m0 [[-> ->]|[-> ->]]; apply compare_same; assumption).
  destruct r; cbn [eval_relop] in *; unfold s_le, s_ge, s_ne, s_gt, s_lt, s_eq in *;
  try (apply K; auto; fail);
  (destruct (compare D _ _ _ _ _) as [m0|] eqn:E0 in H; [|discriminate]; apply K in E0; [|auto];
   rewrite E0; exact H).
Qed.

Lemma expr_same : forall F D G e t, (forall v, type_traps (G v)) -> expr_traps e -> type_of D G e = Some t ->
  type_traps t
  /\ type_of D (fun v => with_policy F (G v)) (expr_with F e) = Some (with_policy F t)
  /\ forall s, eval D (fun v => with_policy F (G v)) s (expr_with F e) = eval D G s e.
Proof.
  intros F D G e. induction e as [o z|v|op first a IHa b IHb|a IHa|a IHa|o a IHa];
  intros t HG He Ht; cbn [type_of eval expr_traps expr_with] in *.
  - injection Ht as <-. auto.
  - injection Ht as <-. auto.
  - destruct He as [Ha Hb].
    destruct (type_of D G a) as [ta|]; [|discriminate]. destruct (type_of D G b) as [tb|]; [|discriminate].
    destruct (IHa ta HG Ha eq_refl) as (Ta & -> & Ea). destruct (IHb tb HG Hb eq_refl) as (Tb & -> & Eb).
    destruct (eval_binop D op ta tb 0 0) as [[rs m0]|] eqn:E0; [|discriminate]. cbn in Ht. injection Ht as <-.
    destruct (binop_same F D op ta tb 0 0 rs m0 Ta Tb E0) as [HE ->]. split; [apply type_traps_safe; assumption|].
    split; [reflexivity|]. intros s. rewrite Ea, Eb.
    destruct (both first (eval D G s a) (eval D G s b)) as [tr [[x y]|e| |]]; try reflexivity. cbn [mbind fst snd].
    destruct (eval_binop_any D op ta tb 0 0 x y rs m0 E0) as (k & K).
    rewrite K, (proj2 (binop_same F D op ta tb x y rs k Ta Tb K)). reflexivity.
  - destruct (type_of D G a) as [[T|ts|T N P E]|]; try discriminate.
    destruct (IHa (OSafe ts) HG He eq_refl) as (Ta & Ea1 & Ea). rewrite Ea1. rewrite with_sw.
    destruct (unary_minus D ts 0) as [[rs m0]|] eqn:E0; [|discriminate]. cbn in Ht. injection Ht as <-.
    assert (K : forall x k, unary_minus D ts x = Some (rs, k) -> unary_minus D (sw F ts) x = Some (sw F rs, k)).
    { intros x k Q. unfold unary_minus in *. rewrite <- with_sw.
      exact (proj2 (binary_same F D Sub (ORaw Int) (OSafe ts) 0 x rs k (type_traps_raw _) Ta Q)). }
    rewrite (K 0 m0 E0). split; [apply type_traps_safe|].
    + unfold unary_minus in E0. exact (proj1 (binary_same F D Sub _ _ _ _ _ _ (type_traps_raw _) Ta E0)).
    + split; [reflexivity|]. intros s. rewrite Ea. destruct (eval D G s a) as [tr [x|e| |]]; try reflexivity.
      cbn [mbind]. unfold unary_minus in E0. destruct (binary_any D Sub _ _ 0 0 0 x rs m0 E0) as (k & Q).
      rewrite (K x k Q). unfold unary_minus. rewrite Q. reflexivity.
  - destruct (type_of D G a) as [[T|ts|T N P E]|]; try discriminate.
    destruct (IHa (OSafe ts) HG He eq_refl) as (Ta & Ea1 & Ea). rewrite Ea1, with_sw.
    cbn in Ht. injection Ht as <-. split; [assumption|]. split; [reflexivity|]. intros s. rewrite Ea. reflexivity.
  - destruct He as [To Ha]. destruct (type_of D G a) as [ta|]; [|discriminate].
    destruct (convert D o ta 0) as [m0|] eqn:E0; [|discriminate]. cbn in Ht. injection Ht as <-.
    destruct (IHa ta HG Ha eq_refl) as (Ta & -> & Ea).
    rewrite (convert_same F D o ta 0 m0 To Ta E0). split; [assumption|]. split; [reflexivity|].
    intros s. rewrite Ea. destruct (eval D G s a) as [tr [x|e| |]]; try reflexivity. cbn [mbind].
    destruct (convert_any D o ta 0 x m0 E0) as (k & K). rewrite K, (convert_same F D o ta x k To Ta K). reflexivity.
Qed.

Lemma cond_same : forall F D G c, (forall v, type_traps (G v)) -> cond_traps c -> cond_compiles D G c = true ->
  cond_compiles D (fun v => with_policy F (G v)) (cond_with F c) = true
  /\ forall s, eval_cond D (fun v => with_policy F (G v)) s (cond_with F c) = eval_cond D G s c.
Proof.
  intros F D G [r first a b] HG [Ha Hb] Hc. cbn [cond_compiles eval_cond cond_with] in *.
  destruct (type_of D G a) as [ta|] eqn:Eta; [|discriminate].
  destruct (type_of D G b) as [tb|] eqn:Etb; [|discriminate].
  destruct (eval_relop D r ta tb 0 0) as [m0|] eqn:E0; [|discriminate].
  destruct (expr_same F D G a ta HG Ha Eta) as (Ta & -> & Ea).
  destruct (expr_same F D G b tb HG Hb Etb) as (Tb & -> & Eb).
  rewrite (relop_same F D r ta tb 0 0 m0 Ta Tb E0). split; [reflexivity|]. intros s. rewrite Ea, Eb.
  destruct (both first (eval D G s a) (eval D G s b)) as [tr [[x y]|e| |]]; try reflexivity. cbn [mbind fst snd].
  destruct (eval_relop_any D r ta tb 0 0 x y m0 E0) as (k & K).
  rewrite K, (relop_same F D r ta tb x y k Ta Tb K). reflexivity.
Qed.

Lemma loop_ext : forall c1 c2 b1 b2, (forall s, c1 s = c2 s) -> (forall s, b1 s = b2 s) ->
  forall k s, loop c1 b1 k s = loop c2 b2 k s.
Proof.
  intros c1 c2 b1 b2 Hc Hb. induction k as [|k IH]; intros s; cbn [loop]; [reflexivity|].
  rewrite Hc, Hb. destruct (snd (c2 s)) as [[|]|e| |]; try reflexivity.
  destruct (b2 s) as [[s1 [|e|]]|]; try reflexivity. apply IH.
Qed.

Lemma exec_same : forall F D G, (forall v, type_traps (G v)) ->
  forall c, cmd_traps c -> compiles D G c = true ->
  compiles D (fun v => with_policy F (G v)) (cmd_with F c) = true
  /\ forall fuel s, exec fuel D (fun v => with_policy F (G v)) s (cmd_with F c) = exec fuel D G s c.
Proof.
  intros F D G HG. induction c as [|v|v e|op v e|v|v|inc w v|a IHa b IHb|c a IHa b IHb|c a IHa|a IHa b IHb];
  intros Hok Hc; cbn [exec cmd_traps compiles cmd_with] in *.
  - auto.
  - contradiction.
  - destruct (type_of D G e) as [t|] eqn:Et; [|discriminate].
    destruct (convert D (G v) t 0) as [m0|] eqn:Ec; [|discriminate].
    destruct (expr_same F D G e t HG Hok Et) as (Te & -> & Ee).
    rewrite (convert_same F D (G v) t 0 m0 (HG v) Te Ec). split; [reflexivity|].
    intros fuel s. rewrite Ee. do 2 f_equal. destruct (eval D G s e) as [tr [x|e'| |]]; try reflexivity. cbn [mbind].
    destruct (convert_any D (G v) t 0 x m0 Ec) as (k & K).
    rewrite K, (convert_same F D (G v) t x k (HG v) Te K). reflexivity.
  - destruct (type_of D G e) as [t|] eqn:Et; [|discriminate].
    destruct (compound D op (G v) t 0 0) as [m0|] eqn:Ec; [|discriminate].
    destruct (expr_same F D G e t HG Hok Et) as (Te & -> & Ee).
    rewrite (compound_same F D op (G v) t 0 0 m0 (HG v) Te Ec). split; [reflexivity|].
    intros fuel s. rewrite Ee. do 2 f_equal. destruct (eval D G s e) as [tr [y|e'| |]]; try reflexivity. cbn [mbind].
    unfold read. destruct (s v) as [x|]; [|reflexivity]. rewrite !mbind_ret.
    destruct (compound_any D op (G v) t 0 0 x y m0 Ec) as (k & K).
    rewrite K, (compound_same F D op (G v) t x y k (HG v) Te K). reflexivity.
  - pose proof (HG v) as Tv.
    destruct (G v) as [T|t|T N P E] eqn:EG; try discriminate. cbn [with_policy]. fold (sw F t).
    destruct (increment D t 0) as [m0|] eqn:Ec; [|discriminate].
    assert (K : exists m1, increment D (sw F t) 0 = Some m1).
    { exists m0. exact (compound_same F D (BA Add) (OSafe t) (ORaw Int) 0 1 m0 Tv (type_traps_raw _) Ec). }
    destruct K as (m1 & ->). split; [reflexivity|]. intros fuel s. do 2 f_equal. unfold read.
    destruct (s v) as [x|]; [|reflexivity]. rewrite !mbind_ret.
    destruct (compound_any D (BA Add) (OSafe t) (ORaw Int) 0 1 x 1 m0 Ec) as (k & K).
    pose proof (compound_same F D (BA Add) (OSafe t) (ORaw Int) x 1 k Tv (type_traps_raw _) K) as K'.
    unfold increment. rewrite K. rewrite with_sw in K'. cbn [with_policy] in K'. rewrite K'. reflexivity.
  - pose proof (HG v) as Tv.
    destruct (G v) as [T|t|T N P E] eqn:EG; try discriminate. cbn [with_policy]. fold (sw F t).
    destruct (decrement D t 0) as [m0|] eqn:Ec; [|discriminate].
    assert (K : exists m1, decrement D (sw F t) 0 = Some m1).
    { exists m0. exact (compound_same F D (BA Sub) (OSafe t) (ORaw Int) 0 1 m0 Tv (type_traps_raw _) Ec). }
    destruct K as (m1 & ->). split; [reflexivity|]. intros fuel s. do 2 f_equal. unfold read.
    destruct (s v) as [x|]; [|reflexivity]. rewrite !mbind_ret.
    destruct (compound_any D (BA Sub) (OSafe t) (ORaw Int) 0 1 x 1 m0 Ec) as (k & K).
    pose proof (compound_same F D (BA Sub) (OSafe t) (ORaw Int) x 1 k Tv (type_traps_raw _) K) as K'.
    unfold decrement. rewrite K. rewrite with_sw in K'. cbn [with_policy] in K'. rewrite K'. reflexivity.
  - pose proof (HG v) as Tv. pose proof (HG w) as Tw.
    destruct (G v) as [T|t|T N P E] eqn:EG; try discriminate.
    destruct (G w) as [T|t'|T N P E] eqn:EW; try discriminate. rewrite !with_sw.
    assert (Hpost : forall x m, (if inc then post_increment D t x else post_decrement D t x) = Some m ->
              (if inc then post_increment D (sw F t) x else post_decrement D (sw F t) x) = Some m).
    { intros x m H. destruct inc; unfold post_increment, post_decrement, increment, decrement in *.
      - destruct (compound D (BA Add) (OSafe t) (ORaw Int) x 1) as [p|] eqn:Ep; [|discriminate].
        pose proof (compound_same F D (BA Add) (OSafe t) (ORaw Int) x 1 p Tv (type_traps_raw _) Ep) as K'.
        rewrite with_sw in K'. cbn [with_policy] in K'. rewrite K'. exact H.
      - destruct (compound D (BA Sub) (OSafe t) (ORaw Int) x 1) as [p|] eqn:Ep; [|discriminate].
        pose proof (compound_same F D (BA Sub) (OSafe t) (ORaw Int) x 1 p Tv (type_traps_raw _) Ep) as K'.
        rewrite with_sw in K'. cbn [with_policy] in K'. rewrite K'. exact H. }
    assert (Hm : exists m0 m1, (if inc then post_increment D t 0 else post_decrement D t 0) = Some m0
                 /\ construct D t' (OSafe t) 0 = Some m1).
    { destruct (if inc then post_increment D t 0 else post_decrement D t 0); [|discriminate].
      destruct (construct D t' (OSafe t) 0); [eauto|discriminate]. }
    destruct Hm as (m0 & m1 & Em & Ec). rewrite (Hpost 0 m0 Em).
    assert (HE' : traps (sE t')) by (apply Tw; reflexivity).
    assert (Hcon : forall x m, construct D t' (OSafe t) x = Some m -> construct D (sw F t') (OSafe (sw F t)) x = Some m)
      by (intros x m H; rewrite <- with_sw; apply construct_same; assumption).
    rewrite (Hcon 0 m1 Ec). split; [reflexivity|]. intros fuel s. unfold read.
    destruct (s v) as [x|]; [|reflexivity]. rewrite !mbind_ret.
    assert (Hk : exists k, (if inc then post_increment D t x else post_decrement D t x) = Some k).
    { destruct inc; unfold post_increment, post_decrement, increment, decrement in *.
      - destruct (compound D (BA Add) (OSafe t) (ORaw Int) 0 1) as [p|] eqn:Ep; [|discriminate].
        destruct (compound_any _ _ _ _ 0 1 x 1 p Ep) as (k & ->). cbn. eauto.
      - destruct (compound D (BA Sub) (OSafe t) (ORaw Int) 0 1) as [p|] eqn:Ep; [|discriminate].
        destruct (compound_any _ _ _ _ 0 1 x 1 p Ep) as (k & ->). cbn. eauto. }
    destruct Hk as (k & K). rewrite K, (Hpost x k K). cbn [run snd mret].
    destruct (construct_compiles D t' (OSafe t) 0 x m1 Ec) as (k1 & K1). rewrite K1, (Hcon x k1 K1). reflexivity.
  - apply andb_prop in Hc. destruct Hc as [Ca Cb]. destruct Hok as [Oa Ob].
    destruct (IHa Oa Ca) as [-> Ea]. destruct (IHb Ob Cb) as [-> Eb]. split; [reflexivity|].
    intros fuel s. rewrite Ea. destruct (exec fuel D G s a) as [[s1 [|e|]]|]; auto.
  - apply andb_prop in Hc. destruct Hc as [Cc Cb]. apply andb_prop in Cc. destruct Cc as [Cc Ca].
    destruct Hok as (Oc & Oa & Ob).
    destruct (cond_same F D G c HG Oc Cc) as [-> Ec]. destruct (IHa Oa Ca) as [-> Ea]. destruct (IHb Ob Cb) as [-> Eb].
    split; [reflexivity|]. intros fuel s. rewrite Ec. destruct (snd (eval_cond D G s c)) as [[|]|e| |]; auto.
  - apply andb_prop in Hc. destruct Hc as [Cc Ca]. destruct Hok as (Oc & Oa).
    destruct (cond_same F D G c HG Oc Cc) as [-> Ec]. destruct (IHa Oa Ca) as [-> Ea].
    split; [reflexivity|]. intros fuel s. apply loop_ext; auto.
  - apply andb_prop in Hc. destruct Hc as [Ca Cb]. destruct Hok as [Oa Ob].
    destruct (IHa Oa Ca) as [-> Ea]. destruct (IHb Ob Cb) as [-> Eb]. split; [reflexivity|].
    intros fuel s. rewrite Ea. destruct (exec fuel D G s a) as [[s1 [|e|]]|]; auto.
Qed.
