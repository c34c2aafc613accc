(** MotorFacts.v -- lemmas about the stepper motor program. *)
From Coq Require Import ZArith Bool List Lia.
From Verif Require Import Base CType Spec CTypeFacts Utility UtilityFacts SafeCompare
  CheckedInteger CheckedIntegerFacts CheckedResultOps CheckedResultFacts Interval IntervalFacts
  ExceptionPolicy Promotion SafeBase SafeSpec SafeFacts SafeConvFacts Program ProgramFacts ValueFacts.
From Verif Require Import Motor MotorSpec.
Import ListNotations.
Local Open Scope Z_scope.

(** ------------------------------------------------------------------ *)
(** the types of Motor.v are the library's *)
Lemma literal_types : forall n, In n [0; 1; -1; 2; 3; 4; 8; 128; 255; 256; 1000; 16777215; c0; c_min] ->
  safe_signed_literal LP64 n (Some pic16) None = Some (OLit (lit_type n) n (Some pic16) None).
Proof. intros n H. repeat (destruct H as [<-|H]; [vm_compute; reflexivity|]). destruct H. Qed.

Lemma range_types :
  safe_unsigned_range LP64 0 200000 pic16 exc = Some step_t
  /\ safe_unsigned_range LP64 0 50000 pic16 exc = Some position_t
  /\ safe_unsigned_range LP64 c_min c0 pic16 exc = Some c_t
  /\ safe_unsigned_range LP64 0 4294967295 pic16 exc = Some temp_t
  /\ safe_signed_range LP64 0 3 pic16 trap = Some phase_ix_t
  /\ safe_signed_range LP64 (-1) 1 pic16 trap = Some direction_t.
Proof. vm_compute. intuition congruence. Qed.

(** ------------------------------------------------------------------ *)
(** evaluation of expressions *)
Definition ev (s : store) (e : expr) (z : Z) : Prop := eval LP64 types s e = mret z.
Definition op_type (op : binop) (ta tb : otype) : option safe_t :=
  option_map fst (eval_binop LP64 op ta tb 0 0).

Lemma op_type_some : forall op ta tb sr x y, op_type op ta tb = Some sr ->
  exists k, eval_binop LP64 op ta tb x y = Some (sr, k).
Proof.
  intros op ta tb sr x y H. unfold op_type in H.
  destruct (eval_binop LP64 op ta tb 0 0) as [[s k]|] eqn:E; [|discriminate]. injection H as <-.
  exact (eval_binop_any LP64 op ta tb 0 0 x y s k E).
Qed.

Lemma ev_var : forall s v z, s v = Some z -> ev s (V v) z.
Proof. intros s v z H. unfold ev, V, eval, read. rewrite H. reflexivity. Qed.
Lemma ev_const : forall s o z, ev s (EConst o z) z.
Proof. reflexivity. Qed.

Section Ops.
  Variables (s : store) (a b : expr) (ta tb : otype) (sr : safe_t) (x y : Z).
  Hypothesis (Ta : type_of LP64 types a = Some ta) (Tb : type_of LP64 types b = Some tb).
  Hypothesis (Ea : ev s a x) (Eb : ev s b y).
  Hypothesis (Ix : in_type LP64 (base_ty ta) x) (Iy : in_type LP64 (base_ty tb) y).
  Hypothesis (Jx : in_type LP64 (st sr) x) (Jy : in_type LP64 (st sr) y).

  Lemma ev_op : forall op z, op_type op ta tb = Some sr ->
    (forall k, eval_binop LP64 op ta tb x y = Some (sr, k) -> k = mret z) ->
    ev s (EBin op true a b) z.
  Proof.
    intros op z Ho H. unfold ev in *. cbn [eval]. rewrite Ta, Tb, Ea, Eb. cbn [both].
    rewrite !mbind_ret. cbn [fst snd]. destruct (op_type_some op ta tb sr x y Ho) as (k & K).
    rewrite K. cbn [run_snd]. apply H. exact K.
  Qed.

  Lemma ev_add : op_type (BA Add) ta tb = Some sr -> in_type LP64 (st sr) (x + y) -> ev s (add a b) (x + y).
  Proof.
    intros Ho I. apply (ev_op (BA Add)); [assumption|]. intros k K.
    apply (arith_value Add Z.add LP64 ta tb x y sr); auto. left; auto.
  Qed.
  Lemma ev_sub : op_type (BA Sub) ta tb = Some sr -> in_type LP64 (st sr) (x - y) -> ev s (sub a b) (x - y).
  Proof.
    intros Ho I. apply (ev_op (BA Sub)); [assumption|]. intros k K.
    apply (arith_value Sub Z.sub LP64 ta tb x y sr); auto. right; left; auto.
  Qed.
  Lemma ev_mul : op_type (BA Mul) ta tb = Some sr -> in_type LP64 (st sr) (x * y) -> ev s (mul a b) (x * y).
  Proof.
    intros Ho I. apply (ev_op (BA Mul)); [assumption|]. intros k K.
    apply (arith_value Mul Z.mul LP64 ta tb x y sr); auto. right; right; auto.
  Qed.
  Lemma ev_div : op_type (BA Div) ta tb = Some sr -> 0 <= x -> 0 < y -> ev s (div a b) (x / y).
  Proof.
    intros Ho Hx Hy. apply (ev_op (BA Div)); [assumption|]. intros k K.
    assert (B : 0 <= x / y <= x) by (split; [apply Z.div_pos; lia|apply Z.div_le_upper_bound; nia]).
    rewrite <- Z.quot_div_nonneg in * by lia. pose proof (zero_in LP64 (st sr)).
    apply (div_value LP64 ta tb x y sr); auto; [lia|]. unfold in_type in *. lia.
  Qed.
  Lemma ev_shr : op_type (BA Shr) ta tb = Some sr -> 0 <= x -> 0 <= y < digits LP64 (st sr) ->
    ev s (shr a b) (x / 2 ^ y).
  Proof.
    intros Ho Hx Hy. apply (ev_op (BA Shr)); [assumption|]. intros k K.
    apply (shr_value LP64 ta tb x y sr); auto.
  Qed.
  Lemma ev_shl : op_type (BA Shl) ta tb = Some sr -> 0 <= x -> 0 <= y < digits LP64 (st sr) ->
    in_type LP64 (st sr) (x * 2 ^ y) -> ev s (shl a b) (x * 2 ^ y).
  Proof.
    intros Ho Hx Hy I. apply (ev_op (BA Shl)); [assumption|]. intros k K.
    apply (shl_value LP64 ta tb x y sr); auto.
  Qed.
  Lemma ev_and : op_type (BB And) ta tb = Some sr -> in_type LP64 (st sr) (Z.land x y) ->
    ev s (band a b) (Z.land x y).
  Proof.
    intros Ho I. apply (ev_op (BB And)); [assumption|]. intros k K.
    apply (bit_value LP64 And ta tb x y sr); auto.
  Qed.
  Lemma ev_or : op_type (BB Or) ta tb = Some sr -> in_type LP64 (st sr) (Z.lor x y) ->
    ev s (bor a b) (Z.lor x y).
  Proof.
    intros Ho I. apply (ev_op (BB Or)); [assumption|]. intros k K.
    apply (bit_value LP64 Or ta tb x y sr); auto.
  Qed.

  (** comparisons *)
  Lemma cond_value : forall r R, Some R = result_base_type LP64 pic16 PCmp ta tb ->
    Some R = result_base_type LP64 pic16 PCmp tb ta ->
    common_pp ta tb = Some pic16 -> common_pp tb ta = Some pic16 ->
    (if eval_relop LP64 r ta tb 0 0 then true else false) = true ->
    wf_operand LP64 ta -> wf_operand LP64 tb -> holds LP64 ta x -> holds LP64 tb y ->
    in_type LP64 R x -> in_type LP64 R y ->
    eval_cond LP64 types s (Cond r true a b)
      = mret (match r with RLt => x <? y | RGt => y <? x | RLe => negb (y <? x) | RGe => negb (x <? y)
                         | REq => x =? y | RNe => negb (x =? y) end).
  Proof.
    intros r R HR HR' HP HP' Hc Wa Wb Ha Hb Rx Ry. unfold ev in *. cbn [eval_cond]. rewrite Ta, Tb, Ea, Eb.
    cbn [both]. rewrite !mbind_ret. cbn [fst snd].
    assert (L : forall m0, compare LP64 CLt ta tb 0 0 = Some m0 -> compare LP64 CLt ta tb x y = Some (mret (x <? y))).
    { intros m0 H. destruct (compare_any LP64 CLt ta tb 0 0 x y m0 H) as (k & K). rewrite K. f_equal.
      exact (compare_value LP64 CLt ta tb x y k pic16 R HP (eq_sym HR) Wa Wb Ha Hb Rx Ry K). }
    assert (G : forall m0, compare LP64 CLt tb ta 0 0 = Some m0 -> compare LP64 CLt tb ta y x = Some (mret (y <? x))).
    { intros m0 H. destruct (compare_any LP64 CLt tb ta 0 0 y x m0 H) as (k & K). rewrite K. f_equal.
      exact (compare_value LP64 CLt tb ta y x k pic16 R HP' (eq_sym HR') Wb Wa Hb Ha Ry Rx K). }
    assert (Q : forall m0, compare LP64 CEq ta tb 0 0 = Some m0 -> compare LP64 CEq ta tb x y = Some (mret (x =? y))).
    { intros m0 H. destruct (compare_any LP64 CEq ta tb 0 0 x y m0 H) as (k & K). rewrite K. f_equal.
      exact (compare_value LP64 CEq ta tb x y k pic16 R HP (eq_sym HR) Wa Wb Ha Hb Rx Ry K). }
    destruct r; cbn [eval_relop] in *; unfold s_le, s_ge, s_lt, s_gt, s_ne, s_eq in *;
    match type of Hc with
    | context [compare LP64 CLt ta tb 0 0] => destruct (compare LP64 CLt ta tb 0 0) as [m0|]; [rewrite (L m0 eq_refl)|discriminate Hc]
    | context [compare LP64 CLt tb ta 0 0] => destruct (compare LP64 CLt tb ta 0 0) as [m0|]; [rewrite (G m0 eq_refl)|discriminate Hc]
    | context [compare LP64 CEq ta tb 0 0] => destruct (compare LP64 CEq ta tb 0 0) as [m0|]; [rewrite (Q m0 eq_refl)|discriminate Hc]
    end; reflexivity.
  Qed.
End Ops.

(** ------------------------------------------------------------------ *)
(** assignments *)
Definition safe_of (v : nat) : safe_t := match types v with OSafe s => s | _ => position_t end.
Lemma types_safe : forall v, types v = OSafe (safe_of v).
Proof. reflexivity. Qed.
Lemma safe_of_wf : forall v, in_type LP64 (st (safe_of v)) (smin (safe_of v)) /\ in_type LP64 (st (safe_of v)) (smax (safe_of v)).
Proof. intros v. do 13 (destruct v as [|v]; [vm_compute; intuition congruence|]). vm_compute. intuition congruence. Qed.

Lemma do_assign : forall r s v e te z, type_of LP64 types e = Some te ->
  (if construct LP64 (safe_of v) te 0 then true else false) = true ->
  ev s e z -> in_type LP64 (base_ty te) z -> smin (safe_of v) <= z <= smax (safe_of v) ->
  do (CAssign v e) (mkW r s) = (mkW r (upd s v (Some z)), RDone).
Proof.
  intros r s v e te z Te Hc He Hi Hz. unfold do. cbn [mem exec]. rewrite Te, He, mbind_ret.
  rewrite types_safe. cbn [convert].
  destruct (construct LP64 (safe_of v) te 0) as [m0|] eqn:E; [|discriminate].
  destruct (construct_compiles LP64 (safe_of v) te 0 z m0 E) as (k & K). rewrite K. cbn [run].
  destruct (safe_of_wf v) as [W1 W2].
  rewrite (construct_value LP64 (safe_of v) te z k W1 W2 Hi Hz K). reflexivity.
Qed.

Lemma compound_ok : forall op v tu sr x y z,
  op_type op (types v) tu = Some sr -> (if construct LP64 (safe_of v) (OSafe sr) 0 then true else false) = true ->
  (forall k, eval_binop LP64 op (types v) tu x y = Some (sr, k) -> k = mret z) ->
  in_type LP64 (st sr) z -> smin (safe_of v) <= z <= smax (safe_of v) ->
  run (compound LP64 op (types v) tu x y) = mret z.
Proof.
  intros op v tu sr x y z Ho Hc H Hi Hz. unfold compound.
  destruct (op_type_some op _ _ _ x y Ho) as (k & K). rewrite K, (H k K). rewrite types_safe.
  destruct (construct LP64 (safe_of v) (OSafe sr) 0) as [m0|] eqn:E; [|discriminate]. cbn [run].
  rewrite mbind_ret. destruct (construct_compiles LP64 (safe_of v) (OSafe sr) 0 z m0 E) as (k' & K'). rewrite K'.
  destruct (safe_of_wf v) as [W1 W2].
  exact (construct_value LP64 (safe_of v) (OSafe sr) z k' W1 W2 Hi Hz K').
Qed.

Lemma branch_true : forall k a b w, eval_cond LP64 types (mem w) k = mret true -> branch k a b w = a w.
Proof. intros k a b w H. unfold branch. rewrite H. reflexivity. Qed.
Lemma branch_false : forall k a b w, eval_cond LP64 types (mem w) k = mret false -> branch k a b w = b w.
Proof. intros k a b w H. unfold branch. rewrite H. reflexivity. Qed.
Lemma branch_value : forall k a b w v, eval_cond LP64 types (mem w) k = mret v ->
  branch k a b w = if v then a w else b w.
Proof. intros k a b w v H. unfold branch. rewrite H. destruct v; reflexivity. Qed.
Lemma andthen_done : forall a b w w1, a w = (w1, RDone) -> andthen a b w = b w1.
Proof. intros a b w w1 H. unfold andthen. rewrite H. reflexivity. Qed.
Lemma andthen_raise : forall a b w w1 e, a w = (w1, RRaised e) -> andthen a b w = (w1, RRaised e).
Proof. intros a b w w1 e H. unfold andthen. rewrite H. reflexivity. Qed.

(** ranges of the types *)
Lemma in_UChar : forall z, 0 <= z <= 255 -> in_type LP64 UChar z. Proof. intros z H. exact H. Qed.
Lemma in_SChar : forall z, -128 <= z <= 127 -> in_type LP64 SChar z. Proof. intros z H. exact H. Qed.
Lemma in_UShort : forall z, 0 <= z <= 65535 -> in_type LP64 UShort z. Proof. intros z H. exact H. Qed.
Lemma in_Short : forall z, -32768 <= z <= 32767 -> in_type LP64 Short z. Proof. intros z H. exact H. Qed.
Lemma in_UInt : forall z, 0 <= z <= 4294967295 -> in_type LP64 UInt z. Proof. intros z H. exact H. Qed.
Lemma in_Int : forall z, -2147483648 <= z <= 2147483647 -> in_type LP64 Int z. Proof. intros z H. exact H. Qed.

Lemma land_bounds : forall x y, 0 <= y -> 0 <= Z.land x y <= y.
Proof.
  intros x y Hy. split; [apply Z.land_nonneg; lia|].
  apply Z.ldiff_le; [assumption|]. apply Z.bits_inj'. intros n Hn.
  rewrite Z.ldiff_spec, Z.land_spec, Z.bits_0. destruct (Z.testbit x n), (Z.testbit y n); reflexivity.
Qed.

Ltac fit := first [apply in_UInt | apply in_UShort | apply in_Int | apply in_Short | apply in_SChar | apply in_UChar].
