(** ElemShiftFacts.v -- proofs about << and >> of intervals of safe elements. *)
From Coq Require Import ZArith Bool List Lia.
From Verif Require Import Base CType Spec CTypeFacts ExceptionPolicy Promotion SafeBase SafeSpec SafeFacts SafeConvFacts Program
  ProgramSpec ProgramFacts PropsProgramProofs ComposeSpec ComposeFacts PropsArithProofs BuiltinAllFacts IntervalFacts IntervalOpsFacts
  ElemInterval ElemIntervalSpec ElemIntervalFacts.
Import ListNotations.
Local Open Scope Z_scope.

Lemma shl_monotone : forall t u, 0 <= vl u -> monotone (exact Shl) t u.
Proof.
  intros t u L. unfold inside. split; intros y Hy; cbn [exact].
  - left. intros a b H1 H2 H3. cbn beta. apply Z.mul_le_mono_nonneg_r; [apply Z.pow_nonneg; lia|assumption].
  - destruct (Z.le_gt_cases 0 y); [left|right]; intros a b H1 H2 H3; cbn beta;
      pose proof (Z.pow_le_mono_r 2 a b ltac:(lia) ltac:(lia)) as Q;
      [apply Z.mul_le_mono_nonneg_l|apply Z.mul_le_mono_nonpos_l]; try assumption; lia.
Qed.
Lemma shr_monotone : forall t u, 0 <= vl u -> monotone (exact Shr) t u.
Proof.
  intros t u L. split; intros y Hy; unfold inside in Hy; cbn [exact].
  - left. intros a b H1 H2 H3. apply Z.div_le_mono; [apply Z.pow_pos_nonneg; lia|assumption].
  - destruct (Z.le_gt_cases 0 y); [right|left]; intros a b H1 H2 H3; cbn beta.
    + apply Z.div_le_compat_l; [lia|]. split; [apply Z.pow_pos_nonneg; lia|apply Z.pow_le_mono_r; lia].
    + cbn [exact]. replace b with (a + (b - a)) by lia. rewrite Z.pow_add_r, <- Z.div_div by (try apply Z.pow_nonzero; try apply Z.pow_pos_nonneg; lia).
      pose proof (Z.pow_pos_nonneg 2 a ltac:(lia) ltac:(lia)). pose proof (Z.pow_pos_nonneg 2 (b - a) ltac:(lia) ltac:(lia)).
      pose proof (Z.div_lt_upper_bound y (2 ^ a) 0 ltac:(lia) ltac:(lia)).
      apply Z.div_le_lower_bound; [lia|]. nia.
Qed.

Section Shift.
  Variables (D : dmodel) (s : safe_t) (op : aop).
  Let o := OSafe s.
  Hypothesis Ho : elem_ok D o.
  Hypothesis Hs : throws_shift (sE s).
  Hypothesis Hop : op = Shl \/ op = Shr.
  Hypothesis Hx : forall s' m, binary D op o o 0 0 = Some (s', m) -> exact_operator true D (BA op) o o s'.
  Definition shift_args (x y : Z) : Prop := 0 <= y /\ (op = Shr -> 0 <= x).

  Lemma elem_type_fine : type_fine (natb s) D o.
  Proof. split; [exact (elem_type_ok D s Ho)|]. intros E [= <-]. exact Hs. Qed.

  Lemma shift_op_char : forall x y src, holds D o x -> holds D o y -> elem_type D o op = Some src ->
    (returns (elem_op D o op x y) (exact op x y) /\ holds D src (exact op x y) /\ wf_operand D src /\ shift_args x y)
    \/ fails (elem_op D o op x y).
  Proof.
    intros x y src Hx0 Hy0 T. cbn [elem_type o] in T. unfold o in T.
    destruct (binary D op (OSafe s) (OSafe s) 0 0) as [[s' m0]|] eqn:B0; [|discriminate]. injection T as <-.
    destruct (eval_binop_any D (BA op) o o 0 0 x y s' m0 B0) as (m & B).
    cbn [elem_op o]. unfold o in *. cbn [eval_binop] in B. rewrite B. cbn [run_snd].
    destruct (eval_fine (natb s) D (BA op) o o x y s' m elem_type_fine elem_type_fine B) as (HE & HS & _).
    destruct Ho as (W & _). pose proof (Hx s' m0 B0) as X. unfold shift_args.
    destruct Hop as [E|E]; subst op; cbn [exact exact_operator] in *.
    - destruct X as (P & [[A1 A2]|A]).
      + unfold holds in Hx0, Hy0. destruct (C26_nonneg D o o x y s' m W W Hx0 Hy0 B HE HS) as (W' & [[R I]|F]);
          try assumption; try lia; [left|right; exact F].
        split; [exact R|]. split; [exact I|]. split; [exact W'|]. split; [lia|discriminate].
      + destruct (C26_wide D o o x y s' m W W Hx0 Hy0 B HE HS P A) as (W' & [[R I]|F] & N); [|right; exact F].
        destruct (Z.lt_ge_cases y 0) as [L|L]; [right; exact (N L)|left].
        split; [exact R|]. split; [exact I|]. split; [exact W'|]. split; [lia|discriminate].
    - assert (X' : csigned D (st s') = true \/ 0 <= lim_lo D o /\ y <> digits D (st s')).
      { destruct X as [X|(X1 & X2)]; [left; exact X|right]. split; [exact X1|]. unfold holds in Hy0. unfold o in *. lia. }
      destruct (C27_lemma D o o x y s' m W W Hx0 Hy0 B HE HS X') as (W' & [[R I]|F] & N); [|right; exact F].
      destruct (Z.lt_ge_cases x 0) as [Lx|Lx]; [right; apply N; auto|].
      destruct (Z.lt_ge_cases y 0) as [L|L]; [right; apply N; auto|left].
      split; [exact R|]. split; [exact I|]. split; [exact W'|]. split; [lia|intros _; lia].
  Qed.

  Lemma shift_corner_char : forall x y src, holds D o x -> holds D o y -> elem_type D o op = Some src ->
    init_compiles true D o src = true ->
    (returns (corner D o op x y) (exact op x y) /\ holds D o (exact op x y) /\ shift_args x y) \/ fails (corner D o op x y).
  Proof.
    intros x y src X Y T C. unfold corner. rewrite T.
    destruct (shift_op_char x y src X Y T) as [(R & H & W & A)|[R|R]];
      [|right; left; apply mbind_throws; assumption|right; right; apply mbind_throws_impl; assumption].
    rewrite (bind_ret _ _ _ _ _ R).
    destruct (elem_init_char D s Ho true src (exact op x y) W H C) as [[P Q]|[P _]]; [left; auto|right; left; assumption].
  Qed.

  Lemma shift_hull : forall t u, ival_ok D o t -> ival_ok D o u -> v_compiles D o op = true ->
    (exists r, returns (v_op D o op t u) r /\ ival_ok D o r /\ hull (exact op) t u r /\ 0 <= vl u /\ (op = Shr -> 0 <= vl t))
    \/ fails (v_op D o op t u).
  Proof.
    intros t u Ht Hu C.
    assert (K : exists src, elem_type D o op = Some src /\ init_compiles true D o src = true).
    { unfold v_compiles in C. destruct (elem_type D o op) as [src|]; [|discriminate]. exists src. split; [reflexivity|].
      destruct Hop as [E|E]; rewrite E in C; apply andb_prop in C; tauto. }
    destruct K as (src & T & I). pose proof Ht as (T1 & T2 & T3). pose proof Hu as (U1 & U2 & U3).
    assert (V : v_op D o op t u = v_corners D o op t u) by (destruct Hop as [E|E]; rewrite E; reflexivity).
    rewrite V. clear V.
    pose proof (shift_corner_char (vl t) (vl u) src T1 U1 T I) as C1.
    pose proof (shift_corner_char (vl t) (vu u) src T1 U2 T I) as C2.
    pose proof (shift_corner_char (vu t) (vl u) src T2 U1 T I) as C3.
    pose proof (shift_corner_char (vu t) (vu u) src T2 U2 T I) as C4.
    destruct C1 as [C1|C1]; [|right; unfold v_corners; apply mbind_fails; assumption].
    destruct C2 as [C2|C2]; [|right; unfold v_corners; rewrite (bind_ret _ _ _ _ _ (proj1 C1)); apply mbind_fails; assumption].
    destruct C3 as [C3|C3]; [|right; unfold v_corners; rewrite (bind_ret _ _ _ _ _ (proj1 C1)), (bind_ret _ _ _ _ _ (proj1 C2));
      apply mbind_fails; assumption].
    destruct C4 as [C4|C4]; [|right; unfold v_corners; rewrite (bind_ret _ _ _ _ _ (proj1 C1)), (bind_ret _ _ _ _ _ (proj1 C2)),
      (bind_ret _ _ _ _ _ (proj1 C3)); apply mbind_fails; assumption].
    destruct C1 as (R1 & H1 & A1 & B1). destruct C2 as (R2 & H2 & _). destruct C3 as (R3 & H3 & _). destruct C4 as (R4 & H4 & _).
    left. destruct (corners_hull D o op t u Ho Ht Hu) as (r & R & Ir & Hr).
    - destruct Hop as [E|E]; rewrite E; [apply shl_monotone|apply shr_monotone]; assumption.
    - intros x y [->| ->] [->| ->]; split; assumption.
    - exists r. auto.
  Qed.
End Shift.

(** built-in elements *)
Lemma raw_shift_hull : forall D T op t u, op = Shl \/ op = Shr -> ival_ok D (ORaw T) t -> ival_ok D (ORaw T) u ->
  v_compiles D (ORaw T) op = true -> 0 <= vl u ->
  (forall x y, inside t x -> inside u y -> built_in D op T T x y = Ok (exact op x y) /\ in_type D T (exact op x y)) ->
  exists r, returns (v_op D (ORaw T) op t u) r /\ ival_ok D (ORaw T) r /\ hull (exact op) t u r.
Proof.
  intros D T op t u Hop Ht Hu C L F.
  assert (V : v_op D (ORaw T) op t u = v_corners D (ORaw T) op t u) by (destruct Hop as [E|E]; rewrite E; reflexivity).
  rewrite V. apply corners_hull; try assumption; [exact I|..].
  - destruct Hop as [E|E]; rewrite E; [apply shl_monotone|apply shr_monotone]; assumption.
  - destruct (ends_inside _ _ _ Ht) as [I1 I2]. destruct (ends_inside _ _ _ Hu) as [J1 J2].
    assert (Q : forall x y, inside t x -> inside u y ->
      returns (corner D (ORaw T) op x y) (exact op x y) /\ holds D (ORaw T) (exact op x y)).
    { intros x y Ix Iy. destruct (F x y Ix Iy) as [B H]. split; [|exact H].
      unfold corner. cbn [elem_type elem_op elem_init]. rewrite B, mbind_ret. unfold returns, mret. rewrite conv_id by exact H. reflexivity. }
    intros x y [->| ->] [->| ->]; apply Q; assumption.
Qed.

(** safe<T> *)
Lemma digits_hi : forall D T R, digits D R <= hi D T.
Proof. intros [] [] []; vm_compute; discriminate. Qed.
Lemma whole_shift_hull : forall D T E op t u, op = Shl \/ (op = Shr /\ csigned D T = true) -> throws_arithmetic E -> throws_shift E ->
  let s := safe D T Native E in
  ival_ok D (OSafe s) t -> ival_ok D (OSafe s) u -> v_compiles D (OSafe s) op = true ->
  (exists r, returns (v_op D (OSafe s) op t u) r /\ ival_ok D (OSafe s) r /\ hull (exact op) t u r
     /\ 0 <= vl u /\ (op = Shr -> 0 <= vl t))
  \/ fails (v_op D (OSafe s) op t u).
Proof.
  intros D T E op t u Hop HE HS s Ht Hu C.
  assert (W : wf_operand D (OSafe s)) by (destruct D, T; vm_compute; intuition congruence).
  apply shift_hull; try assumption.
  - split; [exact W|]. split; [exact HE|left; reflexivity].
  - tauto.
  - intros s' m B. destruct Hop as [->|[-> S]]; cbn [exact_operator].
    + split; [destruct D, T; reflexivity|]. right. apply digits_hi.
    + left. pose proof (bop_result D (BA Shr) (OSafe s) (OSafe s) 0 0 s' m B) as K.
      assert (N : sP s' = Native).
      { destruct (binary_policy _ _ _ _ _ _ _ _ B) as [_ Q]. revert Q. cbn. congruence. }
      rewrite (K N). destruct D, T; try discriminate; reflexivity.
Qed.
