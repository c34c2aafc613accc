(** ElemIntervalFacts.v -- proofs about intervals over built-in and safe elements. *)
From Coq Require Import ZArith Bool List Lia.
From Verif Require Import Base CType Spec CTypeFacts ExceptionPolicy Promotion SafeBase SafeSpec SafeFacts SafeConvFacts Program
  ProgramSpec ProgramFacts PropsProgramProofs PropsStaticProofs BuiltinSpec BuiltinFacts IntervalFacts IntervalOpsFacts
  ElemInterval ElemIntervalSpec.
Import ListNotations.
Local Open Scope Z_scope.

Lemma elem_rel_exact : forall D o r x y, elem_ok D o -> holds D o x -> holds D o y ->
  elem_rel D o r x y = mret (math_rel r x y).
Proof.
  intros D [T|s|T N P E] r x y Ho Hx Hy; cbn [elem_ok] in Ho; [| |contradiction].
  - cbn [elem_rel]. rewrite !c_lt_same, c_eq_same by assumption. destruct r; cbn [math_rel]; f_equal.
    + symmetry. apply Z.gtb_ltb.
    + symmetry. apply Z.leb_antisym.
    + rewrite Z.geb_leb. symmetry. apply Z.leb_antisym.
  - destruct Ho as (W & _ & P). destruct (C63_same_lemma D s s x y eq_refl eq_refl eq_refl P W W Hx Hy) as (A & B & C & F & G & H).
    cbn [elem_rel]. destruct r; cbn [eval_relop math_rel]; rewrite ?A, ?B, ?C, ?F, ?G, ?H; cbn [run]; f_equal.
    + symmetry. apply Z.gtb_ltb.
    + symmetry. apply Z.geb_leb.
Qed.

Lemma v_minmax_loop_spec : forall D o, elem_ok D o -> forall l mn mx, Forall (holds D o) l -> holds D o mn -> holds D o mx -> mn <= mx ->
  exists a b, v_minmax_loop D o l mn mx = mret (a, b) /\ In a (mn :: l) /\ In b (mx :: l)
    /\ a <= mn /\ mx <= b /\ forall x, In x l -> a <= x <= b.
Proof.
  intros D o Ho. induction l as [|i l IH]; intros mn mx Hl Hn Hx L; cbn [v_minmax_loop].
  - exists mn, mx. cbn. intuition lia.
  - inversion Hl as [|? ? Hi Hl']; subst.
    rewrite (elem_rel_exact D o RLt i mn Ho Hi Hn), mbind_ret. cbn [math_rel].
    destruct (Z.ltb_spec i mn) as [A|A].
    { destruct (IH i mx Hl' Hi Hx ltac:(lia)) as (a & b & E & Ia & Ib & La & Lb & F).
      exists a, b. split; [assumption|]. cbn in *. split; [tauto|]. split; [tauto|]. split; [lia|]. split; [lia|].
      intros x [<-|K]; [lia|auto]. }
    rewrite (elem_rel_exact D o RLt mx i Ho Hx Hi), mbind_ret. cbn [math_rel].
    destruct (Z.ltb_spec mx i) as [B|B].
    + destruct (IH mn i Hl' Hn Hi ltac:(lia)) as (a & b & E & Ia & Ib & La & Lb & F).
      exists a, b. split; [assumption|]. cbn in *. split; [tauto|]. split; [tauto|]. split; [lia|]. split; [lia|].
      intros x [<-|K]; [lia|auto].
    + destruct (IH mn mx Hl' Hn Hx L) as (a & b & E & Ia & Ib & La & Lb & F).
      exists a, b. split; [assumption|]. cbn in *. split; [tauto|]. split; [tauto|]. split; [lia|]. split; [lia|].
      intros x [<-|K]; [lia|auto].
Qed.
Lemma v_minmax_spec : forall D o x l, elem_ok D o -> Forall (holds D o) (x :: l) ->
  exists r, returns (v_minmax D o (x :: l)) r /\ In (vl r) (x :: l) /\ In (vu r) (x :: l) /\ forall z, In z (x :: l) -> inside r z.
Proof.
  intros D o x l Ho Hl. pose proof (Forall_inv Hl) as Hx.
  destruct (v_minmax_loop_spec D o Ho (x :: l) x x Hl Hx Hx ltac:(lia)) as (a & b & E & Ia & Ib & La & Lb & F).
  exists (mkV a b). unfold v_minmax. rewrite E, mbind_ret. cbn [fst snd vl vu inside].
  split; [reflexivity|]. split; [cbn in *; tauto|]. split; [cbn in *; tauto|]. exact F.
Qed.

Definition monotone (f : Z -> Z -> Z) (t u : ival) : Prop :=
  (forall y, inside u y -> mono_on (fun x => f x y) (vl t) (vu t)) /\ (forall x, inside t x -> mono_on (f x) (vl u) (vu u)).

Lemma ends_inside : forall D o i, ival_ok D o i -> inside i (vl i) /\ inside i (vu i).
Proof. intros D o i (_ & _ & L). unfold inside. lia. Qed.

Lemma corners_hull : forall D o op t u, elem_ok D o -> ival_ok D o t -> ival_ok D o u -> monotone (exact op) t u ->
  (forall x y, x = vl t \/ x = vu t -> y = vl u \/ y = vu u -> returns (corner D o op x y) (exact op x y) /\ holds D o (exact op x y)) ->
  exists r, returns (v_corners D o op t u) r /\ ival_ok D o r /\ hull (exact op) t u r.
Proof.
  intros D o op t u Ho Ht Hu [M1 M2] C. unfold v_corners.
  destruct (C (vl t) (vl u) ltac:(auto) ltac:(auto)) as [R1 H1]. destruct (C (vl t) (vu u) ltac:(auto) ltac:(auto)) as [R2 H2].
  destruct (C (vu t) (vl u) ltac:(auto) ltac:(auto)) as [R3 H3]. destruct (C (vu t) (vu u) ltac:(auto) ltac:(auto)) as [R4 H4].
  rewrite (bind_ret _ _ _ _ _ R1), (bind_ret _ _ _ _ _ R2), (bind_ret _ _ _ _ _ R3), (bind_ret _ _ _ _ _ R4).
  destruct (v_minmax_spec D o (exact op (vl t) (vl u)) [exact op (vl t) (vu u); exact op (vu t) (vl u); exact op (vu t) (vu u)] Ho)
    as (r & R & Il & Iu & F); [repeat (apply Forall_cons; [assumption|]); apply Forall_nil|].
  destruct (ends_inside D o t Ht) as [T1 T2]. destruct (ends_inside D o u Hu) as [U1 U2].
  assert (K : forall z, In z [exact op (vl t) (vl u); exact op (vl t) (vu u); exact op (vu t) (vl u); exact op (vu t) (vu u)] ->
    holds D o z /\ exists x y, inside t x /\ inside u y /\ exact op x y = z).
  { intros z [<-|[<-|[<-|[<-|[]]]]]; (split; [assumption|]); eexists; eexists; (split; [|split; [|reflexivity]]); assumption. }
  exists r. split; [exact R|]. split; [|split; [|split]].
  - split; [apply K; exact Il|]. split; [apply K; exact Iu|]. pose proof (F _ Il) as G. unfold inside in G. lia.
  - intros x y Hx Hy.
    destruct (corner_bounds (exact op) (vl t) (vu t) (vl u) (vu u) x y Hx Hy M1 M2) as (p & q & p' & q' & Hp & Hq & Hp' & Hq' & G).
    assert (A : inside r (exact op p q)) by (apply F; destruct Hp, Hq; subst; cbn; tauto).
    assert (B : inside r (exact op p' q')) by (apply F; destruct Hp', Hq'; subst; cbn; tauto).
    unfold inside in *. lia.
  - apply K. exact Il.
  - apply K. exact Iu.
Qed.

Lemma mul_monotone : forall t u, monotone (exact Mul) t u.
Proof.
  intros t u. split; intros y Hy; destruct (Z.le_gt_cases 0 y); [left|right|left|right]; intros; cbn [exact]; nia.
Qed.
Lemma div_monotone : forall t u, ~ inside u 0 -> monotone (exact Div) t u.
Proof.
  intros t u N. unfold inside in *. split; intros y Hy; cbn [exact].
  - apply quot_mono_x. unfold inside in Hy. intros ->. exact (N Hy).
  - destruct (Z.le_gt_cases (vl u) (vu u)).
    + apply quot_mono_r. lia.
    + left. intros. lia.
Qed.

(** + and -: the ends *)
Lemma ends_hull : forall D o op x1 y1 x2 y2 src, elem_type D o op = Some src ->
  returns (elem_op D o op x1 y1) (exact op x1 y1) -> returns (elem_op D o op x2 y2) (exact op x2 y2) ->
  returns (elem_init D o src (exact op x1 y1)) (exact op x1 y1) -> returns (elem_init D o src (exact op x2 y2)) (exact op x2 y2) ->
  returns (v_ends D o op x1 y1 x2 y2) (mkV (exact op x1 y1) (exact op x2 y2)).
Proof.
  intros D o op x1 y1 x2 y2 src T A B C E. unfold v_ends.
  rewrite T, (bind_ret _ _ _ _ _ A), (bind_ret _ _ _ _ _ B), (bind_ret _ _ _ _ _ C), (bind_ret _ _ _ _ _ E). reflexivity.
Qed.
Lemma add_hull : forall D o t u, ival_ok D o t -> ival_ok D o u -> hull (exact Add) t u (mkV (vl t + vl u) (vu t + vu u)).
Proof.
  intros D o t u Ht Hu. destruct (ends_inside _ _ _ Ht) as [T1 T2]. destruct (ends_inside _ _ _ Hu) as [U1 U2]. split; [|split].
  - intros x y. unfold inside. cbn. lia.
  - exists (vl t), (vl u). auto.
  - exists (vu t), (vu u). auto.
Qed.
Lemma sub_hull : forall D o t u, ival_ok D o t -> ival_ok D o u -> hull (exact Sub) t u (mkV (vl t - vu u) (vu t - vl u)).
Proof.
  intros D o t u Ht Hu. destruct (ends_inside _ _ _ Ht) as [T1 T2]. destruct (ends_inside _ _ _ Hu) as [U1 U2]. split; [|split].
  - intros x y. unfold inside. cbn. lia.
  - exists (vl t), (vu u). auto.
  - exists (vu t), (vl u). auto.
Qed.

(** ------------------------------------------------------------------ *)
(** safe elements *)
Section SafeElement.
  Variable D : dmodel.
  Variable s : safe_t.
  Hypothesis Ho : elem_ok D (OSafe s).
  Let o := OSafe s.
  Definition natb : bool := match sP s with Native => true | _ => false end.
  Lemma elem_type_ok : type_ok natb D o.
  Proof.
    destruct Ho as (W & E & P). split; [exact W|]. split.
    - intros E0 [= <-]. exact E.
    - unfold natb. intros H Q [= <-]. destruct (sP s); try discriminate. reflexivity.
  Qed.
  Lemma op_monotone_ok : forall op, op_monotone o op -> op_ok natb (BA op).
  Proof.
    intros op [->|[->|[->|[-> N]]]]; unfold op_ok; auto. right. right. right. split; [reflexivity|].
    unfold natb. rewrite (N s eq_refl). reflexivity.
  Qed.
  Definition two (x y : Z) : nat -> Z := fun v => match v with O => x | _ => y end.
  Lemma two_ok : forall x y, holds D o x -> holds D o y ->
    store_ok D (fun _ => o) (fun v => Some (two x y v)) (two x y).
  Proof. intros x y Hx Hy [|v]; cbn; auto. Qed.

  Lemma elem_op_char : forall op x y src, op_monotone o op -> holds D o x -> holds D o y -> elem_type D o op = Some src ->
    (op = Div -> y <> 0) ->
    (returns (elem_op D o op x y) (exact op x y) /\ holds D src (exact op x y)) \/ throws_arith (elem_op D o op x y).
  Proof.
    intros op x y src Hop Hx Hy T N.
    assert (EV : eval D (fun _ => o) (fun v => Some (two x y v)) (EBin (BA op) true (EVar 0%nat) (EVar 1%nat)) = elem_op D o op x y).
    { cbn [eval type_of]. unfold both, read. cbn [two]. rewrite !mbind_ret. reflexivity. }
    rewrite <- EV.
    destruct (C35_lemma natb D (fun _ => o) _ _ (EBin (BA op) true (EVar 0%nat) (EVar 1%nat)) src
      (fun _ => elem_type_ok) (two_ok x y Hx Hy)) as [(z & V & R & H)|R].
    - cbn. auto using op_monotone_ok.
    - exact T.
    - left. assert (z = exact op x y) as ->.
      { cbn [value two math_op] in V. destruct Hop as [->|[->|[->|[-> _]]]]; cbn [math_op exact] in *; try congruence.
        destruct (Z.eqb_spec y 0) as [Y|_]; [exfalso; exact (N eq_refl Y)|congruence]. }
      split; assumption.
    - right. exact R.
  Qed.
  Lemma src_ok : forall op src, op_monotone o op -> elem_type D o op = Some src -> type_ok natb D src.
  Proof.
    intros op src Hop T.
    apply (type_of_ok natb D (fun _ => o) (EBin (BA op) true (EVar 0%nat) (EVar 1%nat)) src (fun _ => elem_type_ok)).
    - cbn. auto using op_monotone_ok.
    - exact T.
  Qed.
  Lemma elem_init_char : forall b src z, wf_operand D src -> holds D src z -> init_compiles b D o src = true ->
    (returns (elem_init D o src z) z /\ holds D o z) \/ (throws_arith (elem_init D o src z) /\ ~ holds D o z).
  Proof.
    intros b src z W Hz C. destruct Ho as (Ws & E & _). cbn [init_compiles o] in C.
    destruct (construct D s src 0) as [m0|] eqn:K; [|discriminate].
    destruct (construct_compiles D s src 0 z m0 K) as (m & Km). cbn [elem_init o]. unfold o. rewrite Km. cbn [run].
    destruct (construct_char D s src z m Ws W E Hz Km) as [[A ->]|[A B]]; [left|right]; (split; [|]); try reflexivity; assumption.
  Qed.
  Lemma corner_char : forall op x y src, op_monotone o op -> holds D o x -> holds D o y -> elem_type D o op = Some src ->
    init_compiles true D o src = true -> (op = Div -> y <> 0) ->
    (returns (corner D o op x y) (exact op x y) /\ holds D o (exact op x y)) \/ throws_arith (corner D o op x y).
  Proof.
    intros op x y src Hop Hx Hy T C N. unfold corner. rewrite T.
    destruct (elem_op_char op x y src Hop Hx Hy T N) as [[R H]|R]; [|right; apply mbind_throws; assumption].
    rewrite (bind_ret _ _ _ _ _ R).
    destruct (elem_init_char true src (exact op x y) (proj1 (src_ok op src Hop T)) H C) as [[A B]|[A _]]; auto.
  Qed.

  Lemma corners_char : forall op t u, op_monotone o op -> ival_ok D o t -> ival_ok D o u -> v_compiles D o op = true ->
    op = Mul \/ op = Div -> (op = Div -> ~ inside u 0) ->
    (exists r, returns (v_corners D o op t u) r /\ ival_ok D o r /\ hull (exact op) t u r) \/ throws_arith (v_corners D o op t u).
  Proof.
    intros op t u Hop Ht Hu C Md Nz.
    assert (K : exists src, elem_type D o op = Some src /\ init_compiles true D o src = true).
    { unfold v_compiles in C. destruct (elem_type D o op) as [src|]; [|discriminate]. exists src. split; [reflexivity|].
      destruct Md as [-> | ->]; repeat (apply andb_prop in C; destruct C as [C ?]); assumption. }
    destruct K as (src & T & I).
    destruct Ht as (T1 & T2 & T3) eqn:Et. destruct Hu as (U1 & U2 & U3) eqn:Eu.
    destruct (ends_inside _ _ _ Hu) as [Q1 Q2].
    assert (Z1 : op = Div -> vl u <> 0) by (intros e f; apply (Nz e); rewrite <- f; exact Q1).
    assert (Z2 : op = Div -> vu u <> 0) by (intros e f; apply (Nz e); rewrite <- f; exact Q2).
    pose proof (corner_char op (vl t) (vl u) src Hop T1 U1 T I Z1) as C1.
    pose proof (corner_char op (vl t) (vu u) src Hop T1 U2 T I Z2) as C2.
    pose proof (corner_char op (vu t) (vl u) src Hop T2 U1 T I Z1) as C3.
    pose proof (corner_char op (vu t) (vu u) src Hop T2 U2 T I Z2) as C4.
    destruct C1 as [C1|C1]; [|right; unfold v_corners; apply mbind_throws; assumption].
    destruct C2 as [C2|C2]; [|right; unfold v_corners; rewrite (bind_ret _ _ _ _ _ (proj1 C1)); apply mbind_throws; assumption].
    destruct C3 as [C3|C3]; [|right; unfold v_corners; rewrite (bind_ret _ _ _ _ _ (proj1 C1)), (bind_ret _ _ _ _ _ (proj1 C2));
      apply mbind_throws; assumption].
    destruct C4 as [C4|C4]; [|right; unfold v_corners; rewrite (bind_ret _ _ _ _ _ (proj1 C1)), (bind_ret _ _ _ _ _ (proj1 C2)),
      (bind_ret _ _ _ _ _ (proj1 C3)); apply mbind_throws; assumption].
    left. apply corners_hull; try assumption.
    - destruct Md as [-> | ->]; [apply mul_monotone|apply div_monotone; auto].
    - intros x y [->| ->] [->| ->]; assumption.
  Qed.

  Lemma nonzero_char : forall u m, ival_ok D o u -> init_compiles false D o (ORaw Int) = true ->
    (holds D o 0 -> ~ inside u 0 -> v_nonzero D o u m = m) /\ (holds D o 0 -> inside u 0 -> v_nonzero D o u m = mundef)
    /\ (~ holds D o 0 -> throws_arith (v_nonzero D o u m)).
  Proof.
    intros u m (U1 & U2 & U3) C.
    assert (I0 : holds D (ORaw Int) 0) by (unfold holds; cbn; destruct D; vm_compute; split; discriminate).
    assert (W0 : wf_operand D (ORaw Int)) by (exact (proj1 (int_ok true D))).
    unfold v_nonzero. destruct (elem_init_char false (ORaw Int) 0 W0 I0 C) as [[R H]|[R H]].
    - assert (K : v_excludes_pt D o u 0 = mret (negb ((vl u <=? 0) && (0 <=? vu u)))).
      { unfold v_excludes_pt, one_of. rewrite (elem_rel_exact D o RLt 0 (vl u) Ho H U1), mbind_ret. cbn [math_rel].
        rewrite (elem_rel_exact D o RGt 0 (vu u) Ho H U2). cbn [math_rel].
        destruct (Z.ltb_spec 0 (vl u)), (Z.leb_spec (vl u) 0), (Z.gtb_spec 0 (vu u)), (Z.leb_spec 0 (vu u)); try lia; reflexivity. }
      rewrite (bind_ret _ _ _ _ _ R), K, mbind_ret. unfold inside. split; [|split]; [intros _ N|intros _ N|contradiction].
      + destruct (Z.leb_spec (vl u) 0), (Z.leb_spec 0 (vu u)); cbn; try reflexivity. exfalso. apply N. lia.
      + destruct (Z.leb_spec (vl u) 0), (Z.leb_spec 0 (vu u)); cbn; try reflexivity; lia.
    - split; [contradiction|]. split; [contradiction|]. intros _. apply mbind_throws. exact R.
  Qed.

  Lemma ends_char : forall op x1 y1 x2 y2, op = Add \/ op = Sub -> holds D o x1 -> holds D o y1 -> holds D o x2 -> holds D o y2 ->
    v_compiles D o op = true ->
    (returns (v_ends D o op x1 y1 x2 y2) (mkV (exact op x1 y1) (exact op x2 y2)) /\ holds D o (exact op x1 y1) /\ holds D o (exact op x2 y2))
    \/ throws_arith (v_ends D o op x1 y1 x2 y2).
  Proof.
    intros op x1 y1 x2 y2 Hop X1 Y1 X2 Y2 C.
    assert (M : op_monotone o op) by (unfold op_monotone; tauto).
    assert (N : forall y, op = Div -> y <> 0) by (intros y E; destruct Hop; congruence).
    unfold v_compiles in C. destruct (elem_type D o op) as [src|] eqn:T; [|discriminate].
    assert (I : init_compiles false D o src = true) by (destruct Hop as [-> | ->]; exact C).
    pose proof (proj1 (src_ok op src M T)) as W. unfold v_ends. rewrite T.
    destruct (elem_op_char op x1 y1 src M X1 Y1 T (N y1)) as [[R1 H1]|R]; [|right; apply mbind_throws; assumption].
    rewrite (bind_ret _ _ _ _ _ R1).
    destruct (elem_op_char op x2 y2 src M X2 Y2 T (N y2)) as [[R2 H2]|R]; [|right; apply mbind_throws; assumption].
    rewrite (bind_ret _ _ _ _ _ R2).
    destruct (elem_init_char false src _ W H1 I) as [[R3 H3]|[R _]]; [|right; apply mbind_throws; assumption].
    rewrite (bind_ret _ _ _ _ _ R3).
    destruct (elem_init_char false src _ W H2 I) as [[R4 H4]|[R _]]; [|right; apply mbind_throws; assumption].
    rewrite (bind_ret _ _ _ _ _ R4). left. split; [reflexivity|auto].
  Qed.

  Lemma safe_hull : forall op t u, op_monotone o op -> ival_ok D o t -> ival_ok D o u -> v_compiles D o op = true ->
    (op = Div -> ~ inside u 0) ->
    (exists r, returns (v_op D o op t u) r /\ ival_ok D o r /\ hull (exact op) t u r) \/ throws_arith (v_op D o op t u).
  Proof.
    intros op t u Hop Ht Hu C N. pose proof Ht as (T1 & T2 & T3). pose proof Hu as (U1 & U2 & U3).
    pose proof Hop as [->|[->|[->|[-> _]]]]; cbn [v_op].
    - destruct (ends_char Add _ _ _ _ ltac:(auto) T1 U1 T2 U2 C) as [(R & A & B)|R]; [|auto]. left. eexists. split; [exact R|].
      split; [|exact (add_hull D o t u Ht Hu)]. split; [exact A|]. split; [exact B|]. cbn. lia.
    - destruct (ends_char Sub _ _ _ _ ltac:(auto) T1 U2 T2 U1 C) as [(R & A & B)|R]; [|auto]. left. eexists. split; [exact R|].
      split; [|exact (sub_hull D o t u Ht Hu)]. split; [exact A|]. split; [exact B|]. cbn. lia.
    - apply corners_char; auto.
    - assert (I : init_compiles false D o (ORaw Int) = true).
      { unfold v_compiles in C. destruct (elem_type D o Div); [|discriminate]. apply andb_prop in C. tauto. }
      destruct (nonzero_char u (v_corners D o Div t u) Hu I) as (A & _ & B).
      assert (Dec : holds D o 0 \/ ~ holds D o 0) by (unfold holds; lia).
      destruct Dec as [H|H].
      + rewrite (A H (N eq_refl)). apply corners_char; auto.
      + right. apply B. exact H.
  Qed.
  (** divisor intervals that contain 0: the assertion fails *)
  Lemma safe_div_zero : forall t u, ival_ok D o u -> v_compiles D o Div = true -> inside u 0 -> v_op D o Div t u = mundef.
  Proof.
    intros t u Hu C N. cbn [v_op].
    assert (I : init_compiles false D o (ORaw Int) = true).
    { unfold v_compiles in C. destruct (elem_type D o Div); [|discriminate]. apply andb_prop in C. tauto. }
    apply (nonzero_char u (v_corners D o Div t u) Hu I); [|exact N].
    destruct Hu as (U1 & U2 & _). unfold inside, holds in *. lia.
  Qed.
End SafeElement.

(** ------------------------------------------------------------------ *)
(** all results fit the element type *)
Lemma fits_hull : forall D o op t u, elem_ok D o -> op_monotone o op -> ival_ok D o t -> ival_ok D o u -> v_compiles D o op = true ->
  (op = Div -> ~ inside u 0) -> (op = Div -> v_nonzero D o u (v_corners D o Div t u) = v_corners D o Div t u) ->
  (forall src x y, elem_type D o op = Some src -> holds D o x -> holds D o y -> (op = Div -> y <> 0) -> holds D o (exact op x y) ->
     returns (elem_op D o op x y) (exact op x y) /\ returns (elem_init D o src (exact op x y)) (exact op x y)) ->
  (forall x y, inside t x -> inside u y -> holds D o (exact op x y)) ->
  exists r, returns (v_op D o op t u) r /\ ival_ok D o r /\ hull (exact op) t u r.
Proof.
  intros D o op t u Ho Hop Ht Hu C Nz Z E F.
  assert (T : exists src, elem_type D o op = Some src).
  { unfold v_compiles in C. destruct (elem_type D o op) as [src|]; [eauto|discriminate]. }
  destruct T as (src & T).
  pose proof Ht as (T1 & T2 & T3). pose proof Hu as (U1 & U2 & U3).
  destruct (ends_inside _ _ _ Ht) as [I1 I2]. destruct (ends_inside _ _ _ Hu) as [J1 J2].
  assert (Z1 : op = Div -> vl u <> 0) by (intros e f; apply (Nz e); rewrite <- f; exact J1).
  assert (Z2 : op = Div -> vu u <> 0) by (intros e f; apply (Nz e); rewrite <- f; exact J2).
  assert (K : op = Mul \/ op = Div -> monotone (exact op) t u ->
    exists r, returns (v_corners D o op t u) r /\ ival_ok D o r /\ hull (exact op) t u r).
  { intros _ Mo. apply corners_hull; try assumption.
    assert (Q : forall x y, inside t x -> inside u y -> holds D o x -> holds D o y -> (op = Div -> y <> 0) ->
      returns (corner D o op x y) (exact op x y) /\ holds D o (exact op x y)).
    { intros x y Ix Iy Hx Hy Ny. pose proof (F x y Ix Iy) as H. split; [|exact H]. destruct (E src x y T Hx Hy Ny H) as [A B].
      unfold corner. rewrite T, (bind_ret _ _ _ _ _ A). exact B. }
    intros x y [->| ->] [->| ->]; apply Q; assumption. }
  pose proof Hop as [->|[->|[->|[-> _]]]]; cbn [v_op].
  - destruct (E src _ _ T T1 U1 ltac:(discriminate) (F _ _ I1 J1)) as [A1 B1].
    destruct (E src _ _ T T2 U2 ltac:(discriminate) (F _ _ I2 J2)) as [A2 B2].
    eexists. split; [exact (ends_hull D o Add _ _ _ _ src T A1 A2 B1 B2)|]. split; [|exact (add_hull D o t u Ht Hu)].
    split; [exact (F _ _ I1 J1)|]. split; [exact (F _ _ I2 J2)|]. cbn. lia.
  - destruct (E src _ _ T T1 U2 ltac:(discriminate) (F _ _ I1 J2)) as [A1 B1].
    destruct (E src _ _ T T2 U1 ltac:(discriminate) (F _ _ I2 J1)) as [A2 B2].
    eexists. split; [exact (ends_hull D o Sub _ _ _ _ src T A1 A2 B1 B2)|]. split; [|exact (sub_hull D o t u Ht Hu)].
    split; [exact (F _ _ I1 J2)|]. split; [exact (F _ _ I2 J1)|]. cbn. lia.
  - apply K; [auto|apply mul_monotone].
  - rewrite (Z eq_refl). apply K; [auto|apply div_monotone; auto].
Qed.

Lemma in_base : forall D s z, wf_operand D (OSafe s) -> holds D (OSafe s) z -> in_type D (st s) z.
Proof. intros D s z W H. exact (holds_in D (OSafe s) z W H). Qed.

Lemma safe_fits : forall D s op t u, elem_ok D (OSafe s) -> sP s = Native -> op_monotone (OSafe s) op ->
  ival_ok D (OSafe s) t -> ival_ok D (OSafe s) u -> v_compiles D (OSafe s) op = true ->
  (op = Div -> ~ inside u 0) -> (op = Div -> holds D (OSafe s) 0) ->
  (forall x y, inside t x -> inside u y -> holds D (OSafe s) (exact op x y)) ->
  exists r, returns (v_op D (OSafe s) op t u) r /\ ival_ok D (OSafe s) r /\ hull (exact op) t u r.
Proof.
  intros D s op t u Ho N Hop Ht Hu C Nz Z0 F. apply fits_hull; try assumption.
  - intros ->. unfold v_compiles in C. destruct (elem_type D (OSafe s) Div); [|discriminate]. apply andb_prop in C. destruct C as [_ I].
    apply (nonzero_char D s Ho u _ Hu I); auto.
  - intros src x y T Hx Hy Ny H. pose proof (elem_type_ok D s Ho) as TO.
    assert (NB : natb s = true) by (unfold natb; rewrite N; reflexivity).
    assert (R : returns (elem_op D (OSafe s) op x y) (exact op x y)).
    { cbn [elem_op elem_type] in *. destruct (binary D op (OSafe s) (OSafe s) 0 0) as [[rs m0]|] eqn:B; [|discriminate].
      destruct (eval_binop_any D (BA op) (OSafe s) (OSafe s) 0 0 x y rs m0 B) as (m & Bm). cbn [eval_binop] in Bm. rewrite Bm. cbn [run_snd].
      rewrite NB in TO.
      apply (op_lossless D op (OSafe s) (OSafe s) x y (exact op x y) rs m (st s) (st s)); try assumption; try reflexivity.
      - unfold four. destruct Hop as [->|[->|[->|[-> _]]]]; auto.
      - unfold lossless_op, obind, keep. cbv zeta.
        assert (bt : built_in_type D op (st s) (st s) = promote D (st s)) by (destruct Hop as [->|[->|[->|[-> _]]]]; apply uac_same).
        rewrite bt.
        assert (P : forall z, holds D (OSafe s) z -> in_range D (promote D (st s)) z = true).
        { intros z Hz. apply in_range_iff. apply promote_in. apply in_base; [exact (proj1 Ho)|exact Hz]. }
        rewrite (P x Hx), (P y Hy).
        assert (mo : math_op (BA op) x y = Some (exact op x y)).
        { destruct Hop as [->|[->|[->|[-> _]]]]; cbn [math_op exact]; try reflexivity. destruct (Z.eqb_spec y 0) as [Y|]; [|reflexivity].
          exfalso. exact (Ny eq_refl Y). }
        rewrite mo, (P _ H). reflexivity. }
    split; [exact R|].
    assert (I : exists b, init_compiles b D (OSafe s) src = true).
    { unfold v_compiles in C. rewrite T in C. destruct Hop as [->|[->|[->|[-> _]]]]; repeat (apply andb_prop in C; destruct C as [C ?]); eauto. }
    destruct I as (b & I).
    destruct (elem_op_char D s Ho op x y src Hop Hx Hy T Ny) as [[_ Hs]|Th]; [|exfalso; exact (not_both _ _ _ R Th)].
    destruct (elem_init_char D s Ho b src _ (proj1 (src_ok D s Ho op src Hop T)) Hs I) as [[A _]|[_ A]]; [exact A|contradiction].
Qed.

(** built-in elements *)
Lemma raw_fits : forall D T op t u, op_monotone (ORaw T) op ->
  ival_ok D (ORaw T) t -> ival_ok D (ORaw T) u -> v_compiles D (ORaw T) op = true -> (op = Div -> ~ inside u 0) ->
  (forall x y, inside t x -> inside u y -> in_type D T (exact op x y)) ->
  exists r, returns (v_op D (ORaw T) op t u) r /\ ival_ok D (ORaw T) r /\ hull (exact op) t u r.
Proof.
  intros D T op t u Hop Ht Hu C Nz F. apply fits_hull; try assumption.
  - exact I.
  - intros ->. destruct Hu as (U1 & U2 & U3). unfold v_nonzero. cbn [elem_init]. rewrite mbind_ret.
    rewrite conv_id by (destruct D, T; vm_compute; split; discriminate).
    assert (H0 : holds D (ORaw T) 0) by (destruct D, T; vm_compute; split; discriminate).
    unfold v_excludes_pt, one_of. rewrite (elem_rel_exact D (ORaw T) RLt 0 (vl u) I H0 U1), mbind_ret. cbn [math_rel].
    rewrite (elem_rel_exact D (ORaw T) RGt 0 (vu u) I H0 U2). cbn [math_rel]. specialize (Nz eq_refl). unfold inside in Nz.
    destruct (Z.ltb_spec 0 (vl u)); rewrite mbind_ret; [reflexivity|].
    destruct (Z.gtb_spec 0 (vu u)); [reflexivity|]. exfalso. lia.
  - intros src x y Tsrc Hx Hy Ny H. cbn [elem_op elem_init].
    assert (in_type D T x /\ in_type D T y /\ in_type D T (exact op x y)) as (Ix & Iy & Iz) by (split; [exact Hx|split; [exact Hy|exact H]]).
    split; [|rewrite conv_id by assumption; reflexivity].
    assert (B : built_in D op T T x y = Ok (exact op x y)).
    { destruct Hop as [->|[->|[->|[-> _]]]]; cbn [built_in exact] in *.
      - apply (c_arith_same Z.add); auto using promote_in.
      - apply (c_arith_same Z.sub); auto using promote_in.
      - apply (c_arith_same Z.mul); auto using promote_in.
      - apply c_div_same; auto using promote_in. }
    rewrite B. reflexivity.
Qed.

(** relations *)
Lemma relations_exact : forall D o t u x, elem_ok D o -> ival_ok D o t -> ival_ok D o u -> holds D o x ->
  returns (v_includes_pt D o t x) ((vl t <=? x) && (x <=? vu t))
  /\ returns (v_excludes_pt D o t x) (negb ((vl t <=? x) && (x <=? vu t)))
  /\ returns (v_includes D o t u) ((vl t <=? vl u) && (vu u <=? vu t))
  /\ returns (v_excludes D o t u) ((vu u <? vl t) || (vu t <? vl u))
  /\ returns (v_eq D o t u) ((vl t =? vl u) && (vu t =? vu u))
  /\ returns (v_ne D o t u) (negb ((vl t =? vl u) && (vu t =? vu u)))
  /\ returns (v_lt D o t u) (if vu t <? vl u then TTrue else if vu u <? vl t then TFalse else TInd)
  /\ returns (v_gt D o t u) (if vu u <? vl t then TTrue else if vu t <? vl u then TFalse else TInd)
  /\ returns (v_le D o t u) (if vu u <? vl t then TFalse else if vu t <? vl u then TTrue else TInd)
  /\ returns (v_ge D o t u) (if vu t <? vl u then TFalse else if vu u <? vl t then TTrue else TInd)
  /\ returns (v_union D o t u) (mkV (Z.min (vl t) (vl u)) (Z.max (vu t) (vu u)))
  /\ returns (v_inter D o t u) (mkV (Z.max (vl t) (vl u)) (Z.min (vu t) (vu u)))
  /\ returns (v_intersect D o t u) true.
Proof.
  intros D o t u x Ho (T1 & T2 & T3) (U1 & U2 & U3) Hx.
  unfold returns, v_le, v_ge, v_ne, v_includes_pt, v_excludes_pt, v_includes, v_excludes, v_eq, v_lt, v_gt, v_union, v_inter, v_intersect,
    v_min, v_max, both_of, one_of.
  repeat match goal with
  | |- context [elem_rel D o ?r ?a ?b] => rewrite (elem_rel_exact D o r a b Ho) by assumption
  end. rewrite !mbind_ret. cbn [math_rel]. rewrite ?Z.gtb_ltb, ?Z.geb_leb.
  repeat match goal with |- _ /\ _ => split end; unfold mret, Z.min, Z.max;
  repeat match goal with
  | |- context [?a <? ?b] => destruct (Z.ltb_spec a b)
  | |- context [?a <=? ?b] => destruct (Z.leb_spec a b)
  | |- context [?a =? ?b] => destruct (Z.eqb_spec a b)
  | |- context [?a ?= ?b] => destruct (Z.compare_spec a b)
  end; cbn; try reflexivity; try lia; repeat f_equal; lia.
Qed.

Ltac rel_cases :=
  repeat match goal with
  | |- context [?a <? ?b] => destruct (Z.ltb_spec a b)
  | |- context [?a <=? ?b] => destruct (Z.leb_spec a b)
  | |- context [?a =? ?b] => destruct (Z.eqb_spec a b)
  end; cbn.

Lemma members_lemma : forall D o t x, elem_ok D o -> ival_ok D o t -> holds D o x ->
  (exists b, returns (v_includes_pt D o t x) b /\ (b = true <-> inside t x))
  /\ (exists b, returns (v_excludes_pt D o t x) b /\ (b = true <-> ~ inside t x)).
Proof.
  intros D o t x Ho Ht Hx. destruct (relations_exact D o t t x Ho Ht Ht Hx) as (A & B & _). unfold inside. split.
  - eexists. split; [exact A|]. rel_cases; split; intros; try discriminate; try reflexivity; lia.
  - eexists. split; [exact B|]. rel_cases; split; intros; try discriminate; try reflexivity; lia.
Qed.

Lemma subsets_lemma : forall D o t u, elem_ok D o -> ival_ok D o t -> ival_ok D o u ->
  (exists b, returns (v_includes D o t u) b /\ (b = true <-> forall z, inside u z -> inside t z))
  /\ (exists b, returns (v_excludes D o t u) b /\ (b = true <-> forall z, inside u z -> ~ inside t z))
  /\ (exists b, returns (v_eq D o t u) b /\ (b = true <-> forall z, inside t z <-> inside u z))
  /\ (exists b, returns (v_ne D o t u) b /\ (b = true <-> ~ forall z, inside t z <-> inside u z)).
Proof.
  intros D o t u Ho Ht Hu. destruct (relations_exact D o t u (vl t) Ho Ht Hu (proj1 Ht)) as (_ & _ & A & B & C & E & _).
  destruct (ends_inside _ _ _ Ht) as [T1 T2]. destruct (ends_inside _ _ _ Hu) as [U1 U2].
  assert (Q : forall b : bool, (b = true <-> (vl t = vl u /\ vu t = vu u)) -> (b = true <-> forall z, inside t z <-> inside u z)).
  { intros b K. rewrite K. unfold inside in *. split; [intros [-> ->] z; tauto|]. intros F.
    pose proof (proj1 (F _) T1). pose proof (proj1 (F _) T2). pose proof (proj2 (F _) U1). pose proof (proj2 (F _) U2). lia. }
  split; [|split; [|split]].
  - eexists. split; [exact A|]. split.
    + intros K z. unfold inside. apply andb_prop in K. destruct K as [K1 K2]. apply Z.leb_le in K1, K2. lia.
    + intros F. pose proof (F _ U1). pose proof (F _ U2). unfold inside in *. apply andb_true_intro. split; apply Z.leb_le; lia.
  - eexists. split; [exact B|]. split.
    + intros K z. unfold inside. apply orb_prop in K. destruct K as [K|K]; apply Z.ltb_lt in K; lia.
    + intros F. apply orb_true_intro. destruct Ht as (_ & _ & Lt), Hu as (_ & _ & Lu).
      assert (vu u < vl t \/ vu t < vl u) as [K|K].
      { destruct (Z.lt_ge_cases (vu u) (vl t)); [auto|]. destruct (Z.lt_ge_cases (vu t) (vl u)); [auto|].
        exfalso. apply (F (Z.max (vl t) (vl u))); unfold inside; lia. }
      * left. apply Z.ltb_lt. assumption.
      * right. apply Z.ltb_lt. assumption.
  - eexists. split; [exact C|]. apply Q. rewrite andb_true_iff, !Z.eqb_eq. tauto.
  - eexists. split; [exact E|]. rewrite negb_true_iff. rewrite <- (Q ((vl t =? vl u) && (vu t =? vu u))).
    + destruct ((vl t =? vl u) && (vu t =? vu u)); split; congruence.
    + rewrite andb_true_iff, !Z.eqb_eq. tauto.
Qed.

Lemma order_lemma : forall D o t u, elem_ok D o -> ival_ok D o t -> ival_ok D o u ->
  (exists b, returns (v_lt D o t u) b /\ (b = TTrue <-> forall x y, inside t x -> inside u y -> x < y)
     /\ (b = TFalse <-> forall x y, inside t x -> inside u y -> y < x))
  /\ (exists b, returns (v_gt D o t u) b /\ (b = TTrue <-> forall x y, inside t x -> inside u y -> y < x)
     /\ (b = TFalse <-> forall x y, inside t x -> inside u y -> x < y))
  /\ (exists b, returns (v_le D o t u) b /\ (b = TTrue -> forall x y, inside t x -> inside u y -> x <= y)
     /\ (b = TFalse <-> forall x y, inside t x -> inside u y -> y < x))
  /\ (exists b, returns (v_ge D o t u) b /\ (b = TTrue -> forall x y, inside t x -> inside u y -> y <= x)
     /\ (b = TFalse <-> forall x y, inside t x -> inside u y -> x < y)).
Proof.
  intros D o t u Ho Ht Hu. destruct (relations_exact D o t u (vl t) Ho Ht Hu (proj1 Ht)) as (_ & _ & _ & _ & _ & _ & A & B & C & E & _).
  destruct (ends_inside _ _ _ Ht) as [T1 T2]. destruct (ends_inside _ _ _ Hu) as [U1 U2].
  destruct Ht as (_ & _ & Lt), Hu as (_ & _ & Lu).
  assert (P : (vu t < vl u) <-> (forall x y, inside t x -> inside u y -> x < y)).
  { split; [unfold inside; intros; lia|]. intros F. exact (F _ _ T2 U1). }
  assert (Q : (vu u < vl t) <-> (forall x y, inside t x -> inside u y -> y < x)).
  { split; [unfold inside; intros; lia|]. intros F. exact (F _ _ T1 U2). }
  split; [|split; [|split]].
  - eexists. split; [exact A|]. rewrite <- P, <- Q. rel_cases; split; split; intros; try discriminate; try reflexivity; lia.
  - eexists. split; [exact B|]. rewrite <- P, <- Q. rel_cases; split; split; intros; try discriminate; try reflexivity; lia.
  - eexists. split; [exact C|]. rewrite <- Q. rel_cases; (split; [|split]); intros; unfold inside in *; try discriminate; try reflexivity; lia.
  - eexists. split; [exact E|]. rewrite <- P. rel_cases; (split; [|split]); intros; unfold inside in *; try discriminate; try reflexivity; lia.
Qed.

Lemma sets_lemma : forall D o t u, elem_ok D o -> ival_ok D o t -> ival_ok D o u ->
  (exists r, returns (v_inter D o t u) r /\ forall z, inside r z <-> inside t z /\ inside u z)
  /\ (exists r, returns (v_union D o t u) r /\ (forall z, inside t z \/ inside u z -> inside r z)
      /\ forall r', (forall z, inside t z \/ inside u z -> inside r' z) -> forall z, inside r z -> inside r' z).
Proof.
  intros D o t u Ho Ht Hu. destruct (relations_exact D o t u (vl t) Ho Ht Hu (proj1 Ht)) as (_ & _ & _ & _ & _ & _ & _ & _ & _ & _ & A & B & _).
  destruct (ends_inside _ _ _ Ht) as [T1 T2]. destruct (ends_inside _ _ _ Hu) as [U1 U2]. split.
  - eexists. split; [exact B|]. intros z. unfold inside. cbn. lia.
  - eexists. split; [exact A|]. split; [intros z; unfold inside; cbn; lia|].
    intros r' F z. pose proof (F _ (or_introl T1)). pose proof (F _ (or_introl T2)). pose proof (F _ (or_intror U1)). pose proof (F _ (or_intror U2)).
    unfold inside in *. cbn. lia.
Qed.
Lemma intersect_lemma : forall D o t u, elem_ok D o -> ival_ok D o t -> ival_ok D o u -> returns (v_intersect D o t u) true.
Proof.
  intros D o t u Ho Ht Hu. pose proof (relations_exact D o t u (vl t) Ho Ht Hu (proj1 Ht)). tauto.
Qed.

(** an element type that does not include 0 cannot be divided: T(0) is constructed first *)
Lemma no_zero_lemma : forall D s t u, elem_ok D (OSafe s) -> ival_ok D (OSafe s) u -> v_compiles D (OSafe s) Div = true ->
  ~ holds D (OSafe s) 0 -> throws_arith (v_op D (OSafe s) Div t u).
Proof.
  intros D s t u Ho Hu C N. cbn [v_op]. unfold v_compiles in C. destruct (elem_type D (OSafe s) Div); [|discriminate].
  apply andb_prop in C. destruct C as [_ I]. apply (nonzero_char D s Ho u _ Hu I). exact N.
Qed.

Lemma built_in_compiles_lemma : forall D T op, v_compiles D (ORaw T) op = true <->
  op = Add \/ op = Sub \/ forall z, in_type D (built_in_type D op T T) z -> in_type D T z.
Proof.
  intros D T op. set (R := built_in_type D op T T).
  assert (K : (lo D T <=? lo D R) && (hi D R <=? hi D T) = true <-> forall z, in_type D R z -> in_type D T z).
  { rewrite andb_true_iff, !Z.leb_le. unfold in_type. split; [intros; lia|]. intros H.
    assert (L : lo D R <= hi D R) by (destruct D, R; vm_compute; congruence).
    pose proof (H (lo D R)). pose proof (H (hi D R)). lia. }
  unfold v_compiles, elem_type, init_compiles, rel_compiles. fold R.
  destruct op; rewrite ?andb_true_r; cbn [negb orb]; rewrite ?K.
  - tauto.
  - tauto.
  - split; [auto|]. intros [H|[H|H]]; [discriminate|discriminate|exact H].
  - split; [auto|]. intros [H|[H|H]]; [discriminate|discriminate|exact H].
  - split; [auto|]. intros [H|[H|H]]; [discriminate|discriminate|exact H].
  - split; [auto|]. intros [H|[H|H]]; [discriminate|discriminate|exact H].
  - split; [auto|]. intros [H|[H|H]]; [discriminate|discriminate|exact H].
Qed.

Lemma default_lemma : forall D o z, inside (v_full D o) z <-> holds D o z.
Proof. intros D o z. unfold inside, v_full, holds. cbn [vl vu]. tauto. Qed.
