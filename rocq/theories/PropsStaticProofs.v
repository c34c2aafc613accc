(** PropsStaticProofs.v -- proofs of the theorems of PropsStatic.v. *)
From Coq Require Import ZArith List Bool Lia.
From Verif Require Import Base CType CTypeFacts Utility UtilityFacts SafeCompare Spec CheckedInteger CheckedIntegerFacts
  CheckedResultOps CheckedResultFacts Interval IntervalFacts IntervalOpsFacts ExceptionPolicy Promotion SafeBase SafeSpec StaticSpec
  SafeFacts SafeDivFacts SafeShiftFacts SafeConvFacts SafePortFacts SafeTraceFacts SafeBitFacts PlainCheck PlainFacts
  ProgramFacts SafeStaticFacts PropsConvProofs.
Import ListNotations.
Local Open Scope Z_scope.

(** ------------------------------------------------------------------ *)
(** C56 *)
Definition C56_outcome (D : dmodel) (op : aop) (T U : ctype) (x y : Z) (m : M Z) : Prop :=
  let R := built_in_type D op T U in
  match op with
  | Mod =>
      (meaningful D op T U x y ->
         returns m (if (lo D R <? 0) && (x =? lo D R) && (y =? lo D R) then lo D R else remainder x y))
      /\ (~ meaningful D op T U x y -> throws_arith m)
  | Shl =>
      (meaningful D op T U x y -> returns m (x * 2 ^ y))
      /\ (~ meaningful D op T U x y -> throws_arith m \/ throws_impl m)
  | Shr =>
      (meaningful D op T U x y -> ~ (lo D R = 0 /\ y = digits D R) -> returns m (x / 2 ^ y))
      /\ (meaningful D op T U x y -> lo D R = 0 /\ y = digits D R -> m = ([], Undef))
      /\ (~ meaningful D op T U x y -> throws_arith m \/ throws_impl m)
  | _ => (meaningful D op T U x y -> returns m (exact op x y)) /\ (~ meaningful D op T U x y -> throws_arith m)
  end.

Lemma C56_lemma : forall D E op T U t u x y, plain D E T t -> plain D E U u ->
  is_safe t = true \/ is_safe u = true -> throws_arithmetic E -> throws_shift E -> in_type D T x -> in_type D U y ->
  exists s m, binary D op t u x y = Some (s, m) /\ st s = built_in_type D op T U /\ C56_outcome D op T U x y m.
Proof.
  intros D E op T U t u x y Ht Hu Hs HA HS Hx Hy.
  destruct op; unfold C56_outcome, meaningful; cbn [built_in_type exact].
  - destruct (plain_arith Add Z.add D E T U t u x y ltac:(left; auto) Ht Hu Hs HA Hx Hy) as (s & m & H1 & H2 & H3 & H4).
    exists s, m. auto.
  - destruct (plain_arith Sub Z.sub D E T U t u x y ltac:(right; left; auto) Ht Hu Hs HA Hx Hy) as (s & m & H1 & H2 & H3 & H4).
    exists s, m. auto.
  - destruct (plain_arith Mul Z.mul D E T U t u x y ltac:(right; right; auto) Ht Hu Hs HA Hx Hy) as (s & m & H1 & H2 & H3 & H4).
    exists s, m. auto.
  - destruct (plain_div D E T U t u x y Ht Hu Hs HA Hx Hy) as (s & m & H1 & H2 & H3 & H4).
    exists s, m. splits; auto.
  - destruct (plain_mod D E T U t u x y Ht Hu Hs HA Hx Hy) as (s & m & H1 & H2 & H3 & H4).
    exists s, m. splits; auto.
  - destruct (plain_shl D E T U t u x y Ht Hu Hs HA HS Hx Hy) as (s & m & H1 & H2 & H3 & H4).
    exists s, m. splits; auto.
  - destruct (plain_shr D E T U t u x y Ht Hu Hs HA HS Hx Hy) as (s & m & H1 & H2 & H3 & H4 & H5).
    exists s, m. splits; auto; intros; [apply H3|apply H4]; tauto.
Qed.

Lemma C56_comparison_lemma : forall D E T U t u x y, plain D E T t -> plain D E U u ->
  is_safe t = true \/ is_safe u = true -> throws_arithmetic E -> in_type D T x -> in_type D U y ->
  exists lt gt le ge eq ne,
    s_lt D t u x y = Some lt /\ s_gt D t u x y = Some gt /\ s_le D t u x y = Some le
    /\ s_ge D t u x y = Some ge /\ s_eq D t u x y = Some eq /\ s_ne D t u x y = Some ne
    /\ (in_type D (uac D T U) x /\ in_type D (uac D T U) y ->
        returns lt (x <? y) /\ returns gt (y <? x) /\ returns le (x <=? y)
        /\ returns ge (y <=? x) /\ returns eq (x =? y) /\ returns ne (negb (x =? y)))
    /\ (~ (in_type D (uac D T U) x /\ in_type D (uac D T U) y) ->
        throws_arith lt /\ throws_arith gt /\ throws_arith le
        /\ throws_arith ge /\ throws_arith eq /\ throws_arith ne).
Proof.
  intros D E T U t u x y Ht Hu Hs HA Hx Hy.
  destruct (plain_compare D E CLt T U t u x y Ht Hu Hs HA Hx Hy) as (a & A1 & A2 & A3).
  assert (Hs' : is_safe u = true \/ is_safe t = true) by tauto.
  destruct (plain_compare D E CLt U T u t y x Hu Ht Hs' HA Hy Hx) as (b & B1 & B2 & B3).
  destruct (plain_compare D E CEq T U t u x y Ht Hu Hs HA Hx Hy) as (c & C1 & C2 & C3).
  assert (Huac : uac D U T = uac D T U) by (clear; destruct D, T, U; reflexivity).
  rewrite Huac in *. unfold s_lt, s_gt, s_le, s_ge, s_eq, s_ne, s_gt, s_lt, s_eq. rewrite A1, B1, C1. cbn [option_map].
  do 6 eexists. splits; try reflexivity.
  - intros HI. specialize (A2 HI). specialize (B2 ltac:(tauto)). specialize (C2 HI).
    unfold returns in A2, B2, C2. subst a b c. cbn [cmp_exact]. unfold mnot, returns. cbn. splits; auto;
    rewrite <- Z.leb_antisym; reflexivity.
  - intros HI. specialize (A3 HI). specialize (B3 ltac:(tauto)). specialize (C3 HI).
    splits; auto; unfold mnot; apply mbind_throws; assumption.
Qed.

(** ------------------------------------------------------------------ *)
(** C57 *)
Lemma pp_eqb_eq : forall a b, pp_eqb a b = true -> a = b.
Proof.
  intros [| |a1 a2 a3 a4 a5] [| |b1 b2 b3 b4 b5] H; cbn in H; try discriminate; try reflexivity.
  repeat (apply andb_prop in H; destruct H as [H ?]). f_equal; lia.
Qed.
Lemma common_ep_all : forall t u E, common_ep t u = Some E ->
  (forall F, get_ep t = Some F \/ get_ep u = Some F -> E = F) /\ (exists F, get_ep t = Some F \/ get_ep u = Some F).
Proof.
  intros t u E H. unfold common_ep in H. destruct (_ || _); [|discriminate].
  destruct (get_ep t) as [a|], (get_ep u) as [b|]; try discriminate.
  - destruct (ep_eqb a b) eqn:Q; [|discriminate]. apply ep_eqb_eq in Q. split; [|eauto]. intros F [K|K]; congruence.
  - split; [|eauto]. intros F [K|K]; congruence.
  - split; [|eauto]. intros F [K|K]; congruence.
Qed.
Lemma common_pp_all : forall t u E, common_pp t u = Some E ->
  (forall F, get_pp t = Some F \/ get_pp u = Some F -> E = F) /\ (exists F, get_pp t = Some F \/ get_pp u = Some F).
Proof.
  intros t u E H. unfold common_pp in H. destruct (_ || _); [|discriminate].
  destruct (get_pp t) as [a|], (get_pp u) as [b|]; try discriminate.
  - destruct (pp_eqb a b) eqn:Q; [|discriminate]. apply pp_eqb_eq in Q. split; [|eauto]. intros F [K|K]; congruence.
  - split; [|eauto]. intros F [K|K]; congruence.
  - split; [|eauto]. intros F [K|K]; congruence.
Qed.

Lemma C57_operators_lemma : forall D op t u x y s m, eval_binop D op t u x y = Some (s, m) ->
  (forall E, get_ep t = Some E \/ get_ep u = Some E -> sE s = E)
  /\ (forall P, get_pp t = Some P \/ get_pp u = Some P -> sP s = P)
  /\ (exists E, get_ep t = Some E \/ get_ep u = Some E)
  /\ (exists P, get_pp t = Some P \/ get_pp u = Some P).
Proof.
  intros D op t u x y s m H.
  assert (common_pp t u = Some (sP s) /\ common_ep t u = Some (sE s)) as [HP HE].
  { destruct op as [op|b]; cbn [eval_binop] in H.
    - destruct (binary_inv _ _ _ _ _ _ _ _ H) as (P & E & R & ri & H1 & H2 & _ & _ & -> & _). auto.
    - destruct (bitwise_inv _ _ _ _ _ _ _ _ H) as (mx & H1 & H2 & _). auto. }
  destruct (common_ep_all t u _ HE). destruct (common_pp_all t u _ HP). auto.
Qed.

Lemma C57_comparisons_lemma : forall D c t u x y m, compare D c t u x y = Some m ->
  (forall E F, get_ep t = Some E -> get_ep u = Some F -> E = F)
  /\ (forall P Q, get_pp t = Some P -> get_pp u = Some Q -> P = Q).
Proof.
  intros D c t u x y m H. unfold compare in H.
  destruct (common_pp t u) as [P|] eqn:HP; [|discriminate]. destruct (common_ep t u) as [E|] eqn:HE; [|discriminate].
  apply common_ep_all in HE. apply common_pp_all in HP. destruct HE as [HE _], HP as [HP _].
  split; intros; [transitivity E|transitivity P]; auto; symmetry; auto.
Qed.

(** ------------------------------------------------------------------ *)
(** C58 *)
Lemma C58_lemma : forall e,
  (arithmetic_err e ->
     dispatch loose_exception_policy e = ([(arithmetic_error, e)], Throw e)
     /\ dispatch strict_exception_policy e = ([(arithmetic_error, e)], Throw e)
     /\ dispatch default_exception_policy e = ([(arithmetic_error, e)], Throw e)
     /\ dispatch_compiles loose_trap_policy e = false /\ dispatch_compiles strict_trap_policy e = false)
  /\ (shift_err e ->
     dispatch loose_exception_policy e = ([(implementation_defined_behavior, e)], Ret tt)
     /\ dispatch strict_exception_policy e = ([(implementation_defined_behavior, e)], Throw e)
     /\ dispatch default_exception_policy e = ([(implementation_defined_behavior, e)], Throw e)
     /\ dispatch loose_trap_policy e = ([(implementation_defined_behavior, e)], Ret tt)
     /\ dispatch_compiles loose_exception_policy e = true /\ dispatch_compiles loose_trap_policy e = true
     /\ dispatch_compiles strict_trap_policy e = false).
Proof.
  intros e; split.
  - intros [->|[->| ->]]; repeat split; reflexivity.
  - intros [->|[->| ->]]; repeat split; reflexivity.
Qed.

(** ------------------------------------------------------------------ *)
(** C59 *)
Lemma C59_trap_lemma : forall D s o x, wf_operand D (OSafe s) -> wf_operand D o -> traps (sE s) ->
  ((exists m, construct D s o x = Some m) <-> smin s <= lim_lo D o /\ lim_hi D o <= smax s).
Proof.
  intros D s o x (W1 & W2 & W3) (V1 & V2 & V3) HE. cbn in W1, W2, W3.
  unfold construct, validate.
  pose proof (validate_static_sound D (st s) (smin s) (smax s) _ _ _ W1 W2 V1 V2) as Hs.
  destruct (validate_static D (st s) (smin s) (smax s) (base_ty o) (lim_lo D o) (lim_hi D o)) as [[|]|] eqn:Ev.
  - split; [tauto|eauto].
  - rewrite cast_errors_trap by assumption. split; [intros (m & C); discriminate|]. intros [A B]. exfalso.
    unfold validate_static in Ev.
    assert (I1 : in_type D (st s) (lim_lo D o)) by (unfold in_type in *; lia).
    assert (I2 : in_type D (st s) (lim_hi D o)) by (unfold in_type in *; lia).
    rewrite (proj1 (cast_spec D (st s) _ _ V1) I1), (proj1 (cast_spec D (st s) _ _ V2) I2) in Ev.
    destruct (tri_bool (excludes _ _ _ _)); [discriminate|].
    unfold includes, cr_ge, cr_le, cr_gt in Ev. cbn [il iu] in Ev. rewrite !cr_lt_val in Ev by assumption.
    destruct (Z.ltb_spec (lim_lo D o) (smin s)); [lia|]. destruct (Z.ltb_spec (smax s) (lim_hi D o)); [lia|].
    cbn in Ev. discriminate.
  - split; [intros (m & C); discriminate|lia].
Qed.

Lemma C59_throw_lemma : forall D s o x, wf_operand D (OSafe s) -> wf_operand D o -> throws_arithmetic (sE s) ->
  (construct D s o x = None -> forall z, holds D o z -> ~ (smin s <= z <= smax s))
  /\ (csigned D (st s) = true \/ 0 <= lim_hi D o ->
      (forall z, holds D o z -> ~ (smin s <= z <= smax s)) -> construct D s o x = None).
Proof.
  intros D s o x Hs Ho HE. split.
  - intros Hn z Hz. destruct (construct D s o z) as [m|] eqn:Ez.
    + destruct (construct_compiles D s o z x m Ez) as (k & Hk). congruence.
    + eapply construct_none; eassumption.
  - intros Hsg Hdis. destruct Hs as (W1 & W2 & W3). destruct Ho as (V1 & V2 & V3). cbn in W1, W2, W3.
    assert (Hd : lim_hi D o < smin s \/ smax s < lim_lo D o).
    { destruct (Z_lt_le_dec (lim_hi D o) (smin s)); [auto|]. destruct (Z_lt_le_dec (smax s) (lim_lo D o)); [auto|].
      exfalso. apply (Hdis (Z.max (lim_lo D o) (smin s))); unfold holds; lia. }
    unfold construct, validate, validate_static, excludes, cr_gt. cbn [il iu].
    set (R := st s) in *.
    assert (Hx : tri_bool (tri_or (cr_lt D R (cast D R (base_ty o) (lim_hi D o)) (CVal (smin s)))
                         (cr_lt D R (CVal (smax s)) (cast D R (base_ty o) (lim_lo D o)))) = true).
    { destruct Hd as [Hd|Hd].
      - assert (cr_lt D R (cast D R (base_ty o) (lim_hi D o)) (CVal (smin s)) = TTrue) as ->; [|reflexivity].
        destruct (cast_spec D R (base_ty o) (lim_hi D o) V2) as (A & B & C).
        destruct (Z_lt_le_dec (lim_hi D o) (lo D R)) as [L|L].
        + rewrite C by lia. destruct Hsg as [->|Hh]; [reflexivity|]. pose proof (lo_le_0 D R). lia.
        + rewrite A by (unfold in_type in *; lia). rewrite cr_lt_val by (unfold in_type in *; auto; lia).
          destruct (Z.ltb_spec (lim_hi D o) (smin s)); [reflexivity|lia].
      - assert (cr_lt D R (CVal (smax s)) (cast D R (base_ty o) (lim_lo D o)) = TTrue) as ->;
          [|destruct (cr_lt _ _ _ _); reflexivity].
        destruct (cast_spec D R (base_ty o) (lim_lo D o) V1) as (A & B & C).
        destruct (Z_lt_le_dec (hi D R) (lim_lo D o)) as [L|L].
        + rewrite B by lia. reflexivity.
        + rewrite A by (unfold in_type in *; lia). rewrite cr_lt_val by (unfold in_type in *; auto; lia).
          destruct (Z.ltb_spec (smax s) (lim_lo D o)); [reflexivity|lia]. }
    rewrite Hx. reflexivity.
Qed.

Lemma C59_conversion_lemma : forall D R s x, traps (sE s) ->
  ((exists m, to_builtin D R s x = Some m) <-> lo D R <= lo D (st s) /\ hi D (st s) <= hi D R).
Proof.
  intros D R s x HE.
  assert (W : wf_operand D (OSafe (mkSafe R (lo D R) (hi D R) (sP s) (sE s)))).
  { unfold wf_operand; cbn. pose proof (lo_le_0 D R). pose proof (hi_ge_127 D R). splits; auto using lo_in, hi_in; lia. }
  assert (V : wf_operand D (ORaw (st s))).
  { unfold wf_operand; cbn. pose proof (lo_le_0 D (st s)). pose proof (hi_ge_127 D (st s)). splits; auto using lo_in, hi_in; lia. }
  exact (C59_trap_lemma D _ (ORaw (st s)) x W V HE).
Qed.

(** ------------------------------------------------------------------ *)
(** C60, C61 *)
Definition exact_op_of (op : aop) : op = Add \/ op = Sub \/ op = Mul -> exact_op op (exact op).
Proof. intros [->|[->| ->]]; unfold exact_op; cbn [exact]; auto. Qed.

Lemma C60_arith_lemma : forall op F D t u x0 y0 s m, op = Add \/ op = Sub \/ op = Mul ->
  wf_operand D t -> wf_operand D u ->
  binary D op t u x0 y0 = Some (s, m) -> throws_arithmetic (sE s) -> traps F ->
  ((exists s' m', binary D op (with_policy F t) (with_policy F u) x0 y0 = Some (s', m'))
   <-> (forall x y, holds D t x -> holds D u y ->
          exists k, binary D op t u x y = Some (s, k) /\ returns k (exact op x y))).
Proof.
  intros op F D t u x0 y0 s m Hop Ht Hu H HE HF.
  exact (arith_trap_iff op (exact op) F D t u x0 y0 s m (exact_op_of op Hop) Ht Hu H HE HF).
Qed.

Lemma C60_check_lemma : forall op D t u oi x0 y0 s m0, op = Add \/ op = Sub \/ op = Mul ->
  wf_operand D t -> wf_operand D u ->
  op_static D op t u = Some oi -> oi_checked oi = true -> throws_arithmetic (oi_E oi) ->
  binary D op t u x0 y0 = Some (s, m0) ->
  exists x y m, holds D t x /\ holds D u y /\ binary D op t u x y = Some (s, m) /\ throws_arith m.
Proof.
  intros op D t u oi x0 y0 s m0 Hop.
  exact (check_can_fail op (exact op) D t u oi x0 y0 s m0 (exact_op_of op Hop)).
Qed.

Lemma C61_lemma : forall op D t u oi, op = Add \/ op = Sub \/ op = Mul -> wf_operand D t -> wf_operand D u ->
  op_static D op t u = Some oi ->
  let s := oi_type oi in
  (smin s = lo D (st s) \/ exists a b, holds D t a /\ holds D u b /\ exact op a b = smin s)
  /\ (smax s = hi D (st s) \/ exists a b, holds D t a /\ holds D u b /\ exact op a b = smax s)
  /\ (oi_checked oi = false ->
      (exists a b, holds D t a /\ holds D u b /\ exact op a b = smin s)
      /\ (exists a b, holds D t a /\ holds D u b /\ exact op a b = smax s)).
Proof.
  intros op D t u oi Hop. exact (range_attained op (exact op) D t u oi (exact_op_of op Hop)).
Qed.

(** ------------------------------------------------------------------ *)
(** C62: under native promotion the declared ranges do not matter *)
Lemma cast_operand_det : forall D E R o x m, throws_arithmetic E -> in_type D (base_ty o) x ->
  cast_operand D E R o x = Some m ->
  m = match cast D R (base_ty o) x with
      | CVal v => mret v
      | CErr e => ([(arithmetic_error, e)], Throw e)
      end.
Proof.
  intros D E R o x m HE Hx H. unfold cast_operand in H.
  destruct (static_cast_builtin D R o x) as [f|]; [|discriminate].
  destruct (all_compile _ _); [|discriminate]. injection H as <-.
  destruct (cast_spec D R (base_ty o) x Hx) as (A & B & C).
  destruct (Z_lt_le_dec x (lo D R)); [|destruct (Z_lt_le_dec (hi D R) x)].
  - rewrite C by lia. unfold dispatch_and_return, dispatch. unfold throws_arithmetic in HE.
    destruct (csigned D R); cbn [make_safe_numerics_action policy_handler]; rewrite HE; reflexivity.
  - rewrite B by lia. unfold dispatch_and_return, dispatch. unfold throws_arithmetic in HE.
    cbn [make_safe_numerics_action policy_handler]; rewrite HE; reflexivity.
  - rewrite A by (unfold in_type; lia). reflexivity.
Qed.

Lemma casting_helper_det : forall D E E' R t u t' u' x y m m', throws_arithmetic E -> throws_arithmetic E' ->
  base_ty t = base_ty t' -> base_ty u = base_ty u' -> in_type D (base_ty t) x -> in_type D (base_ty u) y ->
  casting_helper D E R t u x y = Some m -> casting_helper D E' R t' u' x y = Some m' -> m = m'.
Proof.
  intros D E E' R t u t' u' x y m m' HE HE' Bt Bu Hx Hy H H'. unfold casting_helper in *.
  destruct (cast_operand D E R t x) as [a|] eqn:Ea; [|discriminate].
  destruct (cast_operand D E R u y) as [b|] eqn:Eb; [|discriminate]. injection H as <-.
  destruct (cast_operand D E' R t' x) as [a'|] eqn:Ea'; [|discriminate].
  destruct (cast_operand D E' R u' y) as [b'|] eqn:Eb'; [|discriminate]. injection H' as <-.
  apply cast_operand_det in Ea; auto. apply cast_operand_det in Eb; auto.
  apply cast_operand_det in Ea'; [|assumption|rewrite <- Bt; assumption].
  apply cast_operand_det in Eb'; [|assumption|rewrite <- Bu; assumption].
  rewrite <- Bt in Ea'. rewrite <- Bu in Eb'. rewrite Ea, Eb, Ea', Eb'. reflexivity.
Qed.

Lemma dar_det : forall E E' c, throws_arithmetic E -> throws_arithmetic E' ->
  (forall e, c = CErr e -> arithmetic_err e) -> dispatch_and_return E c = dispatch_and_return E' c.
Proof.
  intros E E' [v|e] HE HE' H; [reflexivity|]. unfold dispatch_and_return, dispatch. unfold throws_arithmetic in *.
  destruct (H e eq_refl) as [->|[->| ->]]; cbn [make_safe_numerics_action policy_handler]; rewrite HE, HE'; reflexivity.
Qed.

Lemma checked_arith_err : forall D op W x y c e, op = Add \/ op = Sub \/ op = Mul \/ op = Div ->
  in_type D W x -> in_type D W y -> checked_op D op W x y = Ok c -> c = CErr e -> arithmetic_err e.
Proof.
  intros D op W x y c e Hop Hx Hy Hc ->.
  assert (K : forall z, exact_or_overflow D W z (checked_op D op W x y) -> arithmetic_err e).
  { intros z Hz. destruct (eoo_cases _ _ _ _ Hz) as [[_ E]|[[_ E]|[_ E]]]; rewrite Hc in E; inversion E; unfold arithmetic_err; auto. }
  destruct Hop as [->|[->|[->| ->]]].
  - apply (K _ (exact_checked Add Z.add D W x y ltac:(left; auto) Hx Hy)).
  - apply (K _ (exact_checked Sub Z.sub D W x y ltac:(right; left; auto) Hx Hy)).
  - apply (K _ (exact_checked Mul Z.mul D W x y ltac:(right; right; auto) Hx Hy)).
  - cbn [checked_op] in *. destruct (divide_spec D W x y Hx Hy) as [D0 D1].
    destruct (Z.eq_dec y 0) as [E|E].
    + rewrite (D0 E) in Hc. inversion Hc. unfold arithmetic_err; auto.
    + exact (K _ (D1 E)).
Qed.

Lemma checked_total : forall D op W x y, op = Add \/ op = Sub \/ op = Mul \/ op = Div ->
  in_type D W x -> in_type D W y -> exists c, checked_op D op W x y = Ok c.
Proof.
  intros D op W x y Hop Hx Hy.
  assert (K : forall z, exact_or_overflow D W z (checked_op D op W x y) -> exists c, checked_op D op W x y = Ok c).
  { intros z Hz. destruct (eoo_cases _ _ _ _ Hz) as [[_ E]|[[_ E]|[_ E]]]; eauto. }
  destruct Hop as [->|[->|[->| ->]]].
  - apply (K _ (exact_checked Add Z.add D W x y ltac:(left; auto) Hx Hy)).
  - apply (K _ (exact_checked Sub Z.sub D W x y ltac:(right; left; auto) Hx Hy)).
  - apply (K _ (exact_checked Mul Z.mul D W x y ltac:(right; right; auto) Hx Hy)).
  - cbn [checked_op] in *. destruct (divide_spec D W x y Hx Hy) as [D0 D1].
    destruct (Z.eq_dec y 0) as [E|E]; [rewrite (D0 E); eauto|exact (K _ (D1 E))].
Qed.

(** unchecked + and -: the operands fit the result type *)
Lemma unchecked_fits : forall D op R t u ri, op = Add \/ op = Sub -> wf_operand D t -> wf_operand D u ->
  r_type_interval D op R t u = Ok ri -> exception_possible D op R t u ri = false ->
  forall x y, holds D t x -> holds D u y -> in_type D R x /\ in_type D R y.
Proof.
  intros D op R t u ri Hop (T1 & T2 & T3) (U1 & U2 & U3) H X.
  assert (in_type D R (lim_lo D t) /\ in_type D R (lim_hi D t) /\ in_type D R (lim_lo D u) /\ in_type D R (lim_hi D u))
    as (A & B & C & E).
  2:{ intros x y Hx Hy. unfold holds, in_type in *. lia. }
  destruct Hop as [-> | ->]; cbn [r_type_interval exception_possible] in H, X; unfold lim_interval in H;
    apply orb_false_iff in X; destruct X as [X1 X2].
  - unfold i_add in H. cbn [il iu] in H.
    destruct (cr_add D R (cast D R (base_ty t) (lim_lo D t)) _) as [a|] eqn:Ea in H; [|discriminate].
    destruct (cr_add D R _ _) as [b|] eqn:Eb in H; [|discriminate]. cbn in H. injection H as <-. cbn [il iu] in *.
    destruct a as [va|]; [|discriminate]. destruct b as [vb|]; [|discriminate].
    destruct (cr_add_total D R _ _ (cast_ok D R _ _ T1) (cast_ok D R _ _ U1)) as (k & Hk & _ & Hv).
    rewrite Ea in Hk. injection Hk as <-. destruct (Hv _ eq_refl) as (p & q & P1 & P2 & _).
    destruct (cr_add_total D R _ _ (cast_ok D R _ _ T2) (cast_ok D R _ _ U2)) as (k & Hk & _ & Hv').
    rewrite Eb in Hk. injection Hk as <-. destruct (Hv' _ eq_refl) as (p' & q' & P3 & P4 & _).
    apply cast_val in P1, P2, P3, P4; auto. tauto.
  - unfold i_sub in H. cbn [il iu] in H.
    destruct (cr_sub D R (cast D R (base_ty t) (lim_lo D t)) _) as [a|] eqn:Ea in H; [|discriminate].
    destruct (cr_sub D R _ _) as [b|] eqn:Eb in H; [|discriminate]. cbn in H. injection H as <-. cbn [il iu] in *.
    destruct a as [va|]; [|discriminate]. destruct b as [vb|]; [|discriminate].
    destruct (cr_sub_total D R _ _ (cast_ok D R _ _ T1) (cast_ok D R _ _ U2)) as (k & Hk & _ & Hv).
    rewrite Ea in Hk. injection Hk as <-. destruct (Hv _ eq_refl) as (p & q & P1 & P2 & _).
    destruct (cr_sub_total D R _ _ (cast_ok D R _ _ T2) (cast_ok D R _ _ U1)) as (k & Hk & _ & Hv').
    rewrite Eb in Hk. injection Hk as <-. destruct (Hv' _ eq_refl) as (p' & q' & P3 & P4 & _).
    apply cast_val in P1, P2, P3, P4; auto. tauto.
Qed.

(** unchecked native multiplication *)
Lemma mul_unknown_l : forall D R c, cr_mul D R (CErr domain_error) c = Ok (CErr range_error).
Proof. intros D R c. unfold cr_mul. cbn [to_pflag]. destruct (to_pflag D R c); reflexivity. Qed.
Lemma mul_unknown_r : forall D R c, cr_mul D R c (CErr domain_error) = Ok (CErr range_error).
Proof. intros D R c. unfold cr_mul. cbn [to_pflag]. destruct (to_pflag D R c); reflexivity. Qed.
Lemma unchecked_mul_fits : forall D t u ri, wf_operand D t -> wf_operand D u ->
  let R := uac D (base_ty t) (base_ty u) in
  r_type_interval D Mul R t u = Ok ri -> exception_possible D Mul R t u ri = false ->
  forall x y, holds D t x -> holds D u y -> in_type D R x /\ in_type D R y.
Proof.
  intros D t u ri Ht Hu R H X.
  destruct (uac_digits D (base_ty t) (base_ty u)) as [Dt Du]. fold R in Dt, Du.
  pose proof (digits_fits D R t Ht Dt) as Ft. pose proof (digits_fits D R u Hu Du) as Fu.
  pose proof Ht as (T1 & T2 & T3). pose proof Hu as (U1 & U2 & U3).
  cbn [r_type_interval exception_possible] in H, X. unfold i_mul, corners, minmax_of, lim_interval in H. cbn [il iu] in H.
  set (b := cast D R (base_ty t) (lim_hi D t)) in *. set (d := cast D R (base_ty u) (lim_hi D u)) in *.
  assert (Ob : cr_ok D R b) by (apply cast_ok; assumption). assert (Od : cr_ok D R d) by (apply cast_ok; assumption).
  pose proof (cast_ok D R _ _ T1) as Oa. pose proof (cast_ok D R _ _ U1) as Oc.
  destruct (cr_mul_total D R _ _ Oa Od) as (r2 & E2 & O2 & _).
  destruct (cr_mul_total D R _ _ Ob Oc) as (r3 & E3 & O3 & _).
  destruct (cr_mul_total D R b d Ob Od) as (r4 & E4 & O4 & _).
  assert (Hbad : cr_mul D R (cast D R (base_ty t) (lim_lo D t)) (cast D R (base_ty u) (lim_lo D u)) = Ok (CErr range_error) -> False).
  { intros E1. rewrite E1, E2, E3, E4 in H. cbn [seq_res rbind] in H.
    destruct (minmax_spec D R (CErr range_error) [r2; r3; r4]) as (i & Hi & Hs); [repeat constructor; assumption|].
    rewrite Hi in H. injection H as <-. destruct Hs as [[_ ->]|(_ & _ & _ & _ & _ & _ & _ & [] & _)]. discriminate. }
  destruct (fits_lo D R t Ht Ft) as [[It Et]|(_ & _ & Et)]; [|exfalso; apply Hbad; rewrite Et; apply mul_unknown_l].
  destruct (fits_lo D R u Hu Fu) as [[Iu Eu]|(_ & _ & Eu)]; [|exfalso; apply Hbad; rewrite Eu; apply mul_unknown_r].
  destruct (fits_hi D R t Ht Ft It) as [It2 _]. destruct (fits_hi D R u Hu Fu Iu) as [Iu2 _].
  intros x y Hx Hy. unfold holds, in_type in *. lia.
Qed.

(** an unchecked operation yields the exact value, which fits *)
Lemma unchecked_exact : forall D op P E R t u x y ri s, op = Add \/ op = Sub \/ op = Mul \/ op = Div ->
  wf_operand D t -> wf_operand D u -> holds D t x -> holds D u y ->
  result_base_type D P (PArith op) t u = Some R -> P = Native ->
  s = mkSafe R (bound_lo D R (il ri)) (bound_hi D R (iu ri)) P E ->
  r_type_interval D op R t u = Ok ri -> exception_possible D op R t u ri = false ->
  returns (unchecked_run D op R x y) (exact op x y) /\ in_type D R x /\ in_type D R y /\ in_type D R (exact op x y)
  /\ (op = Div -> y <> 0).
Proof.
  intros D op P E R t u x y ri s Hop Ht Hu Hx Hy HR HP Hs Hri X.
  assert (Ha : op = Add \/ op = Sub \/ op = Mul -> in_type D R x -> in_type D R y ->
    returns (unchecked_run D op R x y) (exact op x y) /\ in_type D R x /\ in_type D R y /\ in_type D R (exact op x y)
    /\ (op = Div -> y <> 0)).
  { intros Ho Ix Iy. pose proof (exact_op_of op Ho) as He.
    destruct (exact_ri _ _ _ _ _ _ _ He Ht Hu Hri) as (_ & _ & Hunc).
    rewrite (exact_exception op (exact op)) in X by assumption. apply orb_false_iff in X. destruct X as [X1 X2].
    destruct (Hunc X1 X2 x y Hx Hy) as (E1 & E2 & E3).
    splits; auto.
    - unfold returns, unchecked_run. rewrite E1. cbn [mlift]. rewrite mbind_ret, conv_id by assumption. reflexivity.
    - destruct Ho as [->|[->| ->]]; discriminate. }
  destruct Hop as [->|[->|[->| ->]]].
  - destruct (unchecked_fits D Add R t u ri ltac:(auto) Ht Hu Hri X x y Hx Hy). apply Ha; auto.
  - destruct (unchecked_fits D Sub R t u ri ltac:(auto) Ht Hu Hri X x y Hx Hy). apply Ha; auto.
  - rewrite HP in HR. cbn in HR. injection HR as HR. rewrite <- HR in Hri, X, Ha |- *.
    destruct (unchecked_mul_fits D t u ri Ht Hu Hri X x y Hx Hy). apply Ha; auto.
  - assert (Hl : result_large_enough D s t u) by (left; rewrite Hs; assumption). rewrite Hs in Hl.
    destruct (large_enough_fits D P Div R t u _ _ E Ht Hu ltac:(auto) HR Hl) as (Ft & Fu & _).
    destruct (div_fits D R t u ri Ht Hu Ft Fu Hri) as (_ & _ & Hunc).
    destruct (Hunc X x y Hx Hy) as (H0 & E1 & Ix & Iy & Iq). splits; auto.
    unfold returns, unchecked_run. rewrite E1. cbn [mlift exact]. rewrite mbind_ret, conv_id by assumption. reflexivity.
Qed.

(** a checked operation on operands that fit, with a result that fits, returns it *)
Lemma fits_returns : forall D op t u x y s m, op = Add \/ op = Sub \/ op = Mul \/ op = Div ->
  wf_operand D t -> wf_operand D u -> holds D t x -> holds D u y ->
  binary D op t u x y = Some (s, m) -> throws_arithmetic (sE s) -> sP s = Native ->
  in_type D (st s) x -> in_type D (st s) y -> in_type D (st s) (exact op x y) -> (op = Div -> y <> 0) ->
  returns m (exact op x y).
Proof.
  intros D op t u x y s m Hop Ht Hu Hx Hy H HE HP Ix Iy If H0.
  assert (Ha : op = Add \/ op = Sub \/ op = Mul -> returns m (exact op x y)).
  { intros Ho. destruct (arith_char op (exact op) D t u x y s m (exact_op_of op Ho) Ht Hu Hx Hy H HE)
      as [_ [(C & _)|[(_ & _ & C & _)|[(_ & _ & C & _)|(C & _)]]]]; [assumption| | |tauto]; unfold in_type in If; lia. }
  destruct Hop as [->|[->|[->| ->]]]; auto.
  destruct (div_char D t u x y s m Ht Hu Hx Hy H HE (or_introl HP)) as (_ & _ & C).
  destruct (C (H0 eq_refl)) as [[C' _]|[C' _]]; [assumption|]. cbn [exact] in If. tauto.
Qed.

Lemma C62_lemma : forall D op t u t' u' x y s m s' m',
  op = Add \/ op = Sub \/ op = Mul \/ op = Div ->
  base_ty t = base_ty t' -> base_ty u = base_ty u' ->
  wf_operand D t -> wf_operand D u -> wf_operand D t' -> wf_operand D u' ->
  holds D t x -> holds D u y -> holds D t' x -> holds D u' y ->
  binary D op t u x y = Some (s, m) -> binary D op t' u' x y = Some (s', m') ->
  sP s = Native -> sP s' = Native -> throws_arithmetic (sE s) -> throws_arithmetic (sE s') ->
  st s = st s' /\ m = m'.
Proof.
  intros D op t u t' u' x y s m s' m' Hop Bt Bu Ht Hu Ht' Hu' Hx Hy Hx' Hy' H H' HP HP' HE HE'.
  destruct (binary_inv _ _ _ _ _ _ _ _ H) as (P & E & R & ri & A1 & A2 & A3 & A4 & A5 & K).
  destruct (binary_inv _ _ _ _ _ _ _ _ H') as (P' & E' & R' & ri' & B1 & B2 & B3 & B4 & B5 & K').
  assert (P = Native) by (subst s; exact HP). assert (P' = Native) by (subst s'; exact HP').
  assert (HRR : R = R').
  { rewrite H0 in A3. rewrite H1 in B3. cbn [result_base_type] in A3, B3. rewrite Bt, Bu in A3. congruence. }
  subst R'. assert (S1 : st s = R) by (subst s; reflexivity). assert (S2 : st s' = R) by (subst s'; reflexivity).
  assert (E1 : sE s = E) by (subst s; reflexivity). assert (E2 : sE s' = E') by (subst s'; reflexivity).
  split; [congruence|].
  destruct K as [[X Km]|[X (W & casts & HW & Hc & _ & Km)]]; destruct K' as [[X' Km']|[X' (W' & casts' & HW' & Hc' & _ & Km')]].
  - congruence.
  - destruct (unchecked_exact D op P E R t u x y ri s Hop Ht Hu Hx Hy A3 H0 A5 A4 X) as (C1 & C2 & C3 & C4 & C5).
    rewrite <- Km in C1. rewrite <- S2 in *.
    pose proof (fits_returns D op t' u' x y s' m' Hop Ht' Hu' Hx' Hy' H' HE' HP' C2 C3 C4 C5). unfold returns in *. congruence.
  - destruct (unchecked_exact D op P' E' R t' u' x y ri' s' Hop Ht' Hu' Hx' Hy' B3 H1 B5 B4 X') as (C1 & C2 & C3 & C4 & C5).
    rewrite <- Km' in C1. rewrite <- S1 in *.
    pose proof (fits_returns D op t u x y s m Hop Ht Hu Hx Hy H HE HP C2 C3 C4 C5). unfold returns in *. congruence.
  - assert (HWW : W = W').
    { unfold work_type in HW, HW'. rewrite Bt, Bu in HW. congruence. }
    subst W'. rewrite E1 in HE. rewrite E2 in HE'.
    assert (I1 : in_type D (base_ty t) x) by (destruct Ht as (? & ? & ?); unfold holds, in_type in *; lia).
    assert (I2 : in_type D (base_ty u) y) by (destruct Hu as (? & ? & ?); unfold holds, in_type in *; lia).
    pose proof (casting_helper_det D E E' W t u t' u' x y _ _ HE HE' Bt Bu I1 I2 Hc Hc') as Hcc. subst casts'.
    rewrite Km, Km'. unfold checked_run.
    destruct (casting_helper_throws _ _ _ _ _ _ _ _ HE Ht Hu Hx Hy Hc) as [(Ix & Iy & ->)|[_ (e & _ & ->)]]; [|reflexivity].
    rewrite !mbind_ret. cbn [fst snd].
    destruct (checked_total D op W x y Hop Ix Iy) as (c & Hck). rewrite Hck. cbn [mlift]. rewrite !mbind_ret.
    rewrite (dar_det E E' c HE HE'); [reflexivity|].
    intros e ->. exact (checked_arith_err D op W x y _ e Hop Ix Iy Hck eq_refl).
Qed.

(** ------------------------------------------------------------------ *)
(** C63 *)
Lemma compare_fits : forall D c t u x y P E R, wf_operand D t -> wf_operand D u -> holds D t x -> holds D u y ->
  common_pp t u = Some P -> common_ep t u = Some E -> result_base_type D P PCmp t u = Some R ->
  in_type D R (lim_lo D t) -> in_type D R (lim_hi D t) -> in_type D R (lim_lo D u) -> in_type D R (lim_hi D u) ->
  compare D c t u x y = Some (mret (cmp_exact c x y)).
Proof.
  intros D c t u x y P E R Ht Hu Hx Hy HP HE HR I1 I2 I3 I4.
  pose proof Ht as (T1 & T2 & T3). pose proof Hu as (U1 & U2 & U3).
  assert (Ix : in_type D R x) by (unfold holds, in_type in *; lia).
  assert (Iy : in_type D R y) by (unfold holds, in_type in *; lia).
  unfold compare. rewrite HP, HE, HR. cbv zeta.
  assert (Ho : interval_open (lim_interval D R t) || interval_open (lim_interval D R u) = false).
  { unfold interval_open, lim_interval. cbn [il iu].
    rewrite (proj1 (cast_spec D R _ _ T1) I1), (proj1 (cast_spec D R _ _ T2) I2),
      (proj1 (cast_spec D R _ _ U1) I3), (proj1 (cast_spec D R _ _ U2) I4). reflexivity. }
  rewrite Ho. rewrite !conv_id by assumption.
  destruct (i_lt_sound D R t u x y Ht Hu Hx Hy) as [L G].
  destruct c; cbn [cmp_exact].
  - rewrite c_lt_same by assumption.
    destruct (tri_bool (i_lt _ _ _ _)) eqn:A.
    { apply tri_bool_true in A. specialize (L A). rewrite (proj2 (Z.ltb_lt _ _)) by lia. reflexivity. }
    destruct (tri_bool (i_gt _ _ _ _)) eqn:B; [|reflexivity].
    apply tri_bool_true in B. specialize (G B). rewrite (proj2 (Z.ltb_ge _ _)) by lia. reflexivity.
  - rewrite c_eq_same by assumption. destruct (tri_bool (tri_not _)) eqn:A; [|reflexivity].
    exfalso. apply tri_bool_true, tri_not_true in A. eapply intersect_false; try exact A; eassumption.
Qed.

Lemma auto_cmp_total : forall D t u, wf_operand D t -> wf_operand D u ->
  fits_in D (auto_temp D (base_ty t) (base_ty u)) t -> fits_in D (auto_temp D (base_ty t) (base_ty u)) u ->
  exists R, automatic_result D PCmp t u = Some R.
Proof.
  intros D t u (T1 & T2 & T3) (U1 & U2 & U3) [A1 A2] [B1 B2].
  unfold automatic_result. cbv zeta.
  set (tmp := auto_temp D (base_ty t) (base_ty u)) in *.
  assert (I1 : in_type D tmp (lim_lo D t)) by (unfold in_type; lia).
  assert (I2 : in_type D tmp (lim_hi D t)) by (unfold in_type; lia).
  assert (I3 : in_type D tmp (lim_lo D u)) by (unfold in_type; lia).
  assert (I4 : in_type D tmp (lim_hi D u)) by (unfold in_type; lia).
  unfold auto_type, auto_union, lim_interval. cbn [il iu].
  rewrite (proj1 (cast_spec D tmp (base_ty t) (lim_lo D t) T1) I1),
    (proj1 (cast_spec D tmp (base_ty t) (lim_hi D t) T2) I2),
    (proj1 (cast_spec D tmp (base_ty u) (lim_lo D u) U1) I3),
    (proj1 (cast_spec D tmp (base_ty u) (lim_hi D u) U2) I4).
  rewrite !cr_lt_val by assumption.
  assert (K : forall mn mx, in_type D tmp mn -> in_type D tmp mx -> mn <= mx -> exists R, stored_type D tmp mn mx = Some R).
  { intros mn mx Hmn Hmx Hle. unfold stored_type, tmp, auto_temp in *.
    destruct (negb (csigned D (base_ty t)) && negb (csigned D (base_ty u))).
    - rewrite uintmax_unsigned. destruct (unsigned_stored_type_spec D mn mx) as (T & -> & _); eauto.
      pose proof (lo_unsigned D (uintmax D) (uintmax_unsigned D)). unfold in_type in Hmn. lia.
    - rewrite intmax_signed. destruct (signed_stored_type_spec D mn mx Hmn Hmx) as (T & -> & _); eauto. }
  destruct (Z.ltb_spec (lim_lo D t) (lim_lo D u)); destruct (Z.ltb_spec (lim_hi D t) (lim_hi D u));
    cbn [tri_of_bool tri_bool bound_lo bound_hi]; apply K; auto; lia.
Qed.

Definition six (D : dmodel) (t u : otype) (x y : Z) : Prop :=
  s_lt D t u x y = Some (mret (x <? y)) /\ s_gt D t u x y = Some (mret (y <? x))
  /\ s_le D t u x y = Some (mret (x <=? y)) /\ s_ge D t u x y = Some (mret (y <=? x))
  /\ s_eq D t u x y = Some (mret (x =? y)) /\ s_ne D t u x y = Some (mret (negb (x =? y))).
Lemma six_of : forall D t u x y,
  (forall c, compare D c t u x y = Some (mret (cmp_exact c x y))) ->
  (forall c, compare D c u t y x = Some (mret (cmp_exact c y x))) -> six D t u x y.
Proof.
  intros D t u x y A B. unfold six, s_le, s_ge, s_ne, s_gt, s_lt, s_eq. rewrite !A, !B. cbn.
  unfold mnot. cbn. rewrite <- !Z.leb_antisym. auto 10.
Qed.

Lemma policies_of : forall t u P E,
  is_safe t = true \/ is_safe u = true -> get_pp t = Some P \/ get_pp u = Some P -> get_ep t = Some E \/ get_ep u = Some E ->
  (forall Q, get_pp t = Some Q \/ get_pp u = Some Q -> Q = P) -> (forall F, get_ep t = Some F \/ get_ep u = Some F -> F = E) ->
  common_pp t u = Some P /\ common_ep t u = Some E.
Proof.
  intros t u P E Hs H1 H2 H3 H4. unfold common_pp, common_ep.
  assert (is_safe t || is_safe u = true) as -> by (destruct Hs as [-> | ->]; auto using orb_true_r).
  split.
  - destruct (get_pp t) as [a|] eqn:Ea, (get_pp u) as [b|] eqn:Eb.
    + rewrite (H3 a ltac:(auto)), (H3 b ltac:(auto)).
      assert (pp_eqb P P = true) as -> by (destruct P; cbn; rewrite ?Z.eqb_refl; reflexivity). reflexivity.
    + rewrite (H3 a ltac:(auto)). reflexivity.
    + rewrite (H3 b ltac:(auto)). reflexivity.
    + destruct H1; discriminate.
  - destruct (get_ep t) as [a|] eqn:Ea, (get_ep u) as [b|] eqn:Eb.
    + rewrite (H4 a ltac:(auto)), (H4 b ltac:(auto)), ep_eqb_refl. reflexivity.
    + rewrite (H4 a ltac:(auto)). reflexivity.
    + rewrite (H4 b ltac:(auto)). reflexivity.
    + destruct H2; discriminate.
Qed.

Lemma C63_native_lemma : forall D t u x y E, wf_operand D t -> wf_operand D u -> holds D t x -> holds D u y ->
  is_safe t = true \/ is_safe u = true ->
  get_pp t = Some Native \/ get_pp u = Some Native -> get_ep t = Some E \/ get_ep u = Some E ->
  (forall Q, get_pp t = Some Q \/ get_pp u = Some Q -> Q = Native) ->
  (forall F, get_ep t = Some F \/ get_ep u = Some F -> F = E) ->
  fits_in D (uac D (base_ty t) (base_ty u)) t -> fits_in D (uac D (base_ty t) (base_ty u)) u ->
  six D t u x y.
Proof.
  intros D t u x y E Ht Hu Hx Hy Hs H1 H2 H3 H4 [A1 A2] [B1 B2].
  destruct (policies_of t u Native E Hs H1 H2 H3 H4) as [HP HE].
  destruct (policies_of u t Native E ltac:(tauto) ltac:(tauto) ltac:(tauto)
     ltac:(intros; apply H3; tauto) ltac:(intros; apply H4; tauto)) as [HP' HE'].
  assert (Huac : uac D (base_ty u) (base_ty t) = uac D (base_ty t) (base_ty u))
    by (clear; destruct D, (base_ty t), (base_ty u); reflexivity).
  destruct Ht as (T1 & T2 & T3), Hu as (U1 & U2 & U3).
  apply six_of; intros c;
  (eapply compare_fits; [split; [|split]|split; [|split]| | |eassumption|eassumption|cbn; reflexivity| | | |]);
  try assumption; rewrite ?Huac; unfold in_type; lia.
Qed.

Lemma C63_automatic_lemma : forall D t u x y E, wf_operand D t -> wf_operand D u -> holds D t x -> holds D u y ->
  is_safe t = true \/ is_safe u = true ->
  get_pp t = Some Automatic \/ get_pp u = Some Automatic -> get_ep t = Some E \/ get_ep u = Some E ->
  (forall Q, get_pp t = Some Q \/ get_pp u = Some Q -> Q = Automatic) ->
  (forall F, get_ep t = Some F \/ get_ep u = Some F -> F = E) ->
  fits_in D (widest D Add t u) t -> fits_in D (widest D Add t u) u ->
  six D t u x y.
Proof.
  intros D t u x y E Ht Hu Hx Hy Hs H1 H2 H3 H4 F1 F2.
  assert (K : forall c t u x y, wf_operand D t -> wf_operand D u -> holds D t x -> holds D u y ->
    common_pp t u = Some Automatic -> common_ep t u = Some E ->
    fits_in D (auto_temp D (base_ty t) (base_ty u)) t -> fits_in D (auto_temp D (base_ty t) (base_ty u)) u ->
    compare D c t u x y = Some (mret (cmp_exact c x y))).
  { clear. intros c t u x y Ht Hu Hx Hy HP HE F1 F2.
    destruct (auto_cmp_total D t u Ht Hu F1 F2) as (R & HR).
    pose proof Ht as (T1 & T2 & T3). pose proof Hu as (U1 & U2 & U3).
    destruct (auto_cmp_fits D t u (lim_lo D t) (lim_lo D u) R Ht Hu) as [I1 I3]; try (unfold holds; lia); auto.
    destruct (auto_cmp_fits D t u (lim_hi D t) (lim_hi D u) R Ht Hu) as [I2 I4]; try (unfold holds; lia); auto.
    eapply compare_fits; eauto. }
  destruct (policies_of t u Automatic E Hs H1 H2 H3 H4) as [HP HE].
  destruct (policies_of u t Automatic E ltac:(tauto) ltac:(tauto) ltac:(tauto)
     ltac:(intros; apply H3; tauto) ltac:(intros; apply H4; tauto)) as [HP' HE'].
  assert (W : widest D Add t u = auto_temp D (base_ty t) (base_ty u)) by reflexivity.
  assert (W' : auto_temp D (base_ty u) (base_ty t) = auto_temp D (base_ty t) (base_ty u))
    by (unfold auto_temp; rewrite andb_comm; reflexivity).
  rewrite W in *. apply six_of; intros c; apply K; try assumption; rewrite ?W'; assumption.
Qed.

Lemma C63_same_lemma : forall D s s' x y, st s = st s' -> sP s = sP s' -> sE s = sE s' ->
  sP s = Native \/ sP s = Automatic ->
  wf_operand D (OSafe s) -> wf_operand D (OSafe s') -> holds D (OSafe s) x -> holds D (OSafe s') y ->
  six D (OSafe s) (OSafe s') x y.
Proof.
  intros D s s' x y E1 E2 E3 HP Hs Hs' Hx Hy.
  assert (Q : forall P, sP s = P -> (forall Q, Some (sP s) = Some Q \/ Some (sP s') = Some Q -> Q = P)) by (intros; intuition congruence).
  assert (F : forall F, Some (sE s) = Some F \/ Some (sE s') = Some F -> F = sE s) by (intros; intuition congruence).
  assert (K : lo D (uac D (st s) (st s')) <= lo D (st s) /\ hi D (st s) <= hi D (uac D (st s) (st s'))).
  { rewrite <- E1. clear. destruct D, (st s); vm_compute; split; discriminate. }
  assert (K' : lo D (auto_temp D (st s) (st s')) <= lo D (st s) /\ hi D (st s) <= hi D (auto_temp D (st s) (st s'))).
  { rewrite <- E1. clear. destruct D, (st s); vm_compute; split; discriminate. }
  pose proof Hs as (T1 & T2 & T3). pose proof Hs' as (U1 & U2 & U3). cbn in T1, T2, T3, U1, U2, U3.
  rewrite <- E1 in U1, U2.
  destruct HP as [HP|HP].
  - apply (C63_native_lemma D _ _ x y (sE s)); auto; cbn [get_pp get_ep is_safe base_ty]; auto;
      [left; congruence| |]; unfold fits_in, in_type in *; cbn [lim_lo lim_hi] in *; lia.
  - apply (C63_automatic_lemma D _ _ x y (sE s)); auto; cbn [get_pp get_ep is_safe base_ty]; auto;
      [left; congruence| |]; change (widest D Add (OSafe s) (OSafe s')) with (auto_temp D (st s) (st s'));
      unfold fits_in, in_type in *; cbn [lim_lo lim_hi] in *; lia.
Qed.

(** the complete behaviour of + - * / under native promotion, any declared ranges *)
Lemma meaningful_dec : forall D op T U x y, op = Add \/ op = Sub \/ op = Mul \/ op = Div ->
  meaningful D op T U x y \/ ~ meaningful D op T U x y.
Proof.
  intros D op T U x y [->|[->|[->| ->]]]; unfold meaningful, in_type; cbn [built_in_type exact]; lia.
Qed.
Lemma C62_complete_lemma : forall D op t u x y s m, op = Add \/ op = Sub \/ op = Mul \/ op = Div ->
  wf_operand D t -> wf_operand D u -> holds D t x -> holds D u y ->
  binary D op t u x y = Some (s, m) -> sP s = Native -> throws_arithmetic (sE s) ->
  (meaningful D op (base_ty t) (base_ty u) x y -> returns m (exact op x y))
  /\ (~ meaningful D op (base_ty t) (base_ty u) x y -> throws_arith m).
Proof.
  intros D op t u x y s m Hop Ht Hu Hx Hy H HP HE.
  set (E := strict_exception_policy).
  set (t' := OSafe (mkSafe (base_ty t) (lo D (base_ty t)) (hi D (base_ty t)) Native E)).
  set (u' := OSafe (mkSafe (base_ty u) (lo D (base_ty u)) (hi D (base_ty u)) Native E)).
  assert (Pt : plain D E (base_ty t) t') by (right; reflexivity).
  assert (Pu : plain D E (base_ty u) u') by (right; reflexivity).
  assert (I1 : in_type D (base_ty t) x) by (destruct Ht as (? & ? & ?); unfold holds, in_type in *; lia).
  assert (I2 : in_type D (base_ty u) y) by (destruct Hu as (? & ? & ?); unfold holds, in_type in *; lia).
  destruct (C56_lemma D E op _ _ t' u' x y Pt Pu ltac:(left; reflexivity) eq_refl eq_refl I1 I2) as (s' & m' & H' & S' & O').
  assert (HP' : sP s' = Native /\ sE s' = E).
  { assert (K : eval_binop D (BA op) t' u' x y = Some (s', m')) by exact H'.
    destruct (C57_operators_lemma D (BA op) t' u' x y s' m' K) as (K1 & K2 & _).
    split; [apply K2; left; reflexivity|apply K1; left; reflexivity]. }
  destruct HP' as [HP' HE'].
  destruct (C62_lemma D op t u t' u' x y s m s' m' Hop eq_refl eq_refl Ht Hu (plain_wf _ _ _ _ Pt) (plain_wf _ _ _ _ Pu)
     Hx Hy ltac:(exact I1) ltac:(exact I2) H H' HP HP' HE ltac:(rewrite HE'; reflexivity)) as [_ ->].
  destruct Hop as [->|[->|[->| ->]]]; exact O'.
Qed.

(** ------------------------------------------------------------------ *)
(** the forms stated in PropsStatic.v, findings and non-vacuity *)
Lemma C56_arithmetic_lemma : forall D E op T U t u x y, op = Add \/ op = Sub \/ op = Mul \/ op = Div ->
  plain D E T t -> plain D E U u -> is_safe t = true \/ is_safe u = true ->
  throws_arithmetic E -> throws_shift E -> in_type D T x -> in_type D U y ->
  exists s m, binary D op t u x y = Some (s, m) /\ st s = built_in_type D op T U
    /\ (meaningful D op T U x y -> returns m (exact op x y))
    /\ (~ meaningful D op T U x y -> throws_arith m).
Proof.
  intros D E op T U t u x y Hop Ht Hu Hs HA HS Hx Hy.
  destruct (C56_lemma D E op T U t u x y Ht Hu Hs HA HS Hx Hy) as (s & m & H1 & H2 & H3).
  exists s, m. split; [assumption|]. split; [assumption|].
  destruct Hop as [->|[->|[->| ->]]]; exact H3.
Qed.
Lemma C56_modulus_lemma : forall D E T U t u x y,
  plain D E T t -> plain D E U u -> is_safe t = true \/ is_safe u = true ->
  throws_arithmetic E -> throws_shift E -> in_type D T x -> in_type D U y ->
  let R := built_in_type D Mod T U in
  exists s m, binary D Mod t u x y = Some (s, m) /\ st s = R
    /\ (meaningful D Mod T U x y ->
        returns m (if (lo D R <? 0) && (x =? lo D R) && (y =? lo D R) then lo D R else remainder x y))
    /\ (~ meaningful D Mod T U x y -> throws_arith m).
Proof. intros D E T U t u x y Ht Hu Hs HA HS Hx Hy. exact (C56_lemma D E Mod T U t u x y Ht Hu Hs HA HS Hx Hy). Qed.
Lemma C56_left_shift_lemma : forall D E T U t u x y,
  plain D E T t -> plain D E U u -> is_safe t = true \/ is_safe u = true ->
  throws_arithmetic E -> throws_shift E -> in_type D T x -> in_type D U y ->
  exists s m, binary D Shl t u x y = Some (s, m) /\ st s = promote D T
    /\ (meaningful D Shl T U x y -> returns m (x * 2 ^ y))
    /\ (~ meaningful D Shl T U x y -> throws_arith m \/ throws_impl m).
Proof. intros D E T U t u x y Ht Hu Hs HA HS Hx Hy. exact (C56_lemma D E Shl T U t u x y Ht Hu Hs HA HS Hx Hy). Qed.
Lemma C56_right_shift_lemma : forall D E T U t u x y,
  plain D E T t -> plain D E U u -> is_safe t = true \/ is_safe u = true ->
  throws_arithmetic E -> throws_shift E -> in_type D T x -> in_type D U y ->
  let R := promote D T in
  exists s m, binary D Shr t u x y = Some (s, m) /\ st s = R
    /\ (meaningful D Shr T U x y -> ~ (lo D R = 0 /\ y = digits D R) -> returns m (x / 2 ^ y))
    /\ (meaningful D Shr T U x y -> lo D R = 0 /\ y = digits D R -> m = ([], Undef))
    /\ (~ meaningful D Shr T U x y -> throws_arith m \/ throws_impl m).
Proof. intros D E T U t u x y Ht Hu Hs HA HS Hx Hy. exact (C56_lemma D E Shr T U t u x y Ht Hu Hs HA HS Hx Hy). Qed.
Lemma C56_bitwise_lemma : forall D E b T U t u x y,
  plain D E T t -> plain D E U u -> is_safe t = true \/ is_safe u = true ->
  exists s m, bitwise D b t u x y = Some (s, m) /\ st s = uac D T U /\ returns m (built_in_bit D b T U x y).
Proof. exact plain_bitwise. Qed.
Lemma C56_refuted_lemma : exists D E t u s m s' m',
  plain D E Int t /\ plain D E Int u /\ throws_arithmetic E /\ throws_shift E
  /\ binary D Mod t u (lo D Int) (lo D Int) = Some (s, m) /\ returns m (lo D Int) /\ remainder (lo D Int) (lo D Int) = 0
  /\ binary D Shr (OSafe (safe D UInt Native E)) u 1 32 = Some (s', m') /\ m' = ([], Undef).
Proof.
  exists LP64, strict_exception_policy, (OSafe (safe LP64 Int Native strict_exception_policy)), (ORaw Int).
  do 4 eexists. splits; [right; reflexivity|left; reflexivity|reflexivity|reflexivity| | | | |];
  [vm_compute; reflexivity|vm_compute; reflexivity|vm_compute; reflexivity|vm_compute; reflexivity|reflexivity].
Qed.
Lemma C56_nonvacuous_lemma :
  let E := strict_exception_policy in
  let t := OSafe (safe LP64 Int Native E) in
  plain LP64 E Int t /\ plain LP64 E UInt (ORaw UInt) /\ throws_arithmetic E /\ throws_shift E
  /\ meaningful LP64 Add Int UInt 5 7 /\ ~ meaningful LP64 Add Int UInt (-5) 7
  /\ meaningful LP64 Div Int Int 7 (-2) /\ ~ meaningful LP64 Div Int Int (- 2 ^ 31) (-1)
  /\ meaningful LP64 Shl Int Int 5 3 /\ ~ meaningful LP64 Shl Int Int 5 31
  /\ meaningful LP64 Mod Int Int 7 2 /\ meaningful LP64 Shr Int Int 9 2.
Proof.
  intros E t. unfold meaningful. splits; try reflexivity; try (right; reflexivity); try (left; reflexivity);
  try (vm_compute; intuition congruence).
Qed.
Lemma C57_nonvacuous_lemma :
  let t := OSafe (safe LP64 Int Native loose_exception_policy) in
  let u := OSafe (safe LP64 Int Native strict_exception_policy) in
  let v := OSafe (safe LP64 Int Automatic strict_exception_policy) in
  binary LP64 Add t u 1 2 = None /\ binary LP64 Add u v 1 2 = None
  /\ s_lt LP64 t u 1 2 = None /\ bitwise LP64 Or u v 1 2 = None
  /\ binary LP64 Add (OLit SChar 1 None None) (OLit SChar 2 None None) 1 2 = None
  /\ (exists s m, eval_binop LP64 (BA Add) v (OLit SChar 2 None None) 1 2 = Some (s, m) /\ sP s = Automatic)
  /\ exists m, compare LP64 CLt u u 1 2 = Some m.
Proof. intros t u v. splits; try (vm_compute; reflexivity); repeat eexists; vm_compute; reflexivity. Qed.
Lemma C58_uninitialized_lemma : forall T mn mx P,
  default_ctor (mkSafe T mn mx P strict_trap_policy) = None
  /\ default_ctor (mkSafe T mn mx P loose_exception_policy) = Some ([(act_uninitialized_value, uninitialized_value)], Ret tt)
  /\ default_ctor (mkSafe T mn mx P loose_trap_policy) = Some ([(act_uninitialized_value, uninitialized_value)], Ret tt)
  /\ default_ctor (mkSafe T mn mx P strict_exception_policy) = Some ([(act_uninitialized_value, uninitialized_value)], Ret tt).
Proof. intros. splits; reflexivity. Qed.
Lemma C58_refuted_lemma :
  (exists s, sE s = strict_exception_policy
     /\ default_ctor s = Some ([(act_uninitialized_value, uninitialized_value)], Ret tt))
  /\ exists t x y s, t = OSafe (safe LP64 Int Native loose_exception_policy)
     /\ binary LP64 Shl t (ORaw Int) x y
        = Some (s, ([(implementation_defined_behavior, shift_too_large)], Undef)).
Proof.
  split.
  - exists (safe LP64 Int Native strict_exception_policy). split; reflexivity.
  - do 4 eexists. split; [reflexivity|]. instantiate (2 := 40). instantiate (2 := 1). vm_compute. reflexivity.
Qed.
Lemma C58_nonvacuous_lemma : arithmetic_err domain_error /\ shift_err negative_shift.
Proof. split; [right; right; reflexivity|left; reflexivity]. Qed.
Lemma C59_refuted_lemma : exists D s o,
  wf_operand D (OSafe s) /\ wf_operand D o /\ throws_arithmetic (sE s)
  /\ (forall z, holds D o z -> ~ (smin s <= z <= smax s)) /\ construct D s o (-1) <> None.
Proof.
  exists LP64, (mkSafe UChar 0 10 Native strict_exception_policy), (OSafe (mkSafe SChar (-5) (-1) Native strict_exception_policy)).
  splits; [vm_compute; intuition congruence|vm_compute; intuition congruence|reflexivity| |vm_compute; discriminate].
  unfold holds. cbn. intros. lia.
Qed.
Lemma C59_conversion_refuted_lemma : exists D R s,
  wf_operand D (OSafe s) /\ traps (sE s) /\ fits_in D R (OSafe s) /\ to_builtin D R s (smin s) = None.
Proof.
  exists LP64, SChar, (mkSafe UChar 0 100 Native strict_trap_policy).
  splits; vm_compute; intuition congruence.
Qed.
Lemma C59_nonvacuous_lemma :
  let E := strict_exception_policy in
  let F := strict_trap_policy in
  (exists m, construct LP64 (mkSafe Int 0 10 Native F) (OSafe (mkSafe Int 2 5 Native F)) 3 = Some m)
  /\ construct LP64 (mkSafe Int 0 10 Native F) (OSafe (mkSafe Int 2 15 Native F)) 3 = None
  /\ construct LP64 (mkSafe Int 0 10 Native E) (OSafe (mkSafe Int 20 30 Native E)) 25 = None
  /\ (exists m, construct LP64 (mkSafe Int 0 10 Native E) (OSafe (mkSafe Int 2 15 Native E)) 3 = Some m)
  /\ exists m, to_builtin LP64 Long (mkSafe Int 0 10 Native F) 3 = Some m.
Proof. intros E F. splits; try (eexists; vm_compute; reflexivity); vm_compute; reflexivity. Qed.
Lemma C60_div_lemma : forall F D t u x0 y0 s m,
  wf_operand D t -> wf_operand D u ->
  binary D Div t u x0 y0 = Some (s, m) -> throws_arithmetic (sE s) -> traps F -> result_large_enough D s t u ->
  ((exists s' m', binary D Div (with_policy F t) (with_policy F u) x0 y0 = Some (s', m'))
   <-> (forall x y, holds D t x -> holds D u y ->
          exists k, binary D Div t u x y = Some (s, k) /\ returns k (Z.quot x y))).
Proof. exact div_trap_iff. Qed.
Lemma C60_comparison_refuted_lemma : exists D F t u,
  wf_operand D t /\ wf_operand D u /\ traps F
  /\ (forall x y, holds D t x -> holds D u y -> exists m, s_lt D t u x y = Some m /\ returns m (x <? y))
  /\ forall x y, s_lt D (with_policy F t) (with_policy F u) x y = None.
Proof.
  exists LP64, strict_trap_policy, (OSafe (mkSafe ULong (2 ^ 63) (2 ^ 64 - 1) Automatic strict_exception_policy)),
    (OSafe (mkSafe Int 0 5 Automatic strict_exception_policy)).
  set (t := OSafe (mkSafe ULong _ _ _ _)). set (u := OSafe (mkSafe Int _ _ _ _)).
  assert (Wt : wf_operand LP64 t) by (vm_compute; intuition congruence).
  assert (Wu : wf_operand LP64 u) by (vm_compute; intuition congruence).
  assert (Ht : holds LP64 t (2 ^ 63)) by (vm_compute; intuition congruence).
  assert (Hu : holds LP64 u 5) by (vm_compute; intuition congruence).
  split; [assumption|]. split; [assumption|]. split; [reflexivity|]. split.
  - intros x y Hx Hy.
    assert (HR : result_base_type LP64 Automatic PCmp t u = Some Long) by (vm_compute; reflexivity).
    assert (HL : tri_bool (i_lt LP64 Long (lim_interval LP64 Long t) (lim_interval LP64 Long u)) = false) by (vm_compute; reflexivity).
    assert (HG : tri_bool (i_gt LP64 Long (lim_interval LP64 Long t) (lim_interval LP64 Long u)) = true) by (vm_compute; reflexivity).
    assert (x <? y = false) as ->.
    { apply Z.ltb_ge. unfold holds, t, u in Hx, Hy. cbn [lim_lo lim_hi smin smax] in Hx, Hy.
      assert (2 ^ 63 = 9223372036854775808) as E63 by reflexivity. rewrite E63 in Hx. lia. }
    assert (HO : interval_open (lim_interval LP64 Long t) || interval_open (lim_interval LP64 Long u) = true) by (vm_compute; reflexivity).
    destruct (casting_helper LP64 strict_exception_policy Long t u x y) as [k|] eqn:Ek.
    + exists (mret false). split; [|reflexivity]. unfold s_lt, compare.
      change (common_pp t u) with (Some Automatic). change (common_ep t u) with (Some strict_exception_policy).
      cbv iota beta. rewrite HR. cbv zeta. rewrite HO, Ek, HL, HG. reflexivity.
    + exfalso. assert (C : casting_helper LP64 strict_exception_policy Long t u (2 ^ 63) 5 <> None) by (vm_compute; discriminate).
      destruct (casting_helper LP64 strict_exception_policy Long t u (2 ^ 63) 5) as [k|] eqn:Ek'; [|congruence].
      destruct (casting_helper_any LP64 strict_exception_policy Long t u (2 ^ 63) 5 x y k Ek') as (k' & Hk'). congruence.
  - intros x y. unfold s_lt, compare.
    assert (HR : result_base_type LP64 Automatic PCmp (with_policy strict_trap_policy t) (with_policy strict_trap_policy u) = Some Long)
      by (vm_compute; reflexivity).
    change (common_pp (with_policy strict_trap_policy t) (with_policy strict_trap_policy u)) with (Some Automatic).
    change (common_ep (with_policy strict_trap_policy t) (with_policy strict_trap_policy u)) with (Some strict_trap_policy).
    cbv iota beta. rewrite HR. cbv zeta.
    assert (HO : interval_open (lim_interval LP64 Long (with_policy strict_trap_policy t))
                 || interval_open (lim_interval LP64 Long (with_policy strict_trap_policy u)) = true) by (vm_compute; reflexivity).
    rewrite HO, casting_helper_trap by reflexivity. reflexivity.
Qed.
Lemma C60_nonvacuous_lemma :
  let E := strict_exception_policy in
  let F := strict_trap_policy in
  let t := OSafe (mkSafe Int 0 100 Native E) in
  let u := OSafe (mkSafe Int 1 (2 ^ 31 - 1) Native E) in
  (exists s m, binary LP64 Add t t 1 2 = Some (s, m)) /\ (exists s m, binary LP64 Add t u 1 2 = Some (s, m))
  /\ (exists s m, binary LP64 Add (with_policy F t) (with_policy F t) 1 2 = Some (s, m))
  /\ binary LP64 Add (with_policy F t) (with_policy F u) 1 2 = None
  /\ (exists s m, binary LP64 Div (with_policy F t) (with_policy F u) 1 2 = Some (s, m))
  /\ binary LP64 Div (with_policy F t) (with_policy F t) 1 2 = None.
Proof. intros E F t u. splits; try (do 2 eexists; vm_compute; reflexivity); vm_compute; reflexivity. Qed.
Lemma C61_nonvacuous_lemma :
  let E := strict_exception_policy in
  let t := OSafe (mkSafe Int (-3) 5 Native E) in
  exists oi, op_static LP64 Mul t t = Some oi /\ oi_checked oi = false
    /\ smin (oi_type oi) = -15 /\ smax (oi_type oi) = 25.
Proof. intros E t. eexists. split; [vm_compute; reflexivity|]. vm_compute. auto. Qed.
Lemma C62_nonvacuous_lemma :
  let E := strict_exception_policy in
  let t := OSafe (mkSafe Int 0 100 Native E) in
  let t' := OSafe (safe LP64 Int Native E) in
  (exists s m, binary LP64 Mul t t 9 8 = Some (s, m) /\ m = ([], Ret 72) /\ smax s = 10000)
  /\ (exists s m, binary LP64 Mul t' t 9 8 = Some (s, m) /\ m = ([], Ret 72) /\ smax s = 2 ^ 31 - 1)
  /\ meaningful LP64 Mul Int Int 9 8 /\ ~ meaningful LP64 Mul Int Int (2 ^ 30) 2.
Proof.
  intros E t t'. splits; try (do 2 eexists; split; [vm_compute; reflexivity|split; vm_compute; reflexivity]);
  unfold meaningful; vm_compute; intuition congruence.
Qed.
Lemma C63_nonvacuous_lemma :
  let s := safe LP64 UInt Native strict_trap_policy in
  wf_operand LP64 (OSafe s) /\ holds LP64 (OSafe s) 7
  /\ s_lt LP64 (OSafe s) (OSafe s) 7 9 = Some (mret true)
  /\ s_lt LP64 (OSafe s) (ORaw Int) 7 9 = None.
Proof. intros s. splits; try (vm_compute; reflexivity); vm_compute; intuition congruence. Qed.
