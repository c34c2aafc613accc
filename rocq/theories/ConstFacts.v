(** ConstFacts.v -- lemmas for PropsConst.v. Proofs only. *)
From Coq Require Import ZArith Bool List Lia.
From Verif Require Import Base CType Spec CTypeFacts Utility UtilityFacts SafeCompare
  CheckedInteger CheckedIntegerFacts CheckedResultOps CheckedResultFacts Interval IntervalFacts
  IntervalOpsFacts ExceptionPolicy Promotion SafeBase SafeSpec SafeFacts SafeDivFacts SafeShiftFacts
  SafeConvFacts SafeBitFacts SafeTraceFacts PropsConvProofs Program ProgramSpec ProgramFacts ComposeSpec ComposeFacts
  LawFacts MulExactFacts OutcomeSpec DivOutcomeFacts ShlOutcomeFacts ShrOutcomeFacts ConstSpec.
Import ListNotations.
Local Open Scope Z_scope.

Lemma const_ret : forall A (m : M A) a, returns m a -> constant m = Some a.
Proof. intros A m a ->. reflexivity. Qed.
Lemma const_throw : forall A (m : M A), throws_arith m -> constant m = None.
Proof. intros A m (e & _ & ->). reflexivity. Qed.
Lemma const_impl : forall A (m : M A), throws_impl m -> constant m = None.
Proof. intros A m (e & _ & ->). reflexivity. Qed.
Lemma const_fails : forall A (m : M A), fails m -> constant m = None.
Proof. intros A m [T|T]; [apply const_throw|apply const_impl]; exact T. Qed.

Lemma has_static : forall D op t u x y s m, binary D op t u x y = Some (s, m) -> exists oi, op_static D op t u = Some oi.
Proof.
  intros D op t u x y s m H. unfold binary in H. destruct (op_static D op t u) as [oi|]; [eauto|discriminate].
Qed.

Lemma C92_operator : forall D op t u x y s m z,
  wf_operand D t -> wf_operand D u -> holds D t x -> holds D u y ->
  eval_binop D op t u x y = Some (s, m) -> throws_arithmetic (sE s) -> throws_shift (sE s) ->
  constant_policy op (sP s) -> constant_operands D op (st s) x y ->
  constant m = Some z -> math_op op x y = Some z.
Proof.
  intros D op t u x y s m z Wt Wu Hx Hy H HE HS HP HO HC.
  assert (RZ : forall a, returns m a -> Some a = Some z) by (intros a R; rewrite <- (const_ret _ _ _ R); exact HC).
  assert (NT : ~ throws_arith m) by (intros T; rewrite (const_throw _ _ T) in HC; discriminate).
  assert (NI : ~ throws_impl m) by (intros T; rewrite (const_impl _ _ T) in HC; discriminate).
  assert (NU : m <> ([], Undef)) by (intros ->; discriminate).
  destruct op as [o|b]; cbn [eval_binop] in H.
  2: { destruct HO as [X0 Y0]. destruct (C28_range D b t u x y s m Wt Wu Hx Hy H (or_introl HP) X0 Y0) as (_ & R & _). exact (RZ _ R). }
  destruct (has_static _ _ _ _ _ _ _ _ H) as (oi & Ho).
  destruct o; cbn [math_op constant_policy constant_operands] in *.
  - destruct (arith_exact Add Z.add D t u x y s m ltac:(left; auto) Wt Wu Hx Hy H HE) as [_ [[R _]|T]]; [exact (RZ _ R)|contradiction].
  - destruct (arith_exact Sub Z.sub D t u x y s m ltac:(right; left; auto) Wt Wu Hx Hy H HE) as [_ [[R _]|T]]; [exact (RZ _ R)|contradiction].
  - destruct (arith_exact Mul Z.mul D t u x y s m ltac:(right; right; auto) Wt Wu Hx Hy H HE) as [_ [[R _]|T]]; [exact (RZ _ R)|contradiction].
  - destruct (div_char D t u x y s m Wt Wu Hx Hy H HE ltac:(left; auto)) as (_ & Z0 & Q).
    destruct (Z.eqb_spec y 0) as [E|N]; [elim NT; auto|].
    destruct (Q N) as [(R & _)|[_ T]]; [exact (RZ _ R)|contradiction].
  - destruct (Z.eq_dec y (-1)) as [Ey|Ny].
    + assert (E0 : remainder x y = 0) by (subst y; unfold remainder; change (-1) with (Z.opp 1); rewrite Z.quot_opp_r, Z.quot_1_r by lia; lia).
      assert (M : (if y =? 0 then None else Some (Z.rem x y)) = Some 0).
      { subst y. cbn [Z.eqb]. change (-1) with (Z.opp 1). rewrite Z.rem_opp_r, Z.rem_1_r by lia. reflexivity. }
      rewrite M. clear M.
      assert (Iz : in_type D (st s) 0) by (pose proof (lo_le_0 D (st s)); pose proof (hi_ge_127 D (st s)); unfold in_type; lia).
      destruct (mod_outcome D t u x y s m oi Wt Wu Hx Hy H HE Ho) as [C1 C2]. cbv zeta in C1, C2.
      destruct (oi_checked oi) eqn:Eo.
      * destruct (C1 eq_refl) as (W & _ & G1 & _ & G2).
        assert (G : in_type D W x /\ in_type D W y /\ y <> 0 \/ ~ (in_type D W x /\ in_type D W y /\ y <> 0)).
        { unfold in_type. destruct (Z_le_dec (lo D W) x), (Z_le_dec x (hi D W)), (Z_le_dec (lo D W) y), (Z_le_dec y (hi D W)), (Z.eq_dec y 0); tauto. }
        destruct G as [G|G]; [|elim NT; exact (G2 G)].
        assert (R : returns m (conv D (st s) (remainder x y))).
        { apply G1; [exact G|]. intros (A & B & C). pose proof (hi_ge_127 D W).
          destruct (csigned D W) eqn:Es; [pose proof (hi_pos_lo D W Es); lia|pose proof (lo_unsigned D W Es); lia]. }
        rewrite E0, conv_id in R by exact Iz. exact (RZ _ R).
      * destruct (C2 eq_refl) as [G1 G2].
        destruct (binary_inv _ _ _ _ _ _ _ _ H) as (P & E & R & ri & H1 & H2 & HR & Hri & Es & Hm). rewrite Es in *. cbn [st sE sP] in *.
        unfold op_static in Ho. rewrite H1, H2, HR, Hri in Ho. injection Ho as <-. cbn [oi_checked] in Eo.
        destruct (large_enough_fits D P Mod R t u 0 0 E Wt Wu ltac:(auto) HR ltac:(left; exact HP)) as (Ft & Fu & _).
        destruct (mod_fits_unchecked D R t u ri Wt Wu Ft Fu Hri Eo x y Hx Hy) as (_ & Ix & Iy).
        rewrite (conv_id D R x), (conv_id D R y) in G1, G2 by assumption. rewrite E0 in G1.
        apply RZ, G1. destruct (in_range D (promote D R) (Z.quot x y)) eqn:B.
        -- split; [lia|]. apply in_range_iff. exact B.
        -- elim NU. apply G2. intros [_ K]. apply in_range_iff in K. congruence.
    + destruct (mod_char D t u x y s m Wt Wu Hx Hy H HE ltac:(left; auto)) as [Z0 Q]; [tauto|].
      destruct (Z.eqb_spec y 0) as [E|N]; [elim NT; auto|].
      destruct (Q N) as [(R & _)|[_ T]]; [|contradiction]. pose proof (RZ _ R) as K. injection K as <-.
      unfold remainder. f_equal. pose proof (Z.quot_rem' x y). lia.
  - destruct (shl_char D t u x y s m Wt Wu Hx Hy H HE HS) as [_ C].
    destruct (C (or_introl HO)) as [(R & _)|[(_ & T)|[(_ & T)|(T & _)]]]; [exact (RZ _ R)|contradiction|contradiction|contradiction].
  - destruct (shr_outcome D t u x y s m Wt Wu Hx Hy H HE HS) as [C1 C2]. cbv zeta in C1, C2.
    assert (U : shr_unchecked D (st s) t u \/ ~ shr_unchecked D (st s) t u).
    { unfold shr_unchecked, in_type. destruct (csigned D (st s)), (Z_le_dec (lim_hi D u) (digits D (st s))), (Z_le_dec 0 (lim_lo D t)),
        (Z_le_dec 0 (lim_lo D u)), (Z_le_dec (lo D (st s)) (lim_hi D t)), (Z_le_dec (lim_hi D t) (hi D (st s))), (Z.eq_dec (lim_lo D t) 0),
        (Z_lt_dec (lim_lo D u) 0), (Z_lt_dec (lim_hi D u) 0); intuition (try lia; try discriminate). }
    destruct U as [U|U].
    + destruct (C1 U) as [R N]. destruct U as (U1 & U2 & U3).
      assert (It : in_type D (st s) (lim_hi D t)) by (destruct U3 as [[_ I]|(_ & _ & _ & [I|I])]; [exact I|exact I|unfold holds in Hy; lia]).
      pose proof (lo_le_0 D (st s)). pose proof (digits_pos D (st s)).
      assert (Ix : in_type D (st s) x) by (unfold holds, in_type in *; lia).
      assert (Iy : in_type D (st s) y).
      { pose proof (pow_digits D (st s)). assert (y < 2 ^ digits D (st s)).
        { eapply Z.le_lt_trans; [|apply Z.pow_gt_lin_r; lia]. unfold holds in Hy. lia. }
        unfold in_type. lia. }
      rewrite (conv_id D _ x), (conv_id D _ y) in R by assumption. rewrite (conv_id D _ y) in N by assumption.
      destruct (Z_lt_le_dec y (width D (promote D (st s)))) as [L|L]; [exact (RZ _ (R (conj HO L)))|elim NU; apply N; lia].
    + destruct (C2 U) as [N C]. clear C1 C2.
      assert (G : in_type D (st s) x /\ in_type D (st s) y \/ ~ (in_type D (st s) x /\ in_type D (st s) y)).
      { unfold in_type. destruct (Z_le_dec (lo D (st s)) x), (Z_le_dec x (hi D (st s))), (Z_le_dec (lo D (st s)) y), (Z_le_dec y (hi D (st s))); tauto. }
      destruct G as [G|G]; [|elim NT; exact (N G)]. destruct (C G) as (K1 & K2 & K3).
      destruct (Z_lt_le_dec x 0) as [X|X]; [elim NI; apply K1; lia|].
      destruct (Z_lt_le_dec (digits D (st s)) y) as [Y|Y]; [elim NI; apply K1; lia|].
      destruct (Z_lt_le_dec y (width D (promote D (st s)))) as [L|L]; [exact (RZ _ (K2 X (conj HO Y) L))|elim NU; apply K3; lia].
Qed.

Lemma C92_expr : forall n D G s i e t z, (forall v, type_ok n D (G v)) -> store_ok D G s i ->
  expr_ok n D e -> type_of D G e = Some t ->
  constant (eval D G s e) = Some z -> value i e = Some z /\ holds D t z.
Proof.
  intros n D G s i e t z HG Hs He Ht HC.
  destruct (expr_char n D G s i e t HG Hs He Ht) as [_ [(z' & V & R & H)|T]].
  - rewrite (const_ret _ _ _ R) in HC. injection HC as ->. auto.
  - rewrite (const_throw _ _ T) in HC. discriminate.
Qed.
Lemma C92_cond : forall n D G s i c b, (forall v, type_ok n D (G v)) -> store_ok D G s i ->
  cond_ok n D c -> cond_compiles D G c = true ->
  constant (eval_cond D G s c) = Some b -> truth i c = Some b.
Proof.
  intros n D G s i c b HG Hs Hc Hk HC.
  destruct (cond_char n D G s i c HG Hs Hc Hk) as [(b' & V & R)|T].
  - rewrite (const_ret _ _ _ R) in HC. injection HC as ->. auto.
  - rewrite (const_throw _ _ T) in HC. discriminate.
Qed.
Lemma C92_fine : forall nat D G s i e t z, (forall v, type_fine nat D (G v)) -> store_ok D G s i ->
  expr_fine nat D G None e -> type_of D G e = Some t ->
  constant (eval D G s e) = Some z -> value i e = Some z /\ holds D t z.
Proof.
  intros nat D G s i e t z HG Hs He Ht HC.
  destruct (C73_expr nat D G s i e t HG Hs He Ht) as [(z' & V & R & H)|T].
  - rewrite (const_ret _ _ _ R) in HC. injection HC as ->. auto.
  - rewrite (const_fails _ _ T) in HC. discriminate.
Qed.

Lemma C92_complete : forall D op t u x y s m z,
  wf_operand D t -> wf_operand D u -> holds D t x -> holds D u y ->
  eval_binop D op t u x y = Some (s, m) -> throws_arithmetic (sE s) -> throws_shift (sE s) ->
  constant_policy op (sP s) -> constant_operands D op (st s) x y ->
  math_op op x y = Some z -> representable D op (st s) x y z ->
  constant m = Some z.
Proof.
  intros D op t u x y s m z Wt Wu Hx Hy H HE HS HP HO HM (Ix & Iy & Iz & HX).
  destruct op as [o|b]; cbn [eval_binop] in H.
  2: { destruct HO as [X0 Y0]. destruct (C28_range D b t u x y s m Wt Wu Hx Hy H (or_introl HP) X0 Y0) as (_ & R & _).
       cbn [math_op] in HM. injection HM as <-. exact (const_ret _ _ _ R). }
  destruct (has_static _ _ _ _ _ _ _ _ H) as (oi & Ho).
  destruct o; cbn [math_op constant_policy constant_operands] in *; try (injection HM as <-; cbn [exact] in * ).
  - apply const_ret. apply (proj1 (C38_exact_lemma Add D t u x y s m ltac:(auto) Wt Wu Hx Hy H HE)). auto.
  - apply const_ret. apply (proj1 (C38_exact_lemma Sub D t u x y s m ltac:(auto) Wt Wu Hx Hy H HE)). auto.
  - apply const_ret. apply (proj1 (mul_exact_lemma D t u x y s m Wt Wu Hx Hy H HE)). auto.
  - destruct (Z.eqb_spec y 0) as [E|N]; [discriminate|]. injection HM as <-.
    destruct (div_char D t u x y s m Wt Wu Hx Hy H HE ltac:(left; auto)) as (_ & _ & Q).
    destruct (Q N) as [(R & _)|[F _]]; [exact (const_ret _ _ _ R)|tauto].
  - destruct (Z.eqb_spec y 0) as [E|N]; [discriminate|]. injection HM as <-.
    destruct (mod_char D t u x y s m Wt Wu Hx Hy H HE ltac:(left; auto)) as [_ Q].
    + intros (A & B & [C|C]); [tauto|]. subst y. change (-1) with (Z.opp 1) in HX. rewrite Z.quot_opp_r, Z.quot_1_r in HX by lia.
      destruct (csigned D (st s)) eqn:Es; [pose proof (hi_pos_lo D (st s) Es); unfold in_type in *; lia|pose proof (lo_unsigned D (st s) Es); lia].
    + destruct (Q N) as [(R & _)|[F _]]; [|tauto]. rewrite (const_ret _ _ _ R). unfold remainder. f_equal. pose proof (Z.quot_rem' x y). lia.
  - destruct HX as [X0 Yd]. pose proof (pow_digits D (st s)) as Pd. pose proof (digits_le_width_promote D (st s)) as Dw.
    destruct (shl_outcome D t u x y s m oi Wt Wu Hx Hy H HE HS Ho) as [C1 C2]. cbv zeta in C1, C2. apply const_ret.
    destruct (oi_checked oi).
    + destruct (C1 eq_refl) as [_ C]. apply (proj1 (C (conj Ix Iy))). destruct (Z.eq_dec y 0); [left; assumption|right].
      unfold in_type in Iz. lia.
    + destruct (C2 eq_refl) as [C _]. apply C; lia.
  - destruct HX as [X0 Yd]. pose proof (digits_le_width_promote D (st s)) as Dw.
    destruct (shr_outcome D t u x y s m Wt Wu Hx Hy H HE HS) as [C1 C2]. cbv zeta in C1, C2.
    assert (U : shr_unchecked D (st s) t u \/ ~ shr_unchecked D (st s) t u).
    { unfold shr_unchecked, in_type. destruct (csigned D (st s)), (Z_le_dec (lim_hi D u) (digits D (st s))), (Z_le_dec 0 (lim_lo D t)),
        (Z_le_dec 0 (lim_lo D u)), (Z_le_dec (lo D (st s)) (lim_hi D t)), (Z_le_dec (lim_hi D t) (hi D (st s))), (Z.eq_dec (lim_lo D t) 0),
        (Z_lt_dec (lim_lo D u) 0), (Z_lt_dec (lim_hi D u) 0); intuition (try lia; try discriminate). }
    apply const_ret. destruct U as [U|U].
    + destruct (C1 U) as [R _]. rewrite (conv_id D _ x), (conv_id D _ y) in R by assumption. apply R. lia.
    + destruct (C2 U) as [_ C]. destruct (C (conj Ix Iy)) as (_ & K & _). apply K; lia.
Qed.
