(** BuiltinAllFacts.v -- programs with all ten operators over native safe types and
    the same programs over built-in types. Proofs only. *)
From Coq Require Import ZArith Bool List Lia Arith.
From Verif Require Import Base CType Spec CTypeFacts Utility UtilityFacts SafeCompare
  CheckedInteger CheckedIntegerFacts CheckedResultOps CheckedResultFacts Interval IntervalFacts
  IntervalOpsFacts ExceptionPolicy Promotion SafeBase SafeSpec SafeFacts SafeDivFacts SafeShiftFacts
  SafeConvFacts SafeBitFacts SafeTraceFacts SafePortFacts PropsCheckedProofs PlainCheck SafeIgnoreFacts PropsArithProofs PropsConvProofs
  Program ProgramSpec ProgramFacts BuiltinSpec BuiltinFacts ComposeSpec ComposeFacts BuiltinAllSpec.
Import ListNotations.
Local Open Scope Z_scope.

(** ------------------------------------------------------------------ *)
(** operators *)
Lemma impl_not_returns : forall (A : Type) (m : M A) z, returns m z -> throws_impl m -> False.
Proof. intros A m z H (e & _ & K). rewrite K in H. discriminate. Qed.

(** the count of a << that returns *)
Lemma shl_count : forall D t u x y s m z, wf_operand D t -> wf_operand D u -> holds D t x -> holds D u y ->
  binary D Shl t u x y = Some (s, m) -> throws_arithmetic (sE s) -> throws_shift (sE s) ->
  0 < lim_hi D t -> 0 <= lim_lo D t -> 0 <= lim_lo D u \/ digits D (st s) <= lim_hi D u ->
  returns m z -> 0 <= y < width D (promote D (st s)).
Proof.
  intros D t u x y s m z Ht Hu Hx Hy Hb HE HS Hp Hn Hc R.
  assert (X0 : 0 <= x) by (unfold holds in *; lia).
  destruct (binary_inv _ _ _ _ _ _ _ _ Hb) as (P & E & T & ri & HP & HEp & HR & Hri & -> & Hm).
  cbn [sE st] in *. destruct Hm as [[Hx0 ->]|[Hx1 (W & casts & HW & Hk & _ & ->)]].
  - cbn [exception_possible] in Hx0. apply orb_false_elim in Hx0. destruct Hx0 as [X1 X2].
    assert (Hy0 : 0 <= y).
    { destruct Hc as [Hc|Hc]; [unfold holds in *; lia|]. pose proof (digits_pos D T).
      pose proof (shl_unchecked_count D T t u ri Ht Hu Hri X1 X2 Hp ltac:(lia)). lia. }
    destruct (shl_static D T t u ri Ht Hu Hri) as (_ & _ & Hs).
    destruct (Hs X1 X2 x y Hx Hy Hy0) as (K & _ & _). destruct (K X0 Hp) as (Ix & Iy & Iz & E1).
    rewrite !conv_id in E1 by assumption. cbn [raw_op] in E1. unfold c_shl in E1.
    destruct (Z.ltb_spec y 0); [discriminate|]. cbn [orb] in E1.
    destruct (Z.leb_spec (width D (promote D T)) y); [discriminate|]. lia.
  - cbn [work_type] in HW. injection HW as <-.
    destruct (casting_helper_throws _ _ _ _ _ _ _ _ HE Ht Hu Hx Hy Hk) as [(Ix & Iy & ->)|[_ Tc]];
      [|exfalso; eapply not_both; [exact R|apply mbind_throws; assumption]].
    unfold checked_run in R. rewrite mbind_ret in R. cbn [fst snd checked_op] in R.
    rewrite left_shift_spec in R by assumption. cbn [mlift] in R. rewrite mbind_ret in R.
    assert (Ti : forall e (k : checked -> M Z), shift_err e -> returns (mbind (dispatch_and_return E (CErr e)) k) z -> False).
    { intros e k He K. eapply impl_not_returns; [exact K|]. apply mbind_throws_impl, dar_impl; assumption. }
    pose proof (digits_le_width_promote D T). pose proof (digits_pos D T).
    destruct (Z.eqb_spec y 0); [lia|].
    destruct (Z.ltb_spec y 0); [exfalso; eapply Ti; [|exact R]; unfold shift_err; auto|].
    destruct (Z.ltb_spec (digits D T) y); [exfalso; eapply Ti; [|exact R]; unfold shift_err; auto|].
    destruct (Z.ltb_spec x 0); [lia|]. destruct (Z.eqb_spec x 0).
    + destruct (Z.ltb_spec y (digits D T)); [lia|]. exfalso; eapply Ti; [|exact R]; unfold shift_err; auto.
    + destruct (Z.leb_spec (x * 2 ^ y) (hi D T)); [|exfalso; eapply Ti; [|exact R]; unfold shift_err; auto].
      assert (y < digits D T); [|lia]. apply (Z.pow_lt_mono_r_iff 2); [lia|lia|]. rewrite (pow_digits D T).
      pose proof (pow2_pos y ltac:(lia)). nia.
Qed.

(** the count of a >> that returns *)
Lemma shr_count : forall D t u x y s m z, wf_operand D t -> wf_operand D u -> holds D t x -> holds D u y ->
  binary D Shr t u x y = Some (s, m) -> throws_arithmetic (sE s) -> throws_shift (sE s) ->
  csigned D (st s) = true \/ (0 <= lim_lo D u /\ y <> digits D (st s)) ->
  returns m z -> 0 <= y < width D (promote D (st s)).
Proof.
  intros D t u x y s m z Ht Hu Hx Hy Hb HE HS Hsg R.
  destruct (binary_inv _ _ _ _ _ _ _ _ Hb) as (P & E & T & ri & HP & HEp & HR & Hri & -> & Hm).
  cbn [sE st] in *.
  destruct (shr_static D T t u ri Ht Hu Hri) as (_ & Hst).
  destruct (Hst ltac:(tauto) x y Hx Hy) as [_ Hunc]. clear Hst.
  assert (Hyw : 0 <= y <= digits D T -> y < width D (promote D T)).
  { intros Hyd. destruct Hsg as [Hs|[_ Hne]].
    - pose proof (digits_lt_width_promote D T Hs). lia.
    - pose proof (digits_le_width_promote D T). lia. }
  destruct Hm as [[Hx0 ->]|[Hx1 (W & casts & HW & Hk & _ & ->)]].
  - destruct (Hunc Hx0) as (_ & _ & _ & K). specialize (Hyw K). lia.
  - cbn [work_type] in HW. injection HW as <-.
    destruct (casting_helper_throws _ _ _ _ _ _ _ _ HE Ht Hu Hx Hy Hk) as [(Ix & Iy & ->)|[_ Tc]];
      [|exfalso; eapply not_both; [exact R|apply mbind_throws; assumption]].
    unfold checked_run in R. rewrite mbind_ret in R. cbn [fst snd checked_op] in R.
    rewrite right_shift_spec in R by assumption.
    assert (Ti : forall e (k : checked -> M Z), shift_err e -> returns (mbind (dispatch_and_return E (CErr e)) k) z -> False).
    { intros e k He K. eapply impl_not_returns; [exact K|]. apply mbind_throws_impl, dar_impl; assumption. }
    destruct (Z.ltb_spec y 0); [exfalso; cbn [mlift] in R; rewrite mbind_ret in R; eapply Ti; [|exact R]; unfold shift_err; auto|].
    destruct (Z.ltb_spec (digits D T) y); [exfalso; cbn [mlift] in R; rewrite mbind_ret in R; eapply Ti; [|exact R]; unfold shift_err; auto|].
    specialize (Hyw ltac:(lia)). lia.
Qed.

(** the operands of a % that returns *)
Lemma mod_operands : forall D t u x y s m z,
  wf_operand D t -> wf_operand D u -> holds D t x -> holds D u y ->
  binary D Mod t u x y = Some (s, m) -> sP s = Native -> throws_arithmetic (sE s) ->
  returns m z -> in_type D (st s) x /\ in_type D (st s) y.
Proof.
  intros D t u x y s m z Ht Hu Hx Hy H HP HE R.
  assert (HR := native_type D Mod t u x y s m H HP). cbn [built_in_type] in HR.
  destruct (binary_inv _ _ _ _ _ _ _ _ H) as (P & E & T & ri & H1 & H2 & H3 & H4 & Es & K).
  assert (ER : st s = T) by (rewrite Es; reflexivity). assert (EE : sE s = E) by (rewrite Es; reflexivity).
  assert (EP : sP s = P) by (rewrite Es; reflexivity).
  destruct (large_enough_fits D P Mod T t u (smin s) (smax s) E Ht Hu ltac:(auto) H3 ltac:(left; cbn; congruence))
    as (Ft & Fu & _).
  destruct K as [[X0 ->]|[X1 (W & casts & HW & Hk & _ & ->)]].
  - destruct (mod_fits_unchecked D T t u ri Ht Hu Ft Fu H4 X0 x y Hx Hy) as (_ & K1 & K2). rewrite ER. auto.
  - cbn [work_type] in HW. rewrite <- ER, HR in HW.
    destruct (div_temp_native D (base_ty t) (base_ty u)) as (W' & HW' & L1 & L2).
    assert (W' = W) as -> by congruence. rewrite <- HR in L1, L2. rewrite EE in HE.
    destruct (casting_helper_throws _ _ _ _ _ _ _ _ HE Ht Hu Hx Hy Hk) as [(Kx & Ky & _)|[Kn Tc]].
    + unfold in_type in *. lia.
    + exfalso. eapply not_both; [exact R|apply mbind_throws; assumption].
Qed.

(** the built-in operator *)
Definition bop (D : dmodel) (op : binop) (T U : ctype) (x y : Z) : res Z :=
  match op with
  | BA o => built_in D o T U x y
  | BB o => Ok (built_in_bit D o T U x y)
  end.
Definition bop_type (D : dmodel) (op : binop) (T U : ctype) : ctype :=
  match op with BA o => built_in_type D o T U | BB _ => uac D T U end.

Lemma bop_promotes : forall D op T U T' U' x y, promote D T = promote D T' -> promote D U = promote D U' ->
  bop D op T U x y = bop D op T' U' x y.
Proof.
  intros D op T U T' U' x y H K. pose proof (uac_promotes D T U T' U' H K) as E.
  destruct op as [o|b]; cbn [bop].
  - destruct o; cbn [built_in]; unfold c_add, c_sub, c_mul, c_arith, c_div, c_rem, c_shl, c_shr; rewrite ?E, ?H; reflexivity.
  - rewrite !built_in_bit_eq, E. reflexivity.
Qed.
Lemma bop_type_promotes : forall D op T U T' U', promote D T = promote D T' -> promote D U = promote D U' ->
  bop_type D op T U = bop_type D op T' U'.
Proof.
  intros D op T U T' U' H K. pose proof (uac_promotes D T U T' U' H K) as E.
  destruct op as [o|b]; cbn [bop_type]; [|assumption]. destruct o; cbn [built_in_type]; assumption.
Qed.
Lemma bop_result : forall D op t u x y rs m, eval_binop D op t u x y = Some (rs, m) -> sP rs = Native ->
  st rs = bop_type D op (base_ty t) (base_ty u).
Proof.
  intros D [o|b] t u x y rs m H HP; cbn [eval_binop bop_type] in *.
  - exact (native_type _ _ _ _ _ _ _ _ H HP).
  - exact (proj1 (bitwise_value _ _ _ _ _ _ _ _ H (or_introl HP))).
Qed.

Lemma fine_ok : forall n D t, type_fine n D t -> type_ok n D t.
Proof. intros n D t [H _]. exact H. Qed.

Lemma op_built_in2 : forall D op t u x y rs m z T U,
  exact_operator true D op t u rs \/ storable D op t u rs -> shl_defined D op t u ->
  type_fine true D t -> type_fine true D u -> holds D t x -> holds D u y ->
  eval_binop D op t u x y = Some (rs, m) -> returns m z ->
  promote D (base_ty t) = promote D T -> promote D (base_ty u) = promote D U ->
  bop D op T U x y = Ok z.
Proof.
  intros D op t u x y rs m z T U Hop Hsd Tt Tu Hx Hy H R PT PU.
  rewrite <- (bop_promotes D op (base_ty t) (base_ty u) T U x y PT PU).
  destruct (eval_fine true D op t u x y rs m Tt Tu H) as (HE & HS & HN & _). specialize (HN eq_refl).
  pose proof (proj1 (proj1 Tt)) as Wt. pose proof (proj1 (proj1 Tu)) as Wu.
  pose proof (bop_result D op t u x y rs m H HN) as Hst.
  assert (Hfour : forall o, four o -> op = BA o -> bop D op (base_ty t) (base_ty u) x y = Ok z).
  { intros o Ho ->. exact (op_built_in D o t u x y rs m z _ _ Ho (proj1 Tt) (proj1 Tu) Hx Hy H R eq_refl eq_refl). }
  assert (HC : math_op op x y = Some z /\ in_type D (st rs) z).
  { destruct Hop as [Hop|Hop].
    - destruct (exact_char true D op t u x y rs m Hop Tt Tu Hx Hy H) as [(( (W1 & W2 & _) & _) & _) [(z' & M1 & M2 & M3)|F]];
        [|exfalso; exact (returns_fails _ _ _ R F)].
      rewrite (returns_inj _ _ _ _ R M2). split; [assumption|]. unfold holds, in_type in *. cbn in *. lia.
    - destruct (storable_char true D op t u x y rs m Hop Tt Tu Hx Hy H) as [(z' & M1 & M2 & M3)|F];
        [|exfalso; exact (returns_fails _ _ _ R F)].
      rewrite (returns_inj _ _ _ _ R M2). auto. }
  destruct HC as [Hm Iz].
  destruct op as [[| | | | | |]|b]; try (apply (Hfour Add); [unfold four; auto|reflexivity]);
    try (apply (Hfour Sub); [unfold four; auto|reflexivity]); try (apply (Hfour Mul); [unfold four; auto|reflexivity]);
    try (apply (Hfour Div); [unfold four; auto|reflexivity]); cbn [exact_operator storable eval_binop bop built_in bop_type built_in_type] in *.
  - destruct Hop as [[]|[_ Hmin]].
    destruct (mod_operands D t u x y rs m z Wt Wu Hx Hy H HN HE R) as [Ix Iy].
    cbn [math_op] in Hm. destruct (Z.eqb_spec y 0) as [|Y0]; [discriminate|]. injection Hm as Hm.
    unfold c_rem. rewrite <- Hst. rewrite !conv_id by assumption. destruct (Z.eqb_spec y 0); [contradiction|].
    rewrite fin_ok; [cbn; congruence|].
    apply quot_range; auto. intros (Hs & -> & ->). pose proof (hi_pos_lo D (st rs) Hs). pose proof (hi_ge_127 D (st rs)). unfold holds in *. lia.
  - destruct Hop as [[Hp Hc]|[]]. cbn [math_op exact] in Hm. injection Hm as Hm.
    pose proof (shl_count D t u x y rs m z Wt Wu Hx Hy H HE HS Hp (Hsd eq_refl) ltac:(tauto) R) as Hcount.
    assert (X0 : 0 <= x) by (specialize (Hsd eq_refl); unfold holds in *; lia).
    unfold c_shl. rewrite <- Hst. rewrite Hst, promote_idem, <- Hst in Hcount.
    destruct (Z.ltb_spec y 0); [lia|]. destruct (Z.leb_spec (width D (st rs)) y); [lia|]. cbn [orb].
    rewrite Hm. rewrite conv_id by assumption. destruct (csigned D (st rs)); [|reflexivity].
    destruct (Z.ltb_spec x 0); [lia|]. destruct (Z.leb_spec z (hi D (to_unsigned (st rs)))) as [|L]; [reflexivity|].
    exfalso. pose proof (to_unsigned_hi D (st rs)). unfold in_type in Iz. lia.
  - destruct Hop as [Hop|[]]. cbn [math_op exact] in Hm. injection Hm as Hm.
    assert (Hc : csigned D (st rs) = true \/ (0 <= lim_lo D u /\ y <> digits D (st rs))).
    { unfold holds in *. destruct Hop as [Hs|[H0 H1]]; [left|right]; auto. split; [assumption|]. lia. }
    pose proof (shr_count D t u x y rs m z Wt Wu Hx Hy H HE HS Hc R) as Hcount.
    unfold c_shr. rewrite <- Hst. rewrite Hst, promote_idem, <- Hst in Hcount.
    destruct (Z.ltb_spec y 0); [lia|]. destruct (Z.leb_spec (width D (st rs)) y); [lia|]. cbn [orb]. congruence.
  - destruct (bitwise_value D b t u x y rs m H (or_introl HN)) as (_ & R' & _).
    f_equal. symmetry. exact (returns_inj _ _ _ _ R R').
Qed.

(** ------------------------------------------------------------------ *)
(** expressions *)
Lemma low_store_fine : forall n D G, (forall v, type_fine n D (G v)) ->
  store_ok D G (low_store D G) (fun v => lim_lo D (G v)).
Proof. intros n D G HG. apply (low_store_ok n). intros v. apply HG. Qed.

Lemma type_of_fine : forall n D G e t, (forall v, type_fine n D (G v)) -> expr_fine n D G None e ->
  type_of D G e = Some t -> type_fine n D t.
Proof.
  intros n D G e t HG He Ht.
  apply (outcome_none _ _ _ _ _ (expr_char2 n D G (low_store D G) _ e None t HG (low_store_fine n D G HG) He Ht)).
Qed.
Lemma fine_any : forall n D G e tgt, expr_fine n D G None e -> expr_fine n D G tgt e.
Proof.
  intros n D G e tgt H. destruct e; cbn [expr_fine] in *; auto.
  destruct H as (A & B & C). splits; auto. intros t u Ht Hu s m K.
  destruct (C t u Ht Hu s m K) as [X|[_ []]]. left. assumption.
Qed.

Lemma type_of_btype2 : forall D G, (forall v, type_fine true D (G v)) ->
  forall e tgt t, expr_fine true D G tgt e -> type_of D G e = Some t ->
  promote D (base_ty t) = promote D (btype D G e).
Proof.
  intros D G HG. induction e as [o z|v|op first a IHa b IHb|a IHa|a IHa|o a IHa]; intros tgt t He Ht;
  cbn [type_of expr_fine] in *.
  - injection Ht as <-. reflexivity.
  - injection Ht as <-. reflexivity.
  - destruct He as (Ha & Hb & Hop).
    destruct (type_of D G a) as [ta|] eqn:Ea; [|discriminate]. destruct (type_of D G b) as [tb|] eqn:Eb; [|discriminate].
    destruct (eval_binop D op ta tb 0 0) as [[rs m0]|] eqn:E; [|discriminate]. cbn in Ht. injection Ht as <-.
    cbn [base_ty].
    destruct (eval_fine true D op ta tb 0 0 rs m0 (type_of_fine _ _ _ _ _ HG Ha Ea) (type_of_fine _ _ _ _ _ HG Hb Eb) E)
      as (_ & _ & HN & _).
    rewrite (bop_result D op ta tb 0 0 rs m0 E (HN eq_refl)).
    replace (btype D G (EBin op first a b)) with (bop_type D op (btype D G a) (btype D G b)) by (destruct op; reflexivity).
    f_equal. apply bop_type_promotes; eauto.
  - destruct (type_of D G a) as [[T|ts|T N P E]|] eqn:Ea; try discriminate.
    destruct (unary_minus D ts 0) as [[rs m0]|] eqn:Eb; [|discriminate]. cbn in Ht. injection Ht as <-.
    cbn [base_ty btype].
    rewrite (result_type D Sub (ORaw Int) (OSafe ts) 0 0 rs m0 ltac:(unfold four; auto) (int_ok _ _) (fine_ok _ _ _ (type_of_fine _ _ _ _ _ HG He Ea)) Eb).
    cbn [base_ty]. rewrite uac_int, !promote_idem. apply (IHa None (OSafe ts)); auto.
  - destruct (type_of D G a) as [[T|ts|T N P E]|] eqn:Ea; try discriminate. cbn in Ht. injection Ht as <-.
    cbn [btype]. rewrite promote_idem. apply (IHa None); auto.
  - destruct (type_of D G a) as [ta|]; [|discriminate].
    destruct (convert D o ta 0); [|discriminate]. cbn in Ht. injection Ht as <-. reflexivity.
Qed.

Lemma type_of_in2 : forall D G, (forall v, type_fine true D (G v)) ->
  forall e t x, expr_fine true D G None e -> type_of D G e = Some t ->
  in_type D (base_ty t) x -> in_type D (btype D G e) x.
Proof.
  intros D G HG. induction e as [o z|v|op first a IHa b IHb|a IHa|a IHa|o a IHa]; intros t x He Ht Hx;
  pose proof (type_of_btype2 D G HG _ _ _ He Ht) as Hp; cbn [type_of expr_fine] in *.
  - injection Ht as <-. assumption.
  - injection Ht as <-. assumption.
  - destruct He as (Ha & Hb & Hop).
    destruct (type_of D G a) as [ta|] eqn:Ea; [|discriminate]. destruct (type_of D G b) as [tb|] eqn:Eb; [|discriminate].
    destruct (eval_binop D op ta tb 0 0) as [[rs m0]|] eqn:E; [|discriminate]. cbn in Ht. injection Ht as <-.
    destruct (eval_fine true D op ta tb 0 0 rs m0 (type_of_fine _ _ _ _ _ HG Ha Ea) (type_of_fine _ _ _ _ _ HG Hb Eb) E)
      as (_ & _ & HN & _).
    cbn [base_ty] in Hx. rewrite (bop_result D op ta tb 0 0 rs m0 E (HN eq_refl)) in Hx.
    replace (btype D G (EBin op first a b)) with (bop_type D op (btype D G a) (btype D G b)) by (destruct op; reflexivity).
    rewrite <- (bop_type_promotes D op (base_ty ta) (base_ty tb)); [assumption| |];
      eapply type_of_btype2; eassumption.
  - cbn [btype] in *. rewrite promote_idem in Hp. rewrite <- Hp. apply promote_in. assumption.
  - cbn [btype] in *. rewrite promote_idem in Hp. rewrite <- Hp. apply promote_in. assumption.
  - destruct (type_of D G a) as [ta|]; [|discriminate].
    destruct (convert D o ta 0); [|discriminate]. cbn in Ht. injection Ht as <-. assumption.
Qed.

Lemma conv_fine : forall n D o x, type_fine n D o -> holds D o x -> conv D (base_ty o) x = x.
Proof. intros n D o x T H. exact (conv_holds n D o x (proj1 T) H). Qed.

(** both operands returned *)
Lemma both_inv : forall (B : Type) first (ma mb : M Z) (k : Z * Z -> M B) z,
  (exists x, returns ma x) \/ fails ma -> (exists y, returns mb y) \/ fails mb ->
  returns (mbind (both first ma mb) k) z ->
  exists x y, returns ma x /\ returns mb y /\ returns (k (x, y)) z.
Proof.
  intros B first ma mb k z Ra Rb R.
  destruct (both_fails first ma mb Ra Rb) as [(x & y & Hx & Hy & Hp)|F].
  - rewrite (bind_ret _ _ _ _ _ Hp) in R. eauto 6.
  - exfalso. eapply returns_fails; [exact R|]. apply mbind_fails. assumption.
Qed.
Lemma one_inv : forall (A B : Type) (m : M A) (k : A -> M B) z,
  (exists x, returns m x) \/ fails m -> returns (mbind m k) z ->
  exists x, returns m x /\ returns (k x) z.
Proof.
  intros A B m k z [(x & Hx)|F] R.
  - rewrite (bind_ret _ _ _ _ _ Hx) in R. eauto.
  - exfalso. eapply returns_fails; [exact R|]. apply mbind_fails. assumption.
Qed.
(** an expression used as an operand *)
Lemma operand2 : forall D G s i e t, (forall v, type_fine true D (G v)) -> store_ok D G s i ->
  expr_fine true D G None e -> type_of D G e = Some t ->
  type_fine true D t /\ ((exists x, returns (eval D G s e) x) \/ fails (eval D G s e))
  /\ (forall x, returns (eval D G s e) x -> holds D t x).
Proof.
  intros D G s i e t HG Hs He Ht.
  destruct (outcome_none _ _ _ _ _ (expr_char2 true D G s i e None t HG Hs He Ht)) as [T K].
  splits; auto.
  - destruct K as [(z & _ & R & _)|F]; eauto.
  - intros x R. destruct K as [(z & _ & R' & H)|F]; [|exfalso; exact (returns_fails _ _ _ R F)].
    rewrite (returns_inj _ _ _ _ R R'). assumption.
Qed.
Lemma outcome_total : forall n D tgt t v m, outcome_ok n D tgt t v m -> (exists x, returns m x) \/ fails m.
Proof. intros n D tgt t v m [[_ [(z & _ & R & _)|F]]|(s & _ & _ & _ & [(z & _ & R & _)|F])]; eauto. Qed.

(** a returned conversion returns the value itself *)
Lemma convert_same : forall D G s i e o t z m0, (forall v, type_fine true D (G v)) -> store_ok D G s i ->
  type_fine true D o -> expr_fine true D G (Some o) e -> type_of D G e = Some t -> convert D o t 0 = Some m0 ->
  returns (mbind (eval D G s e) (fun x => run (convert D o t x))) z ->
  returns (eval D G s e) z /\ holds D o z.
Proof.
  intros D G s i e o t z m0 HG Hs To He Ht Hc R.
  pose proof (expr_char2 true D G s i e (Some o) t HG Hs He Ht) as K.
  destruct (outcome_convert true D o t _ _ m0 To K Hc) as [(z' & Hv & R' & Hh)|F];
    [|exfalso; exact (returns_fails _ _ _ R F)].
  pose proof (returns_inj _ _ _ _ R R'). subst z'. split; [|assumption].
  destruct (one_inv _ _ _ _ _ (outcome_total _ _ _ _ _ _ K) R) as (x & Hx & _).
  replace z with x; [assumption|].
  destruct K as [[_ [(w & Hw & Rw & _)|F]]|(w0 & _ & _ & _ & [(w & Hw & Rw & _)|F])];
    try (exfalso; exact (returns_fails _ _ _ Hx F)).
  - pose proof (returns_inj _ _ _ _ Hx Rw). congruence.
  - pose proof (returns_inj _ _ _ _ Hx Rw). congruence.
Qed.

Lemma beval_char2 : forall D G s i, (forall v, type_fine true D (G v)) -> store_ok D G s i ->
  forall e tgt t z, expr_fine true D G tgt e -> every_op (shl_defined D) D G e ->
  type_of D G e = Some t -> returns (eval D G s e) z ->
  beval D G i e = Ok z.
Proof.
  intros D G s i HG Hs. induction e as [o c|v|op first a IHa b IHb|a IHa|a IHa|o a IHa]; intros tgt t z He Hd Ht R;
  cbn [type_of expr_fine every_op eval beval] in *.
  - unfold returns, mret in R. congruence.
  - destruct (Hs v) as [Ev _]. unfold read in R. rewrite Ev in R. unfold returns, mret in R. congruence.
  - destruct He as (Ha & Hb & Hop). destruct Hd as (Da & Db & Dop).
    destruct (type_of D G a) as [ta|] eqn:Ea; [|discriminate]. destruct (type_of D G b) as [tb|] eqn:Eb; [|discriminate].
    destruct (eval_binop D op ta tb 0 0) as [[rs m0]|] eqn:E; [|discriminate]. cbn in Ht. injection Ht as <-.
    destruct (operand2 D G s i a ta HG Hs Ha Ea) as (Ta & Ra & Ia). destruct (operand2 D G s i b tb HG Hs Hb Eb) as (Tb & Rb & Ib).
    destruct (both_inv _ _ _ _ _ _ Ra Rb R) as (x & y & Hx & Hy & R1). cbn [fst snd] in R1.
    destruct (eval_binop_any D op ta tb 0 0 x y rs m0 E) as (k & K). rewrite K in R1. cbn [run_snd] in R1.
    rewrite (IHa None ta x Ha Da eq_refl Hx), (IHb None tb y Hb Db eq_refl Hy). cbn [rbind].
    specialize (Hop ta tb eq_refl eq_refl rs m0 E).
    refine (op_built_in2 D op ta tb x y rs k z _ _ _ (Dop ta tb eq_refl eq_refl) Ta Tb (Ia x Hx) (Ib y Hy) K R1 _ _);
      [tauto| |]; eapply type_of_btype2; eassumption.
  - destruct (type_of D G a) as [[T|ts|T N P E]|] eqn:Ea; try discriminate.
    destruct (unary_minus D ts 0) as [[rs m0]|] eqn:Eb; [|discriminate]. cbn in Ht. injection Ht as <-.
    destruct (operand2 D G s i a (OSafe ts) HG Hs He Ea) as (Ta & Ra & Ia).
    destruct (one_inv _ _ _ _ _ Ra R) as (x & Hx & R1). rewrite (IHa None _ x He Hd eq_refl Hx). cbn [rbind].
    destruct (binary_any D Sub _ _ 0 0 0 x rs m0 Eb) as (k & K). unfold unary_minus in R1. rewrite K in R1. cbn [run_snd] in R1.
    destruct (unary_minus_char true D ts x rs k (proj1 Ta) (Ia x Hx) K) as [Tr [[M2 M3]|F]]; [|exfalso; exact (not_both _ _ _ R1 F)].
    pose proof (returns_inj _ _ _ _ R1 M2). subst z.
    pose proof (result_type D Sub (ORaw Int) (OSafe ts) 0 x rs k ltac:(unfold four; auto) (int_ok _ _) (proj1 Ta) K) as Hst.
    cbn [base_ty] in Hst. rewrite uac_int in Hst.
    pose proof (type_of_btype2 D G HG a None (OSafe ts) He Ea) as Hb. cbn [base_ty] in Hb.
    unfold c_neg. rewrite <- Hb, <- Hst. apply fin_ok. apply (holds_in D (OSafe rs)); [exact (proj1 Tr)|exact M3].
  - destruct (type_of D G a) as [[T|ts|T N P E]|] eqn:Ea; try discriminate. cbn in Ht. injection Ht as <-.
    destruct (operand2 D G s i a (OSafe ts) HG Hs He Ea) as (Ta & Ra & Ia).
    destruct (one_inv _ _ _ _ _ Ra R) as (x & Hx & R1). rewrite (IHa None _ x He Hd eq_refl Hx).
    f_equal. exact (returns_inj _ (mret x) x z eq_refl R1).
  - destruct He as [To Ha]. destruct (type_of D G a) as [ta|] eqn:Ea; [|discriminate].
    destruct (convert D o ta 0) as [m0|] eqn:Ec; [|discriminate]. cbn in Ht. injection Ht as <-.
    destruct (convert_same D G s i a o ta z m0 HG Hs To Ha Ea Ec R) as [R1 Hz].
    rewrite (IHa (Some o) ta z Ha Hd eq_refl R1). cbn [rbind]. f_equal. eapply conv_fine; eassumption.
Qed.

(** ------------------------------------------------------------------ *)
(** conditions *)
Lemma bcond_char2 : forall D G s i c t, (forall v, type_fine true D (G v)) -> store_ok D G s i ->
  cond_fine true D G c -> every_op_cond (shl_defined D) D G c -> cond_compiles D G c = true -> cond_lossless D G c ->
  returns (eval_cond D G s c) t -> bcond D G i c = Ok t.
Proof.
  intros D G s i [r first a b] t HG Hs [Ha Hb] [Da Db] Hc [La Lb] R. cbn [cond_compiles eval_cond bcond] in *.
  destruct (type_of D G a) as [ta|] eqn:Eta; [|discriminate].
  destruct (type_of D G b) as [tb|] eqn:Etb; [|discriminate].
  destruct (eval_relop D r ta tb 0 0) as [m0|] eqn:Er; [|discriminate].
  destruct (operand2 D G s i a ta HG Hs Ha Eta) as (Ta & Ra & Ia). destruct (operand2 D G s i b tb HG Hs Hb Etb) as (Tb & Rb & Ib).
  destruct (both_inv _ _ _ _ _ _ Ra Rb R) as (x & y & Hx & Hy & R1). cbn [fst snd] in R1.
  destruct (eval_relop_any D r ta tb 0 0 x y m0 Er) as (k & K). rewrite K in R1. cbn [run] in R1.
  destruct (eval_relop_char true D r ta tb x y k (proj1 Ta) (proj1 Tb) (Ia x Hx) (Ib y Hy) K) as [R2|F]; [|exfalso; exact (not_both _ _ _ R1 F)].
  rewrite (returns_inj _ _ _ _ R1 R2).
  rewrite (beval_char2 D G s i HG Hs a None ta x Ha Da Eta Hx), (beval_char2 D G s i HG Hs b None tb y Hb Db Etb Hy). cbn [rbind].
  f_equal. apply brel_exact.
  - pose proof (type_of_in2 D G HG a ta x Ha Eta (holds_in _ _ _ (proj1 (proj1 Ta)) (Ia x Hx))).
    pose proof (uac_hi_l D (btype D G a) (btype D G b)). unfold in_type in *. lia.
  - pose proof (type_of_in2 D G HG b tb y Hb Etb (holds_in _ _ _ (proj1 (proj1 Tb)) (Ib y Hy))).
    pose proof (uac_hi_r D (btype D G a) (btype D G b)). unfold in_type in *. lia.
Qed.

(** ------------------------------------------------------------------ *)
(** compound assignment *)
Lemma compound_eval : forall D op tgt u x y m, compound D op tgt u x y = Some m ->
  exists rs m0 c0, eval_binop D op tgt u x y = Some (rs, m0) /\ convert D tgt (OSafe rs) 0 = Some c0
  /\ m = mbind m0 (fun z => run (convert D tgt (OSafe rs) z)).
Proof.
  intros D op tgt u x y m H. unfold compound in H. destruct (eval_binop D op tgt u x y) as [[rs m0]|]; [|discriminate].
  destruct tgt as [T|s|T N P E]; [| |discriminate].
  - destruct (to_builtin D T rs 0) as [c0|] eqn:Ec; [|discriminate]. injection H as <-.
    exists rs, m0, c0. splits; auto.
  - destruct (construct D s (OSafe rs) 0) as [c0|] eqn:Ec; [|discriminate]. injection H as <-.
    exists rs, m0, c0. splits; auto.
Qed.

Lemma update_built_in2 : forall D op tgt u U x y m z,
  operator_fine true D (Some tgt) op tgt u -> shl_defined D op tgt u ->
  type_fine true D tgt -> type_fine true D u -> holds D tgt x -> holds D u y ->
  promote D (base_ty u) = promote D U ->
  compound D op tgt u x y = Some m -> returns m z ->
  holds D tgt z /\ rmap (fun z => conv D (base_ty tgt) z) (bop D op (base_ty tgt) U x y) = Ok z.
Proof.
  intros D op tgt u U x y m z Hop Hsd Tt Tu Hx Hy PU H R.
  destruct (compound_char2 true D op tgt u x y m Hop Tt Tu Hx Hy H) as [(z' & M1 & M2 & M3)|F];
    [|exfalso; exact (returns_fails _ _ _ R F)].
  pose proof (returns_inj _ _ _ _ R M2). subst z'. split; [assumption|].
  destruct (compound_eval D op tgt u x y m H) as (rs & m0 & c0 & Eb & _ & ->).
  destruct (eval_binop_any D op tgt u x y 0 0 rs m0 Eb) as (k0 & E0). specialize (Hop rs k0 E0).
  assert (Hop' : exact_operator true D op tgt u rs \/ storable D op tgt u rs) by tauto.
  assert (K : (exists w, math_op op x y = Some w /\ returns m0 w) \/ fails m0).
  { destruct Hop' as [Ho|Ho].
    - destruct (exact_char true D op tgt u x y rs m0 Ho Tt Tu Hx Hy Eb) as [_ [(w & A & B & _)|F]]; eauto.
    - destruct (storable_char true D op tgt u x y rs m0 Ho Tt Tu Hx Hy Eb) as [(w & A & B & _)|F]; eauto. }
  destruct K as [(w & Hw & Rw)|F]; [|exfalso; eapply returns_fails; [exact R|apply mbind_fails; assumption]].
  assert (w = z) by congruence. subst w.
  rewrite (op_built_in2 D op tgt u x y rs m0 z (base_ty tgt) U Hop' Hsd Tt Tu Hx Hy Eb Rw eq_refl PU).
  cbn. f_equal. eapply conv_fine; eassumption.
Qed.

(** ------------------------------------------------------------------ *)
(** commands *)
Lemma int_fine : forall n D, type_fine n D (ORaw Int).
Proof. intros n D. split; [apply int_ok|]. intros E [=]. Qed.
Lemma step_fine : forall inc D tgt t u, operator_fine true D tgt (BA (step_op inc)) t u.
Proof. intros [|] D tgt t u s m _; left; exact I. Qed.
Lemma step_defined : forall inc D t u, shl_defined D (BA (step_op inc)) t u.
Proof. intros [|] D t u [=]. Qed.

Lemma update_done2 : forall D G s i v op u U y m0, (forall v, type_fine true D (G v)) -> store_ok D G s i ->
  operator_fine true D (Some (G v)) op (G v) u -> shl_defined D op (G v) u ->
  type_fine true D u -> holds D u y -> promote D (base_ty u) = promote D U ->
  compound D op (G v) u 0 m0 <> None ->
  forall s', finish s (mbind (read s v) (fun x => run (compound D op (G v) u x y))) (fun z => upd s v (Some z)) = (s', RDone) ->
  exists z, rmap (fun z => conv D (base_ty (G v)) z) (bop D op (base_ty (G v)) U (i v) y) = Ok z
  /\ holds D (G v) z /\ s' = upd s v (Some z).
Proof.
  intros D G s i v op u U y m0 HG Hs Hop Hsd Tu Hy PU Hc s' H. destruct (Hs v) as [Ev Iv].
  unfold read in H. rewrite Ev, mbind_ret in H.
  destruct (compound D op (G v) u 0 m0) as [k0|] eqn:Ec; [|congruence].
  destruct (compound_any D op (G v) u 0 m0 (i v) y k0 Ec) as (k & K). rewrite K in H. cbn [run] in H.
  destruct (finish_inv _ _ _ _ _ H) as (z & l & Hk & ->).
  assert (R : returns k z).
  { destruct (compound_char2 true D op (G v) u (i v) y k Hop (HG v) Tu Iv Hy K) as [(w & _ & M2 & _)|F].
    - rewrite M2 in Hk. unfold returns. rewrite M2. congruence.
    - destruct (fails_throw _ _ F) as (l' & e & T). congruence. }
  destruct (update_built_in2 D op (G v) u U (i v) y k z Hop Hsd (HG v) Tu Iv Hy PU K R) as [Hz Ez]. eauto.
Qed.

Lemma bloop_char2 : forall D G c, (forall v, type_fine true D (G v)) -> cond_fine true D G c ->
  every_op_cond (shl_defined D) D G c -> cond_compiles D G c = true -> cond_lossless D G c ->
  forall body bbody,
  (forall s i s', store_ok D G s i -> body s = Some (s', RDone) -> same D G s' (bbody i)) ->
  forall k s i s', store_ok D G s i -> loop (fun s => eval_cond D G s c) body k s = Some (s', RDone) ->
  same D G s' (bloop (fun i => bcond D G i c) bbody k i).
Proof.
  intros D G c HG Hc Hd Hcc Hl body bbody Hb. induction k as [|k IH]; intros s i s' Hs H; cbn [loop bloop] in *; [discriminate|].
  destruct (cond_char2 true D G s i c HG Hs Hc Hcc) as [(t & Ht & Rt)|(l & e & Te)%fails_throw].
  - rewrite (bcond_char2 D G s i c t HG Hs Hc Hd Hcc Hl Rt). rewrite Rt in H. cbn [snd] in H. destruct t.
    + destruct (body s) as [[s1 [|e|]]|] eqn:Eb; try discriminate.
      destruct (Hb s i s1 Hs Eb) as (i1 & -> & Hs1). apply IH with (s := s1); assumption.
    + injection H as <-. exists i. auto.
  - rewrite Te in H. discriminate.
Qed.

Lemma bexec_char2 : forall D G fuel, (forall v, type_fine true D (G v)) ->
  forall c s i s', cmd_fine true D G c -> every_op_cmd (shl_defined D) D G c -> compiles D G c = true ->
  no_try c -> conds_lossless D G c -> store_ok D G s i ->
  exec fuel D G s c = Some (s', RDone) -> same D G s' (bexec fuel D G i c).
Proof.
  intros D G fuel HG. induction c as [|v|v e|op v e|v|v|inc w v|a IHa b IHb|c a IHa b IHb|c a IHa|a IHa b IHb];
  intros s i s' Hok Hd Hc Hn Hl Hs H; pose proof Hok as Hok0; pose proof Hc as Hc0; pose proof H as H0;
  cbn [exec cmd_fine every_op_cmd compiles no_try conds_lossless bexec] in *.
  - injection H as <-. exists i. auto.
  - exfalso. destruct (exec_good2 true D G fuel HG (CDefault v) s i s' RDone Hok0 Hc0 Hs H0) as (i' & _ & [[_ K]|(e & K & _)]);
      [inversion K|discriminate].
  - destruct (type_of D G e) as [t|] eqn:Et; [|discriminate].
    destruct (convert D (G v) t 0) as [m0|] eqn:Ec; [|discriminate]. injection H as H.
    destruct (finish_inv _ _ _ _ _ H) as (z & l & Hk & ->).
    pose proof (outcome_convert true D (G v) t _ _ m0 (HG v) (expr_char2 true D G s i e (Some (G v)) t HG Hs Hok Et) Ec) as K.
    assert (R : returns (mbind (eval D G s e) (fun x => run (convert D (G v) t x))) z).
    { destruct K as [(w & _ & M2 & _)|F].
      - unfold returns in *. rewrite M2 in Hk |- *. congruence.
      - destruct (fails_throw _ _ F) as (l' & e' & T). congruence. }
    destruct (convert_same D G s i e (G v) t z m0 HG Hs (HG v) Hok Et Ec R) as [R1 Hz].
    exists (upd i v z). rewrite (beval_char2 D G s i HG Hs e (Some (G v)) t z Hok Hd Et R1). cbn.
    rewrite (conv_fine true D (G v) z (HG v) Hz). split; [reflexivity|]. apply store_ok_upd; assumption.
  - destruct Hok as [He Hop]. destruct Hd as [Hd Hsd]. destruct (type_of D G e) as [t|] eqn:Et; [|discriminate].
    destruct (compound D op (G v) t 0 0) as [m0|] eqn:Ec; [|discriminate]. injection H as H.
    destruct (operand2 D G s i e t HG Hs He Et) as (Te & [(y & Hy)|F] & Ie).
    + rewrite (bind_ret _ _ _ _ _ Hy) in H.
      destruct (update_done2 D G s i v op t (btype D G e) y 0 HG Hs (Hop t eq_refl) (Hsd t eq_refl) Te (Ie y Hy)
        (type_of_btype2 D G HG e None t He Et) ltac:(congruence) s' H) as (z & Ez & Hz & ->).
      exists (upd i v z). rewrite (beval_char2 D G s i HG Hs e None t y He Hd Et Hy). cbn [rbind].
      unfold bop in Ez. rewrite Ez. split; [reflexivity|]. apply store_ok_upd; assumption.
    + destruct (fails_throw _ _ (mbind_fails _ _ _ (fun y => mbind (read s v) (fun x => run (compound D op (G v) t x y))) F)) as (l & e' & T).
      rewrite T in H. discriminate.
  - pose proof (update_done2 D G s i v (BA Add) (ORaw Int) Int 1 1 HG Hs (step_fine true _ _ _ _) (step_defined true _ _ _) (int_fine _ _) (int_one _) eq_refl) as K.
    destruct (G v) as [T|t|T N P E] eqn:EG; try discriminate. unfold increment in *.
    destruct (compound D (BA Add) (OSafe t) (ORaw Int) 0 1) as [m0|] eqn:Ec; [|discriminate]. injection H as H.
    destruct (K ltac:(congruence) s' H) as (z & Ez & Hz & ->). cbn [bop] in Ez.
    exists (upd i v z). rewrite Ez. split; [reflexivity|]. apply store_ok_upd; [assumption|rewrite EG; assumption].
  - pose proof (update_done2 D G s i v (BA Sub) (ORaw Int) Int 1 1 HG Hs (step_fine false _ _ _ _) (step_defined false _ _ _) (int_fine _ _) (int_one _) eq_refl) as K.
    destruct (G v) as [T|t|T N P E] eqn:EG; try discriminate. unfold decrement in *.
    destruct (compound D (BA Sub) (OSafe t) (ORaw Int) 0 1) as [m0|] eqn:Ec; [|discriminate]. injection H as H.
    destruct (K ltac:(congruence) s' H) as (z & Ez & Hz & ->). cbn [bop] in Ez.
    exists (upd i v z). rewrite Ez. split; [reflexivity|]. apply store_ok_upd; [assumption|rewrite EG; assumption].
  - assert (HG' : forall v, type_ok true D (G v)) by (intros v'; apply HG).
    exact (bexec_char D G fuel HG' (CPost inc w v) s i s' I Hc0 I I Hs H0).
  - apply andb_prop in Hc. destruct Hc as [Ca Cb]. destruct Hok as [Oa Ob]. destruct Hn as [Na Nb]. destruct Hl as [La Lb].
    destruct Hd as [Da Db]. destruct (exec fuel D G s a) as [[s1 [|e|]]|] eqn:Ea; try discriminate.
    destruct (IHa s i s1 Oa Da Ca Na La Hs Ea) as (i1 & -> & Hs1). eapply IHb; eassumption.
  - apply andb_prop in Hc. destruct Hc as [Cc Cb]. apply andb_prop in Cc. destruct Cc as [Cc Ca].
    destruct Hok as (Oc & Oa & Ob). destruct Hn as [Na Nb]. destruct Hl as (Lc & La & Lb). destruct Hd as (Dc & Da & Db).
    destruct (cond_char2 true D G s i c HG Hs Oc Cc) as [(t & Ht & Rt)|(l & e & Te)%fails_throw].
    + rewrite (bcond_char2 D G s i c t HG Hs Oc Dc Cc Lc Rt). rewrite Rt in H. cbn [snd] in H. destruct t; eauto.
    + rewrite Te in H. discriminate.
  - apply andb_prop in Hc. destruct Hc as [Cc Ca]. destruct Hok as (Oc & Oa). destruct Hl as (Lc & La). destruct Hd as (Dc & Da).
    refine (bloop_char2 D G c HG Oc Dc Cc Lc (fun s => exec fuel D G s a) _ _ fuel s i s' Hs H).
    intros s0 i0 s1 Hs0 E0. eapply IHa; eassumption.
  - contradiction.
Qed.

(** ------------------------------------------------------------------ *)
(** lossless programs do not throw *)
Lemma op_lossless2 : forall D op t u x y z rs m T U,
  exact_operator true D op t u rs \/ storable D op t u rs -> shift_bounded D op t u ->
  type_fine true D t -> type_fine true D u -> holds D t x -> holds D u y ->
  eval_binop D op t u x y = Some (rs, m) ->
  promote D (base_ty t) = promote D T -> promote D (base_ty u) = promote D U ->
  lossless_op D op T U x y = Some z -> returns m z.
Proof.
  intros D op t u x y z rs m T U Hop Hsb Tt Tu Hx Hy H PT PU Hl.
  destruct (eval_fine true D op t u x y rs m Tt Tu H) as (HE & HS & HN & _). specialize (HN eq_refl).
  pose proof (proj1 (proj1 Tt)) as Wt. pose proof (proj1 (proj1 Tu)) as Wu.
  pose proof (bop_result D op t u x y rs m H HN) as Hst.
  assert (Hfour : forall o, four o -> op = BA o -> returns m z).
  { intros o Ho ->. exact (op_lossless D o t u x y z rs m T U Ho (proj1 Tt) (proj1 Tu) Hx Hy H PT PU Hl). }
  apply lossless_op_some in Hl. cbv zeta in Hl. fold (bop_type D op T U) in Hl.
  rewrite <- (bop_type_promotes D op _ _ _ _ PT PU), <- Hst in Hl. destruct Hl as (Ix & Iy & Hm & Iz).
  destruct op as [[| | | | | |]|b]; try (apply (Hfour Add); [unfold four; auto|reflexivity]);
    try (apply (Hfour Sub); [unfold four; auto|reflexivity]); try (apply (Hfour Mul); [unfold four; auto|reflexivity]);
    try (apply (Hfour Div); [unfold four; auto|reflexivity]); cbn [exact_operator storable eval_binop bop_type built_in_type] in *.
  - destruct Hop as [[]|[Hle Hmin]]. cbn [math_op] in Hm. destruct (Z.eqb_spec y 0) as [|Y0]; [discriminate|]. injection Hm as Hm.
    destruct (mod_char D t u x y rs m Wt Wu Hx Hy H HE Hle) as [_ B].
    { pose proof (lo_le_0 D (st rs)). unfold holds in *. intros (N & -> & K). lia. }
    destruct (B Y0) as [[R _]|[[K|K] _]]; [|contradiction|contradiction].
    rewrite <- Hm, Z.rem_eq by assumption. exact R.
  - destruct (Hsb ltac:(auto)) as (S1 & S2 & S3). rewrite <- Hst in S3. cbn [math_op exact] in Hm. injection Hm as Hm.
    destruct Hop as [[Hp _]|[]].
    assert (0 <= x) by (unfold holds in *; lia). assert (0 <= y < digits D (st rs)) by (unfold holds in *; lia).
    destruct (shl_char D t u x y rs m Wt Wu Hx Hy H HE HS) as [_ B].
    destruct (B ltac:(left; lia)) as [(R & _)|[[[K|K] _]|[[K _]|(_ & [K|K] & _)]]]; try contradiction; try lia.
    + rewrite <- Hm. exact R.
    + exfalso. unfold shl_fails in K. unfold in_type in Iz. rewrite <- Hm in Iz. lia.
  - destruct (Hsb ltac:(auto)) as (S1 & S2 & S3). rewrite <- Hst in S3. cbn [math_op exact] in Hm. injection Hm as Hm.
    assert (0 <= x) by (unfold holds in *; lia). assert (0 <= y < digits D (st rs)) by (unfold holds in *; lia).
    destruct (shr_char D t u x y rs m Wt Wu Hx Hy H HE HS) as [_ B].
    destruct (B ltac:(right; split; [assumption|lia])) as [(R & _)|[[[K|K] _]|[K _]]]; try contradiction; try lia.
    rewrite <- Hm. exact R.
  - destruct (bitwise_value D b t u x y rs m H (or_introl HN)) as (_ & R & _).
    rewrite built_in_bit_eq, <- Hst in R. rewrite !conv_id in R by assumption. cbn [math_op] in Hm. injection Hm as <-. exact R.
Qed.

(** an absorbed conversion that fits returns *)
Lemma convert_lossless2 : forall D G s i e o t x k, (forall v, type_fine true D (G v)) -> store_ok D G s i ->
  type_fine true D o -> expr_fine true D G (Some o) e -> type_of D G e = Some t ->
  returns (eval D G s e) x -> holds D o x -> convert D o t x = Some k -> returns k x.
Proof.
  intros D G s i e o t x k HG Hs To He Ht R Hx K.
  destruct (expr_char2 true D G s i e (Some o) t HG Hs He Ht) as [[Tt [(z & _ & R' & Hh)|F]]|(w & -> & HE & Ha & [(z & _ & R' & Hi)|F])];
    try (exfalso; exact (returns_fails _ _ _ R F)); pose proof (returns_inj _ _ _ _ R R'); subst z.
  - exact (convert_lossless D o t x k (proj1 To) (proj1 Tt) Hh Hx K).
  - destruct o as [T|w'|T N P E]; cbn [convert absorbs] in *; [| |contradiction].
    + destruct (to_builtin_char D T w x k HE Hi K) as [[_ ->]|[N _]]; [reflexivity|]. exfalso. apply N. exact Hx.
    + destruct (construct_absorbs D w' w x k (proj1 (proj1 To)) (proj1 (proj2 (proj1 To)) _ eq_refl) (proj1 Ha) (proj2 Ha) Hi K) as [_ ->].
      reflexivity.
Qed.

Lemma lossless_char2 : forall D G s i, (forall v, type_fine true D (G v)) -> store_ok D G s i ->
  forall e tgt t z, expr_fine true D G tgt e -> every_op (shift_bounded D) D G e ->
  type_of D G e = Some t -> lossless D G i e = Some z -> returns (eval D G s e) z.
Proof.
  intros D G s i HG Hs. induction e as [o c|v|op first a IHa b IHb|a IHa|a IHa|o a IHa]; intros tgt t z He Hd Ht R;
  cbn [type_of expr_fine every_op eval lossless] in *.
  - injection R as <-. reflexivity.
  - injection R as <-. destruct (Hs v) as [Ev _]. unfold read. rewrite Ev. reflexivity.
  - destruct He as (Ha & Hb & Hop). destruct Hd as (Da & Db & Dop).
    destruct (type_of D G a) as [ta|] eqn:Ea; [|discriminate]. destruct (type_of D G b) as [tb|] eqn:Eb; [|discriminate].
    destruct (eval_binop D op ta tb 0 0) as [[rs m0]|] eqn:E; [|discriminate]. cbn in Ht. injection Ht as <-.
    apply obind_some in R. destruct R as (x & Lx & R). apply obind_some in R. destruct R as (y & Ly & R).
    pose proof (IHa None ta x Ha Da eq_refl Lx) as Hx. pose proof (IHb None tb y Hb Db eq_refl Ly) as Hy.
    destruct (operand2 D G s i a ta HG Hs Ha Ea) as (Ta & _ & Ia). destruct (operand2 D G s i b tb HG Hs Hb Eb) as (Tb & _ & Ib).
    rewrite (bind_ret _ _ _ _ _ (both_ret first _ _ x y Hx Hy)). cbn [fst snd].
    destruct (eval_binop_any D op ta tb 0 0 x y rs m0 E) as (k & K). rewrite K. cbn [run_snd].
    specialize (Hop ta tb eq_refl eq_refl rs m0 E).
    refine (op_lossless2 D op ta tb x y z rs k _ _ _ (Dop ta tb eq_refl eq_refl) Ta Tb (Ia x Hx) (Ib y Hy) K _ _ R);
      [tauto| |]; eapply type_of_btype2; eassumption.
  - destruct (type_of D G a) as [[T|ts|T N P E]|] eqn:Ea; try discriminate.
    destruct (unary_minus D ts 0) as [[rs m0]|] eqn:Eb; [|discriminate]. cbn in Ht. injection Ht as <-.
    apply obind_some in R. destruct R as (x & Lx & R). apply keep_some in R. destruct R as [-> R].
    pose proof (IHa None _ x He Hd eq_refl Lx) as Hx. destruct (operand2 D G s i a _ HG Hs He Ea) as (Ta & _ & Ia). specialize (Ia x Hx).
    rewrite (bind_ret _ _ _ _ _ Hx).
    destruct (binary_any D Sub _ _ 0 0 0 x rs m0 Eb) as (k & K). unfold unary_minus. rewrite K. cbn [run_snd].
    replace (- x) with (0 - x) by lia.
    apply (op_lossless D Sub (ORaw Int) (OSafe ts) 0 x (0 - x) rs k Int (st ts)); auto using int_ok.
    + unfold four; auto.
    + exact (proj1 Ta).
    + apply (wf_int_lit D 0). lia.
    + unfold lossless_op, obind, math_op, exact, keep. cbn [built_in_type]. rewrite uac_int.
      pose proof (type_of_btype2 D G HG a None (OSafe ts) He Ea) as Hp. cbn [base_ty] in Hp.
      rewrite (proj2 (in_range_iff _ _ _) (zero_in D (promote D (st ts)))).
      rewrite (proj2 (in_range_iff _ _ _) (promote_in D (st ts) _ (holds_in D (OSafe ts) x (proj1 (proj1 Ta)) Ia))).
      rewrite Hp. replace (0 - x) with (- x) by lia. rewrite (proj2 (in_range_iff _ _ _) R). reflexivity.
  - destruct (type_of D G a) as [[T|ts|T N P E]|] eqn:Ea; try discriminate. cbn in Ht. injection Ht as <-.
    rewrite (bind_ret _ _ _ _ _ (IHa None _ z He Hd eq_refl R)). reflexivity.
  - destruct He as [To Ha]. destruct (type_of D G a) as [ta|] eqn:Ea; [|discriminate].
    destruct (convert D o ta 0) as [m0|] eqn:Ec; [|discriminate]. cbn in Ht. injection Ht as <-.
    apply obind_some in R. destruct R as (x & Lx & R). apply fits_some in R. destruct R as [-> R].
    pose proof (IHa (Some o) _ x Ha Hd eq_refl Lx) as Hx.
    rewrite (bind_ret _ _ _ _ _ Hx). destruct (convert_any D o ta 0 x m0 Ec) as (k & K). rewrite K. cbn [run].
    exact (convert_lossless2 D G s i a o ta x k HG Hs To Ha Ea Hx R K).
Qed.

Lemma lossless_cond_char2 : forall D G s i c t, (forall v, type_fine true D (G v)) -> store_ok D G s i ->
  cond_fine true D G c -> every_op_cond (shift_bounded D) D G c -> cond_compiles D G c = true ->
  lossless_cond D G i c = Some t -> returns (eval_cond D G s c) t.
Proof.
  intros D G s i [r first a b] t HG Hs [Ha Hb] [Da Db] Hc R. cbn [cond_compiles eval_cond lossless_cond] in *.
  destruct (type_of D G a) as [ta|] eqn:Eta; [|discriminate].
  destruct (type_of D G b) as [tb|] eqn:Etb; [|discriminate].
  destruct (eval_relop D r ta tb 0 0) as [m0|] eqn:Er; [|discriminate].
  apply obind_some in R. destruct R as (x & Lx & R). apply obind_some in R. destruct R as (y & Ly & R).
  apply obind_some in R. destruct R as (x' & Kx & R). apply obind_some in R. destruct R as (y' & Ky & R).
  apply keep_some in Kx. apply keep_some in Ky. injection R as <-.
  pose proof (lossless_char2 D G s i HG Hs a None ta x Ha Da Eta Lx) as Hx.
  pose proof (lossless_char2 D G s i HG Hs b None tb y Hb Db Etb Ly) as Hy.
  destruct (operand2 D G s i a ta HG Hs Ha Eta) as (Ta & _ & Ia). destruct (operand2 D G s i b tb HG Hs Hb Etb) as (Tb & _ & Ib).
  rewrite (bind_ret _ _ _ _ _ (both_ret first _ _ x y Hx Hy)). cbn [fst snd].
  destruct (eval_relop_any D r ta tb 0 0 x y m0 Er) as (k & K). rewrite K. cbn [run].
  pose proof (uac_promotes D _ _ _ _ (type_of_btype2 D G HG a None ta Ha Eta) (type_of_btype2 D G HG b None tb Hb Etb)) as Hu.
  rewrite <- Hu in Kx, Ky.
  apply (native_compare D r ta tb x y k); try tauto; [exact (proj1 Ta)|exact (proj1 Tb)|auto|auto].
Qed.

Lemma compound_lossless2 : forall D op tgt u U x y z z' m,
  operator_fine true D (Some tgt) op tgt u -> shift_bounded D op tgt u ->
  type_fine true D tgt -> type_fine true D u ->
  holds D tgt x -> holds D u y -> promote D (base_ty u) = promote D U ->
  compound D op tgt u x y = Some m ->
  lossless_op D op (base_ty tgt) U x y = Some z -> fits_type D tgt z = Some z' ->
  z' = z /\ returns m z /\ holds D tgt z.
Proof.
  intros D op tgt u U x y z z' m Hop Hsb Tt Tu Hx Hy PU H Hl Hf. apply fits_some in Hf. destruct Hf as [-> Hz].
  split; [reflexivity|]. split; [|assumption].
  destruct (compound_eval D op tgt u x y m H) as (rs & m0 & c0 & Eb & Ec & ->).
  destruct (eval_binop_any D op tgt u x y 0 0 rs m0 Eb) as (k0 & E0). specialize (Hop rs k0 E0).
  assert (Hop' : exact_operator true D op tgt u rs \/ storable D op tgt u rs) by tauto.
  pose proof (op_lossless2 D op tgt u x y z rs m0 _ U Hop' Hsb Tt Tu Hx Hy Eb eq_refl PU Hl) as R.
  rewrite (bind_ret _ _ _ _ _ R). destruct (convert_any D tgt (OSafe rs) 0 z c0 Ec) as (k & K). rewrite K. cbn [run].
  destruct (eval_fine true D op tgt u x y rs m0 Tt Tu Eb) as (HE & _).
  destruct Hop as [Ho|[Ho Ha]].
  - destruct (exact_char true D op tgt u x y rs m0 Ho Tt Tu Hx Hy Eb) as [Tr [(w & _ & R' & Hh)|F]];
      [|exfalso; exact (returns_fails _ _ _ R F)].
    rewrite <- (returns_inj _ _ _ _ R R') in Hh. exact (convert_lossless D tgt (OSafe rs) z k (proj1 Tt) (proj1 Tr) Hh Hz K).
  - destruct (storable_char true D op tgt u x y rs m0 Ho Tt Tu Hx Hy Eb) as [(w & _ & R' & Hi)|F];
      [|exfalso; exact (returns_fails _ _ _ R F)].
    rewrite <- (returns_inj _ _ _ _ R R') in Hi.
    destruct tgt as [T|w'|T N P E]; cbn [convert absorbs] in *; [| |contradiction].
    + destruct (to_builtin_char D T rs z k HE Hi K) as [[_ ->]|[N _]]; [reflexivity|]. exfalso. apply N. exact Hz.
    + destruct (construct_absorbs D w' rs z k (proj1 (proj1 Tt)) (proj1 (proj2 (proj1 Tt)) _ eq_refl) (proj1 Ha) (proj2 Ha) Hi K) as [_ ->].
      reflexivity.
Qed.

Lemma lossless_loop_char2 : forall D G c, (forall v, type_fine true D (G v)) -> cond_fine true D G c ->
  every_op_cond (shift_bounded D) D G c -> cond_compiles D G c = true ->
  forall body lbody,
  (forall s i i', store_ok D G s i -> lbody i = Some i' -> done D G (body s) i') ->
  forall k s i i', store_ok D G s i -> lossless_loop (fun i => lossless_cond D G i c) lbody k i = Some i' ->
  done D G (loop (fun s => eval_cond D G s c) body k s) i'.
Proof.
  intros D G c HG Hc Hd Hcc body lbody Hb. induction k as [|k IH]; intros s i i' Hs H; cbn [loop lossless_loop] in *; [discriminate|].
  apply obind_some in H. destruct H as (t & Ht & H).
  rewrite (lossless_cond_char2 D G s i c t HG Hs Hc Hd Hcc Ht). cbn [snd]. destruct t.
  - apply obind_some in H. destruct H as (i1 & H1 & H).
    destruct (Hb s i i1 Hs H1) as (s1 & -> & Hs1). eapply IH; eassumption.
  - injection H as <-. exists s. auto.
Qed.

Lemma lossless_exec_char2 : forall D G fuel, (forall v, type_fine true D (G v)) ->
  forall c s i i', cmd_fine true D G c -> every_op_cmd (shift_bounded D) D G c -> compiles D G c = true -> store_ok D G s i ->
  lossless_exec fuel D G i c = Some i' -> done D G (exec fuel D G s c) i'.
Proof.
  intros D G fuel HG. assert (HG' : forall v, type_ok true D (G v)) by (intros v; apply HG).
  induction c as [|v|v e|op v e|v|v|inc w v|a IHa b IHb|c a IHa b IHb|c a IHa|a IHa b IHb];
  intros s i i' Hok Hd Hc Hs H; pose proof Hc as Hc0; pose proof H as H0;
  cbn [exec cmd_fine every_op_cmd compiles lossless_exec] in *; cbv zeta in H.
  - injection H as <-. exists s. auto.
  - discriminate.
  - destruct (type_of D G e) as [t|] eqn:Et; [|discriminate].
    destruct (convert D (G v) t 0) as [m0|] eqn:Ec; [|discriminate].
    apply obind_some in H. destruct H as (x & Lx & H). apply obind_some in H. destruct H as (x' & Fx & H).
    apply fits_some in Fx. destruct Fx as [-> Fx]. injection H as <-.
    pose proof (lossless_char2 D G s i HG Hs e (Some (G v)) t x Hok Hd Et Lx) as Hx.
    rewrite (bind_ret _ _ _ _ _ Hx). destruct (convert_any D (G v) t 0 x m0 Ec) as (k & K). rewrite K. cbn [run].
    rewrite (finish_ret _ _ _ _ _ (convert_lossless2 D G s i e (G v) t x k HG Hs (HG v) Hok Et Hx Fx K)).
    eexists. split; [reflexivity|]. apply store_ok_upd; assumption.
  - destruct Hok as [He Hop]. destruct Hd as [Hd Hsb]. destruct (type_of D G e) as [t|] eqn:Et; [|discriminate].
    destruct (compound D op (G v) t 0 0) as [m0|] eqn:Ec; [|discriminate].
    apply obind_some in H. destruct H as (y & Ly & H). apply obind_some in H. destruct H as (z & Lz & H). injection H as <-.
    apply obind_some in Lz. destruct Lz as (z0 & Lz & Fz).
    pose proof (lossless_char2 D G s i HG Hs e None t y He Hd Et Ly) as Hy.
    destruct (operand2 D G s i e t HG Hs He Et) as (Te & _ & Ie). destruct (Hs v) as [Ev Iv].
    rewrite (bind_ret _ _ _ _ _ Hy). unfold read. rewrite Ev, mbind_ret.
    destruct (compound_any D op (G v) t 0 0 (i v) y m0 Ec) as (k & K). rewrite K. cbn [run].
    destruct (compound_lossless2 D op (G v) t (btype D G e) (i v) y z0 z k (Hop t eq_refl) (Hsb t eq_refl) (HG v) Te Iv (Ie y Hy)
      (type_of_btype2 D G HG e None t He Et) K Lz Fz) as (-> & R & Hz).
    rewrite (finish_ret _ _ _ _ _ R). eexists. split; [reflexivity|]. apply store_ok_upd; assumption.
  - exact (lossless_exec_char D G fuel HG' (CInc v) s i i' I Hc0 Hs H0).
  - exact (lossless_exec_char D G fuel HG' (CDec v) s i i' I Hc0 Hs H0).
  - exact (lossless_exec_char D G fuel HG' (CPost inc w v) s i i' I Hc0 Hs H0).
  - apply andb_prop in Hc. destruct Hc as [Ca Cb]. destruct Hok as [Oa Ob]. destruct Hd as [Da Db].
    apply obind_some in H. destruct H as (i1 & H1 & H).
    destruct (IHa s i i1 Oa Da Ca Hs H1) as (s1 & -> & Hs1). eapply IHb; eassumption.
  - apply andb_prop in Hc. destruct Hc as [Cc Cb]. apply andb_prop in Cc. destruct Cc as [Cc Ca].
    destruct Hok as (Oc & Oa & Ob). destruct Hd as (Dc & Da & Db). apply obind_some in H. destruct H as (t & Ht & H).
    rewrite (lossless_cond_char2 D G s i c t HG Hs Oc Dc Cc Ht). cbn [snd]. destruct t; eauto.
  - apply andb_prop in Hc. destruct Hc as [Cc Ca]. destruct Hok as (Oc & Oa). destruct Hd as (Dc & Da).
    refine (lossless_loop_char2 D G c HG Oc Dc Cc (fun s => exec fuel D G s a) _ _ fuel s i i' Hs H).
    intros s0 i0 i1 Hs0 E0. eapply IHa; eassumption.
  - apply andb_prop in Hc. destruct Hc as [Ca Cb]. destruct Hok as [Oa Ob]. destruct Hd as [Da Db].
    destruct (IHa s i i' Oa Da Ca Hs H) as (s1 & -> & Hs1). exists s1. auto.
Qed.
