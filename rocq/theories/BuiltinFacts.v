(** BuiltinFacts.v -- proofs relating programs over native safe types to the same
    programs over built-in types. *)
From Coq Require Import ZArith Bool List Lia Arith.
From Verif Require Import Base CType Spec CTypeFacts Utility UtilityFacts SafeCompare
  CheckedInteger CheckedIntegerFacts CheckedResultOps CheckedResultFacts Interval IntervalFacts
  IntervalOpsFacts ExceptionPolicy Promotion SafeBase SafeSpec SafeFacts SafeDivFacts SafeShiftFacts
  SafeConvFacts SafeBitFacts SafeTraceFacts SafePortFacts PropsArithProofs PropsConvProofs
  Program ProgramSpec ProgramFacts BuiltinSpec.
Import ListNotations.
Local Open Scope Z_scope.

(** ------------------------------------------------------------------ *)
(** types *)
Lemma uac_promotes : forall D T U T' U', promote D T = promote D T' -> promote D U = promote D U' ->
  uac D T U = uac D T' U'.
Proof. intros D T U T' U' H K. unfold uac. rewrite H, K. reflexivity. Qed.
Lemma uac_int : forall D T, uac D Int T = promote D T.
Proof. destruct D, T; reflexivity. Qed.

Definition four (op : aop) : Prop := op = Add \/ op = Sub \/ op = Mul \/ op = Div.
Lemma op_ok_four : forall n op, op_ok n op -> exists o, op = BA o /\ four o.
Proof. intros n op [->|[->|[->|[-> _]]]]; eexists; (split; [reflexivity|]); unfold four; auto. Qed.
Lemma four_type : forall D o T U, four o -> built_in_type D o T U = uac D T U.
Proof. intros D o T U [->|[->|[->| ->]]]; reflexivity. Qed.
Lemma built_in_promotes : forall D o T U T' U' x y, four o ->
  promote D T = promote D T' -> promote D U = promote D U' ->
  built_in D o T U x y = built_in D o T' U' x y.
Proof.
  intros D o T U T' U' x y Ho H K. pose proof (uac_promotes D T U T' U' H K) as E.
  destruct Ho as [->|[->|[->| ->]]]; cbn [built_in]; unfold c_add, c_sub, c_mul, c_arith, c_div; rewrite E; reflexivity.
Qed.

Definition low_store (D : dmodel) (G : tenv) : store := fun v => Some (lim_lo D (G v)).
Lemma low_store_ok : forall n D G, (forall v, type_ok n D (G v)) ->
  store_ok D G (low_store D G) (fun v => lim_lo D (G v)).
Proof.
  intros n D G HG v. split; [reflexivity|]. destruct (HG v) as ((_ & _ & W) & _). unfold holds. lia.
Qed.
Lemma type_of_ok : forall n D G e t, (forall v, type_ok n D (G v)) -> expr_ok n D e ->
  type_of D G e = Some t -> type_ok n D t.
Proof.
  intros n D G e t HG He Ht.
  apply (expr_char n D G (low_store D G) _ e t HG (low_store_ok n D G HG) He Ht).
Qed.
Lemma low_holds : forall n D o, type_ok n D o -> holds D o (lim_lo D o).
Proof. intros n D o ((_ & _ & W) & _). unfold holds. lia. Qed.

Lemma result_type : forall D o t u x y rs m, four o -> type_ok true D t -> type_ok true D u ->
  eval_binop D (BA o) t u x y = Some (rs, m) -> st rs = uac D (base_ty t) (base_ty u).
Proof.
  intros D o t u x y rs m Ho Tt Tu H.
  destruct (eval_binop_any D (BA o) t u x y (lim_lo D t) (lim_lo D u) rs m H) as (k & K).
  destruct (policy_throws true D o t u _ _ rs k Tt Tu K) as [HE HN].
  destruct (C39_lemma o D t u _ _ rs k 0 Ho (proj1 Tt) (proj1 Tu) (low_holds _ _ _ Tt) (low_holds _ _ _ Tu) K HE (HN eq_refl)) as [R _].
  rewrite R. apply four_type. assumption.
Qed.

Lemma type_of_btype : forall D G, (forall v, type_ok true D (G v)) ->
  forall e t, expr_ok true D e -> type_of D G e = Some t ->
  promote D (base_ty t) = promote D (btype D G e).
Proof.
  intros D G HG. induction e as [o z|v|op first a IHa b IHb|a IHa|a IHa|o a IHa]; intros t He Ht;
  cbn [type_of expr_ok btype] in *.
  - injection Ht as <-. reflexivity.
  - injection Ht as <-. reflexivity.
  - destruct He as (Hop & Ha & Hb).
    destruct (type_of D G a) as [ta|] eqn:Ea; [|discriminate]. destruct (type_of D G b) as [tb|] eqn:Eb; [|discriminate].
    destruct (eval_binop D op ta tb 0 0) as [[rs m0]|] eqn:E; [|discriminate]. cbn in Ht. injection Ht as <-.
    destruct (op_ok_four _ _ Hop) as (o & -> & Ho).
    cbn [base_ty]. rewrite (result_type D o ta tb 0 0 rs m0 Ho (type_of_ok _ _ _ _ _ HG Ha Ea) (type_of_ok _ _ _ _ _ HG Hb Eb) E).
    rewrite four_type by assumption. f_equal. apply uac_promotes; auto.
  - destruct (type_of D G a) as [[T|ts|T N P E]|] eqn:Ea; try discriminate.
    destruct (unary_minus D ts 0) as [[rs m0]|] eqn:Eb; [|discriminate]. cbn in Ht. injection Ht as <-.
    assert (Ti : type_ok true D (ORaw Int)).
    { split; [apply (wf_int_lit D 0); lia|]. split; intros; discriminate. }
    cbn [base_ty].
    rewrite (result_type D Sub (ORaw Int) (OSafe ts) 0 0 rs m0 ltac:(unfold four; auto) Ti (type_of_ok _ _ _ _ _ HG He Ea) Eb).
    cbn [base_ty]. rewrite uac_int, !promote_idem. apply (IHa (OSafe ts)); auto.
  - destruct (type_of D G a) as [[T|ts|T N P E]|] eqn:Ea; try discriminate. cbn in Ht. injection Ht as <-.
    rewrite promote_idem. apply IHa; auto.
  - destruct (type_of D G a) as [ta|]; [|discriminate].
    destruct (convert D o ta 0); [|discriminate]. cbn in Ht. injection Ht as <-. reflexivity.
Qed.

(** ------------------------------------------------------------------ *)
(** what is returned is what the built-in operators return *)
Lemma not_both : forall (A : Type) (m : M A) z, returns m z -> throws_arith m -> False.
Proof. intros A m z H (e & _ & K). rewrite K in H. discriminate. Qed.
Lemma returns_inj : forall (A : Type) (m : M A) x y, returns m x -> returns m y -> x = y.
Proof. unfold returns. intros. congruence. Qed.

Lemma op_built_in : forall D o t u x y rs m z T U, four o -> type_ok true D t -> type_ok true D u ->
  holds D t x -> holds D u y -> eval_binop D (BA o) t u x y = Some (rs, m) -> returns m z ->
  promote D (base_ty t) = promote D T -> promote D (base_ty u) = promote D U ->
  built_in D o T U x y = Ok z.
Proof.
  intros D o t u x y rs m z T U Ho Tt Tu Hx Hy H R PT PU.
  destruct (policy_throws true D o t u _ _ rs m Tt Tu H) as [HE HN].
  destruct (C39_lemma o D t u x y rs m z Ho (proj1 Tt) (proj1 Tu) Hx Hy H HE (HN eq_refl)) as [_ K].
  rewrite <- (K R). symmetry. apply built_in_promotes; assumption.
Qed.

Lemma conv_holds : forall n D o x, type_ok n D o -> holds D o x -> conv D (base_ty o) x = x.
Proof. intros n D o x (W & _) H. apply conv_id. apply holds_in; assumption. Qed.

Lemma beval_char : forall D G s i, (forall v, type_ok true D (G v)) -> store_ok D G s i ->
  forall e t z, expr_ok true D e -> type_of D G e = Some t -> returns (eval D G s e) z ->
  beval D G i e = Ok z.
Proof.
  intros D G s i HG Hs. induction e as [o c|v|op first a IHa b IHb|a IHa|a IHa|o a IHa]; intros t z He Ht R.
  - cbn in *. unfold returns, mret in R. congruence.
  - destruct (Hs v) as [Ev _]. cbn in R. unfold read in R. rewrite Ev in R. unfold returns, mret in R.
    cbn. congruence.
  - cbn [type_of expr_ok eval beval] in *. destruct He as (Hop & Ha & Hb).
    destruct (type_of D G a) as [ta|] eqn:Ea; [|discriminate]. destruct (type_of D G b) as [tb|] eqn:Eb; [|discriminate].
    destruct (eval_binop D op ta tb 0 0) as [[rs m0]|] eqn:E; [|discriminate]. cbn in Ht. injection Ht as <-.
    destruct (expr_char true D G s i a ta HG Hs Ha Ea) as [Ta Ra]. destruct (expr_char true D G s i b tb HG Hs Hb Eb) as [Tb Rb].
    destruct (both_char first (eval D G s a) (eval D G s b)) as [(x & y & Hx & Hy & Hp)|T].
    + destruct Ra as [(x & _ & Hx & _)|T]; [left; eauto|right; assumption].
    + destruct Rb as [(y & _ & Hy & _)|T]; [left; eauto|right; assumption].
    + rewrite (bind_ret _ _ _ _ _ Hp) in R. cbn [fst snd] in R.
      destruct (eval_binop_any D op ta tb 0 0 x y rs m0 E) as (k & K). rewrite K in R. cbn [run_snd] in R.
      rewrite (IHa ta x Ha eq_refl Hx), (IHb tb y Hb eq_refl Hy). cbn [rbind].
      destruct Ra as [(x' & _ & Hx' & Ix)|T]; [|exfalso; exact (not_both _ _ _ Hx T)].
      destruct Rb as [(y' & _ & Hy' & Iy)|T]; [|exfalso; exact (not_both _ _ _ Hy T)].
      pose proof (returns_inj _ _ _ _ Hx Hx'). pose proof (returns_inj _ _ _ _ Hy Hy'). subst x' y'.
      destruct (op_ok_four _ _ Hop) as (o & -> & Ho).
      apply (op_built_in D o ta tb x y rs k z); auto using type_of_btype.
    + exfalso. eapply not_both; [exact R|]. apply mbind_throws. assumption.
  - cbn [type_of expr_ok eval beval] in *.
    destruct (type_of D G a) as [[T|ts|T N P E]|] eqn:Ea; try discriminate.
    destruct (unary_minus D ts 0) as [[rs m0]|] eqn:Eb; [|discriminate]. cbn in Ht. injection Ht as <-.
    destruct (expr_char true D G s i a (OSafe ts) HG Hs He Ea) as [Ta [(x & _ & Hx & Ix)|T]];
      [|exfalso; eapply not_both; [exact R|apply mbind_throws; assumption]].
    rewrite (bind_ret _ _ _ _ _ Hx) in R. rewrite (IHa _ x He eq_refl Hx). cbn [rbind].
    destruct (binary_any D Sub _ _ 0 0 0 x rs m0 Eb) as (k & K). unfold unary_minus in R. rewrite K in R. cbn [run_snd] in R.
    assert (Ti : type_ok true D (ORaw Int)).
    { split; [apply (wf_int_lit D 0); lia|]. split; intros; discriminate. }
    destruct (unary_minus_char true D ts x rs k Ta Ix K) as [Tr [[M2 M3]|T]]; [|exfalso; exact (not_both _ _ _ R T)].
    pose proof (returns_inj _ _ _ _ R M2). subst z.
    pose proof (result_type D Sub (ORaw Int) (OSafe ts) 0 x rs k ltac:(unfold four; auto) Ti Ta K) as Hst.
    cbn [base_ty] in Hst. rewrite uac_int in Hst.
    pose proof (type_of_btype D G HG a (OSafe ts) He Ea) as Hb. cbn [base_ty] in Hb.
    unfold c_neg. rewrite <- Hb, <- Hst. apply fin_ok. apply (holds_in D (OSafe rs)); [exact (proj1 Tr)|exact M3].
  - cbn [type_of expr_ok eval beval] in *.
    destruct (type_of D G a) as [[T|ts|T N P E]|] eqn:Ea; try discriminate. cbn in Ht. injection Ht as <-.
    destruct (expr_char true D G s i a (OSafe ts) HG Hs He Ea) as [Ta [(x & _ & Hx & Ix)|T]];
      [|exfalso; eapply not_both; [exact R|apply mbind_throws; assumption]].
    rewrite (bind_ret _ _ _ _ _ Hx) in R. rewrite (IHa _ x He eq_refl Hx).
    f_equal. exact (returns_inj _ (mret x) x z eq_refl R).
  - cbn [type_of expr_ok eval beval] in *. destruct He as [To Ha]. destruct (type_of D G a) as [ta|] eqn:Ea; [|discriminate].
    destruct (convert D o ta 0) as [m0|] eqn:Ec; [|discriminate]. cbn in Ht. injection Ht as <-.
    destruct (expr_char true D G s i a ta HG Hs Ha Ea) as [Ta [(x & _ & Hx & Ix)|T]];
      [|exfalso; eapply not_both; [exact R|apply mbind_throws; assumption]].
    rewrite (bind_ret _ _ _ _ _ Hx) in R. rewrite (IHa _ x Ha eq_refl Hx). cbn [rbind].
    destruct (convert_any D o ta 0 x m0 Ec) as (k & K). rewrite K in R. cbn [run] in R.
    destruct (convert_char true D o ta x k To Ta Ix K) as [[A B]|T]; [|exfalso; exact (not_both _ _ _ R T)].
    pose proof (returns_inj _ _ _ _ R B). subst z. f_equal. eapply conv_holds; eassumption.
Qed.

(** comparisons *)
Lemma brel_exact : forall D r T U x y, in_type D (uac D T U) x -> in_type D (uac D T U) y ->
  brel D r T U x y = math_rel r x y.
Proof.
  intros D r T U x y Hx Hy. destruct r; cbn [brel math_rel]; unfold c_lt, c_eq;
  rewrite ?(uac_comm D U T); rewrite !conv_id by assumption;
  rewrite ?Z.gtb_ltb, ?Z.geb_leb; try reflexivity; rewrite Z.leb_antisym; reflexivity.
Qed.
Lemma type_of_in : forall D G, (forall v, type_ok true D (G v)) ->
  forall e t x, expr_ok true D e -> type_of D G e = Some t ->
  in_type D (base_ty t) x -> in_type D (btype D G e) x.
Proof.
  intros D G HG. induction e as [o z|v|op first a IHa b IHb|a IHa|a IHa|o a IHa]; intros t x He Ht Hx;
  pose proof (type_of_btype D G HG _ _ He Ht) as Hp; cbn [type_of expr_ok btype] in *.
  - injection Ht as <-. assumption.
  - injection Ht as <-. assumption.
  - destruct He as (Hop & Ha & Hb).
    destruct (type_of D G a) as [ta|] eqn:Ea; [|discriminate]. destruct (type_of D G b) as [tb|] eqn:Eb; [|discriminate].
    destruct (eval_binop D op ta tb 0 0) as [[rs m0]|] eqn:E; [|discriminate]. cbn in Ht. injection Ht as <-.
    destruct (op_ok_four _ _ Hop) as (o & -> & Ho).
    cbn [base_ty] in Hx. rewrite (result_type D o ta tb 0 0 rs m0 Ho (type_of_ok _ _ _ _ _ HG Ha Ea) (type_of_ok _ _ _ _ _ HG Hb Eb) E) in Hx.
    rewrite four_type by assumption.
    rewrite <- (uac_promotes D (base_ty ta) (base_ty tb)); auto using type_of_btype.
  - rewrite promote_idem in Hp. rewrite <- Hp. apply promote_in. assumption.
  - rewrite promote_idem in Hp. rewrite <- Hp. apply promote_in. assumption.
  - destruct (type_of D G a) as [ta|]; [|discriminate].
    destruct (convert D o ta 0); [|discriminate]. cbn in Ht. injection Ht as <-. assumption.
Qed.

Lemma bcond_char : forall D G s i c t, (forall v, type_ok true D (G v)) -> store_ok D G s i ->
  cond_ok true D c -> cond_compiles D G c = true -> cond_lossless D G c ->
  returns (eval_cond D G s c) t -> bcond D G i c = Ok t.
Proof.
  intros D G s i [r first a b] t HG Hs [Ha Hb] Hc [La Lb] R. cbn [cond_compiles eval_cond bcond] in *.
  destruct (type_of D G a) as [ta|] eqn:Eta; [|discriminate].
  destruct (type_of D G b) as [tb|] eqn:Etb; [|discriminate].
  destruct (eval_relop D r ta tb 0 0) as [m0|] eqn:Er; [|discriminate].
  destruct (expr_char true D G s i a ta HG Hs Ha Eta) as [Ta Ra].
  destruct (expr_char true D G s i b tb HG Hs Hb Etb) as [Tb Rb].
  destruct (both_char first (eval D G s a) (eval D G s b)) as [(x & y & Hx & Hy & Hp)|T].
  - destruct Ra as [(x & _ & Hx & _)|T]; [left; eauto|right; assumption].
  - destruct Rb as [(y & _ & Hy & _)|T]; [left; eauto|right; assumption].
  - rewrite (bind_ret _ _ _ _ _ Hp) in R. cbn [fst snd] in R.
    destruct Ra as [(x' & _ & Hx' & Ix)|T]; [|exfalso; exact (not_both _ _ _ Hx T)].
    destruct Rb as [(y' & _ & Hy' & Iy)|T]; [|exfalso; exact (not_both _ _ _ Hy T)].
    pose proof (returns_inj _ _ _ _ Hx Hx'). pose proof (returns_inj _ _ _ _ Hy Hy'). subst x' y'.
    destruct (eval_relop_any D r ta tb 0 0 x y m0 Er) as (k & K). rewrite K in R. cbn [run] in R.
    destruct (eval_relop_char true D r ta tb x y k Ta Tb Ix Iy K) as [R1|T]; [|exfalso; exact (not_both _ _ _ R T)].
    rewrite (returns_inj _ _ _ _ R R1).
    rewrite (beval_char D G s i HG Hs a ta x Ha Eta Hx), (beval_char D G s i HG Hs b tb y Hb Etb Hy). cbn [rbind].
    f_equal. apply brel_exact.
    + pose proof (type_of_in D G HG a ta x Ha Eta (holds_in _ _ _ (proj1 Ta) Ix)).
      pose proof (uac_hi_l D (btype D G a) (btype D G b)). unfold in_type in *. lia.
    + pose proof (type_of_in D G HG b tb y Hb Etb (holds_in _ _ _ (proj1 Tb) Iy)).
      pose proof (uac_hi_r D (btype D G a) (btype D G b)). unfold in_type in *. lia.
  - exfalso. eapply not_both; [exact R|]. apply mbind_throws. assumption.
Qed.

(** compound assignment *)
Lemma compound_op : forall n D op tgt u x y m z, op_ok n op ->
  type_ok n D tgt -> type_ok n D u -> holds D tgt x -> holds D u y ->
  compound D op tgt u x y = Some m -> returns m z ->
  holds D tgt z /\ exists rs m0, eval_binop D op tgt u x y = Some (rs, m0) /\ returns m0 z.
Proof.
  intros n D op tgt u x y m z Hop Ht Hu Hx Hy H R.
  destruct (compound_char n D op tgt u x y m Hop Ht Hu Hx Hy H) as [(z' & M1 & M2 & M3)|T];
    [|exfalso; exact (not_both _ _ _ R T)].
  pose proof (returns_inj _ _ _ _ R M2). subst z'. split; [assumption|].
  destruct (compound_passes_throw D op tgt u x y m H) as (rs & m0 & Eb & K & _).
  exists rs, m0. split; [assumption|].
  destruct (op_char n D op tgt u x y rs m0 Hop Ht Hu Hx Hy Eb) as [_ [(z' & N1 & N2 & _)|T]];
    [|exfalso; exact (not_both _ _ _ R (K T))].
  rewrite M1 in N1. injection N1 as <-. assumption.
Qed.

Lemma update_built_in : forall D o tgt u U x y m z, four o ->
  type_ok true D tgt -> type_ok true D u -> holds D tgt x -> holds D u y ->
  promote D (base_ty u) = promote D U ->
  compound D (BA o) tgt u x y = Some m -> returns m z ->
  rmap (fun z => conv D (base_ty tgt) z) (built_in D o (base_ty tgt) U x y) = Ok z.
Proof.
  intros D o tgt u U x y m z Ho Tt Tu Hx Hy PU H R.
  assert (Hop : op_ok true (BA o)) by (destruct Ho as [->|[->|[->| ->]]]; unfold op_ok; auto 10).
  destruct (compound_op true D (BA o) tgt u x y m z Hop Tt Tu Hx Hy H R) as (Hz & rs & m0 & Eb & R0).
  rewrite (op_built_in D o tgt u x y rs m0 z (base_ty tgt) U Ho Tt Tu Hx Hy Eb R0 eq_refl PU).
  cbn. f_equal. eapply conv_holds; eassumption.
Qed.

Lemma finish_done : forall (A : Type) s (m : M A) w s', finish s m w = (s', RDone) ->
  (exists a, returns m a) \/ throws_arith m -> exists a, returns m a /\ s' = w a.
Proof.
  intros A s m w s' H [(a & R)|(e & _ & T)]; unfold finish in H.
  - exists a. split; [assumption|]. rewrite R in H. cbn in H. congruence.
  - rewrite T in H. cbn in H. discriminate.
Qed.
Lemma finish_ret : forall (A : Type) s (m : M A) w a, returns m a -> finish s m w = (w a, RDone).
Proof. intros A s m w a R. unfold finish. rewrite R. reflexivity. Qed.

(** ++ and -- in terms of compound assignment *)
Definition step_op (inc : bool) : aop := if inc then Add else Sub.
Lemma int_ok : forall n D, type_ok n D (ORaw Int).
Proof. intros n D. split; [apply (wf_int_lit D 0); lia|]. split; intros; discriminate. Qed.
Lemma int_one : forall D, holds D (ORaw Int) 1.
Proof. intros D. apply (wf_int_lit D 1). lia. Qed.
Lemma step_four : forall inc : bool, four (step_op inc).
Proof. intros [|]; unfold four; auto. Qed.
Lemma step_ok : forall n inc, op_ok n (BA (step_op inc)).
Proof. intros n [|]; unfold op_ok; auto. Qed.

Lemma finish_inv : forall (A : Type) s (m : M A) w s', finish s m w = (s', RDone) ->
  exists a l, m = (l, Ret a) /\ s' = w a.
Proof.
  intros A s [l [a|e| |]] w s' H; unfold finish in H; cbn in H; try discriminate.
  exists a, l. split; [reflexivity|congruence].
Qed.

Lemma post_step : forall D t (inc : bool) x k,
  (if inc then post_increment D t x else post_decrement D t x) = Some k ->
  exists m, compound D (BA (step_op inc)) (OSafe t) (ORaw Int) x 1 = Some m
  /\ k = mbind m (fun n => mret (x, n)).
Proof.
  intros D t inc x k H. destruct inc; unfold post_increment, post_decrement, increment, decrement in H; cbn [step_op];
  (destruct (compound D _ (OSafe t) (ORaw Int) x 1) as [m|]; [|discriminate]); injection H as <-; eauto.
Qed.

(** what a completed update did *)
Lemma assign_done : forall D G s i v e t m0, (forall v, type_ok true D (G v)) -> store_ok D G s i ->
  expr_ok true D e -> type_of D G e = Some t -> convert D (G v) t 0 = Some m0 ->
  forall s', finish s (mbind (eval D G s e) (fun x => run (convert D (G v) t x))) (fun z => upd s v (Some z)) = (s', RDone) ->
  exists z, beval D G i e = Ok z /\ conv D (base_ty (G v)) z = z /\ holds D (G v) z /\ s' = upd s v (Some z).
Proof.
  intros D G s i v e t m0 HG Hs He Et Ec s' H.
  destruct (expr_char true D G s i e t HG Hs He Et) as [Te [(x & Vx & Hx & Ix)|T]].
  - rewrite (bind_ret _ _ _ _ _ Hx) in H. destruct (convert_any D (G v) t 0 x m0 Ec) as (k & K). rewrite K in H. cbn [run] in H.
    destruct (convert_char true D (G v) t x k (HG v) Te Ix K) as [[A B]|T].
    + rewrite (finish_ret _ _ _ _ _ B) in H. injection H as <-. exists x.
      splits; auto. * eapply beval_char; eassumption. * eapply conv_holds; [apply HG|assumption].
    + destruct (finish_done _ _ _ _ _ H) as (a & Ra & _); [right; assumption|]. exfalso. exact (not_both _ _ _ Ra T).
  - destruct (finish_done _ _ _ _ _ H) as (a & Ra & _); [right; apply mbind_throws; assumption|].
    exfalso. exact (not_both _ _ _ Ra (mbind_throws _ _ _ _ T)).
Qed.

Lemma update_done : forall D G s i v o u U y m0, (forall v, type_ok true D (G v)) -> store_ok D G s i ->
  four o -> type_ok true D u -> holds D u y -> promote D (base_ty u) = promote D U ->
  compound D (BA o) (G v) u 0 m0 <> None ->
  forall s', finish s (mbind (read s v) (fun x => run (compound D (BA o) (G v) u x y))) (fun z => upd s v (Some z)) = (s', RDone) ->
  exists z, rmap (fun z => conv D (base_ty (G v)) z) (built_in D o (base_ty (G v)) U (i v) y) = Ok z
  /\ holds D (G v) z /\ s' = upd s v (Some z).
Proof.
  intros D G s i v o u U y m0 HG Hs Ho Tu Hy PU Hc s' H. destruct (Hs v) as [Ev Iv].
  unfold read in H. rewrite Ev, mbind_ret in H.
  destruct (compound D (BA o) (G v) u 0 m0) as [k0|] eqn:Ec; [|congruence].
  destruct (compound_any D (BA o) (G v) u 0 m0 (i v) y k0 Ec) as (k & K). rewrite K in H. cbn [run] in H.
  assert (Hop : op_ok true (BA o)) by (destruct Ho as [->|[->|[->| ->]]]; unfold op_ok; auto 10).
  destruct (compound_char true D (BA o) (G v) u (i v) y k Hop (HG v) Tu Iv Hy K) as [(z & M1 & M2 & M3)|T].
  - rewrite (finish_ret _ _ _ _ _ M2) in H. injection H as <-. exists z. splits; auto.
    eapply update_built_in; try eassumption. apply HG.
  - destruct (finish_done _ _ _ _ _ H) as (a & Ra & _); [right; assumption|]. exfalso. exact (not_both _ _ _ Ra T).
Qed.

Definition same (D : dmodel) (G : tenv) (s' : store) (o : option (res (nat -> Z))) : Prop :=
  exists i', o = Some (Ok i') /\ store_ok D G s' i'.

Lemma bloop_char : forall D G c a, (forall v, type_ok true D (G v)) -> cond_ok true D c -> cond_compiles D G c = true ->
  cond_lossless D G c ->
  forall body bbody,
  (forall s i s', store_ok D G s i -> body s = Some (s', RDone) -> same D G s' (bbody i)) ->
  (forall s i s' r, store_ok D G s i -> body s = Some (s', r) -> good D G i a s' r) ->
  forall k s i s', store_ok D G s i -> loop (fun s => eval_cond D G s c) body k s = Some (s', RDone) ->
  same D G s' (bloop (fun i => bcond D G i c) bbody k i).
Proof.
  intros D G c a HG Hc Hcc Hl body bbody Hb Hg. induction k as [|k IH]; intros s i s' Hs H; cbn [loop bloop] in *; [discriminate|].
  destruct (cond_char true D G s i c HG Hs Hc Hcc) as [(t & Ht & Rt)|(e & _ & Te)].
  - rewrite (bcond_char D G s i c t HG Hs Hc Hcc Hl Rt). rewrite Rt in H. cbn [snd] in H. destruct t.
    + destruct (body s) as [[s1 [|e|]]|] eqn:Eb; try discriminate.
      destruct (Hb s i s1 Hs Eb) as (i1 & -> & Hs1). apply IH with (s := s1); assumption.
    + injection H as <-. exists i. auto.
  - rewrite Te in H. discriminate.
Qed.

Lemma bexec_char : forall D G fuel, (forall v, type_ok true D (G v)) ->
  forall c s i s', cmd_ok true D G c -> compiles D G c = true -> no_try c -> conds_lossless D G c -> store_ok D G s i ->
  exec fuel D G s c = Some (s', RDone) -> same D G s' (bexec fuel D G i c).
Proof.
  intros D G fuel HG. induction c as [|v|v e|op v e|v|v|inc w v|a IHa b IHb|c a IHa b IHb|c a IHa|a IHa b IHb];
  intros s i s' Hok Hc Hn Hl Hs H; pose proof Hok as Hok0; pose proof Hc as Hc0; pose proof H as H0;
  cbn [exec cmd_ok compiles no_try conds_lossless bexec] in *.
  - injection H as <-. exists i. auto.
  - exfalso. destruct (exec_good true D G fuel HG (CDefault v) s i s' RDone Hok0 Hc0 Hs H0) as (i' & _ & [[_ K]|(e & K & _)]);
      [inversion K|discriminate].
  - destruct (type_of D G e) as [t|] eqn:Et; [|discriminate].
    destruct (convert D (G v) t 0) as [m0|] eqn:Ec; [|discriminate]. injection H as H.
    destruct (assign_done D G s i v e t m0 HG Hs Hok Et Ec s' H) as (z & Ez & Cz & Hz & ->).
    exists (upd i v z). rewrite Ez. cbn. rewrite Cz. split; [reflexivity|]. apply store_ok_upd; assumption.
  - destruct Hok as [Hop He]. destruct (type_of D G e) as [t|] eqn:Et; [|discriminate].
    destruct (compound D op (G v) t 0 0) as [m0|] eqn:Ec; [|discriminate]. injection H as H.
    destruct (op_ok_four _ _ Hop) as (o & -> & Ho).
    destruct (expr_char true D G s i e t HG Hs He Et) as [Te [(y & Vy & Hy & Iy)|T]].
    + rewrite (bind_ret _ _ _ _ _ Hy) in H.
      destruct (update_done D G s i v o t (btype D G e) y 0 HG Hs Ho Te Iy (type_of_btype D G HG e t He Et) ltac:(congruence) s' H) as (z & Ez & Hz & ->).
      exists (upd i v z). rewrite (beval_char D G s i HG Hs e t y He Et Hy). cbn [rbind]. rewrite Ez. split; [reflexivity|].
      apply store_ok_upd; assumption.
    + destruct (finish_done _ _ _ _ _ H) as (a & Ra & _); [right; apply mbind_throws; assumption|].
      exfalso. exact (not_both _ _ _ Ra (mbind_throws _ _ _ _ T)).
  - pose proof (update_done D G s i v Add (ORaw Int) Int 1 1 HG Hs ltac:(unfold four; auto) (int_ok _ _) (int_one _) eq_refl) as K.
    destruct (G v) as [T|t|T N P E] eqn:EG; try discriminate. unfold increment in *.
    destruct (compound D (BA Add) (OSafe t) (ORaw Int) 0 1) as [m0|] eqn:Ec; [|discriminate]. injection H as H.
    destruct (K ltac:(congruence) s' H) as (z & Ez & Hz & ->).
    exists (upd i v z). rewrite Ez. split; [reflexivity|]. apply store_ok_upd; [assumption|rewrite EG; assumption].
  - pose proof (update_done D G s i v Sub (ORaw Int) Int 1 1 HG Hs ltac:(unfold four; auto) (int_ok _ _) (int_one _) eq_refl) as K.
    destruct (G v) as [T|t|T N P E] eqn:EG; try discriminate. unfold decrement in *.
    destruct (compound D (BA Sub) (OSafe t) (ORaw Int) 0 1) as [m0|] eqn:Ec; [|discriminate]. injection H as H.
    destruct (K ltac:(congruence) s' H) as (z & Ez & Hz & ->).
    exists (upd i v z). rewrite Ez. split; [reflexivity|]. apply store_ok_upd; [assumption|rewrite EG; assumption].
  - pose proof (HG v) as Tv. pose proof (HG w) as Tw. destruct (Hs v) as [Ev Iv].
    destruct (G v) as [T|t|T N P E] eqn:EG; try discriminate.
    destruct (G w) as [T|t'|T N P E] eqn:EW; try discriminate.
    unfold read in H. rewrite Ev, mbind_ret in H. cbn [snd mret] in H.
    destruct (if inc then post_increment D t 0 else post_decrement D t 0) as [p0|] eqn:Ep; [|discriminate].
    destruct (construct D t' (OSafe t) 0) as [q0|] eqn:Eq; [|discriminate].
    destruct (post_step D t inc 0 p0 Ep) as (c0 & C0 & _).
    destruct (compound_any D _ (OSafe t) (ORaw Int) 0 1 (i v) 1 c0 C0) as (m & Hm).
    assert (Hk : (if inc then post_increment D t (i v) else post_decrement D t (i v)) = Some (mbind m (fun n => mret (i v, n)))).
    { destruct inc; cbn [step_op] in Hm; unfold post_increment, post_decrement, increment, decrement; rewrite Hm; reflexivity. }
    rewrite Hk in H. cbn [run] in H.
    destruct (compound_char true D _ (OSafe t) (ORaw Int) (i v) 1 m (step_ok true inc) Tv (int_ok _ _) Iv (int_one _) Hm) as [(z & M1 & M2 & M3)|(e & _ & Te)].
    + rewrite (bind_ret _ _ _ _ _ M2) in H. cbn [finish mret snd fst] in H. injection H as H.
      destruct (construct_compiles D t' (OSafe t) 0 (i v) q0 Eq) as (k1 & K1). rewrite K1 in H. cbn [run] in H.
      destruct (convert_char true D (OSafe t') (OSafe t) (i v) k1 Tw Tv Iv K1) as [[A B]|T].
      * rewrite (finish_ret _ _ _ _ _ B) in H. injection H as <-.
        exists (upd (upd i v z) w (i v)).
        replace (if inc then Add else Sub) with (step_op inc) by (destruct inc; reflexivity).
        pose proof (update_built_in D (step_op inc) (OSafe t) (ORaw Int) Int (i v) 1 m z (step_four inc) Tv (int_ok _ _) Iv (int_one _) eq_refl Hm M2) as Eu.
        cbv zeta. unfold rmap at 1. rewrite Eu. cbn [rbind]. rewrite (conv_holds true D (OSafe t') (i v) Tw A). split; [reflexivity|].
        apply store_ok_upd; [apply store_ok_upd; [assumption|rewrite EG; assumption]|rewrite EW; assumption].
      * destruct (finish_done _ _ _ _ _ H) as (a & Ra & _); [right; assumption|]. exfalso. exact (not_both _ _ _ Ra T).
    + rewrite Te in H. discriminate.
  - apply andb_prop in Hc. destruct Hc as [Ca Cb]. destruct Hok as [Oa Ob]. destruct Hn as [Na Nb]. destruct Hl as [La Lb].
    destruct (exec fuel D G s a) as [[s1 [|e|]]|] eqn:Ea; try discriminate.
    destruct (IHa s i s1 Oa Ca Na La Hs Ea) as (i1 & -> & Hs1). eapply IHb; eassumption.
  - apply andb_prop in Hc. destruct Hc as [Cc Cb]. apply andb_prop in Cc. destruct Cc as [Cc Ca].
    destruct Hok as (Oc & Oa & Ob). destruct Hn as [Na Nb]. destruct Hl as (Lc & La & Lb).
    destruct (cond_char true D G s i c HG Hs Oc Cc) as [(t & Ht & Rt)|(e & _ & Te)].
    + rewrite (bcond_char D G s i c t HG Hs Oc Cc Lc Rt). rewrite Rt in H. cbn [snd] in H. destruct t; eauto.
    + rewrite Te in H. discriminate.
  - apply andb_prop in Hc. destruct Hc as [Cc Ca]. destruct Hok as (Oc & Oa). destruct Hl as (Lc & La).
    refine (bloop_char D G c a HG Oc Cc Lc (fun s => exec fuel D G s a) _ _ _ fuel s i s' Hs H).
    + intros s0 i0 s1 Hs0 E0. eapply IHa; eassumption.
    + intros s0 i0 s1 r Hs0 E0. eapply exec_good; eassumption.
  - contradiction.
Qed.

(** ------------------------------------------------------------------ *)
(** lossless programs do not throw *)
Lemma obind_some : forall (A B : Type) (m : option A) (k : A -> option B) b, obind m k = Some b ->
  exists a, m = Some a /\ k a = Some b.
Proof. intros A B [a|] k b H; [eauto|discriminate]. Qed.
Lemma keep_some : forall D T z w, keep D T z = Some w -> w = z /\ in_type D T z.
Proof.
  intros D T z w H. unfold keep in H. destruct (in_range D T z) eqn:E; [|discriminate].
  apply in_range_iff in E. split; [congruence|assumption].
Qed.
Lemma fits_some : forall D o z w, fits_type D o z = Some w -> w = z /\ holds D o z.
Proof.
  intros D o z w H. unfold fits_type in H. destruct ((lim_lo D o <=? z) && (z <=? lim_hi D o)) eqn:E; [|discriminate].
  apply andb_prop in E. destruct E as [E1 E2]. apply Z.leb_le in E1, E2.
  split; [congruence|]. unfold holds. lia.
Qed.
Lemma lossless_op_some : forall D op T U x y z, lossless_op D op T U x y = Some z ->
  let R := match op with BA o => built_in_type D o T U | BB _ => uac D T U end in
  in_type D R x /\ in_type D R y /\ math_op op x y = Some z /\ in_type D R z.
Proof.
  intros D op T U x y z H. unfold lossless_op in H. cbv zeta in *.
  set (R := match op with BA o => _ | BB _ => _ end) in *.
  apply obind_some in H. destruct H as (x' & Hx & H). apply keep_some in Hx.
  apply obind_some in H. destruct H as (y' & Hy & H). apply keep_some in Hy.
  apply obind_some in H. destruct H as (z' & Hz & H). apply keep_some in H. destruct H as [-> H]. tauto.
Qed.

Lemma op_lossless : forall D o t u x y z rs m T U, four o -> type_ok true D t -> type_ok true D u ->
  holds D t x -> holds D u y -> eval_binop D (BA o) t u x y = Some (rs, m) ->
  promote D (base_ty t) = promote D T -> promote D (base_ty u) = promote D U ->
  lossless_op D (BA o) T U x y = Some z -> returns m z.
Proof.
  intros D o t u x y z rs m T U Ho Tt Tu Hx Hy H PT PU Hl.
  apply lossless_op_some in Hl. cbv zeta in Hl. rewrite four_type in Hl by assumption.
  rewrite <- (uac_promotes D _ _ _ _ PT PU) in Hl.
  rewrite <- (result_type D o t u x y rs m Ho Tt Tu H) in Hl. destruct Hl as (Ix & Iy & Hm & Iz).
  destruct (policy_throws true D o t u _ _ rs m Tt Tu H) as [HE HN]. cbn [eval_binop] in H.
  destruct Ho as [->|[->|[->| ->]]]; cbn [math_op exact] in Hm.
  - injection Hm as <-. exact (C49_lemma Add D t u x y rs m ltac:(auto) (proj1 Tt) (proj1 Tu) Hx Hy H HE Ix Iy Iz).
  - injection Hm as <-. exact (C49_lemma Sub D t u x y rs m ltac:(auto) (proj1 Tt) (proj1 Tu) Hx Hy H HE Ix Iy Iz).
  - injection Hm as <-. exact (C49_lemma Mul D t u x y rs m ltac:(auto) (proj1 Tt) (proj1 Tu) Hx Hy H HE Ix Iy Iz).
  - destruct (Z.eqb_spec y 0) as [|N]; [discriminate|]. injection Hm as <-.
    destruct (div_char D t u x y rs m (proj1 Tt) (proj1 Tu) Hx Hy H HE ltac:(left; auto)) as (_ & _ & Q).
    destruct (Q N) as [(R & _)|[[K|[K|K]] _]]; [assumption|contradiction|contradiction|contradiction].
Qed.

Lemma both_ret : forall first ma mb x y, returns ma x -> returns mb y -> returns (both first ma mb) (x, y).
Proof.
  intros first ma mb x y Hx Hy. unfold both. destruct first.
  - rewrite (bind_ret _ _ _ _ _ Hx), (bind_ret _ _ _ _ _ Hy). reflexivity.
  - rewrite (bind_ret _ _ _ _ _ Hy), (bind_ret _ _ _ _ _ Hx). reflexivity.
Qed.

Lemma expr_holds : forall D G s i e t z, (forall v, type_ok true D (G v)) -> store_ok D G s i ->
  expr_ok true D e -> type_of D G e = Some t -> returns (eval D G s e) z -> type_ok true D t /\ holds D t z.
Proof.
  intros D G s i e t z HG Hs He Ht R.
  destruct (expr_char true D G s i e t HG Hs He Ht) as [T [(z' & _ & R' & H)|Th]].
  - rewrite (returns_inj _ _ _ _ R R'). auto.
  - exfalso. exact (not_both _ _ _ R Th).
Qed.

Lemma convert_lossless : forall D o t x k, type_ok true D o -> type_ok true D t -> holds D t x -> holds D o x ->
  convert D o t x = Some k -> returns k x.
Proof.
  intros D o t x k To Tt Ix Hx K.
  destruct o as [T|so|T N P E]; cbn [convert] in K.
  - destruct t as [U|ts|U N P E].
    + destruct (ctype_eqb T U); [|discriminate]. injection K as <-. reflexivity.
    + destruct (to_builtin_char D T ts x k) as [[_ ->]|[N _]]; auto.
      * apply (proj1 (proj2 Tt)). reflexivity.
      * apply (holds_in D (OSafe ts)); [exact (proj1 Tt)|assumption].
      * reflexivity.
      * exfalso. apply N. exact Hx.
    + unfold holds in Ix. cbn [lim_lo lim_hi] in Ix. assert (x = N) by lia. subst x.
      destruct (C46_lemma D T U N E) as [A _].
      * destruct Tt as ((A & _) & _). exact A.
      * intros E0 HE. apply (proj1 (proj2 Tt)). exact HE.
      * destruct (A Hx) as (m & Hm & R). rewrite K in Hm. injection Hm as <-. assumption.
  - destruct (construct_char D so t x k (proj1 To) (proj1 Tt) (proj1 (proj2 To) _ eq_refl) Ix K) as [[_ ->]|[N _]].
    + reflexivity.
    + exfalso. apply N. exact Hx.
  - discriminate.
Qed.

Lemma lossless_char : forall D G s i, (forall v, type_ok true D (G v)) -> store_ok D G s i ->
  forall e t z, expr_ok true D e -> type_of D G e = Some t -> lossless D G i e = Some z ->
  returns (eval D G s e) z.
Proof.
  intros D G s i HG Hs. induction e as [o c|v|op first a IHa b IHb|a IHa|a IHa|o a IHa]; intros t z He Ht R;
  cbn [type_of expr_ok eval lossless] in *.
  - injection R as <-. reflexivity.
  - injection R as <-. destruct (Hs v) as [Ev _]. unfold read. rewrite Ev. reflexivity.
  - destruct He as (Hop & Ha & Hb).
    destruct (type_of D G a) as [ta|] eqn:Ea; [|discriminate]. destruct (type_of D G b) as [tb|] eqn:Eb; [|discriminate].
    destruct (eval_binop D op ta tb 0 0) as [[rs m0]|] eqn:E; [|discriminate]. cbn in Ht. injection Ht as <-.
    apply obind_some in R. destruct R as (x & Lx & R). apply obind_some in R. destruct R as (y & Ly & R).
    pose proof (IHa ta x Ha eq_refl Lx) as Hx. pose proof (IHb tb y Hb eq_refl Ly) as Hy.
    destruct (expr_holds D G s i a ta x HG Hs Ha Ea Hx) as [Ta Ix].
    destruct (expr_holds D G s i b tb y HG Hs Hb Eb Hy) as [Tb Iy].
    rewrite (bind_ret _ _ _ _ _ (both_ret first _ _ x y Hx Hy)). cbn [fst snd].
    destruct (eval_binop_any D op ta tb 0 0 x y rs m0 E) as (k & K). rewrite K. cbn [run_snd].
    destruct (op_ok_four _ _ Hop) as (o & -> & Ho).
    apply (op_lossless D o ta tb x y z rs k (btype D G a) (btype D G b)); auto using type_of_btype.
  - destruct (type_of D G a) as [[T|ts|T N P E]|] eqn:Ea; try discriminate.
    destruct (unary_minus D ts 0) as [[rs m0]|] eqn:Eb; [|discriminate]. cbn in Ht. injection Ht as <-.
    apply obind_some in R. destruct R as (x & Lx & R). apply keep_some in R. destruct R as [-> R].
    pose proof (IHa _ x He eq_refl Lx) as Hx. destruct (expr_holds D G s i a _ x HG Hs He Ea Hx) as [Ta Ix].
    rewrite (bind_ret _ _ _ _ _ Hx).
    destruct (binary_any D Sub _ _ 0 0 0 x rs m0 Eb) as (k & K). unfold unary_minus. rewrite K. cbn [run_snd].
    replace (- x) with (0 - x) by lia.
    apply (op_lossless D Sub (ORaw Int) (OSafe ts) 0 x (0 - x) rs k Int (st ts)); auto using int_ok.
    + unfold four; auto.
    + apply (wf_int_lit D 0). lia.
    + unfold lossless_op, obind, math_op, exact, keep. cbn [built_in_type]. rewrite uac_int.
      pose proof (type_of_btype D G HG a (OSafe ts) He Ea) as Hp. cbn [base_ty] in Hp.
      rewrite (proj2 (in_range_iff _ _ _) (zero_in D (promote D (st ts)))).
      rewrite (proj2 (in_range_iff _ _ _) (promote_in D (st ts) _ (holds_in D (OSafe ts) x (proj1 Ta) Ix))).
      rewrite Hp. replace (0 - x) with (- x) by lia. rewrite (proj2 (in_range_iff _ _ _) R). reflexivity.
  - destruct (type_of D G a) as [[T|ts|T N P E]|] eqn:Ea; try discriminate. cbn in Ht. injection Ht as <-.
    rewrite (bind_ret _ _ _ _ _ (IHa _ z He eq_refl R)). reflexivity.
  - destruct He as [To Ha]. destruct (type_of D G a) as [ta|] eqn:Ea; [|discriminate].
    destruct (convert D o ta 0) as [m0|] eqn:Ec; [|discriminate]. cbn in Ht. injection Ht as <-.
    apply obind_some in R. destruct R as (x & Lx & R). apply fits_some in R. destruct R as [-> R].
    pose proof (IHa _ x Ha eq_refl Lx) as Hx. destruct (expr_holds D G s i a _ x HG Hs Ha Ea Hx) as [Ta Ix].
    rewrite (bind_ret _ _ _ _ _ Hx). destruct (convert_any D o ta 0 x m0 Ec) as (k & K). rewrite K. cbn [run].
    apply (convert_lossless D o ta x k); assumption.
Qed.

Lemma native_compare : forall D r t u x y m, type_ok true D t -> type_ok true D u -> holds D t x -> holds D u y ->
  in_type D (uac D (base_ty t) (base_ty u)) x -> in_type D (uac D (base_ty t) (base_ty u)) y ->
  eval_relop D r t u x y = Some m -> returns m (math_rel r x y).
Proof.
  intros D r t u x y m Tt Tu Hx Hy Ix Iy H.
  assert (HE : forall E, get_ep t = Some E \/ get_ep u = Some E -> throws_arithmetic E)
    by (intros E [K|K]; [apply (proj1 (proj2 Tt))|apply (proj1 (proj2 Tu))]; assumption).
  assert (HP : forall P, get_pp t = Some P \/ get_pp u = Some P -> P = Native)
    by (intros P [K|K]; [apply (proj2 (proj2 Tt) eq_refl)|apply (proj2 (proj2 Tu) eq_refl)]; assumption).
  destruct (eval_relop_char true D r t u x y m Tt Tu Hx Hy H) as [R|T]; [assumption|exfalso].
  assert (Hc : forall k, (s_lt D t u x y = Some k \/ s_eq D t u x y = Some k) -> ~ throws_arith k).
  { intros k K. exact (C29_native_lemma D t u x y k (proj1 Tt) (proj1 Tu) Hx Hy HE HP K Ix Iy). }
  assert (Hd : forall k, s_lt D u t y x = Some k -> ~ throws_arith k).
  { intros k K. rewrite uac_comm in Ix, Iy.
    refine (C29_native_lemma D u t y x k (proj1 Tu) (proj1 Tt) Hy Hx _ _ (or_introl K) Iy Ix).
    - intros E K1. apply HE. tauto.
    - intros P K1. apply HP. tauto. }
  assert (Hneg : forall (k : M bool), throws_arith (mbind k (fun b => mret (negb b))) -> ~ throws_arith k -> False).
  { intros [l [b|e| |]] (e' & Ae & He) N; cbn in He; try discriminate. injection He as He1 He2.
    apply N. exists e'. split; [assumption|]. rewrite <- He1, He2. rewrite ?app_nil_r. reflexivity. }
  destruct r; cbn [eval_relop] in H; unfold s_le, s_ge, s_ne, s_gt, s_lt, s_eq in *.
  - exact (Hc m (or_introl H) T).
  - exact (Hd m H T).
  - destruct (compare D CLt u t y x) as [k|] eqn:E; [|discriminate]. injection H as <-.
    exact (Hneg k T (Hd k eq_refl)).
  - destruct (compare D CLt t u x y) as [k|] eqn:E; [|discriminate]. injection H as <-.
    exact (Hneg k T (Hc k (or_introl eq_refl))).
  - exact (Hc m (or_intror H) T).
  - destruct (compare D CEq t u x y) as [k|] eqn:E; [|discriminate]. injection H as <-.
    exact (Hneg k T (Hc k (or_intror eq_refl))).
Qed.

Lemma lossless_cond_char : forall D G s i c t, (forall v, type_ok true D (G v)) -> store_ok D G s i ->
  cond_ok true D c -> cond_compiles D G c = true -> lossless_cond D G i c = Some t ->
  returns (eval_cond D G s c) t.
Proof.
  intros D G s i [r first a b] t HG Hs [Ha Hb] Hc R. cbn [cond_compiles eval_cond lossless_cond] in *.
  destruct (type_of D G a) as [ta|] eqn:Eta; [|discriminate].
  destruct (type_of D G b) as [tb|] eqn:Etb; [|discriminate].
  destruct (eval_relop D r ta tb 0 0) as [m0|] eqn:Er; [|discriminate].
  apply obind_some in R. destruct R as (x & Lx & R). apply obind_some in R. destruct R as (y & Ly & R).
  apply obind_some in R. destruct R as (x' & Kx & R). apply obind_some in R. destruct R as (y' & Ky & R).
  apply keep_some in Kx. apply keep_some in Ky. injection R as <-.
  pose proof (lossless_char D G s i HG Hs a ta x Ha Eta Lx) as Hx.
  pose proof (lossless_char D G s i HG Hs b tb y Hb Etb Ly) as Hy.
  destruct (expr_holds D G s i a ta x HG Hs Ha Eta Hx) as [Ta Ix].
  destruct (expr_holds D G s i b tb y HG Hs Hb Etb Hy) as [Tb Iy].
  rewrite (bind_ret _ _ _ _ _ (both_ret first _ _ x y Hx Hy)). cbn [fst snd].
  destruct (eval_relop_any D r ta tb 0 0 x y m0 Er) as (k & K). rewrite K. cbn [run].
  pose proof (uac_promotes D _ _ _ _ (type_of_btype D G HG a ta Ha Eta) (type_of_btype D G HG b tb Hb Etb)) as Hu.
  rewrite <- Hu in Kx, Ky.
  apply (native_compare D r ta tb x y k); tauto.
Qed.

Lemma compound_lossless : forall D o tgt u U x y z z' m, four o -> type_ok true D tgt -> type_ok true D u ->
  holds D tgt x -> holds D u y -> promote D (base_ty u) = promote D U ->
  compound D (BA o) tgt u x y = Some m ->
  lossless_op D (BA o) (base_ty tgt) U x y = Some z -> fits_type D tgt z = Some z' ->
  z' = z /\ returns m z /\ holds D tgt z.
Proof.
  intros D o tgt u U x y z z' m Ho Tt Tu Hx Hy PU H Hl Hf. apply fits_some in Hf. destruct Hf as [-> Hz].
  split; [reflexivity|]. split; [|assumption].
  assert (Hop : op_ok true (BA o)) by (destruct Ho as [->|[->|[->| ->]]]; unfold op_ok; auto 10).
  assert (HR : forall rs m0, eval_binop D (BA o) tgt u x y = Some (rs, m0) -> type_ok true D (OSafe rs) /\ returns m0 z /\ holds D (OSafe rs) z).
  { intros rs m0 E. pose proof (op_lossless D o tgt u x y z rs m0 _ U Ho Tt Tu Hx Hy E eq_refl PU Hl) as R.
    destruct (op_char true D (BA o) tgt u x y rs m0 Hop Tt Tu Hx Hy E) as [T [(z1 & _ & R1 & Hz1)|Th]].
    - rewrite (returns_inj _ _ _ _ R R1) in *. auto.
    - exfalso. exact (not_both _ _ _ R Th). }
  destruct tgt as [T|ts|T N P E].
  - destruct (compound_raw D (BA o) T u x y m) as (rs & m0 & Eb & K).
    + intros rs m0 E. destruct (HR rs m0 E) as [(_ & A & _) _]. apply A. reflexivity.
    + exact H.
    + destruct (HR rs m0 Eb) as (Tr & R & Hr).
      destruct (K z R (holds_in D (OSafe rs) z (proj1 Tr) Hr)) as [[_ A]|[N _]]; [assumption|exfalso; apply N; exact Hz].
  - destruct (compound_safe D (BA o) ts u x y m (proj1 Tt) (proj1 (proj2 Tt) _ eq_refl) H) as (rs & m0 & Eb & K).
    destruct (HR rs m0 Eb) as (Tr & R & Hr).
    destruct (K z R (proj1 Tr) Hr) as [[_ A]|[N _]]; [assumption|exfalso; apply N; exact Hz].
  - exfalso. unfold compound in H. destruct (eval_binop D (BA o) (OLit T N P E) u x y) as [[? ?]|]; discriminate.
Qed.

Definition done (D : dmodel) (G : tenv) (o : option (store * result)) (i' : nat -> Z) : Prop :=
  exists s', o = Some (s', RDone) /\ store_ok D G s' i'.

Lemma lossless_loop_char : forall D G c, (forall v, type_ok true D (G v)) -> cond_ok true D c -> cond_compiles D G c = true ->
  forall body lbody,
  (forall s i i', store_ok D G s i -> lbody i = Some i' -> done D G (body s) i') ->
  forall k s i i', store_ok D G s i -> lossless_loop (fun i => lossless_cond D G i c) lbody k i = Some i' ->
  done D G (loop (fun s => eval_cond D G s c) body k s) i'.
Proof.
  intros D G c HG Hc Hcc body lbody Hb. induction k as [|k IH]; intros s i i' Hs H; cbn [loop lossless_loop] in *; [discriminate|].
  apply obind_some in H. destruct H as (t & Ht & H).
  rewrite (lossless_cond_char D G s i c t HG Hs Hc Hcc Ht). cbn [snd]. destruct t.
  - apply obind_some in H. destruct H as (i1 & H1 & H).
    destruct (Hb s i i1 Hs H1) as (s1 & -> & Hs1). eapply IH; eassumption.
  - injection H as <-. exists s. auto.
Qed.

Lemma lossless_exec_char : forall D G fuel, (forall v, type_ok true D (G v)) ->
  forall c s i i', cmd_ok true D G c -> compiles D G c = true -> store_ok D G s i ->
  lossless_exec fuel D G i c = Some i' -> done D G (exec fuel D G s c) i'.
Proof.
  intros D G fuel HG. induction c as [|v|v e|op v e|v|v|inc w v|a IHa b IHb|c a IHa b IHb|c a IHa|a IHa b IHb];
  intros s i i' Hok Hc Hs H; cbn [exec cmd_ok compiles lossless_exec] in *; cbv zeta in H.
  - injection H as <-. exists s. auto.
  - discriminate.
  - destruct (type_of D G e) as [t|] eqn:Et; [|discriminate].
    destruct (convert D (G v) t 0) as [m0|] eqn:Ec; [|discriminate].
    apply obind_some in H. destruct H as (x & Lx & H). apply obind_some in H. destruct H as (x' & Fx & H).
    apply fits_some in Fx. destruct Fx as [-> Fx]. injection H as <-.
    pose proof (lossless_char D G s i HG Hs e t x Hok Et Lx) as Hx.
    destruct (expr_holds D G s i e t x HG Hs Hok Et Hx) as [Te Ix].
    rewrite (bind_ret _ _ _ _ _ Hx). destruct (convert_any D (G v) t 0 x m0 Ec) as (k & K). rewrite K. cbn [run].
    rewrite (finish_ret _ _ _ _ _ (convert_lossless D (G v) t x k (HG v) Te Ix Fx K)).
    eexists. split; [reflexivity|]. apply store_ok_upd; assumption.
  - destruct Hok as [Hop He]. destruct (type_of D G e) as [t|] eqn:Et; [|discriminate].
    destruct (compound D op (G v) t 0 0) as [m0|] eqn:Ec; [|discriminate].
    destruct (op_ok_four _ _ Hop) as (o & -> & Ho).
    apply obind_some in H. destruct H as (y & Ly & H). apply obind_some in H. destruct H as (z & Lz & H). injection H as <-.
    apply obind_some in Lz. destruct Lz as (z0 & Lz & Fz).
    pose proof (lossless_char D G s i HG Hs e t y He Et Ly) as Hy.
    destruct (expr_holds D G s i e t y HG Hs He Et Hy) as [Te Iy]. destruct (Hs v) as [Ev Iv].
    rewrite (bind_ret _ _ _ _ _ Hy). unfold read. rewrite Ev, mbind_ret.
    destruct (compound_any D (BA o) (G v) t 0 0 (i v) y m0 Ec) as (k & K). rewrite K. cbn [run].
    destruct (compound_lossless D o (G v) t (btype D G e) (i v) y z0 z k Ho (HG v) Te Iv Iy (type_of_btype D G HG e t He Et) K Lz Fz) as (-> & R & Hz).
    rewrite (finish_ret _ _ _ _ _ R). eexists. split; [reflexivity|]. apply store_ok_upd; assumption.
  - pose proof (HG v) as Tv. destruct (Hs v) as [Ev Iv].
    destruct (G v) as [T|t|T N P E] eqn:EG; try discriminate. unfold increment in *.
    destruct (compound D (BA Add) (OSafe t) (ORaw Int) 0 1) as [m0|] eqn:Ec; [|discriminate].
    apply obind_some in H. destruct H as (z & Lz & H). injection H as <-. apply obind_some in Lz. destruct Lz as (z0 & Lz & Fz).
    unfold read. rewrite Ev, mbind_ret.
    destruct (compound_any D (BA Add) (OSafe t) (ORaw Int) 0 1 (i v) 1 m0 Ec) as (k & K). rewrite K. cbn [run].
    destruct (compound_lossless D Add (OSafe t) (ORaw Int) Int (i v) 1 z0 z k ltac:(unfold four; auto) Tv (int_ok _ _) Iv (int_one _) eq_refl K Lz Fz) as (-> & R & Hz).
    rewrite (finish_ret _ _ _ _ _ R). eexists. split; [reflexivity|]. apply store_ok_upd; [assumption|rewrite EG; assumption].
  - pose proof (HG v) as Tv. destruct (Hs v) as [Ev Iv].
    destruct (G v) as [T|t|T N P E] eqn:EG; try discriminate. unfold decrement in *.
    destruct (compound D (BA Sub) (OSafe t) (ORaw Int) 0 1) as [m0|] eqn:Ec; [|discriminate].
    apply obind_some in H. destruct H as (z & Lz & H). injection H as <-. apply obind_some in Lz. destruct Lz as (z0 & Lz & Fz).
    unfold read. rewrite Ev, mbind_ret.
    destruct (compound_any D (BA Sub) (OSafe t) (ORaw Int) 0 1 (i v) 1 m0 Ec) as (k & K). rewrite K. cbn [run].
    destruct (compound_lossless D Sub (OSafe t) (ORaw Int) Int (i v) 1 z0 z k ltac:(unfold four; auto) Tv (int_ok _ _) Iv (int_one _) eq_refl K Lz Fz) as (-> & R & Hz).
    rewrite (finish_ret _ _ _ _ _ R). eexists. split; [reflexivity|]. apply store_ok_upd; [assumption|rewrite EG; assumption].
  - pose proof (HG v) as Tv. pose proof (HG w) as Tw. destruct (Hs v) as [Ev Iv].
    destruct (G v) as [T|t|T N P E] eqn:EG; try discriminate.
    destruct (G w) as [T|t'|T N P E] eqn:EW; try discriminate.
    destruct (if inc then post_increment D t 0 else post_decrement D t 0) as [p0|] eqn:Ep; [|discriminate].
    destruct (construct D t' (OSafe t) 0) as [q0|] eqn:Eq; [|discriminate].
    destruct (post_step D t inc 0 p0 Ep) as (c0 & C0 & _).
    destruct (compound_any D _ (OSafe t) (ORaw Int) 0 1 (i v) 1 c0 C0) as (m & Hm).
    assert (Hk : (if inc then post_increment D t (i v) else post_decrement D t (i v)) = Some (mbind m (fun n => mret (i v, n)))).
    { destruct inc; cbn [step_op] in Hm; unfold post_increment, post_decrement, increment, decrement; rewrite Hm; reflexivity. }
    apply obind_some in H. destruct H as (z & Lz & H). apply obind_some in Lz. destruct Lz as (z0 & Lz & Fz).
    apply obind_some in H. destruct H as (old & Fo & H). injection H as <-. apply fits_some in Fo. destruct Fo as [-> Fo].
    replace (if inc then Add else Sub) with (step_op inc) in Lz by (destruct inc; reflexivity).
    destruct (compound_lossless D (step_op inc) (OSafe t) (ORaw Int) Int (i v) 1 z0 z m (step_four inc) Tv (int_ok _ _) Iv (int_one _) eq_refl Hm Lz Fz) as (-> & R & Hz).
    unfold read. rewrite Ev, mbind_ret, Hk. cbn [run]. rewrite (bind_ret _ _ _ _ _ R). cbn [finish mret snd fst].
    destruct (construct_compiles D t' (OSafe t) 0 (i v) q0 Eq) as (k1 & K1). rewrite K1. cbn [run].
    rewrite (finish_ret _ _ _ _ _ (convert_lossless D (OSafe t') (OSafe t) (i v) k1 Tw Tv Iv Fo K1)).
    eexists. split; [reflexivity|].
    apply store_ok_upd; [apply store_ok_upd; [assumption|rewrite EG; assumption]|rewrite EW; assumption].
  - apply andb_prop in Hc. destruct Hc as [Ca Cb]. destruct Hok as [Oa Ob].
    apply obind_some in H. destruct H as (i1 & H1 & H).
    destruct (IHa s i i1 Oa Ca Hs H1) as (s1 & -> & Hs1). eapply IHb; eassumption.
  - apply andb_prop in Hc. destruct Hc as [Cc Cb]. apply andb_prop in Cc. destruct Cc as [Cc Ca].
    destruct Hok as (Oc & Oa & Ob). apply obind_some in H. destruct H as (t & Ht & H).
    rewrite (lossless_cond_char D G s i c t HG Hs Oc Cc Ht). cbn [snd]. destruct t; eauto.
  - apply andb_prop in Hc. destruct Hc as [Cc Ca]. destruct Hok as (Oc & Oa).
    refine (lossless_loop_char D G c HG Oc Cc (fun s => exec fuel D G s a) _ _ fuel s i i' Hs H).
    intros s0 i0 i1 Hs0 E0. eapply IHa; eassumption.
  - apply andb_prop in Hc. destruct Hc as [Ca Cb]. destruct Hok as [Oa Ob].
    destruct (IHa s i i' Oa Ca Hs H) as (s1 & -> & Hs1). exists s1. auto.
Qed.
