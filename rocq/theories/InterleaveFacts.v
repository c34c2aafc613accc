(** InterleaveFacts.v -- interleaved evaluation gives the same results. Proofs only. *)
From Coq Require Import ZArith List Bool Lia.
From Verif Require Import Base CType Spec IntervalFacts ExceptionPolicy Promotion SafeBase SafeSpec Program ProgramSpec ProgramFacts OrderSpec
  PropsProgramProofs OrderFacts Interleave.
Import ListNotations.
Local Open Scope Z_scope.

Definition bad {A : Type} (o : outcome A) : Prop := forall z, o <> Ret z.
Lemma bad_alike : forall A (o o' : outcome A), bad o -> alike o o' -> bad o'.
Proof. intros A o o' B H z ->. destruct o; cbn in H; try contradiction. eapply B; reflexivity. Qed.
Lemma alike_bad : forall A (o o' : outcome A), bad o -> bad o' -> alike o o'.
Proof. intros A o o' B B'. destruct o as [a| | |]; [destruct (B a eq_refl)| | |];
  (destruct o' as [a'| | |]; [destruct (B' a' eq_refl)| | |]); exact I. Qed.
Lemma alike_sym : forall A (o o' : outcome A), alike o o' -> alike o' o.
Proof. intros A [] []; cbn; auto. Qed.
Lemma alike_trans : forall A (o o' o'' : outcome A), alike o o' -> alike o' o'' -> alike o o''.
Proof. intros A [] [] []; cbn; intros; subst; auto; contradiction. Qed.
Lemma bad_bind : forall A B (m : M A) (k : A -> M B), bad (snd m) -> bad (snd (mbind m k)).
Proof.
  intros A B m k H z. rewrite snd_bind. destruct (snd m) as [a| | |] eqn:E; try discriminate. destruct (H a eq_refl).
Qed.
Lemma bad_both : forall f a b, bad (snd a) \/ bad (snd b) -> bad (snd (both f a b)).
Proof.
  intros f a b H z. unfold both. destruct f; rewrite !snd_bind; destruct (snd a) eqn:Ea; destruct (snd b) eqn:Eb;
    rewrite ?snd_bind, ?Ea, ?Eb; try discriminate;
    destruct H as [H|H]; destruct (H _ eq_refl).
Qed.

(** one call *)
Lemma unary_minus_any : forall D t x y r m, unary_minus D t x = Some (r, m) -> exists k, unary_minus D t y = Some (r, k).
Proof. intros D t x y r m H. unfold unary_minus in *. exact (binary_any D Sub _ _ 0 x 0 y r m H). Qed.

Lemma reduce_eval : forall D G s e t o, reduce D G s e = Some (t, o) ->
  type_of D G e = Some t /\ snd (eval D G s e) = o.
Proof.
  intros D G s e t o H. destruct e as [oc z|v|op f a b|a|a|oc a]; cbn [reduce] in H; try discriminate.
  - injection H as <- <-. auto.
  - destruct a as [ta x| | | | |]; try discriminate. destruct b as [tb y| | | | |]; try discriminate.
    destruct (eval_binop D op ta tb x y) as [[r m]|] eqn:E; [|discriminate]. injection H as <- <-. cbn [type_of eval].
    destruct (eval_binop_any D op ta tb x y 0 0 r m E) as (k & ->). split; [reflexivity|].
    destruct f; unfold both; rewrite !snd_bind; cbn; rewrite E; reflexivity.
  - destruct a as [[|ta|] x| | | | |]; try discriminate. destruct (unary_minus D ta x) as [[r m]|] eqn:E; [|discriminate].
    injection H as <- <-. cbn [type_of eval]. destruct (unary_minus_any D ta x 0 r m E) as (k & ->). split; [reflexivity|].
    rewrite snd_bind. cbn. rewrite E. reflexivity.
  - destruct a as [[|ta|] x| | | | |]; try discriminate. injection H as <- <-. split; reflexivity.
  - destruct a as [ta x| | | | |]; try discriminate. destruct (convert D oc ta x) as [m|] eqn:E; [|discriminate].
    injection H as <- <-. cbn [type_of eval]. destruct (convert_any D oc ta x 0 m E) as (k & ->). split; [reflexivity|].
    rewrite snd_bind. cbn. rewrite E. reflexivity.
Qed.

(** the value in the end is the same before and after a step *)
Definition keeps (D : dmodel) (G : tenv) (s : store) (e : expr) (p : progress) : Prop :=
  match p with
  | On e' => type_of D G e' = type_of D G e /\ alike (snd (eval D G s e)) (snd (eval D G s e'))
  | Stop o => bad o /\ bad (snd (eval D G s e))
  end.
Lemma estep_keeps : forall D G s e p, estep D G s e p -> keeps D G s e p.
Proof.
  intros D G s e p H. induction H as [e t z H|e t o H N|op f a a' b H IH|op f a b o H IH|op f a b b' H IH|op f a b o H IH
    |a a' H IH|a o H IH|a a' H IH|a o H IH|t a a' H IH|t a o H IH]; cbn [keeps] in *.
  - destruct (reduce_eval D G s e t _ H) as [-> ->]. split; [reflexivity|]. cbn. reflexivity.
  - destruct (reduce_eval D G s e t _ H) as [_ ->]. split; exact N.
  - destruct IH as [T A]. cbn [type_of eval]. rewrite T. split; [reflexivity|].
    destruct (type_of D G a) as [ta|]; [|apply alike_refl]. destruct (type_of D G b) as [tb|]; [|apply alike_refl].
    apply alike_bind, alike_both; [assumption|apply alike_refl].
  - destruct IH as [T A]. split; [assumption|]. cbn [eval].
    destruct (type_of D G a) as [ta|]; [|intros z; discriminate]. destruct (type_of D G b) as [tb|]; [|intros z; discriminate].
    apply bad_bind, bad_both. auto.
  - destruct IH as [T A]. cbn [type_of eval]. rewrite T. split; [reflexivity|].
    destruct (type_of D G a) as [ta|]; [|apply alike_refl]. destruct (type_of D G b) as [tb|]; [|apply alike_refl].
    apply alike_bind, alike_both; [apply alike_refl|assumption].
  - destruct IH as [T A]. split; [assumption|]. cbn [eval].
    destruct (type_of D G a) as [ta|]; [|intros z; discriminate]. destruct (type_of D G b) as [tb|]; [|intros z; discriminate].
    apply bad_bind, bad_both. auto.
  - destruct IH as [T A]. cbn [type_of eval]. rewrite T. split; [reflexivity|].
    destruct (type_of D G a) as [[]|]; try apply alike_refl. apply alike_bind; assumption.
  - destruct IH as [T A]. split; [assumption|]. cbn [eval].
    destruct (type_of D G a) as [[]|]; try (intros z; discriminate). apply bad_bind; assumption.
  - destruct IH as [T A]. cbn [type_of eval]. rewrite T. split; [reflexivity|].
    destruct (type_of D G a) as [[]|]; try apply alike_refl. apply alike_bind; assumption.
  - destruct IH as [T A]. split; [assumption|]. cbn [eval].
    destruct (type_of D G a) as [[]|]; try (intros z; discriminate). apply bad_bind; assumption.
  - destruct IH as [T A]. cbn [type_of eval]. rewrite T. split; [reflexivity|].
    destruct (type_of D G a) as [ta|]; try apply alike_refl. apply alike_bind; assumption.
  - destruct IH as [T A]. split; [assumption|]. cbn [eval].
    destruct (type_of D G a) as [ta|]; try (intros z; discriminate). apply bad_bind; assumption.
Qed.

Lemma erun_alike : forall D G s e o, erun D G s e o -> alike (snd (eval D G s e)) o.
Proof.
  intros D G s e o H. induction H as [t z|e o H|e e' o H1 H2 IH].
  - cbn. reflexivity.
  - destruct (estep_keeps D G s e _ H) as [B1 B2]. apply alike_bad; assumption.
  - destruct (estep_keeps D G s e _ H1) as [_ A]. eapply alike_trans; eassumption.
Qed.
Lemma alike_cond : forall D G s r f a a' b b', type_of D G a' = type_of D G a -> type_of D G b' = type_of D G b ->
  alike (snd (eval D G s a)) (snd (eval D G s a')) -> alike (snd (eval D G s b)) (snd (eval D G s b')) ->
  alike (snd (eval_cond D G s (Cond r f a b))) (snd (eval_cond D G s (Cond r f a' b'))).
Proof.
  intros D G s r f a a' b b' Ta Tb Ha Hb. cbn [eval_cond]. rewrite Ta, Tb.
  destruct (type_of D G a) as [ta|]; [|apply alike_refl]. destruct (type_of D G b) as [tb|]; [|apply alike_refl].
  apply alike_bind, alike_both; assumption.
Qed.
Lemma bad_cond : forall D G s r f a b, bad (snd (eval D G s a)) \/ bad (snd (eval D G s b)) ->
  bad (snd (eval_cond D G s (Cond r f a b))).
Proof.
  intros D G s r f a b H. cbn [eval_cond].
  destruct (type_of D G a) as [ta|]; [|intros z; discriminate]. destruct (type_of D G b) as [tb|]; [|intros z; discriminate].
  apply bad_bind, bad_both. assumption.
Qed.
Lemma crun_alike : forall D G s c o, crun D G s c o -> alike (snd (eval_cond D G s c)) o.
Proof.
  intros D G s c o H. induction H as [r f t x u y m H|r f a a' b o H1 H2 IH|r f a b b' o H1 H2 IH|r f a b e H|r f a b e H|r f a b o H N|r f a b o H N].
  - cbn [eval_cond type_of eval]. destruct f; unfold both; rewrite !snd_bind; cbn; rewrite H; apply alike_refl.
  - destruct (estep_keeps D G s a _ H1) as [T A]. eapply alike_trans; [|exact IH]. apply alike_cond; auto. apply alike_refl.
  - destruct (estep_keeps D G s b _ H1) as [T A]. eapply alike_trans; [|exact IH]. apply alike_cond; auto. apply alike_refl.
  - destruct (estep_keeps D G s a _ H) as [B1 B2]. apply alike_bad; [apply bad_cond; auto|intros z; discriminate].
  - destruct (estep_keeps D G s b _ H) as [B1 B2]. apply alike_bad; [apply bad_cond; auto|intros z; discriminate].
  - destruct (estep_keeps D G s a _ H) as [B1 B2]. apply alike_bad; [apply bad_cond; auto|intros z; discriminate].
  - destruct (estep_keeps D G s b _ H) as [B1 B2]. apply alike_bad; [apply bad_cond; auto|intros z; discriminate].
Qed.

(** ------------------------------------------------------------------ *)
(** evaluation never gets stuck and always ends *)
Fixpoint size (e : expr) : nat :=
  match e with
  | EConst _ _ => 0
  | EVar _ => 1
  | EBin _ _ a b => S (size a + size b)
  | ENeg a | EPos a | ECast _ a => S (size a)
  end.
Lemma reduce_size : forall D G s e r, reduce D G s e = Some r -> (0 < size e)%nat.
Proof. intros D G s [] r H; cbn in *; try discriminate; lia. Qed.
Lemma estep_size : forall D G s e p, estep D G s e p -> match p with On e' => (size e' < size e)%nat | Stop _ => True end.
Proof.
  intros D G s e p H. induction H; auto; cbn [size] in *; try lia. eapply reduce_size. eassumption.
Qed.
Lemma estep_of_call : forall D G s e t o, reduce D G s e = Some (t, o) -> exists p, estep D G s e p.
Proof.
  intros D G s e t o H. destruct o as [z|er| |]; [exists (On (EConst t z)); econstructor; eassumption| | |];
    eexists; (eapply ES_call_stop; [eassumption|intros z; discriminate]).
Qed.
Lemma estep_progress : forall D G s e t, type_of D G e = Some t -> (exists z, e = EConst t z) \/ exists p, estep D G s e p.
Proof.
  intros D G s e. induction e as [o z|v|op f a IHa b IHb|a IHa|a IHa|o a IHa]; intros t H; cbn [type_of] in H.
  - injection H as <-. eauto.
  - right. eapply estep_of_call. reflexivity.
  - right. destruct (type_of D G a) as [ta|] eqn:Ea; [|discriminate]. destruct (type_of D G b) as [tb|] eqn:Eb; [|discriminate].
    destruct (IHa ta eq_refl) as [(x & ->)|([a'|o] & Ha)]; [|eexists; apply ES_left; eassumption|eexists; apply ES_left_stop; eassumption].
    destruct (IHb tb eq_refl) as [(y & ->)|([b'|o] & Hb)]; [|eexists; apply ES_right; eassumption|eexists; apply ES_right_stop; eassumption].
    destruct (eval_binop D op ta tb 0 0) as [[r m]|] eqn:E; [|discriminate].
    destruct (eval_binop_any D op ta tb 0 0 x y r m E) as (k & K).
    eapply estep_of_call. cbn [reduce]. rewrite K. reflexivity.
  - right. destruct (type_of D G a) as [[|ta|]|] eqn:Ea; try discriminate.
    destruct (IHa _ eq_refl) as [(x & ->)|([a'|o] & Ha)]; [|eexists; apply ES_neg; eassumption|eexists; apply ES_neg_stop; eassumption].
    destruct (unary_minus D ta 0) as [[r m]|] eqn:E; [|discriminate].
    destruct (unary_minus_any D ta 0 x r m E) as (k & K).
    eapply estep_of_call. cbn [reduce]. rewrite K. reflexivity.
  - right. destruct (type_of D G a) as [[|ta|]|] eqn:Ea; try discriminate.
    destruct (IHa _ eq_refl) as [(x & ->)|([a'|o] & Ha)]; [|eexists; apply ES_pos; eassumption|eexists; apply ES_pos_stop; eassumption].
    eapply estep_of_call. reflexivity.
  - right. destruct (type_of D G a) as [ta|] eqn:Ea; [|discriminate].
    destruct (IHa _ eq_refl) as [(x & ->)|([a'|o'] & Ha)]; [|eexists; apply ES_cast; eassumption|eexists; apply ES_cast_stop; eassumption].
    destruct (convert D o ta 0) as [m|] eqn:E; [|discriminate]. destruct (convert_any D o ta 0 x m E) as (k & K).
    eapply estep_of_call. cbn [reduce]. rewrite K. reflexivity.
Qed.
Lemma erun_exists : forall D G s n e t, (size e < n)%nat -> type_of D G e = Some t -> exists o, erun D G s e o.
Proof.
  intros D G s. induction n as [|n IH]; intros e t L H; [lia|].
  destruct (estep_progress D G s e t H) as [(z & ->)|([e'|o] & S)].
  - exists (Ret z). constructor.
  - destruct (estep_keeps D G s e _ S) as [T _]. pose proof (estep_size D G s e _ S) as Q. cbn in Q.
    destruct (IH e' t) as (o & K); [lia|congruence|]. exists o. eapply ER_step; eassumption.
  - exists o. constructor. assumption.
Qed.

(** ------------------------------------------------------------------ *)
(** statements of the theorems about expressions *)
Lemma interleave_value : forall D G s e z, erun D G s e (Ret z) -> snd (eval D G s e) = Ret z.
Proof.
  intros D G s e z H. apply erun_alike in H. destruct (snd (eval D G s e)); cbn in H; try contradiction. congruence.
Qed.
Lemma interleave_only : forall D G s e z o, snd (eval D G s e) = Ret z -> erun D G s e o -> o = Ret z.
Proof.
  intros D G s e z o E H. apply erun_alike in H. rewrite E in H. destruct o; cbn in H; try contradiction. congruence.
Qed.
Lemma interleave_expr : forall D G s e t z, type_of D G e = Some t ->
  (snd (eval D G s e) = Ret z <-> (forall o, erun D G s e o -> o = Ret z))
  /\ (snd (eval D G s e) = Ret z <-> erun D G s e (Ret z)).
Proof.
  intros D G s e t z T. destruct (erun_exists D G s (S (size e)) e t (Nat.lt_succ_diag_r _) T) as (o & R).
  splits.
  - split; [intros E o'; apply interleave_only; assumption|]. intros H. specialize (H o R). subst o. apply interleave_value. assumption.
  - split; [|apply interleave_value]. intros E. rewrite <- (interleave_only D G s e z o E R). assumption.
Qed.

(** in exact arithmetic no interleaving is undefined *)
Lemma estep_ok : forall n D G s i e p, (forall v, type_ok n D (G v)) -> store_ok D G s i ->
  estep D G s e p -> expr_ok n D e ->
  match p with On e' => expr_ok n D e' /\ (value i e = None \/ value i e' = value i e) | Stop o => exists x, arithmetic_err x /\ o = Throw x end.
Proof.
  intros n D G s i e p HG Hs H. induction H as [e t z H|e t o H N|op f a a' b H IH|op f a b o H IH|op f a b b' H IH|op f a b o H IH
    |a a' H IH|a o H IH|a a' H IH|a o H IH|t a a' H IH|t a o H IH]; intros He; cbn [expr_ok] in *.
  - destruct (reduce_eval D G s e t _ H) as [T E].
    destruct (expr_char n D G s i e t HG Hs He T) as [Tt [(z' & V & R & Hz)|(x & X1 & X2)]].
    + rewrite R in E. cbn in E. injection E as ->. auto.
    + rewrite X2 in E. discriminate.
  - destruct (reduce_eval D G s e t _ H) as [T E].
    destruct (expr_char n D G s i e t HG Hs He T) as [Tt [(z' & V & R & Hz)|(x & X1 & X2)]].
    + rewrite R in E. cbn in E. subst o. destruct (N z' eq_refl).
    + rewrite X2 in E. cbn in E. subst o. eauto.
  - destruct He as (Ho & Ha & Hb). destruct (IH Ha) as [Ha' V]. splits; auto. cbn [value].
    destruct V as [->| ->]; auto.
  - tauto.
  - destruct He as (Ho & Ha & Hb). destruct (IH Hb) as [Hb' V]. splits; auto. cbn [value].
    destruct V as [->| ->]; auto. destruct (value i a); auto.
  - tauto.
  - destruct (IH He) as [Ha' V]. split; auto. cbn [value]. destruct V as [->| ->]; auto.
  - tauto.
  - destruct (IH He) as [Ha' V]. split; auto.
  - tauto.
  - destruct He as [Ht He]. destruct (IH He) as [Ha' V]. auto.
  - tauto.
Qed.

Lemma erun_ok : forall n D G s i e o, (forall v, type_ok n D (G v)) -> store_ok D G s i -> expr_ok n D e ->
  erun D G s e o -> (exists z, o = Ret z) \/ (exists x, arithmetic_err x /\ o = Throw x).
Proof.
  intros n D G s i e o HG Hs He H. induction H as [t z|e o H|e e' o H1 H2 IH].
  - eauto.
  - right. exact (estep_ok n D G s i e _ HG Hs H He).
  - destruct (estep_ok n D G s i e _ HG Hs H1 He) as [He' _]. auto.
Qed.
Lemma crun_ok : forall n D G s i c o, (forall v, type_ok n D (G v)) -> store_ok D G s i -> cond_ok n D c ->
  cond_compiles D G c = true ->
  crun D G s c o -> (exists z, o = Ret z) \/ (exists x, arithmetic_err x /\ o = Throw x).
Proof.
  intros n D G s i c o HG Hs Hc Hk H. revert Hc Hk.
  induction H as [r f t x u y m H|r f a a' b o H1 H2 IH|r f a b b' o H1 H2 IH|r f a b e H|r f a b e H|r f a b o H N|r f a b o H N]; intros [Ha Hb] Hk.
  - destruct (cond_char n D G s i (Cond r f (EConst t x) (EConst u y)) HG Hs (conj Ha Hb) Hk) as [(b & _ & T)|(e & X & T)];
      cbn [eval_cond type_of eval] in T.
    + left. exists b. apply (f_equal snd) in T. destruct f; unfold both in T; rewrite !snd_bind in T; cbn in T; rewrite H in T; exact T.
    + right. exists e. split; [exact X|]. apply (f_equal snd) in T. destruct f; unfold both in T; rewrite !snd_bind in T; cbn in T; rewrite H in T; exact T.
  - apply IH.
    + split; [|exact Hb]. exact (proj1 (estep_ok n D G s i a _ HG Hs H1 Ha)).
    + destruct (estep_keeps D G s a _ H1) as [T _]. cbn [cond_compiles] in *. rewrite T. exact Hk.
  - apply IH.
    + split; [exact Ha|]. exact (proj1 (estep_ok n D G s i b _ HG Hs H1 Hb)).
    + destruct (estep_keeps D G s b _ H1) as [T _]. cbn [cond_compiles] in *. rewrite T. exact Hk.
  - right. destruct (estep_ok n D G s i a _ HG Hs H Ha) as (x & X & [= ->]). eauto.
  - right. destruct (estep_ok n D G s i b _ HG Hs H Hb) as (x & X & [= ->]). eauto.
  - destruct (estep_ok n D G s i a _ HG Hs H Ha) as (x & X & ->). destruct (N x eq_refl).
  - destruct (estep_ok n D G s i b _ HG Hs H Hb) as (x & X & ->). destruct (N x eq_refl).
Qed.

(** ------------------------------------------------------------------ *)
(** programs *)
Lemma same_end_refl : forall r, r <> RUndef -> same_end r r.
Proof. intros [|e|] N; unfold same_end; eauto 8. congruence. Qed.
Lemma same_end_sym : forall r r', same_end r r' -> same_end r' r.
Proof. intros r r' [[-> ->]|(e & e' & -> & ->)]; unfold same_end; eauto 8. Qed.
Lemma same_end_not_undef : forall r r', same_end r r' -> r <> RUndef /\ r' <> RUndef.
Proof. intros r r' [[-> ->]|(e & e' & -> & ->)]; split; discriminate. Qed.

Lemma loop_undef_body : forall D G fuel s c a s1, snd (eval_cond D G s c) = Ret true -> exec fuel D G s a = Some (s1, RUndef) ->
  exec (S fuel) D G s (CWhile c a) = Some (s1, RUndef).
Proof.
  intros D G fuel s c a s1 E H. cbn [exec loop]. rewrite E.
  rewrite (exec_mono D G fuel (S fuel) a s _ (Nat.le_succ_diag_r _) H). reflexivity.
Qed.
Lemma while_step : forall D G f1 f2 s c a s1 x, snd (eval_cond D G s c) = Ret true -> exec f1 D G s a = Some (s1, RDone) ->
  exec f2 D G s1 (CWhile c a) = Some x -> exec (S (Nat.max f1 f2)) D G s (CWhile c a) = Some x.
Proof.
  intros D G f1 f2 s c a s1 x E H1 H2. cbn [exec loop]. rewrite E.
  rewrite (exec_mono D G f1 (S (Nat.max f1 f2)) a s _ ltac:(lia) H1).
  cbn [exec] in H2. eapply loop_mono; [|apply Nat.le_max_r|exact H2].
  cbn beta. intros s0 r0 K. apply (exec_mono D G f2 _ a s0 r0); [lia|exact K].
Qed.
Lemma while_raise : forall D G f s c a s1 e, snd (eval_cond D G s c) = Ret true -> exec f D G s a = Some (s1, RRaised e) ->
  exec (S f) D G s (CWhile c a) = Some (s1, RRaised e).
Proof.
  intros D G f s c a s1 e E H1. cbn [exec loop]. rewrite E.
  rewrite (exec_mono D G f (S f) a s _ ltac:(lia) H1). reflexivity.
Qed.

Lemma irun_exec : forall D G s c s2 r2, irun D G s c s2 r2 -> r2 <> RUndef ->
  exists fuel s1 r, exec fuel D G s c = Some (s1, r) /\ (r = RUndef \/ (s1 = s2 /\ same_end r2 r)).
Proof.
  intros D G s c s2 r2 H. induction H as [s|s c s' r K E|s v e t o s' r T R F|s op v e t o s' r T R F|s a b s1 s2 r H1 IH1 H2 IH2|s a b s1 r H IH K
    |s c a b t s1 r C H IH|s c a b e C|s c a b o C K|s c a s1 s2 r C H1 IH1 H2 IH2|s c a s1 r C H IH K|s c a C|s c a e C|s c a o C K
    |s a b s1 r H IH K|s a b s1 e s2 r H1 IH1 H2 IH2]; intros N.
  - exists 0%nat, s, RDone. split; [reflexivity|]. right. split; [reflexivity|]. apply same_end_refl. assumption.
  - exists 0%nat, s', r. split; [assumption|]. right. split; [reflexivity|]. apply same_end_refl. assumption.
  - exists 0%nat. cbn [exec]. rewrite T.
    pose proof (follows_finish _ s (mbind ([], o) (fun x => run (convert D (G v) t x))) (mbind (eval D G s e) (fun x => run (convert D (G v) t x)))
      (fun z => upd s v (Some z))) as Q.
    rewrite F in Q. apply Q; [|assumption]. apply alike_bind. cbn [snd]. apply alike_sym, erun_alike. assumption.
  - exists 0%nat. cbn [exec]. rewrite T.
    pose proof (follows_finish _ s (mbind ([], o) (fun y => mbind (read s v) (fun x => run (compound D op (G v) t x y))))
       (mbind (eval D G s e) (fun y => mbind (read s v) (fun x => run (compound D op (G v) t x y))))
      (fun z => upd s v (Some z))) as Q.
    rewrite F in Q. apply Q; [|assumption]. apply alike_bind. cbn [snd]. apply alike_sym, erun_alike. assumption.
  - destruct (IH1 ltac:(discriminate)) as (f1 & x1 & r1 & E1 & [->|[-> [[_ ->]|(? & ? & [=] & _)]]]).
    + exists f1, x1, RUndef. split; [|auto]. cbn [exec]. rewrite E1. reflexivity.
    + destruct (IH2 N) as (f2 & x2 & r2 & E2 & Q). exists (Nat.max f1 f2), x2, r2. split; [|assumption].
      cbn [exec]. rewrite (exec_mono D G f1 (Nat.max f1 f2) a s _ ltac:(lia) E1).
      apply (exec_mono D G f2 (Nat.max f1 f2) b s1 _ ltac:(lia) E2).
  - destruct (IH N) as (f1 & x1 & r1 & E1 & [->|[-> [[-> ->]|(e & e' & -> & ->)]]]); [|congruence|].
    + exists f1, x1, RUndef. split; [|auto]. cbn [exec]. rewrite E1. reflexivity.
    + exists f1, s1, (RRaised e'). split; [cbn [exec]; rewrite E1; reflexivity|]. right. split; [reflexivity|]. unfold same_end. eauto 8.
  - apply crun_alike in C. destruct (snd (eval_cond D G s c)) as [t'|e| |] eqn:E; cbn in C; try contradiction. subst t'.
    destruct (IH N) as (f1 & x1 & r1 & E1 & Q). exists f1, x1, r1. split; [|assumption]. cbn [exec]. rewrite E. destruct t; assumption.
  - apply crun_alike in C. destruct (snd (eval_cond D G s c)) as [t'|e'| |] eqn:E; cbn in C; try contradiction;
      exists 0%nat; cbn [exec]; rewrite E; do 2 eexists; (split; [reflexivity|]); auto.
    right. split; [reflexivity|]. unfold same_end. eauto 8.
  - congruence.
  - apply crun_alike in C. destruct (snd (eval_cond D G s c)) as [t'|e| |] eqn:E; cbn in C; try contradiction. subst t'.
    destruct (IH1 ltac:(discriminate)) as (f1 & x1 & r1 & E1 & [->|[-> [[_ ->]|(? & ? & [=] & _)]]]).
    + exists (S f1), x1, RUndef. split; [|auto]. apply loop_undef_body; assumption.
    + destruct (IH2 N) as (f2 & x2 & r2 & E2 & Q). exists (S (Nat.max f1 f2)), x2, r2. split; [|assumption].
      eapply while_step; eassumption.
  - apply crun_alike in C. destruct (snd (eval_cond D G s c)) as [t'|e| |] eqn:E; cbn in C; try contradiction. subst t'.
    destruct (IH N) as (f1 & x1 & r1 & E1 & [->|[-> [[-> ->]|(e & e' & -> & ->)]]]); [|congruence|].
    + exists (S f1), x1, RUndef. split; [|auto]. apply loop_undef_body; assumption.
    + exists (S f1), s1, (RRaised e'). split; [apply while_raise; assumption|]. right. split; [reflexivity|]. unfold same_end. eauto 8.
  - apply crun_alike in C. destruct (snd (eval_cond D G s c)) as [t'|e| |] eqn:E; cbn in C; try contradiction. subst t'.
    exists 1%nat, s, RDone. split; [cbn [exec loop]; rewrite E; reflexivity|]. right. split; [reflexivity|]. apply same_end_refl. assumption.
  - apply crun_alike in C. destruct (snd (eval_cond D G s c)) as [t'|e'| |] eqn:E; cbn in C; try contradiction;
      exists 1%nat; cbn [exec loop]; rewrite E; do 2 eexists; (split; [reflexivity|]); auto.
    right. split; [reflexivity|]. unfold same_end. eauto 8.
  - congruence.
  - destruct (IH N) as (f1 & x1 & r1 & E1 & [->|[-> [[-> ->]|(e & e' & -> & ->)]]]).
    + exists f1, x1, RUndef. split; [|auto]. cbn [exec]. rewrite E1. reflexivity.
    + exists f1, s1, RDone. split; [cbn [exec]; rewrite E1; reflexivity|]. right. split; [reflexivity|]. apply same_end_refl. assumption.
    + destruct (K e eq_refl).
  - destruct (IH1 ltac:(discriminate)) as (f1 & x1 & r1 & E1 & [->|[-> [[[=] _]|(e1 & e2 & _ & ->)]]]).
    + exists f1, x1, RUndef. split; [|auto]. cbn [exec]. rewrite E1. reflexivity.
    + destruct (IH2 N) as (f2 & x2 & r2 & E2 & Q). exists (Nat.max f1 f2), x2, r2. split; [|assumption].
      cbn [exec]. rewrite (exec_mono D G f1 (Nat.max f1 f2) a s _ ltac:(lia) E1).
      apply (exec_mono D G f2 (Nat.max f1 f2) b s1 _ ltac:(lia) E2).
Qed.

Lemma interleave_cmd : forall D G fuel c s s1 r s2 r2,
  exec fuel D G s c = Some (s1, r) -> irun D G s c s2 r2 ->
  r = RUndef \/ r2 = RUndef \/ (s2 = s1 /\ same_end r r2).
Proof.
  intros D G fuel c s s1 r s2 r2 E H. destruct (match r2 with RUndef => true | _ => false end) eqn:B.
  - destruct r2; try discriminate. auto.
  - assert (N : r2 <> RUndef) by (intros ->; discriminate).
    destruct (irun_exec D G s c s2 r2 H N) as (f & x & r' & E' & Q).
    pose proof (exec_mono D G fuel (Nat.max fuel f) c s _ ltac:(lia) E) as M1.
    pose proof (exec_mono D G f (Nat.max fuel f) c s _ ltac:(lia) E') as M2.
    rewrite M1 in M2. injection M2 as <- <-. destruct Q as [->|[-> Q]]; auto. right. right. split; [reflexivity|]. apply same_end_sym. assumption.
Qed.

(** programs in exact arithmetic *)
Lemma irun_defined : forall n D G s c s2 r2, irun D G s c s2 r2 -> forall i, (forall v, type_ok n D (G v)) -> store_ok D G s i ->
  cmd_ok n D G c -> compiles D G c = true -> r2 <> RUndef.
Proof.
  intros n D G s c s2 r2 H.
  assert (ST : forall s c s1 r i, irun D G s c s1 r -> (forall v, type_ok n D (G v)) -> store_ok D G s i ->
     cmd_ok n D G c -> compiles D G c = true -> r <> RUndef -> exists i', store_ok D G s1 i').
  { clear. intros s c s1 r i H HG Hs Hc Hk N. destruct (irun_exec D G s c s1 r H N) as (f & x & r' & E & Q).
    destruct (C33_lemma n D G f c s i x r' HG Hs Hc Hk E) as (i' & Si & R).
    destruct Q as [->|[-> _]]; [|eauto]. destruct R as [[[=] _]|(e & [=] & _)]. }
  induction H as [s|s c s' r K E|s v e t o s' r T R F|s op v e t o s' r T R F|s a b s1 s2 r H1 IH1 H2 IH2|s a b s1 r H IH K
    |s c a b t s1 r C H IH|s c a b e C|s c a b o C K|s c a s1 s2 r C H1 IH1 H2 IH2|s c a s1 r C H IH K|s c a C|s c a e C|s c a o C K
    |s a b s1 r H IH K|s a b s1 e s2 r H1 IH1 H2 IH2]; intros i HG Hs Hc Hk; try discriminate.
  - destruct (C33_lemma n D G 0 c s i s' r HG Hs Hc Hk E) as (i' & _ & [[-> _]|(e & -> & _)]); discriminate.
  - destruct (erun_ok n D G s i e o HG Hs Hc R) as [(z & ->)|(x & _ & ->)].
    + apply erun_alike in R. destruct (snd (eval D G s e)) as [z'| | |] eqn:Ev; cbn in R; try contradiction. subst z'.
      assert (E : exec 0 D G s (CAssign v e) = Some (s', r)).
      { cbn [exec]. rewrite T. rewrite <- F. unfold finish. rewrite !snd_bind, Ev. reflexivity. }
      destruct (C33_lemma n D G 0 _ s i s' r HG Hs Hc Hk E) as (i' & _ & [[-> _]|(e' & -> & _)]); discriminate.
    + cbn in F. injection F as <- <-. discriminate.
  - destruct Hc as [Ho Hc]. destruct (erun_ok n D G s i e o HG Hs Hc R) as [(z & ->)|(x & _ & ->)].
    + apply erun_alike in R. destruct (snd (eval D G s e)) as [z'| | |] eqn:Ev; cbn in R; try contradiction. subst z'.
      assert (E : exec 0 D G s (CCompound op v e) = Some (s', r)).
      { cbn [exec]. rewrite T. rewrite <- F. unfold finish. rewrite !snd_bind, Ev. reflexivity. }
      destruct (C33_lemma n D G 0 (CCompound op v e) s i s' r HG Hs (conj Ho Hc) Hk E) as (i' & _ & [[-> _]|(e' & -> & _)]); discriminate.
    + cbn in F. injection F as <- <-. discriminate.
  - destruct Hc as [Ha Hb]. cbn [compiles] in Hk. apply andb_true_iff in Hk. destruct Hk as [Ka Kb].
    destruct (ST s a s1 RDone i H1 HG Hs Ha Ka ltac:(discriminate)) as (i1 & S1). apply (IH2 i1); assumption.
  - destruct Hc as [Ha Hb]. cbn [compiles] in Hk. apply andb_true_iff in Hk. destruct Hk as [Ka Kb]. apply (IH i); assumption.
  - destruct Hc as (Hc & Ha & Hb). cbn [compiles] in Hk. apply andb_true_iff in Hk. destruct Hk as [Hk Kb].
    apply andb_true_iff in Hk. destruct Hk as [Kc Ka]. apply (IH i); try assumption; destruct t; assumption.
  - destruct Hc as (Hc & Ha & Hb). cbn [compiles] in Hk. apply andb_true_iff in Hk. destruct Hk as [Hk Kb].
    apply andb_true_iff in Hk. destruct Hk as [Kc Ka].
    destruct (crun_ok n D G s i c o HG Hs Hc Kc C) as [(z & ->)|(x & _ & ->)]; destruct K; discriminate.
  - destruct Hc as (Hc & Ha). pose proof Hk as Hk'. cbn [compiles] in Hk. apply andb_true_iff in Hk. destruct Hk as [Kc Ka].
    destruct (ST s a s1 RDone i H1 HG Hs Ha Ka ltac:(discriminate)) as (i1 & S1). apply (IH2 i1); try assumption. split; assumption.
  - destruct Hc as (Hc & Ha). cbn [compiles] in Hk. apply andb_true_iff in Hk. destruct Hk as [Kc Ka]. apply (IH i); assumption.
  - destruct Hc as (Hc & Ha). cbn [compiles] in Hk. apply andb_true_iff in Hk. destruct Hk as [Kc Ka].
    destruct (crun_ok n D G s i c o HG Hs Hc Kc C) as [(z & ->)|(x & _ & ->)]; destruct K; discriminate.
  - destruct Hc as [Ha Hb]. cbn [compiles] in Hk. apply andb_true_iff in Hk. destruct Hk as [Ka Kb]. apply (IH i); assumption.
  - destruct Hc as [Ha Hb]. cbn [compiles] in Hk. apply andb_true_iff in Hk. destruct Hk as [Ka Kb].
    destruct (ST s a s1 (RRaised e) i H1 HG Hs Ha Ka ltac:(discriminate)) as (i1 & S1). apply (IH2 i1); assumption.
Qed.
Lemma interleave_programs : forall n D G c s i s2 r2,
  (forall v, type_ok n D (G v)) -> store_ok D G s i -> cmd_ok n D G c -> compiles D G c = true ->
  irun D G s c s2 r2 -> exists fuel r, exec fuel D G s c = Some (s2, r) /\ same_end r r2.
Proof.
  intros n D G c s i s2 r2 HG Hs Hc Hk H. pose proof (irun_defined n D G s c s2 r2 H i HG Hs Hc Hk) as N.
  destruct (irun_exec D G s c s2 r2 H N) as (f & x & r & E & [->|[-> Q]]).
  - destruct (C33_lemma n D G f c s i x RUndef HG Hs Hc Hk E) as (i' & _ & [[[=] _]|(e & [=] & _)]).
  - exists f, r. split; [assumption|]. apply same_end_sym. assumption.
Qed.

(** ------------------------------------------------------------------ *)
(** evaluation in either order (Program.v) is one of the interleavings *)
Inductive esteps (D : dmodel) (G : tenv) (s : store) : expr -> expr -> Prop :=
| EZ_refl : forall e, esteps D G s e e
| EZ_step : forall e e' e'', estep D G s e (On e') -> esteps D G s e' e'' -> esteps D G s e e''.
Lemma esteps_erun : forall D G s e e' o, esteps D G s e e' -> erun D G s e' o -> erun D G s e o.
Proof. intros D G s e e' o H K. induction H; [assumption|]. eapply ER_step; eauto. Qed.
Lemma erun_esteps : forall D G s e o, erun D G s e o ->
  (exists z t, o = Ret z /\ esteps D G s e (EConst t z)) \/ (exists e', esteps D G s e e' /\ estep D G s e' (Stop o)).
Proof.
  intros D G s e o H. induction H as [t z|e o H|e e' o H1 H2 IH].
  - left. exists z, t. split; [reflexivity|constructor].
  - right. exists e. split; [constructor|assumption].
  - destruct IH as [(z & t & -> & K)|(e2 & K1 & K2)]; [left|right].
    + exists z, t. split; [reflexivity|]. eapply EZ_step; eassumption.
    + exists e2. split; [eapply EZ_step; eassumption|assumption].
Qed.
Lemma esteps_type : forall D G s e e', esteps D G s e e' -> type_of D G e' = type_of D G e.
Proof.
  intros D G s e e' H. induction H as [|e e1 e2 H1 H2 IH]; [reflexivity|]. rewrite IH. apply (estep_keeps D G s e _ H1).
Qed.
Lemma esteps_left : forall D G s op f a a' b, esteps D G s a a' -> esteps D G s (EBin op f a b) (EBin op f a' b).
Proof. intros D G s op f a a' b H. induction H; [constructor|]. eapply EZ_step; [apply ES_left|]; eassumption. Qed.
Lemma esteps_right : forall D G s op f a b b', esteps D G s b b' -> esteps D G s (EBin op f a b) (EBin op f a b').
Proof. intros D G s op f a b b' H. induction H; [constructor|]. eapply EZ_step; [apply ES_right|]; eassumption. Qed.
Lemma esteps_neg : forall D G s a a', esteps D G s a a' -> esteps D G s (ENeg a) (ENeg a').
Proof. intros D G s a a' H. induction H; [constructor|]. eapply EZ_step; [apply ES_neg|]; eassumption. Qed.
Lemma esteps_pos : forall D G s a a', esteps D G s a a' -> esteps D G s (EPos a) (EPos a').
Proof. intros D G s a a' H. induction H; [constructor|]. eapply EZ_step; [apply ES_pos|]; eassumption. Qed.
Lemma esteps_cast : forall D G s o a a', esteps D G s a a' -> esteps D G s (ECast o a) (ECast o a').
Proof. intros D G s o a a' H. induction H; [constructor|]. eapply EZ_step; [apply ES_cast|]; eassumption. Qed.
Lemma erun_call : forall D G s e t o, reduce D G s e = Some (t, o) -> erun D G s e o.
Proof.
  intros D G s e t o H. destruct o as [z|x| |].
  - eapply ER_step; [eapply ES_call; eassumption|constructor].
  - apply ER_stop. eapply ES_call_stop; [eassumption|intros; discriminate].
  - apply ER_stop. eapply ES_call_stop; [eassumption|intros; discriminate].
  - apply ER_stop. eapply ES_call_stop; [eassumption|intros; discriminate].
Qed.

(** both operands, in an order: a value each, or the end of the first that fails *)
Definition pairs (f : bool) (oa ob : outcome Z) : outcome (Z * Z) :=
  if f then match oa with
            | Ret x => match ob with Ret y => Ret (x, y) | Throw e => Throw e | Undef => Undef | Trapped => Trapped end
            | Throw e => Throw e | Undef => Undef | Trapped => Trapped end
  else match ob with
       | Ret y => match oa with Ret x => Ret (x, y) | Throw e => Throw e | Undef => Undef | Trapped => Trapped end
       | Throw e => Throw e | Undef => Undef | Trapped => Trapped end.
Lemma snd_both : forall f a b, snd (both f a b) = pairs f (snd a) (snd b).
Proof.
  intros f [la oa] [lb ob]. unfold both, pairs. cbn [snd]. destruct f; destruct oa; destruct ob; reflexivity.
Qed.

Definition then_ {A B : Type} (o : outcome A) (k : A -> outcome B) : outcome B :=
  match o with Ret a => k a | Throw e => Throw e | Undef => Undef | Trapped => Trapped end.
Lemma erun_left_stop : forall D G s op f a a' b o, esteps D G s a a' -> estep D G s a' (Stop o) -> erun D G s (EBin op f a b) o.
Proof. intros. eapply esteps_erun; [apply esteps_left; eassumption|]. apply ER_stop, ES_left_stop. assumption. Qed.
Lemma erun_right_stop : forall D G s op f a b b' o, esteps D G s b b' -> estep D G s b' (Stop o) -> erun D G s (EBin op f a b) o.
Proof. intros. eapply esteps_erun; [apply esteps_right; eassumption|]. apply ER_stop, ES_right_stop. assumption. Qed.

Lemma const_inj : forall D G s e t z t', esteps D G s e (EConst t z) -> type_of D G e = Some t' -> t = t'.
Proof. intros D G s e t z t' H T. apply esteps_type in H. cbn in H. congruence. Qed.

Lemma order_is_interleaving : forall D G s e t, type_of D G e = Some t -> erun D G s e (snd (eval D G s e)).
Proof.
  intros D G s e. induction e as [oc z|v|op f a IHa b IHb|a IHa|a IHa|oc a IHa]; intros t T; cbn [type_of eval] in *.
  - constructor.
  - eapply erun_call. reflexivity.
  - destruct (type_of D G a) as [ta|] eqn:Ea; [|discriminate]. destruct (type_of D G b) as [tb|] eqn:Eb; [|discriminate].
    destruct (eval_binop D op ta tb 0 0) as [[r m]|] eqn:E; [|discriminate].
    specialize (IHa ta eq_refl). specialize (IHb tb eq_refl). rewrite snd_bind, snd_both.
    apply erun_esteps in IHa. apply erun_esteps in IHb.
    destruct IHa as [(x & t1 & -> & Ka)|(a' & Ka & Sa)].
    + pose proof (const_inj _ _ _ _ _ _ _ Ka Ea) as ->.
      destruct IHb as [(y & t2 & -> & Kb)|(b' & Kb & Sb)].
      * pose proof (const_inj _ _ _ _ _ _ _ Kb Eb) as ->.
        replace (pairs f (Ret x) (Ret y)) with (Ret (x, y)) by (destruct f; reflexivity). cbn [fst snd].
        destruct (eval_binop_any D op ta tb 0 0 x y r m E) as (k & K). rewrite K. cbn [run_snd].
        eapply esteps_erun; [apply esteps_left; exact Ka|]. eapply esteps_erun; [apply esteps_right; exact Kb|].
        eapply erun_call. cbn [reduce]. rewrite K. reflexivity.
      * assert (B : bad (snd (eval D G s b))) by apply (estep_keeps D G s b' _ Sb).
        destruct (snd (eval D G s b)) as [y|er| |] eqn:Ob; [destruct (B y eq_refl)| | |];
          destruct f; cbn; eapply erun_right_stop; eassumption.
    + assert (B : bad (snd (eval D G s a))) by apply (estep_keeps D G s a' _ Sa).
      destruct f.
      * destruct (snd (eval D G s a)) as [x|er| |] eqn:Oa; [destruct (B x eq_refl)| | |]; cbn; eapply erun_left_stop; eassumption.
      * destruct IHb as [(y & t2 & Eb' & Kb)|(b' & Kb & Sb)].
        -- rewrite Eb'. destruct (snd (eval D G s a)) as [x|er| |] eqn:Oa; [destruct (B x eq_refl)| | |]; cbn; eapply erun_left_stop; eassumption.
        -- assert (B' : bad (snd (eval D G s b))) by apply (estep_keeps D G s b' _ Sb).
           destruct (snd (eval D G s b)) as [y|er| |] eqn:Ob; [destruct (B' y eq_refl)| | |]; cbn; eapply erun_right_stop; eassumption.
  - destruct (type_of D G a) as [[|ta|]|] eqn:Ea; try discriminate.
    destruct (unary_minus D ta 0) as [[r m]|] eqn:E; [|discriminate]. specialize (IHa _ eq_refl). rewrite snd_bind.
    apply erun_esteps in IHa. destruct IHa as [(x & t1 & -> & Ka)|(a' & Ka & Sa)].
    + pose proof (const_inj _ _ _ _ _ _ _ Ka Ea) as ->. destruct (unary_minus_any D ta 0 x r m E) as (k & K). rewrite K. cbn [run_snd].
      eapply esteps_erun; [apply esteps_neg; exact Ka|]. eapply erun_call. cbn [reduce]. rewrite K. reflexivity.
    + assert (B : bad (snd (eval D G s a))) by apply (estep_keeps D G s a' _ Sa).
      destruct (snd (eval D G s a)) as [x|er| |] eqn:Oa; [destruct (B x eq_refl)| | |];
        (eapply esteps_erun; [apply esteps_neg; exact Ka|]; apply ER_stop, ES_neg_stop; assumption).
  - destruct (type_of D G a) as [[|ta|]|] eqn:Ea; try discriminate. specialize (IHa _ eq_refl). rewrite snd_bind.
    apply erun_esteps in IHa. destruct IHa as [(x & t1 & -> & Ka)|(a' & Ka & Sa)].
    + pose proof (const_inj _ _ _ _ _ _ _ Ka Ea) as ->.
      eapply esteps_erun; [apply esteps_pos; exact Ka|]. eapply erun_call. reflexivity.
    + assert (B : bad (snd (eval D G s a))) by apply (estep_keeps D G s a' _ Sa).
      destruct (snd (eval D G s a)) as [x|er| |] eqn:Oa; [destruct (B x eq_refl)| | |];
        (eapply esteps_erun; [apply esteps_pos; exact Ka|]; apply ER_stop, ES_pos_stop; assumption).
  - destruct (type_of D G a) as [ta|] eqn:Ea; [|discriminate].
    destruct (convert D oc ta 0) as [m|] eqn:E; [|discriminate]. specialize (IHa _ eq_refl). rewrite snd_bind.
    apply erun_esteps in IHa. destruct IHa as [(x & t1 & -> & Ka)|(a' & Ka & Sa)].
    + pose proof (const_inj _ _ _ _ _ _ _ Ka Ea) as ->. destruct (convert_any D oc ta 0 x m E) as (k & K). rewrite K. cbn [run].
      eapply esteps_erun; [apply esteps_cast; exact Ka|]. eapply erun_call. cbn [reduce]. rewrite K. reflexivity.
    + assert (B : bad (snd (eval D G s a))) by apply (estep_keeps D G s a' _ Sa).
      destruct (snd (eval D G s a)) as [x|er| |] eqn:Oa; [destruct (B x eq_refl)| | |];
        (eapply esteps_erun; [apply esteps_cast; exact Ka|]; apply ER_stop, ES_cast_stop; assumption).
Qed.

Lemma crun_left : forall D G s r f a a' b o, esteps D G s a a' -> crun D G s (Cond r f a' b) o -> crun D G s (Cond r f a b) o.
Proof. intros D G s r f a a' b o H K. induction H; [assumption|]. eapply CR_left; eauto. Qed.
Lemma crun_right : forall D G s r f a b b' o, esteps D G s b b' -> crun D G s (Cond r f a b') o -> crun D G s (Cond r f a b) o.
Proof. intros D G s r f a b b' o H K. induction H; [assumption|]. eapply CR_right; eauto. Qed.

(** undefined and not compiled count as the same *)
Definition near (o o' : outcome bool) : Prop :=
  match o with
  | Ret t => o' = Ret t
  | Throw e => o' = Throw e
  | Undef | Trapped => o' = Undef \/ o' = Trapped
  end.
Lemma near_left : forall D G s r f a a' b o (ob : outcome bool), esteps D G s a a' -> estep D G s a' (Stop o) ->
  ob = match o with Throw e => Throw e | Trapped => Trapped | _ => Undef end ->
  exists o', crun D G s (Cond r f a b) o' /\ near ob o'.
Proof.
  intros D G s r f a a' b o ob K S ->. pose proof (estep_keeps D G s a' _ S) as [B _].
  destruct o as [z|e| |]; [destruct (B z eq_refl)| | |]; cbn [near].
  - exists (Throw e). split; [eapply crun_left; [eassumption|apply CR_left_throw; assumption]|reflexivity].
  - exists Undef. split; [eapply crun_left; [eassumption|eapply CR_left_undef; [eassumption|discriminate]]|auto].
  - exists Undef. split; [eapply crun_left; [eassumption|eapply CR_left_undef; [eassumption|discriminate]]|auto].
Qed.
Lemma near_right : forall D G s r f a b b' o (ob : outcome bool), esteps D G s b b' -> estep D G s b' (Stop o) ->
  ob = match o with Throw e => Throw e | Trapped => Trapped | _ => Undef end ->
  exists o', crun D G s (Cond r f a b) o' /\ near ob o'.
Proof.
  intros D G s r f a b b' o ob K S ->. pose proof (estep_keeps D G s b' _ S) as [B _].
  destruct o as [z|e| |]; [destruct (B z eq_refl)| | |]; cbn [near].
  - exists (Throw e). split; [eapply crun_right; [eassumption|apply CR_right_throw; assumption]|reflexivity].
  - exists Undef. split; [eapply crun_right; [eassumption|eapply CR_right_undef; [eassumption|discriminate]]|auto].
  - exists Undef. split; [eapply crun_right; [eassumption|eapply CR_right_undef; [eassumption|discriminate]]|auto].
Qed.
Lemma near_refl : forall o, near o o.
Proof. intros []; cbn; auto. Qed.
Lemma cond_interleaving : forall D G s c, cond_compiles D G c = true ->
  exists o, crun D G s c o /\ near (snd (eval_cond D G s c)) o.
Proof.
  intros D G s [r f a b] H. cbn [cond_compiles] in H.
  destruct (type_of D G a) as [ta|] eqn:Ea; [|discriminate]. destruct (type_of D G b) as [tb|] eqn:Eb; [|discriminate].
  destruct (eval_relop D r ta tb 0 0) as [m|] eqn:E; [|discriminate]. cbn [eval_cond]. rewrite Ea, Eb. rewrite snd_bind, snd_both.
  pose proof (order_is_interleaving D G s a ta Ea) as IHa. pose proof (order_is_interleaving D G s b tb Eb) as IHb.
  apply erun_esteps in IHa. apply erun_esteps in IHb.
  destruct IHa as [(x & t1 & Va & Ka)|(a' & Ka & Sa)].
  - pose proof (const_inj _ _ _ _ _ _ _ Ka Ea) as ->. rewrite Va.
    destruct IHb as [(y & t2 & -> & Kb)|(b' & Kb & Sb)].
    + pose proof (const_inj _ _ _ _ _ _ _ Kb Eb) as ->.
      replace (pairs f (Ret x) (Ret y)) with (Ret (x, y)) by (destruct f; reflexivity). cbn [fst snd].
      destruct (eval_relop_any D r ta tb 0 0 x y m E) as (k & K). rewrite K. cbn [run].
      exists (snd k). split; [|apply near_refl]. eapply crun_left; [exact Ka|]. eapply crun_right; [exact Kb|]. constructor. assumption.
    + assert (B : bad (snd (eval D G s b))) by apply (estep_keeps D G s b' _ Sb).
      eapply near_right; [exact Kb|exact Sb|].
      destruct (snd (eval D G s b)) as [y|er| |] eqn:Ob; [destruct (B y eq_refl)| | |]; destruct f; reflexivity.
  - assert (B : bad (snd (eval D G s a))) by apply (estep_keeps D G s a' _ Sa).
    destruct f.
    + eapply near_left; [exact Ka|exact Sa|].
      destruct (snd (eval D G s a)) as [x|er| |] eqn:Oa; [destruct (B x eq_refl)| | |]; reflexivity.
    + destruct IHb as [(y & t2 & Eb' & Kb)|(b' & Kb & Sb)].
      * rewrite Eb'. eapply near_left; [exact Ka|exact Sa|].
        destruct (snd (eval D G s a)) as [x|er| |] eqn:Oa; [destruct (B x eq_refl)| | |]; reflexivity.
      * assert (B' : bad (snd (eval D G s b))) by apply (estep_keeps D G s b' _ Sb).
        eapply near_right; [exact Kb|exact Sb|].
        destruct (snd (eval D G s b)) as [y|er| |] eqn:Ob; [destruct (B' y eq_refl)| | |]; reflexivity.
Qed.

Lemma finish_bind_snd : forall A B s (m m' : M A) (k : A -> M B) w, snd m = snd m' -> finish s (mbind m k) w = finish s (mbind m' k) w.
Proof. intros A B s m m' k w H. unfold finish. rewrite !snd_bind, H. reflexivity. Qed.

Lemma exec_irun : forall D G fuel c s s1 r, compiles D G c = true -> exec fuel D G s c = Some (s1, r) -> irun D G s c s1 r.
Proof.
  intros D G fuel c. induction c as [|v|v e|op v e|v|v|inc w v|a IHa b IHb|c a IHa b IHb|c a IHa|a IHa b IHb];
    intros s s1 r Hk H; try (apply IX_update; [exact I|]; exact H).
  - cbn in H. injection H as <- <-. constructor.
  - cbn [exec compiles] in *. destruct (type_of D G e) as [t|] eqn:T; [|discriminate]. injection H as H.
    eapply IX_assign; [eassumption|eapply order_is_interleaving; eassumption|]. rewrite <- H. apply finish_bind_snd. reflexivity.
  - cbn [exec compiles] in *. destruct (type_of D G e) as [t|] eqn:T; [|discriminate]. injection H as H.
    eapply IX_compound; [eassumption|eapply order_is_interleaving; eassumption|]. rewrite <- H. apply finish_bind_snd. reflexivity.
  - cbn [exec compiles] in *. apply andb_true_iff in Hk. destruct Hk as [Ka Kb].
    destruct (exec fuel D G s a) as [[s2 [|e|]]|] eqn:E; try discriminate.
    + eapply IX_seq; eauto.
    + injection H as <- <-. eapply IX_seq_end; [eauto|discriminate].
    + injection H as <- <-. eapply IX_seq_end; [eauto|discriminate].
  - cbn [exec compiles] in *. apply andb_true_iff in Hk. destruct Hk as [Hk Kb]. apply andb_true_iff in Hk. destruct Hk as [Kc Ka].
    destruct (cond_interleaving D G s c Kc) as (o & C & N).
    destruct (snd (eval_cond D G s c)) as [[|]|e| |]; cbn [near] in N.
    + subst o. eapply IX_if; [exact C|]. auto.
    + subst o. eapply IX_if; [exact C|]. auto.
    + subst o. injection H as <- <-. apply IX_if_raise. assumption.
    + injection H as <- <-. eapply IX_if_undef; eassumption.
    + injection H as <- <-. eapply IX_if_undef; eassumption.
  - cbn [exec compiles] in *. apply andb_true_iff in Hk. destruct Hk as [Kc Ka].
    revert s H. generalize fuel at 2. intros f. induction f as [|f IH]; intros s H; cbn [loop] in H; [discriminate|].
    destruct (cond_interleaving D G s c Kc) as (o & C & N).
    destruct (snd (eval_cond D G s c)) as [[|]|e| |]; cbn [near] in N.
    + subst o. destruct (exec fuel D G s a) as [[s2 [|e|]]|] eqn:E; try discriminate.
      * eapply IX_while; [exact C|eauto|]. apply IH. assumption.
      * injection H as <- <-. eapply IX_while_body; [exact C|eauto|discriminate].
      * injection H as <- <-. eapply IX_while_body; [exact C|eauto|discriminate].
    + subst o. injection H as <- <-. apply IX_while_end. assumption.
    + subst o. injection H as <- <-. apply IX_while_raise. assumption.
    + injection H as <- <-. eapply IX_while_undef; eassumption.
    + injection H as <- <-. eapply IX_while_undef; eassumption.
  - cbn [exec compiles] in *. apply andb_true_iff in Hk. destruct Hk as [Ka Kb].
    destruct (exec fuel D G s a) as [[s2 [|e|]]|] eqn:E; try discriminate.
    + injection H as <- <-. eapply IX_try; [eauto|discriminate].
    + eapply IX_try_catch; eauto.
    + injection H as <- <-. eapply IX_try; [eauto|discriminate].
Qed.

Lemma estep_ends : forall D G s, well_founded (fun e' e => estep D G s e (On e')).
Proof.
  intros D G s. apply (well_founded_lt_compat _ size). intros e' e H. exact (estep_size D G s e _ H).
Qed.
Lemma interleave_exact : forall n D G s i e t o, (forall v, type_ok n D (G v)) -> store_ok D G s i ->
  expr_ok n D e -> type_of D G e = Some t -> erun D G s e o ->
  (exists z, value i e = Some z /\ o = Ret z /\ holds D t z) \/ (exists x, arithmetic_err x /\ o = Throw x).
Proof.
  intros n D G s i e t o HG Hs He T H. destruct (erun_ok n D G s i e o HG Hs He H) as [(z & ->)|K]; [left|right; assumption].
  apply interleave_value in H. destruct (expr_char n D G s i e t HG Hs He T) as [_ [(z' & V & R & Hz)|(x & _ & X)]].
  - rewrite R in H. cbn in H. injection H as ->. eauto.
  - rewrite X in H. discriminate.
Qed.
