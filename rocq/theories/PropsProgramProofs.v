(** PropsProgramProofs.v -- proofs of the properties stated in PropsProgram.v. *)
From Coq Require Import ZArith Bool List Lia Arith.
From Verif Require Import Base CType Spec CTypeFacts CheckedInteger CheckedResultOps Interval
  IntervalFacts ExceptionPolicy Promotion SafeBase SafeSpec SafeFacts SafeConvFacts PropsConvProofs
  Program ProgramSpec ProgramFacts.
Import ListNotations.
Local Open Scope Z_scope.

Lemma C35_lemma : forall nat D G s i e t,
  (forall v, type_ok nat D (G v)) -> store_ok D G s i ->
  expr_ok nat D e -> type_of D G e = Some t ->
  (exists z, value i e = Some z /\ returns (eval D G s e) z /\ holds D t z)
  \/ throws_arith (eval D G s e).
Proof. intros nat D G s i e t HG Hs He Ht. apply (expr_char nat D G s i e t HG Hs He Ht). Qed.

Lemma C33_lemma : forall nat D G fuel c s i s' r,
  (forall v, type_ok nat D (G v)) -> store_ok D G s i ->
  cmd_ok nat D G c -> compiles D G c = true ->
  exec fuel D G s c = Some (s', r) ->
  exists i', store_ok D G s' i'
  /\ ((r = RDone /\ ideal i c i' true) \/ (exists e, r = RRaised e /\ ideal i c i' false)).
Proof.
  intros nat D G fuel c s i s' r HG Hs Hc Hk H.
  exact (exec_good nat D G fuel HG c s i s' r Hc Hk Hs H).
Qed.

(** more fuel gives the same result *)
Lemma loop_mono : forall cnd body body', (forall s r, body s = Some r -> body' s = Some r) ->
  forall n n' s r, (n <= n')%nat -> loop cnd body n s = Some r -> loop cnd body' n' s = Some r.
Proof.
  intros cnd body body' Hb. induction n as [|n IH]; intros n' s r Hn H; cbn [loop] in H; [discriminate|].
  destruct n' as [|n']; [lia|]. cbn [loop].
  destruct (snd (cnd s)) as [[|]| | |]; auto.
  destruct (body s) as [[s1 [|e|]]|] eqn:E; try discriminate; rewrite (Hb s _ E); auto.
  apply IH; [lia|assumption].
Qed.
Lemma exec_mono : forall D G n n' c s r, (n <= n')%nat ->
  exec n D G s c = Some r -> exec n' D G s c = Some r.
Proof.
  intros D G n n' c. induction c as [|v|v e|op v e|v|v|inc w v|a IHa b IHb|c a IHa b IHb|c a IHa|a IHa b IHb];
  intros s r Hn H; cbn [exec] in *; auto.
  - destruct (exec n D G s a) as [[s1 [|e|]]|] eqn:E; try discriminate; rewrite (IHa _ _ Hn E); auto.
  - destruct (snd (eval_cond D G s c)) as [[|]| | |]; auto.
  - eapply loop_mono; [|exact Hn|exact H]. cbn beta. intros s0 r0 H0. auto.
  - destruct (exec n D G s a) as [[s1 [|e|]]|] eqn:E; try discriminate; rewrite (IHa _ _ Hn E); auto.
Qed.

(** strong guarantee *)
Lemma finish_raised : forall (A : Type) s (m : M A) w s' e, finish s m w = (s', RRaised e) -> s' = s.
Proof. intros A s m w s' e H. unfold finish in H. destruct (snd m); congruence. Qed.
Lemma C34_lemma : forall D G fuel c s s' e, updates c ->
  exec fuel D G s c = Some (s', RRaised e) -> s' = s.
Proof.
  intros D G fuel c s s' e Hc H.
  destruct Hc as [(v & x & ->)|[(op & v & x & ->)|[(v & ->)|(v & ->)]]]; cbn [exec] in H.
  - destruct (type_of D G x); [|discriminate]. injection H as H. eapply finish_raised; exact H.
  - destruct (type_of D G x); [|discriminate]. injection H as H. eapply finish_raised; exact H.
  - destruct (G v); try discriminate. injection H as H. eapply finish_raised; exact H.
  - destruct (G v); try discriminate. injection H as H. eapply finish_raised; exact H.
Qed.

(** conversions *)
Lemma C50_lemma : forall nat D src ts x,
  type_ok nat D src -> (forall t, In t ts -> type_ok nat D t) -> holds D src x ->
  chain_compiles D src ts = true ->
  (returns (convert_chain D src ts x) x /\ forall t, In t ts -> holds D t x)
  \/ throws_arith (convert_chain D src ts x).
Proof.
  intros nat D src ts. revert src. induction ts as [|t ts IH]; intros src x Hs Hts Hx Hc; cbn [convert_chain chain_compiles] in *.
  - left. split; [reflexivity|]. intros t [].
  - destruct (convert D t src 0) as [m0|] eqn:E; [|discriminate].
    destruct (convert_any D t src 0 x m0 E) as (k & K). rewrite K. cbn [run].
    destruct (convert_char nat D t src x k (Hts t (or_introl eq_refl)) Hs Hx K) as [[Ht R]|T].
    + rewrite (bind_ret _ _ _ _ _ R).
      destruct (IH t x (Hts t (or_introl eq_refl)) (fun u Hu => Hts u (or_intror Hu)) Ht Hc) as [[R1 H1]|T]; [left|right; assumption].
      split; [assumption|]. intros u [<-|Hu]; auto.
    + right. apply mbind_throws. assumption.
Qed.

(** uninitialised values *)
Lemma initialized_upd : forall s v z, initialized s -> initialized (upd s v (Some z)).
Proof. intros s v z H w. unfold upd. destruct (Nat.eqb w v); [discriminate|apply H]. Qed.
Lemma finish_init : forall (A : Type) s (m : M A) w s' r, initialized s -> (forall a, initialized (w a)) ->
  finish s m w = (s', r) -> initialized s'.
Proof.
  intros A s m w s' r H W E. unfold finish in E.
  destruct (snd m); injection E as <- <-; auto.
Qed.
Lemma loop_init : forall cnd body,
  (forall s s' r, initialized s -> body s = Some (s', r) -> initialized s') ->
  forall n s s' r, initialized s -> loop cnd body n s = Some (s', r) -> initialized s'.
Proof.
  intros cnd body Hb. induction n as [|n IH]; intros s s' r Hs H; cbn [loop] in H; [discriminate|].
  destruct (snd (cnd s)) as [[|]| | |]; try (injection H as <- <-; assumption).
  destruct (body s) as [[s1 [|e|]]|] eqn:E; try discriminate; pose proof (Hb _ _ _ Hs E).
  - eauto.
  - injection H as <- <-. assumption.
  - injection H as <- <-. assumption.
Qed.
Lemma C52_lemma : forall D G fuel c s s' r, no_silent_default G c -> initialized s ->
  exec fuel D G s c = Some (s', r) -> initialized s'.
Proof.
  intros D G fuel c. induction c as [|v|v e|op v e|v|v|inc w v|a IHa b IHb|c a IHa b IHb|c a IHa|a IHa b IHb];
  intros s s' r Hn Hs H; cbn [exec no_silent_default] in *.
  - injection H as <- <-. assumption.
  - destruct (G v) as [T|t|T N P E] eqn:EG; try (injection H as <- <-; assumption).
    specialize (Hn (sE t) eq_refl). injection H as H. unfold default_ctor in H.
    destruct (dispatch_compiles (sE t) uninitialized_value) eqn:Edc.
    + cbn [run] in H. unfold dispatch in H. unfold dispatch_compiles in Edc. cbn in *.
      destruct (on_uninitialized_value (sE t)); try congruence; cbn in H; injection H as <- <-; assumption.
    + cbn in H. injection H as <- <-. assumption.
  - destruct (type_of D G e); [injection H as H|injection H as <- <-; assumption].
    eapply finish_init; [exact Hs| |exact H]. intros a. apply initialized_upd. assumption.
  - destruct (type_of D G e); [injection H as H|injection H as <- <-; assumption].
    eapply finish_init; [exact Hs| |exact H]. intros a. apply initialized_upd. assumption.
  - destruct (G v); [injection H as <- <-; assumption|injection H as H|injection H as <- <-; assumption].
    eapply finish_init; [exact Hs| |exact H]. intros a. apply initialized_upd. assumption.
  - destruct (G v); [injection H as <- <-; assumption|injection H as H|injection H as <- <-; assumption].
    eapply finish_init; [exact Hs| |exact H]. intros a. apply initialized_upd. assumption.
  - destruct (G v) as [|t|]; try (injection H as <- <-; assumption).
    destruct (G w) as [|t'|]; try (injection H as <- <-; assumption).
    destruct (finish s _ _) as [s1 r1] eqn:E.
    assert (Hs1 : initialized s1)
      by (eapply finish_init; [exact Hs| |exact E]; intros a; apply initialized_upd; assumption).
    destruct r1; try (injection H as <- <-; assumption).
    destruct (snd (read s v)); [injection H as H| | |]; try (injection H as <- <-; assumption).
    eapply finish_init; [exact Hs1| |exact H]. intros b. apply initialized_upd. assumption.
  - destruct Hn as [Ha Hb]. destruct (exec fuel D G s a) as [[s1 [|e|]]|] eqn:E; try discriminate;
    pose proof (IHa _ _ _ Ha Hs E); eauto; injection H as <- <-; assumption.
  - destruct Hn as [Ha Hb]. destruct (snd (eval_cond D G s c)) as [[|]| | |]; eauto; injection H as <- <-; assumption.
  - eapply loop_init; [|exact Hs|exact H]. cbn beta. intros s0 s1 r0 H0 H1. eauto.
  - destruct Hn as [Ha Hb]. destruct (exec fuel D G s a) as [[s1 [|e|]]|] eqn:E; try discriminate;
    pose proof (IHa _ _ _ Ha Hs E); eauto; injection H as <- <-; assumption.
Qed.
