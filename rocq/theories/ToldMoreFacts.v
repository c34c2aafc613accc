(** ToldMoreFacts.v -- lemmas for C100: programs that switch streams between bases, and
    assignments that are operands of assignments. *)
From Coq Require Import ZArith Bool List Lia.
From Verif Require Import Base CType Spec ExceptionPolicy Promotion SafeBase SafeSpec Program Stream IOProgram
  BaseStream BaseStreamFacts BaseProgram ChainProgram ToldSpec ToldFacts ToldProgSpec ToldProgFacts ToldMoreSpec.
Import ListNotations.
Local Open Scope Z_scope.

Lemma bp_loop_thrown : forall Es (cnd : store -> M bool) body n p p' r,
  (forall s, told Es (cnd s)) -> (forall p p1 r, body p = Some (p1, r) -> thrown Es r) ->
  bp_loop cnd body n p = Some (p', r) -> thrown Es r.
Proof.
  intros Es cnd body. induction n as [|n IH]; intros p p' r Hc Hb H; cbn [bp_loop] in H; [discriminate|].
  destruct (snd (cnd (fst (fst p)))) as [[|]|e| |] eqn:Ec.
  - destruct (body p) as [[p1 [|e|]]|] eqn:Eb; try discriminate.
    + exact (IH _ _ _ Hc Hb H).
    + injection H as <- <-. exact (Hb _ _ _ Eb).
    + injection H as <- <-. exact I.
  - injection H as <- <-. exact I.
  - injection H as <- <-. exact (told_thrown _ _ _ _ (Hc _) Ec).
  - injection H as <- <-. exact I.
  - injection H as <- <-. exact I.
Qed.
Lemma bp_thrown : forall n D G c p p' r, bp_exec n D G p c = Some (p', r) -> thrown (occurs_base G c) r.
Proof.
  intros n D G. induction c as [c|v|v|b|b|a IHa b IHb|c a IHa b IHb|c a IHa|a IHa b IHb];
    intros [[s i] o] p' r H; cbn [bp_exec] in H.
  - destruct (exec n D G s c) as [[s1 r1]|] eqn:E; [|discriminate]. injection H as <- <-.
    exact (exec_thrown _ _ _ _ _ _ _ E).
  - destruct (G v) as [T|t|T N P E] eqn:Ev; try (injection H as <- <-; exact I).
    destruct (input_b (fst i) D t (snd i) (s v)) as [[[i1 x] m]|] eqn:Em; injection H as <- <-; [|exact I].
    pose proof (input_b_told _ _ _ _ _ _ _ _ Em) as Hm. unfold ending.
    destruct (snd m) as [a|e| |] eqn:Eo; cbn [thrown]; auto.
    destruct (told_thrown _ _ _ _ Hm Eo) as (E & -> & Ha). exists (sE t). split; [|exact Ha].
    cbn [occurs_base]. rewrite Ev. reflexivity.
  - destruct (G v) as [T|t|T N P E], (s v); injection H as <- <-; exact I.
  - injection H as <- <-. exact I.
  - injection H as <- <-. exact I.
  - destruct (bp_exec n D G (s, i, o) a) as [[p1 [|e|]]|] eqn:Ea; try discriminate.
    + eapply thrown_mono; [|exact (IHb _ _ _ H)]. intros E HE. cbn [occurs_base]. auto.
    + injection H as <- <-. eapply thrown_mono; [|exact (IHa _ _ _ Ea)]. intros E HE. cbn [occurs_base]. auto.
    + injection H as <- <-. exact I.
  - destruct (snd (eval_cond D G s c)) as [[|]|e| |] eqn:Ec.
    + eapply thrown_mono; [|exact (IHa _ _ _ H)]. intros E HE. cbn [occurs_base]. auto.
    + eapply thrown_mono; [|exact (IHb _ _ _ H)]. intros E HE. cbn [occurs_base]. auto.
    + injection H as <- <-. destruct (told_thrown _ _ _ _ (cond_told D G s c) Ec) as (E & HE & Ha).
      exists E. split; [cbn [occurs_base]; auto|exact Ha].
    + injection H as <- <-. exact I.
    + injection H as <- <-. exact I.
  - eapply bp_loop_thrown; [| |exact H].
    + intros s0. eapply told_mono; [|exact (cond_told D G s0 c)]. intros E HE. cbn [occurs_base]. auto.
    + intros p0 p1 r0 H0. eapply thrown_mono; [|exact (IHa _ _ _ H0)]. intros E HE. cbn [occurs_base]. auto.
  - destruct (bp_exec n D G (s, i, o) a) as [[p1 [|e|]]|] eqn:Ea; try discriminate.
    + injection H as <- <-. exact I.
    + eapply thrown_mono; [|exact (IHb _ _ _ H)]. intros E HE. cbn [occurs_base]. auto.
    + injection H as <- <-. exact I.
Qed.
Lemma bp_raised : forall n D G c p p' e, bp_exec n D G p c = Some (p', RRaised e) ->
  exists E, occurs_base G c E /\ answers E e HThrow.
Proof. intros n D G c p p' e H. exact (bp_thrown _ _ _ _ _ _ _ H). Qed.

(** assignments *)
Lemma asg_type_occurs : forall D G l t E, asg_type D G l = Some t -> get_ep t = Some E -> occurs_asg G l E.
Proof.
  intros D G. induction l as [v|e|f l IHl r IHr|op f l IHl r IHr|inc l IHl]; intros t E H HE; cbn [asg_type occurs_asg] in *.
  - injection H as <-. exact HE.
  - eapply type_occurs; eassumption.
  - destruct (asg_type D G l) as [t1|]; [|discriminate]. destruct (asg_type D G r) as [u|]; [|discriminate].
    destruct (lvalue l || is_safe t1); [|discriminate]. destruct (convert D t1 u 0); [|discriminate]. injection H as <-. eauto.
  - destruct (asg_type D G l) as [t1|]; [|discriminate]. destruct (asg_type D G r) as [u|]; [|discriminate].
    destruct (lvalue l); [|discriminate]. destruct (compound D op t1 u 0 0); [|discriminate]. injection H as <-. eauto.
  - destruct (asg_type D G l) as [[T|s|T N P F]|]; try discriminate. destruct (step_of D inc s 0); [|discriminate]. injection H as <-. eauto.
Qed.
Definition athrown (Es : ep -> Prop) (o : aout) : Prop := match o with AStop r => thrown Es r | APlace _ => True end.
Lemma athrown_mono : forall (Es Fs : ep -> Prop) o, (forall E, Es E -> Fs E) -> athrown Es o -> athrown Fs o.
Proof. intros Es Fs [p|r] H K; [exact I|]. exact (thrown_mono _ _ _ H K). Qed.
Lemma write_to_thrown : forall Es s p m copy s' o, told Es m -> write_to s p m copy = (s', o) -> athrown Es o.
Proof.
  intros Es s p m copy s' o Hm H. unfold write_to in H. destruct (snd m) as [z|e| |] eqn:Eo.
  - destruct (put s p z). injection H as <- <-. exact I.
  - injection H as <- <-. exact (told_thrown _ _ _ _ Hm Eo).
  - injection H as <- <-. exact I.
  - injection H as <- <-. exact I.
Qed.
Lemma operands_thrown : forall Es first evl evr s k s' o,
  (forall s s' o, evl s = (s', o) -> athrown Es o) -> (forall s s' o, evr s = (s', o) -> athrown Es o) ->
  (forall s p q s' o, k s p q = (s', o) -> athrown Es o) ->
  operands first evl evr s k = (s', o) -> athrown Es o.
Proof.
  intros Es first evl evr s k s' o Hl Hr Hk H. unfold operands in H.
  destruct ((if first then evl else evr) s) as [s1 [p1|r1]] eqn:E1.
  - destruct ((if first then evr else evl) s1) as [s2 [p2|r2]] eqn:E2.
    + destruct first; eauto.
    + injection H as <- <-. destruct first; eauto.
  - injection H as <- <-. destruct first; eauto.
Qed.
Lemma content_told : forall Es s p, told Es (content s p).
Proof. intros Es s [v|z]; [apply read_told|apply told_ret]. Qed.
Lemma asg_thrown : forall D G l s s' o, asg_eval D G l s = (s', o) -> athrown (occurs_asg G l) o.
Proof.
  intros D G. induction l as [v|e|f l IHl r IHr|op f l IHl r IHr|inc l IHl]; intros s s' o H; cbn [asg_eval] in H.
  - injection H as <- <-. exact I.
  - destruct (snd (eval D G s e)) as [z|x| |] eqn:Ee; injection H as <- <-; try exact I.
    exact (told_thrown _ _ _ _ (eval_told D G s e) Ee).
  - destruct (asg_type D G l) as [t|] eqn:Tl; [|injection H as <- <-; exact I].
    destruct (asg_type D G r) as [u|] eqn:Tr; [|injection H as <- <-; exact I].
    eapply operands_thrown; [| | |exact H].
    + intros s0 s1 o1 H0. eapply athrown_mono; [|exact (IHl _ _ _ H0)]. intros E HE. left. exact HE.
    + intros s0 s1 o1 H0. eapply athrown_mono; [|exact (IHr _ _ _ H0)]. intros E HE. right. exact HE.
    + intros s0 p q s1 o1 H0. eapply write_to_thrown; [|exact H0]. apply told_bind; [apply content_told|]. intros y.
      apply run_convert_told; intros E HE; [left|right]; eapply asg_type_occurs; eassumption.
  - destruct (asg_type D G l) as [t|] eqn:Tl; [|injection H as <- <-; exact I].
    destruct (asg_type D G r) as [u|] eqn:Tr; [|injection H as <- <-; exact I].
    eapply operands_thrown; [| | |exact H].
    + intros s0 s1 o1 H0. eapply athrown_mono; [|exact (IHl _ _ _ H0)]. intros E HE. left. exact HE.
    + intros s0 s1 o1 H0. eapply athrown_mono; [|exact (IHr _ _ _ H0)]. intros E HE. right. exact HE.
    + intros s0 p q s1 o1 H0. eapply write_to_thrown; [|exact H0]. apply told_bind; [apply content_told|]. intros y.
      apply told_bind; [apply content_told|]. intros x. apply run_told. intros m Hm.
      eapply told_mono; [|exact (compound_told _ _ _ _ _ _ _ Hm)]. intros E [HE|HE]; [left|right]; eapply asg_type_occurs; eassumption.
  - destruct (asg_type D G l) as [[T|t|T N P F]|] eqn:Tl; try (injection H as <- <-; exact I).
    destruct (asg_eval D G l s) as [s1 [p|r]] eqn:El.
    + eapply write_to_thrown; [|exact H]. apply told_bind; [apply content_told|]. intros x. apply run_told. intros m Hm.
      assert (K : told (fun E => E = sE t) m) by (unfold step_of in Hm; destruct inc; [eapply inc_told|eapply dec_told]; exact Hm).
      eapply told_mono; [|exact K]. intros E ->. cbn [occurs_asg]. eapply asg_type_occurs; [exact Tl|reflexivity].
    + injection H as <- <-. exact (IHl _ _ _ El).
Qed.
Lemma asg_raised : forall D G l s s' e, asg_eval D G l s = (s', AStop (RRaised e)) ->
  exists E, occurs_asg G l E /\ answers E e HThrow.
Proof. intros D G l s s' e H. exact (asg_thrown _ _ _ _ _ _ H). Qed.
