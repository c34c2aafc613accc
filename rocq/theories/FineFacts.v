(** FineFacts.v -- lemmas for PropsFine.v. *)
From Coq Require Import ZArith List Bool Arith Lia.
From Verif Require Import Base CType Spec IntervalFacts ExceptionPolicy Promotion SafeBase SafeSpec Program ProgramSpec
  SafeConvFacts PropsConvProofs ProgramFacts PropsProgramProofs OrderFacts Threads ThreadsSpec ThreadsFacts Interleave InterleaveFacts Fine FineSpec.
Import ListNotations.
Local Open Scope Z_scope.

(** ------------------------------------------------------------------ *)
(** lists *)
Section Lists.
  Context {A : Type}.
  Lemma nth_replaced : forall (ts : list A) n t u, nth_error ts n = Some u -> nth_error (replace_nth ts n t) n = Some t.
  Proof. induction ts as [|x ts IH]; intros [|n] t u H; cbn in *; try discriminate; eauto. Qed.
  Lemma nth_not_replaced : forall (ts : list A) n m t, n <> m -> nth_error (replace_nth ts n t) m = nth_error ts m.
  Proof.
    induction ts as [|x ts IH]; intros [|n] [|m] t H; cbn; try reflexivity; [congruence|]. apply IH. congruence.
  Qed.
  Lemma Forall_replaced : forall (P : A -> Prop) ts n t, Forall P ts -> P t -> Forall P (replace_nth ts n t).
  Proof.
    induction ts as [|x ts IH]; intros [|n] t H Ht; cbn; auto; inversion H; subst; constructor; auto.
  Qed.
End Lists.

(** ------------------------------------------------------------------ *)
(** one call *)
Section Step.
  Variables (n : bool) (D : dmodel) (G : tenv) (s : store) (i : nat -> Z).
  Hypothesis HG : forall v, type_ok n D (G v).
  Hypothesis Hs : store_ok D G s i.

  Definition call_ok (e : expr) (p : progress) : Prop :=
    match p with
    | On e' => expr_ok n D e' /\ type_of D G e' = type_of D G e /\ iestep i e e'
    | Stop o => exists er, o = Throw er
    end.

  Lemma call_exact : forall e t o, expr_ok n D e -> reduce D G s e = Some (t, o) ->
    (exists z, o = Ret z /\ type_ok n D t /\ holds D t z /\ iestep i e (EConst t z)) \/ (exists er, o = Throw er).
  Proof.
    intros e t o He H. destruct (reduce_eval D G s e t o H) as [T E].
    destruct (expr_char n D G s i e t HG Hs He T) as [Tt [(z & V & R & Hz)|(er & _ & R)]]; rewrite R in E; cbn in E; subst o.
    - left. exists z. splits; auto.
      destruct e as [oc c|v|op f a b|a|a|oc a]; cbn [reduce] in H; try discriminate.
      + cbn in V. injection V as <-. constructor.
      + destruct a as [ta x| | | | |]; try discriminate. destruct b as [tb y| | | | |]; try discriminate.
        constructor. exact V.
      + destruct a as [[|ta|] x| | | | |]; try discriminate. cbn in V. injection V as <-. constructor.
      + destruct a as [[|ta|] x| | | | |]; try discriminate. cbn in V. injection V as <-. constructor.
      + destruct a as [ta x| | | | |]; try discriminate. cbn in V. injection V as <-. constructor.
    - right. exists er. reflexivity.
  Qed.

  Lemma estep_exact : forall e p, estep D G s e p -> expr_ok n D e -> call_ok e p.
  Proof.
    intros e p H. induction H as [e t z H|e t o H N|op f a a' b H IH|op f a b o H IH|op f a b b' H IH|op f a b o H IH
      |a a' H IH|a o H IH|a a' H IH|a o H IH|t a a' H IH|t a o H IH]; intros He; cbn [call_ok expr_ok] in *.
    - destruct (call_exact e t _ He H) as [(z' & E & T & Hz & I)|(er & E)]; [|discriminate]. injection E as <-.
      destruct (reduce_eval D G s e t _ H) as [Te _]. cbn [type_of]. rewrite Te. auto.
    - destruct (call_exact e t o He H) as [(z & E & _)|(er & E)]; [destruct (N z E)|eauto].
    - destruct He as (Ho & Ha & Hb). destruct (IH Ha) as (A1 & A2 & A3). splits; auto.
      + cbn [type_of]. rewrite A2. reflexivity.
      + apply IE_in_left. assumption.
    - apply IH; tauto.
    - destruct He as (Ho & Ha & Hb). destruct (IH Hb) as (A1 & A2 & A3). splits; auto.
      + cbn [type_of]. rewrite A2. reflexivity.
      + apply IE_in_right. assumption.
    - apply IH; tauto.
    - destruct (IH He) as (A1 & A2 & A3). splits; auto; [cbn [type_of]; rewrite A2; reflexivity|apply IE_in_neg; assumption].
    - apply IH; tauto.
    - destruct (IH He) as (A1 & A2 & A3). splits; auto; [cbn [type_of]; rewrite A2; reflexivity|apply IE_in_pos; assumption].
    - apply IH; tauto.
    - destruct He as [Ht Ha]. destruct (IH Ha) as (A1 & A2 & A3). splits; auto; [cbn [type_of]; rewrite A2; reflexivity|apply IE_in_cast; assumption].
    - apply IH; tauto.
  Qed.
End Step.

(** ------------------------------------------------------------------ *)
(** safety *)
Section Safe.
  Variables (n : bool) (D : dmodel) (G : tenv).
  Hypothesis HG : forall v, type_ok n D (G v).

  Definition cmd_good (c : cmd) : Prop := cmd_ok n D G c /\ compiles D G c = true.
  Definition fframe_good (f : frame) : Prop := match f with FSeq b | FTry b => cmd_good b end.
  Definition fgood (t : fthread) : Prop :=
    match t with
    | FRun c k => cmd_good c /\ Forall fframe_good k
    | FEval v e k => cmd_good (CAssign v e) /\ Forall fframe_good k
    | FWrite v z k => holds D (G v) z /\ Forall fframe_good k
    | FTest c a b k => cond_ok n D c /\ cond_compiles D G c = true /\ cmd_good a /\ cmd_good b /\ Forall fframe_good k
    | FNext k | FRaise _ k => Forall fframe_good k
    | FUndef => False
    end.

  Lemma seq_good : forall a b, cmd_good (CSeq a b) <-> cmd_good a /\ cmd_good b.
  Proof. intros a b. unfold cmd_good. cbn. rewrite andb_true_iff. tauto. Qed.
  Lemma try_good : forall a b, cmd_good (CTry a b) <-> cmd_good a /\ cmd_good b.
  Proof. intros a b. unfold cmd_good. cbn. rewrite andb_true_iff. tauto. Qed.

  (** compound assignment and its expansion *)
  Lemma compound_convert : forall op v u x y m, compound D op (G v) u x y = Some m ->
    exists r q c, eval_binop D op (G v) u x y = Some (r, q) /\ convert D (G v) (OSafe r) 0 = Some c
    /\ m = mbind q (fun z => run (convert D (G v) (OSafe r) z)).
  Proof.
    intros op v u x y m H. unfold compound in H. destruct (eval_binop D op (G v) u x y) as [[r q]|]; [|discriminate].
    destruct (G v) as [T|w|T N P E]; [| |discriminate].
    - destruct (to_builtin D T r 0) as [c|] eqn:Ec; [|discriminate]. injection H as <-. exists r, q, c. splits; auto.
    - destruct (construct D w (OSafe r) 0) as [c|] eqn:Ec; [|discriminate]. injection H as <-. exists r, q, c. splits; auto.
  Qed.
  Lemma compound_compiles : forall op v e, compiles D G (CCompound op v e) = true ->
    compiles D G (CAssign v (compound_expr op v e)) = true.
  Proof.
    intros op v e H. cbn [compiles compound_expr type_of] in *. destruct (type_of D G e) as [t|]; [|discriminate].
    destruct (compound D op (G v) t 0 0) as [m|] eqn:E; [|discriminate].
    destruct (compound_convert op v t 0 0 m E) as (r & q & c & -> & C & _). cbn. rewrite C. reflexivity.
  Qed.
  Lemma compound_good : forall op v e, cmd_good (CCompound op v e) -> cmd_good (CAssign v (compound_expr op v e)).
  Proof.
    intros op v e [K C]. split; [|apply compound_compiles; assumption]. cbn in *. tauto.
  Qed.
  Lemma int_one_ok : type_ok n D (ORaw Int) /\ holds D (ORaw Int) 1.
  Proof.
    split; [|unfold holds; cbn [lim_lo lim_hi]; destruct D; cbn; lia].
    split; [apply (wf_int_lit D 0); lia|]. split; intros; discriminate.
  Qed.
  Lemma inc_good : forall v, cmd_good (CInc v) -> cmd_good (CCompound (BA Add) v (EConst (ORaw Int) 1)).
  Proof.
    intros v [_ C]. split.
    - cbn. split; [unfold op_ok; auto|]. exact int_one_ok.
    - cbn [compiles type_of] in *. destruct (G v) as [T|w|T N P E]; try discriminate.
      destruct (increment D w 0) as [m|] eqn:Ei; [|discriminate]. unfold increment in Ei.
      destruct (compound_any D (BA Add) (OSafe w) (ORaw Int) 0 1 0 0 m Ei) as (k & ->). reflexivity.
  Qed.
  Lemma dec_good : forall v, cmd_good (CDec v) -> cmd_good (CCompound (BA Sub) v (EConst (ORaw Int) 1)).
  Proof.
    intros v [_ C]. split.
    - cbn. split; [unfold op_ok; auto|]. exact int_one_ok.
    - cbn [compiles type_of] in *. destruct (G v) as [T|w|T N P E]; try discriminate.
      destruct (decrement D w 0) as [m|] eqn:Ei; [|discriminate]. unfold decrement in Ei.
      destruct (compound_any D (BA Sub) (OSafe w) (ORaw Int) 0 1 0 0 m Ei) as (k & ->). reflexivity.
  Qed.
  Lemma post_good : forall (inc : bool) w v z, cmd_good (CPost inc w v) -> holds D (G v) z ->
    cmd_good (if inc then CInc v else CDec v) /\ cmd_good (CAssign w (EConst (G v) z)).
  Proof.
    intros inc w v z [_ C] Hz. cbn [compiles] in C.
    destruct (G v) as [T|a|T N P E] eqn:Ev; try discriminate. destruct (G w) as [T|b|T N P E] eqn:Ew; try discriminate.
    destruct (if inc then post_increment D a 0 else post_decrement D a 0) as [m|] eqn:Em; [|discriminate].
    destruct (construct D b (OSafe a) 0) as [q|] eqn:Eq; [|discriminate]. split.
    - destruct inc; (split; [exact I|]); cbn [compiles]; rewrite Ev.
      + unfold post_increment in Em. destruct (increment D a 0); [reflexivity|discriminate].
      + unfold post_decrement in Em. destruct (decrement D a 0); [reflexivity|discriminate].
    - split; [cbn; rewrite <- Ev in *; split; [apply HG|assumption]|].
      cbn [compiles type_of]. rewrite Ew. cbn [convert]. rewrite Eq. reflexivity.
  Qed.

  Lemma fstep_good : forall s i t s' t', store_ok D G s i -> fgood t -> fstep D G s t s' t' ->
    exists i', store_ok D G s' i' /\ fgood t' /\ ifstep i t i' t'.
  Proof.
    intros s i t s' t' Hs Hg H. destruct H; cbn [fgood] in Hg |- *.
    - exists i. splits; auto; [apply Hg|constructor].
    - destruct Hg as [[K C] Hk]. destruct (C33_lemma n D G 0 (CDefault v) s i s' r HG Hs K C H) as (i' & A & [[-> B]|(e & -> & B)]).
      + inversion B.
      + inversion B; subst. exists i'. cbn. splits; auto. constructor.
    - exists i. refine (conj Hs (conj Hg _)). constructor.
    - destruct Hg as [Hc Hk]. exists i. refine (conj Hs (conj (conj _ Hk) _)); [apply compound_good; assumption|constructor].
    - destruct Hg as [Hc Hk]. exists i. refine (conj Hs (conj (conj _ Hk) _)); [apply compound_good, inc_good; assumption|constructor].
    - destruct Hg as [Hc Hk]. exists i. refine (conj Hs (conj (conj _ Hk) _)); [apply compound_good, dec_good; assumption|constructor].
    - destruct Hg as [Hc Hk]. destruct (Hs v) as [Ev Hv]. assert (z = i v) by congruence. subst z.
      destruct (post_good inc w v (i v) Hc Hv) as [G1 G2]. exists i.
      refine (conj Hs (conj (conj G1 _) _)); [constructor; assumption|constructor].
    - destruct (Hs v) as [Ev _]. congruence.
    - destruct Hg as [Hc Hk]. apply seq_good in Hc. destruct Hc. exists i.
      refine (conj Hs (conj (conj _ _) _)); [assumption|constructor; assumption|constructor].
    - destruct Hg as [Hc Hk]. apply try_good in Hc. destruct Hc. exists i.
      refine (conj Hs (conj (conj _ _) _)); [assumption|constructor; assumption|constructor].
    - destruct Hg as [[K C] Hk]. cbn [cmd_ok compiles] in K, C. apply andb_true_iff in C. destruct C as [C C3].
      apply andb_true_iff in C. destruct C as [C1 C2]. exists i.
      refine (conj Hs (conj (conj _ (conj C1 (conj (conj _ C2) (conj (conj _ C3) Hk)))) _)); [tauto|tauto|tauto|constructor].
    - destruct Hg as [[K C] Hk]. pose proof (conj K C) as Hc. cbn [cmd_ok compiles] in K, C. apply andb_true_iff in C. destruct C as [C1 C2].
      exists i. refine (conj Hs (conj (conj _ (conj C1 (conj _ (conj _ Hk)))) _)); [tauto| |split; [exact I|reflexivity]|constructor].
      apply seq_good. split; [split; tauto|exact Hc].
    - destruct Hg as [[K C] Hk]. cbn [cmd_ok] in K.
      destruct (estep_exact n D G s i HG Hs e _ H K) as (A1 & A2 & A3). exists i.
      refine (conj Hs (conj (conj (conj A1 _) Hk) _)); [|constructor; assumption].
      cbn [compiles] in *. rewrite A2. exact C.
    - destruct Hg as [[K C] Hk]. cbn [cmd_ok] in K.
      destruct (estep_exact n D G s i HG Hs e _ H K) as (er & ->). exists i. cbn. splits; auto. constructor.
    - destruct Hg as [[[K1 K2] C] Hk]. exists i.
      destruct (convert_char n D (G v) t x m (HG v) K1 K2 H) as [[A R]|(er & _ & R)]; rewrite R in H0; cbn in H0; [|discriminate].
      injection H0 as <-. splits; auto. constructor.
    - destruct Hg as [[[K1 K2] C] Hk]. exists i.
      destruct (convert_char n D (G v) t x m (HG v) K1 K2 H) as [[A R]|(er & _ & R)]; rewrite R in H0 |- *; cbn in H0 |- *.
      + destruct (H0 x eq_refl).
      + splits; auto. constructor.
    - destruct Hg as [Hz Hk]. exists (upd i v z). splits; auto; [|constructor].
      intros w. unfold upd. destruct (Nat.eqb_spec w v) as [->|Nw]; [split; [reflexivity|assumption]|apply Hs].
    - destruct Hg as ([K1 K2] & C & Hc & Hd & Hk).
      destruct (estep_exact n D G s i HG Hs a _ H K1) as (A1 & A2 & A3). exists i.
      refine (conj Hs (conj (conj (conj A1 K2) (conj _ (conj Hc (conj Hd Hk)))) _)); [|constructor; assumption].
      cbn [cond_compiles] in *. rewrite A2. exact C.
    - destruct Hg as ([K1 K2] & C & Hc & Hd & Hk).
      destruct (estep_exact n D G s i HG Hs a _ H K1) as (er & ->). exists i. cbn. splits; auto. constructor.
    - destruct Hg as ([K1 K2] & C & Hc & Hd & Hk).
      destruct (estep_exact n D G s i HG Hs b _ H K2) as (A1 & A2 & A3). exists i.
      refine (conj Hs (conj (conj (conj K1 A1) (conj _ (conj Hc (conj Hd Hk)))) _)); [|constructor; assumption].
      cbn [cond_compiles] in *. rewrite A2. exact C.
    - destruct Hg as ([K1 K2] & C & Hc & Hd & Hk).
      destruct (estep_exact n D G s i HG Hs b _ H K2) as (er & ->). exists i. cbn. splits; auto. constructor.
    - destruct Hg as ([[T1 K1] [T2 K2]] & C & Hc & Hd & Hk). exists i.
      destruct (eval_relop_char n D r t u x y m T1 T2 K1 K2 H) as [R|(er & _ & R)]; rewrite R in H0; cbn in H0; [|discriminate].
      injection H0 as <-. refine (conj Hs (conj (conj _ Hk) _)); [destruct (math_rel r x y); assumption|constructor].
    - destruct Hg as ([[T1 K1] [T2 K2]] & C & Hc & Hd & Hk). exists i.
      destruct (eval_relop_char n D r t u x y m T1 T2 K1 K2 H) as [R|(er & _ & R)]; rewrite R in H0 |- *; cbn in H0 |- *.
      + destruct (H0 _ eq_refl).
      + splits; auto. constructor.
    - inversion Hg; subst. exists i. refine (conj Hs (conj (conj _ _) _)); [assumption|assumption|constructor].
    - inversion Hg; subst. exists i. refine (conj Hs (conj _ _)); [assumption|constructor].
    - inversion Hg; subst. exists i. refine (conj Hs (conj _ _)); [assumption|constructor].
    - inversion Hg; subst. exists i. refine (conj Hs (conj (conj _ _) _)); [assumption|assumption|constructor].
  Qed.

  Lemma freach_good : forall s i ts p, store_ok D G s i -> Forall fgood ts -> freaches D G (s, ts) p ->
    exists i', store_ok D G (fst p) i' /\ Forall fgood (snd p) /\ ifreaches (i, ts) (i', snd p).
  Proof.
    intros s i ts p Hs Ht H. induction H as [|q r H1 IH H2].
    - exists i. splits; auto. constructor.
    - destruct IH as (i1 & A & B & C). destruct H2 as [s1 ts1 k t s2 t2 En Es]. cbn [fst snd] in *.
      assert (Gt : fgood t).
      { rewrite Forall_forall in B. apply B. eapply nth_error_In; eassumption. }
      destruct (fstep_good s1 i1 t s2 t2 A Gt Es) as (i2 & A2 & B2 & C2).
      exists i2. splits; auto.
      + apply Forall_replaced; assumption.
      + eapply IFR_step; eassumption.
  Qed.
End Safe.

Lemma fine_moment : forall nat D G cs s i s' ts',
  (forall v, type_ok nat D (G v)) -> store_ok D G s i ->
  (forall c, In c cs -> cmd_ok nat D G c /\ compiles D G c = true) ->
  freaches D G (s, map fstart cs) (s', ts') ->
  exists i', store_ok D G s' i' /\ ifreaches (i, map fstart cs) (i', ts') /\ ~ In FUndef ts'.
Proof.
  intros nat D G cs s i s' ts' HG Hs Hcs H.
  destruct (freach_good nat D G HG s i (map fstart cs) (s', ts') Hs) as (i' & A & B & C); [|exact H|].
  - apply Forall_forall. intros t Ht. apply in_map_iff in Ht. destruct Ht as (c & <- & Hc). cbn. split; [apply Hcs; assumption|constructor].
  - exists i'. splits; auto. intros K. rewrite Forall_forall in B. exact (B FUndef K).
Qed.

(** ------------------------------------------------------------------ *)
(** a thread of a program that compiles is never stuck: all operators, all policies *)
Section Typed.
  Variables (D : dmodel) (G : tenv).
  Definition fframe_typed (f : frame) : Prop := match f with FSeq b | FTry b => compiles D G b = true end.
  Definition ftyped (t : fthread) : Prop :=
    match t with
    | FRun c k => compiles D G c = true /\ Forall fframe_typed k
    | FEval v e k => compiles D G (CAssign v e) = true /\ Forall fframe_typed k
    | FWrite v z k => Forall fframe_typed k
    | FTest c a b k => cond_compiles D G c = true /\ compiles D G a = true /\ compiles D G b = true /\ Forall fframe_typed k
    | FNext k | FRaise _ k => Forall fframe_typed k
    | FUndef => True
    end.
  Lemma stopped_typed : forall A (o : outcome A) k, Forall fframe_typed k -> ftyped (stopped o k).
  Proof. intros A [] k H; cbn; auto. Qed.
  Lemma inc_compiles : forall v, compiles D G (CInc v) = true -> compiles D G (CAssign v (compound_expr (BA Add) v (EConst (ORaw Int) 1))) = true.
  Proof.
    intros v C. apply compound_compiles. cbn [compiles type_of] in *. destruct (G v) as [T|w|T N P E]; try discriminate.
    destruct (increment D w 0) as [m|] eqn:Ei; [|discriminate]. unfold increment in Ei.
    destruct (compound_any D (BA Add) (OSafe w) (ORaw Int) 0 1 0 0 m Ei) as (k & ->). reflexivity.
  Qed.
  Lemma dec_compiles : forall v, compiles D G (CDec v) = true -> compiles D G (CAssign v (compound_expr (BA Sub) v (EConst (ORaw Int) 1))) = true.
  Proof.
    intros v C. apply compound_compiles. cbn [compiles type_of] in *. destruct (G v) as [T|w|T N P E]; try discriminate.
    destruct (decrement D w 0) as [m|] eqn:Ei; [|discriminate]. unfold decrement in Ei.
    destruct (compound_any D (BA Sub) (OSafe w) (ORaw Int) 0 1 0 0 m Ei) as (k & ->). reflexivity.
  Qed.
  Lemma post_compiles : forall (inc : bool) w v z, compiles D G (CPost inc w v) = true ->
    compiles D G (if inc then CInc v else CDec v) = true /\ compiles D G (CAssign w (EConst (G v) z)) = true.
  Proof.
    intros inc w v z C. cbn [compiles] in C.
    destruct (G v) as [T|a|T N P E] eqn:Ev; try discriminate. destruct (G w) as [T|b|T N P E] eqn:Ew; try discriminate.
    destruct (if inc then post_increment D a 0 else post_decrement D a 0) as [m|] eqn:Em; [|discriminate].
    destruct (construct D b (OSafe a) 0) as [q|] eqn:Eq; [|discriminate]. split.
    - destruct inc; cbn [compiles]; rewrite Ev.
      + unfold post_increment in Em. destruct (increment D a 0); [reflexivity|discriminate].
      + unfold post_decrement in Em. destruct (decrement D a 0); [reflexivity|discriminate].
    - cbn [compiles type_of]. rewrite Ew. cbn [convert]. rewrite Eq. reflexivity.
  Qed.
  Lemma fstep_typed : forall s t s' t', ftyped t -> fstep D G s t s' t' -> ftyped t'.
  Proof.
    intros s t s' t' Ht H. destruct H; cbn [ftyped] in Ht |- *; try tauto.
    - destruct Ht as [_ Hk]. destruct r; cbn; auto.
    - destruct Ht as [C Hk]. split; [apply compound_compiles; assumption|assumption].
    - destruct Ht as [C Hk]. split; [apply inc_compiles; assumption|assumption].
    - destruct Ht as [C Hk]. split; [apply dec_compiles; assumption|assumption].
    - destruct Ht as [C Hk]. destruct (post_compiles inc w v z C). split; [assumption|]. constructor; assumption.
    - destruct Ht as [C Hk]. cbn [compiles] in C. apply andb_true_iff in C. destruct C. split; [assumption|constructor; assumption].
    - destruct Ht as [C Hk]. cbn [compiles] in C. apply andb_true_iff in C. destruct C. split; [assumption|constructor; assumption].
    - destruct Ht as [C Hk]. cbn [compiles] in C. apply andb_true_iff in C. destruct C as [C C3]. apply andb_true_iff in C. tauto.
    - destruct Ht as [C Hk]. pose proof C as C'. cbn [compiles] in C. apply andb_true_iff in C. destruct C as [C C3].
      splits; auto. change (compiles D G a && compiles D G (CWhile c a) = true). rewrite C3, C'. reflexivity.
    - destruct Ht as [C Hk]. split; [|assumption]. cbn [compiles] in *. destruct (estep_keeps D G s e _ H) as [-> _]. exact C.
    - apply stopped_typed; tauto.
    - apply stopped_typed; tauto.
    - destruct Ht as (C & Ht). split; [|assumption]. cbn [cond_compiles] in *. destruct (estep_keeps D G s a _ H) as [-> _]. exact C.
    - apply stopped_typed; tauto.
    - destruct Ht as (C & Ht). split; [|assumption]. cbn [cond_compiles] in *. destruct (estep_keeps D G s b _ H) as [-> _]. exact C.
    - apply stopped_typed; tauto.
    - destruct Ht as (C & Hc & Hd & Hk). destruct w; auto.
    - apply stopped_typed; tauto.
    - inversion Ht; subst; auto.
    - inversion Ht; subst; auto.
    - inversion Ht; subst; auto.
    - inversion Ht; subst; auto.
  Qed.
  Lemma freach_typed : forall p q, Forall ftyped (snd p) -> freaches D G p q -> Forall ftyped (snd q).
  Proof.
    intros p q Ht H. induction H as [|q r H1 IH H2]; [assumption|].
    destruct H2 as [s1 ts1 k t s2 t2 En Es]. cbn [snd] in *. apply Forall_replaced; [assumption|].
    eapply fstep_typed; [|eassumption]. rewrite Forall_forall in IH. apply IH. eapply nth_error_In; eassumption.
  Qed.
  Lemma fprogress : forall s t, ftyped t -> ~ fended t -> exists s' t', fstep D G s t s' t'.
  Proof.
    intros s [c k|v e k|v z k|[r f a b] c d k|[|[b|b] k]|e [|[b|b] k]|] Ht N; cbn [fended ftyped] in *; try tauto;
      try (do 2 eexists; constructor; fail).
    - destruct Ht as [C Hk]. destruct c; try (do 2 eexists; constructor; fail).
      + assert (E : exists s' r, exec 0 D G s (CDefault v) = Some (s', r)).
        { cbn [exec]. destruct (G v); eauto. destruct (finish _ _ _); eauto. }
        destruct E as (s' & r & E). exists s', (fafter r k). constructor. assumption.
      + destruct (s v) as [z|] eqn:E; do 2 eexists; [eapply FS_post|eapply FS_post_undef]; eassumption.
    - destruct Ht as [C Hk]. cbn [compiles] in C. destruct (type_of D G e) as [t|] eqn:T; [|discriminate].
      destruct (convert D (G v) t 0) as [m0|] eqn:E0; [|discriminate].
      destruct (estep_progress D G s e t T) as [(z & ->)|([e'|o] & K)].
      + destruct (convert_any D (G v) t 0 z m0 E0) as (m & E). destruct (snd m) as [y|er| |] eqn:Em;
          do 2 eexists; [eapply FS_convert; eassumption| | |]; eapply FS_convert_stop; try eassumption; intros y; rewrite Em; discriminate.
      + do 2 eexists. apply FS_eval. eassumption.
      + do 2 eexists. apply FS_eval_stop. eassumption.
    - destruct Ht as (C & _). cbn [cond_compiles] in C. destruct (type_of D G a) as [t|] eqn:Ta; [|discriminate].
      destruct (type_of D G b) as [u|] eqn:Tb; [|discriminate].
      destruct (eval_relop D r t u 0 0) as [m0|] eqn:E0; [|discriminate].
      destruct (estep_progress D G s a t Ta) as [(x & ->)|([e'|o] & K)];
        [|do 2 eexists; apply FS_left; eassumption|do 2 eexists; apply FS_left_stop; eassumption].
      destruct (estep_progress D G s b u Tb) as [(y & ->)|([e'|o] & K)];
        [|do 2 eexists; apply FS_right; eassumption|do 2 eexists; apply FS_right_stop; eassumption].
      destruct (eval_relop_any D r t u 0 0 x y m0 E0) as (m & E). destruct (snd m) as [w|er| |] eqn:Em;
        do 2 eexists; [eapply FS_compare; eassumption| | |]; eapply FS_compare_stop; try eassumption; intros w; rewrite Em; discriminate.
  Qed.
End Typed.

Lemma fine_progress : forall D G cs s s' ts' t,
  (forall c, In c cs -> compiles D G c = true) -> freaches D G (s, map fstart cs) (s', ts') ->
  In t ts' -> ~ fended t -> exists s2 t2, fstep D G s' t s2 t2.
Proof.
  intros D G cs s s' ts' t Hc H Ht N. apply fprogress; [|assumption].
  assert (K : Forall (ftyped D G) ts').
  { apply (freach_typed D G (s, map fstart cs) (s', ts')); [|assumption]. cbn. apply Forall_forall. intros u Hu.
    apply in_map_iff in Hu. destruct Hu as (c & <- & Hu). cbn. split; [auto|constructor]. }
  rewrite Forall_forall in K. auto.
Qed.
