(** FineFacts3.v -- safety of interrupted threads that use all ten operators. *)
From Coq Require Import ZArith List Bool Arith Lia.
From Verif Require Import Base CType Spec IntervalFacts ExceptionPolicy Promotion SafeBase SafeSpec Program ProgramSpec
  SafeConvFacts PropsConvProofs ProgramFacts PropsProgramProofs ComposeSpec ComposeFacts OrderFacts
  Threads ThreadsSpec ThreadsFacts Interleave InterleaveFacts Fine FineSpec FineFacts.
Import ListNotations.
Local Open Scope Z_scope.

(** what is left of an expression: a value may be outside the range of its type while it is on
    its way to an object that takes it *)
Fixpoint xfine (n : bool) (D : dmodel) (G : tenv) (tgt : option otype) (e : expr) : Prop :=
  match e with
  | EConst o z => (type_fine n D o /\ holds D o z)
      \/ (exists w, o = OSafe w /\ throws_arithmetic (sE w) /\ absorbs D tgt w /\ in_type D (st w) z)
  | EVar _ => True
  | EBin op _ a b =>
      xfine n D G None a /\ xfine n D G None b
      /\ forall t u, type_of D G a = Some t -> type_of D G b = Some u -> operator_fine n D tgt op t u
  | ENeg a | EPos a => xfine n D G None a
  | ECast o a => type_fine n D o /\ xfine n D G (Some o) a
  end.
Definition xcond (n : bool) (D : dmodel) (G : tenv) (c : cond) : Prop :=
  let 'Cond _ _ a b := c in xfine n D G None a /\ xfine n D G None b.

Lemma fine_xfine : forall n D G e tgt, expr_fine n D G tgt e -> xfine n D G tgt e.
Proof.
  intros n D G e. induction e as [o z|v|op f a IHa b IHb|a IHa|a IHa|o a IHa]; intros tgt H; cbn [expr_fine xfine] in *.
  - left. exact H.
  - exact I.
  - destruct H as (A & B & C). exact (conj (IHa None A) (conj (IHb None B) C)).
  - exact (IHa None H).
  - exact (IHa None H).
  - destruct H as (A & B). exact (conj A (IHa (Some o) B)).
Qed.
Lemma const_fine : forall n D G o z, xfine n D G None (EConst o z) -> type_fine n D o /\ holds D o z.
Proof. intros n D G o z [H|(w & _ & _ & [] & _)]. exact H. Qed.

Section XStep.
  Variables (n : bool) (D : dmodel) (G : tenv) (s : store) (i : nat -> Z).
  Hypothesis HG : forall v, type_fine n D (G v).
  Hypothesis Hs : store_ok D G s i.

  Lemma fails_out : forall A (m : M A), fails m -> exists er, snd m = Throw er.
  Proof. intros A m H. destruct (fails_throw _ _ H) as (l & e & ->). exists e. reflexivity. Qed.

  Lemma xcall : forall e t o tgt, xfine n D G tgt e -> reduce D G s e = Some (t, o) ->
    (exists z, o = Ret z /\ xfine n D G tgt (EConst t z) /\ iestep i e (EConst t z)) \/ (exists er, o = Throw er).
  Proof.
    intros e t o tgt He H.
    assert (F : expr_fine n D G tgt e \/ exists o' x, e = ECast o' (EConst t x) \/ exists t', e = ECast o' (EConst t' x)).
    { destruct e as [oc c|v|op f a b|a|a|oc a]; cbn [reduce] in H; try discriminate; cbn in He.
      - left. exact I.
      - destruct a as [ta x| | | | |]; try discriminate. destruct b as [tb y| | | | |]; try discriminate.
        destruct He as (Ha & Hb & Ho). left. cbn. apply const_fine in Ha. apply const_fine in Hb. auto.
      - destruct a as [[|ta|] x| | | | |]; try discriminate. left. cbn. apply (const_fine n D G). exact He.
      - destruct a as [[|ta|] x| | | | |]; try discriminate. left. cbn. apply (const_fine n D G). exact He.
      - destruct a as [ta x| | | | |]; try discriminate. right. exists oc, x. right. eauto. }
    destruct F as [F|(o' & x & [->|(t' & ->)])].
    - destruct (reduce_eval D G s e t o H) as [T E].
      pose proof (expr_char2 n D G s i e tgt t HG Hs F T) as Q.
      assert (St : forall z, value i e = Some z -> iestep i e (EConst t z)).
      { intros z V. destruct e as [oc c|v|op f a b|a|a|oc a]; cbn [reduce] in H; try discriminate.
        + cbn in V. injection V as <-. constructor.
        + destruct a as [ta x| | | | |]; try discriminate. destruct b as [tb y| | | | |]; try discriminate.
          constructor. exact V.
        + destruct a as [[|ta|] x| | | | |]; try discriminate. cbn in V. injection V as <-. constructor.
        + destruct a as [[|ta|] x| | | | |]; try discriminate. cbn in V. injection V as <-. constructor.
        + destruct a as [ta x| | | | |]; try discriminate. cbn in V. injection V as <-. constructor. }
      destruct Q as [[Tt [(z & V & R & Hz)|Fl]]|(w & -> & HE & Ab & [(z & V & R & Hz)|Fl])].
      + left. exists z. rewrite <- E, R. splits; auto. cbn. auto.
      + right. rewrite <- E. apply fails_out. assumption.
      + left. exists z. rewrite <- E, R. splits; auto. cbn. right. exists w. auto.
      + right. rewrite <- E. apply fails_out. assumption.
    - cbn [reduce] in H. destruct (convert D o' t x) as [m|] eqn:Ec; [|discriminate]. injection H as H1 <-. subst o'.
      cbn [xfine] in He. destruct He as [To Ha].
      assert (Q : outcome_ok n D (Some t) t (Some x) (mret x)).
      { destruct Ha as [[A B]|(w & -> & A & B & C)]; [left; split; auto; left; exists x; splits; auto; reflexivity|].
        right. exists w. splits; auto. left. exists x. splits; auto. reflexivity. }
      destruct (convert_any D t t x 0 m Ec) as (m0 & E0).
      destruct (outcome_convert n D t t (Some x) (mret x) m0 To Q E0) as [(z & V & R & Hz)|Fl].
      + injection V as <-. rewrite (bind_ret Z Z (mret x) _ x eq_refl), Ec in R. cbn [run] in R. left. exists x. rewrite R.
        splits; auto; [cbn; auto|constructor].
      + rewrite (bind_ret Z Z (mret x) _ x eq_refl), Ec in Fl. right. apply fails_out. exact Fl.
    - cbn [reduce] in H. destruct (convert D o' t' x) as [m|] eqn:Ec; [|discriminate]. injection H as H1 <-. subst o'.
      cbn [xfine] in He. destruct He as [To Ha].
      assert (Q : outcome_ok n D (Some t) t' (Some x) (mret x)).
      { destruct Ha as [[A B]|(w & -> & A & B & C)]; [left; split; auto; left; exists x; splits; auto; reflexivity|].
        right. exists w. splits; auto. left. exists x. splits; auto. reflexivity. }
      destruct (convert_any D t t' x 0 m Ec) as (m0 & E0).
      destruct (outcome_convert n D t t' (Some x) (mret x) m0 To Q E0) as [(z & V & R & Hz)|Fl].
      + injection V as <-. rewrite (bind_ret Z Z (mret x) _ x eq_refl), Ec in R. cbn [run] in R. left. exists x. rewrite R.
        splits; auto; [cbn; auto|constructor].
      + rewrite (bind_ret Z Z (mret x) _ x eq_refl), Ec in Fl. right. apply fails_out. exact Fl.
  Qed.

  Definition xcall_ok (tgt : option otype) (e : expr) (p : progress) : Prop :=
    match p with
    | On e' => xfine n D G tgt e' /\ type_of D G e' = type_of D G e /\ iestep i e e'
    | Stop o => exists er, o = Throw er
    end.
  Lemma xstep : forall e p, estep D G s e p -> forall tgt, xfine n D G tgt e -> xcall_ok tgt e p.
  Proof.
    intros e p H. induction H as [e t z H|e t o H N|op f a a' b H IH|op f a b o H IH|op f a b b' H IH|op f a b o H IH
      |a a' H IH|a o H IH|a a' H IH|a o H IH|t a a' H IH|t a o H IH]; intros tgt He; cbn [xcall_ok].
    - destruct (xcall e t _ tgt He H) as [(z' & E & T & I)|(er & E)]; [|discriminate]. injection E as <-.
      destruct (reduce_eval D G s e t _ H) as [Te _]. refine (conj T (conj _ I)). cbn [type_of]. auto.
    - destruct (xcall e t o tgt He H) as [(z & E & _)|(er & E)]; [destruct (N z E)|eauto].
    - cbn [xfine] in He. destruct He as (Ha & Hb & Ho). destruct (IH None Ha) as (A1 & A2 & A3).
      refine (conj (conj A1 (conj Hb _)) (conj _ _)).
      + rewrite A2. exact Ho.
      + cbn [type_of]. rewrite A2. reflexivity.
      + apply IE_in_left. assumption.
    - apply (IH None). apply He.
    - cbn [xfine] in He. destruct He as (Ha & Hb & Ho). destruct (IH None Hb) as (A1 & A2 & A3).
      refine (conj (conj Ha (conj A1 _)) (conj _ _)).
      + rewrite A2. exact Ho.
      + cbn [type_of]. rewrite A2. reflexivity.
      + apply IE_in_right. assumption.
    - apply (IH None). apply He.
    - destruct (IH None He) as (A1 & A2 & A3). refine (conj A1 (conj _ _)); [cbn [type_of]; rewrite A2; reflexivity|apply IE_in_neg; assumption].
    - apply (IH None). apply He.
    - destruct (IH None He) as (A1 & A2 & A3). refine (conj A1 (conj _ _)); [cbn [type_of]; rewrite A2; reflexivity|apply IE_in_pos; assumption].
    - apply (IH None). apply He.
    - cbn [xfine] in He. destruct He as [Ht Ha]. destruct (IH (Some t) Ha) as (A1 & A2 & A3).
      refine (conj (conj Ht A1) (conj _ _)); [cbn [type_of]; rewrite A2; reflexivity|apply IE_in_cast; assumption].
    - apply (IH (Some t)). apply He.
  Qed.
End XStep.

Section SafeAll.
  Variables (n : bool) (D : dmodel) (G : tenv).
  Hypothesis HG : forall v, type_fine n D (G v).

  Definition cmd_good (c : cmd) : Prop := cmd_fine n D G c /\ compiles D G c = true.
  Definition fframe_good (f : frame) : Prop := match f with FSeq b | FTry b => cmd_good b end.
  Definition fgood (t : fthread) : Prop :=
    match t with
    | FRun c k => cmd_good c /\ Forall fframe_good k
    | FEval v e k => xfine n D G (Some (G v)) e /\ compiles D G (CAssign v e) = true /\ Forall fframe_good k
    | FWrite v z k => holds D (G v) z /\ Forall fframe_good k
    | FTest c a b k => xcond n D G c /\ cond_compiles D G c = true /\ cmd_good a /\ cmd_good b /\ Forall fframe_good k
    | FNext k | FRaise _ k => Forall fframe_good k
    | FUndef => False
    end.

  Lemma seq_good : forall a b, cmd_good (CSeq a b) <-> cmd_good a /\ cmd_good b.
  Proof. intros a b. unfold cmd_good. cbn. rewrite andb_true_iff. tauto. Qed.
  Lemma try_good : forall a b, cmd_good (CTry a b) <-> cmd_good a /\ cmd_good b.
  Proof. intros a b. unfold cmd_good. cbn. rewrite andb_true_iff. tauto. Qed.

  Lemma compound_good : forall op v e, cmd_good (CCompound op v e) ->
    xfine n D G (Some (G v)) (compound_expr op v e) /\ compiles D G (CAssign v (compound_expr op v e)) = true.
  Proof.
    intros op v e [[A B] C]. split; [|apply compound_compiles; assumption].
    refine (conj I (conj (fine_xfine _ _ _ _ _ A) _)). cbn [type_of]. intros t u [= <-] Hu. apply B. exact Hu.
  Qed.
  Lemma int_one_fine : type_fine n D (ORaw Int) /\ holds D (ORaw Int) 1.
  Proof. destruct (int_one_ok n D G (fun v => proj1 (HG v))) as [A B]. split; [split; [exact A|intros E; discriminate]|exact B]. Qed.
  Lemma inc_good : forall v, cmd_good (CInc v) -> cmd_good (CCompound (BA Add) v (EConst (ORaw Int) 1)).
  Proof.
    intros v [_ C]. split.
    - split; [exact int_one_fine|]. intros t _ w m _. left. exact I.
    - cbn [compiles type_of] in *. destruct (G v) as [T|w|T N P E]; try discriminate.
      destruct (increment D w 0) as [m|] eqn:Ei; [|discriminate]. unfold increment in Ei.
      destruct (compound_any D (BA Add) (OSafe w) (ORaw Int) 0 1 0 0 m Ei) as (k & ->). reflexivity.
  Qed.
  Lemma dec_good : forall v, cmd_good (CDec v) -> cmd_good (CCompound (BA Sub) v (EConst (ORaw Int) 1)).
  Proof.
    intros v [_ C]. split.
    - split; [exact int_one_fine|]. intros t _ w m _. left. exact I.
    - cbn [compiles type_of] in *. destruct (G v) as [T|w|T N P E]; try discriminate.
      destruct (decrement D w 0) as [m|] eqn:Ei; [|discriminate]. unfold decrement in Ei.
      destruct (compound_any D (BA Sub) (OSafe w) (ORaw Int) 0 1 0 0 m Ei) as (k & ->). reflexivity.
  Qed.
  Lemma post_good : forall (inc : bool) w v z, cmd_good (CPost inc w v) -> holds D (G v) z ->
    cmd_good (if inc then CInc v else CDec v) /\ cmd_good (CAssign w (EConst (G v) z)).
  Proof.
    intros inc w v z [_ C] Hz. cbn [compiles] in C.
    destruct (G v) as [T|a|T N P E] eqn:Ev; try discriminate. destruct (G w) as [T|b|T N P E] eqn:Ew; try discriminate.
    destruct (if inc then post_increment D a 0 else post_decrement D a 0) as [m|] eqn:Em; [|discriminate].
    destruct (construct D b (OSafe a) 0) as [q|] eqn:Eq; [|discriminate]. split.
    - destruct inc; (split; [exact I|]); cbn [compiles]; rewrite Ev.
      + unfold post_increment in Em. destruct (increment D a 0); [reflexivity|discriminate].
      + unfold post_decrement in Em. destruct (decrement D a 0); [reflexivity|discriminate].
    - split; [cbn [cmd_fine expr_fine]; rewrite <- Ev in *; split; [apply HG|assumption]|].
      cbn [compiles type_of]. rewrite Ew. cbn [convert]. rewrite Eq. reflexivity.
  Qed.
  Lemma convert_fine : forall v t x m, xfine n D G (Some (G v)) (EConst t x) -> convert D (G v) t x = Some m ->
    (snd m = Ret x /\ holds D (G v) x) \/ exists er, snd m = Throw er.
  Proof.
    intros v t x m Ha Ec.
    assert (Q : outcome_ok n D (Some (G v)) t (Some x) (mret x)).
    { destruct Ha as [[A B]|(w & -> & A & B & C)]; [left; split; auto; left; exists x; splits; auto; reflexivity|].
      right. exists w. splits; auto. left. exists x. splits; auto. reflexivity. }
    destruct (convert_any D (G v) t x 0 m Ec) as (m0 & E0).
    destruct (outcome_convert n D (G v) t (Some x) (mret x) m0 (HG v) Q E0) as [(z & V & R & Hz)|Fl];
      rewrite (bind_ret Z Z (mret x) _ x eq_refl), Ec in *; cbn [run] in *.
    - injection V as <-. left. rewrite R. auto.
    - right. apply fails_out. exact Fl.
  Qed.

  Lemma fstep_good : forall s i t s' t', store_ok D G s i -> fgood t -> fstep D G s t s' t' ->
    exists i', store_ok D G s' i' /\ fgood t' /\ ifstep i t i' t'.
  Proof.
    intros s i t s' t' Hs Hg H. destruct H; cbn [fgood] in Hg |- *.
    - exists i. refine (conj Hs (conj _ _)); [apply Hg|constructor].
    - destruct Hg as [[K C] Hk]. destruct (C73_cmd n D G 0 (CDefault v) s i s' r HG Hs K C H) as (i' & A & [[-> B]|(e & -> & B)]).
      + inversion B.
      + inversion B; subst. exists i'. refine (conj A (conj Hk _)). constructor.
    - destruct Hg as [[K C] Hk]. exists i. refine (conj Hs (conj (conj _ (conj C Hk)) _)); [apply fine_xfine; exact K|constructor].
    - destruct Hg as [Hc Hk]. destruct (compound_good _ _ _ Hc). exists i. refine (conj Hs (conj (conj _ (conj _ Hk)) _)); [assumption|assumption|constructor].
    - destruct Hg as [Hc Hk]. destruct (compound_good _ _ _ (inc_good _ Hc)). exists i. refine (conj Hs (conj (conj _ (conj _ Hk)) _)); [assumption|assumption|constructor].
    - destruct Hg as [Hc Hk]. destruct (compound_good _ _ _ (dec_good _ Hc)). exists i. refine (conj Hs (conj (conj _ (conj _ Hk)) _)); [assumption|assumption|constructor].
    - destruct Hg as [Hc Hk]. destruct (Hs v) as [Ev Hv]. assert (z = i v) by congruence. subst z.
      destruct (post_good inc w v (i v) Hc Hv) as [G1 G2]. exists i.
      refine (conj Hs (conj (conj G1 _) _)); [constructor; assumption|constructor].
    - destruct (Hs v) as [Ev _]. congruence.
    - destruct Hg as [Hc Hk]. apply seq_good in Hc. destruct Hc. exists i.
      refine (conj Hs (conj (conj _ _) _)); [assumption|constructor; assumption|constructor].
    - destruct Hg as [Hc Hk]. apply try_good in Hc. destruct Hc. exists i.
      refine (conj Hs (conj (conj _ _) _)); [assumption|constructor; assumption|constructor].
    - destruct Hg as [[(K1 & K2 & K3) C] Hk]. cbn [compiles] in C. apply andb_true_iff in C. destruct C as [C C3].
      apply andb_true_iff in C. destruct C as [C1 C2]. exists i.
      refine (conj Hs (conj (conj _ (conj C1 (conj (conj K2 C2) (conj (conj K3 C3) Hk)))) _)); [|constructor].
      destruct c as [r f x y]. destruct K1. split; apply fine_xfine; assumption.
    - destruct Hg as [[K C] Hk]. pose proof (conj K C) as Hc. destruct K as [K1 K2]. cbn [compiles] in C. apply andb_true_iff in C. destruct C as [C1 C2].
      exists i. refine (conj Hs (conj (conj _ (conj C1 (conj _ (conj _ Hk)))) _)); [| |split; [exact I|reflexivity]|constructor].
      + destruct c as [r f x y]. destruct K1. split; apply fine_xfine; assumption.
      + apply seq_good. split; [split; assumption|exact Hc].
    - destruct Hg as (K & C & Hk).
      destruct (xstep n D G s i HG Hs e _ H _ K) as (A1 & A2 & A3). exists i.
      refine (conj Hs (conj (conj A1 (conj _ Hk)) _)); [|constructor; assumption].
      cbn [compiles] in *. rewrite A2. exact C.
    - destruct Hg as (K & C & Hk).
      destruct (xstep n D G s i HG Hs e _ H _ K) as (er & ->). exists i. refine (conj Hs (conj Hk _)). constructor.
    - destruct Hg as (K & C & Hk). exists i.
      destruct (convert_fine v t x m K H) as [[R A]|(er & R)]; rewrite R in H0; [|discriminate].
      injection H0 as <-. refine (conj Hs (conj (conj A Hk) _)). constructor.
    - destruct Hg as (K & C & Hk). exists i.
      destruct (convert_fine v t x m K H) as [[R A]|(er & R)]; rewrite R in H0 |- *.
      + destruct (H0 x eq_refl).
      + refine (conj Hs (conj Hk _)). constructor.
    - destruct Hg as [Hz Hk]. exists (upd i v z). refine (conj _ (conj Hk _)); [|constructor].
      intros w. unfold upd. destruct (Nat.eqb_spec w v) as [->|Nw]; [split; [reflexivity|assumption]|apply Hs].
    - destruct Hg as ([K1 K2] & C & Hc & Hd & Hk).
      destruct (xstep n D G s i HG Hs a _ H _ K1) as (A1 & A2 & A3). exists i.
      refine (conj Hs (conj (conj (conj A1 K2) (conj _ (conj Hc (conj Hd Hk)))) _)); [|constructor; assumption].
      cbn [cond_compiles] in *. rewrite A2. exact C.
    - destruct Hg as ([K1 K2] & C & Hc & Hd & Hk).
      destruct (xstep n D G s i HG Hs a _ H _ K1) as (er & ->). exists i. refine (conj Hs (conj Hk _)). constructor.
    - destruct Hg as ([K1 K2] & C & Hc & Hd & Hk).
      destruct (xstep n D G s i HG Hs b _ H _ K2) as (A1 & A2 & A3). exists i.
      refine (conj Hs (conj (conj (conj K1 A1) (conj _ (conj Hc (conj Hd Hk)))) _)); [|constructor; assumption].
      cbn [cond_compiles] in *. rewrite A2. exact C.
    - destruct Hg as ([K1 K2] & C & Hc & Hd & Hk).
      destruct (xstep n D G s i HG Hs b _ H _ K2) as (er & ->). exists i. refine (conj Hs (conj Hk _)). constructor.
    - destruct Hg as ([K1 K2] & C & Hc & Hd & Hk). exists i.
      apply const_fine in K1. apply const_fine in K2. destruct K1 as [T1 K1]. destruct K2 as [T2 K2].
      destruct (eval_relop_char n D r t u x y m (proj1 T1) (proj1 T2) K1 K2 H) as [R|(er & _ & R)]; rewrite R in H0; cbn in H0; [|discriminate].
      injection H0 as <-. refine (conj Hs (conj (conj _ Hk) _)); [destruct (math_rel r x y); assumption|constructor].
    - destruct Hg as ([K1 K2] & C & Hc & Hd & Hk). exists i.
      apply const_fine in K1. apply const_fine in K2. destruct K1 as [T1 K1]. destruct K2 as [T2 K2].
      destruct (eval_relop_char n D r t u x y m (proj1 T1) (proj1 T2) K1 K2 H) as [R|(er & _ & R)]; rewrite R in H0 |- *; cbn in H0 |- *.
      + destruct (H0 _ eq_refl).
      + refine (conj Hs (conj Hk _)). constructor.
    - inversion Hg; subst. exists i. refine (conj Hs (conj (conj _ _) _)); [assumption|assumption|constructor].
    - inversion Hg; subst. exists i. refine (conj Hs (conj _ _)); [assumption|constructor].
    - inversion Hg; subst. exists i. refine (conj Hs (conj _ _)); [assumption|constructor].
    - inversion Hg; subst. exists i. refine (conj Hs (conj (conj _ _) _)); [assumption|assumption|constructor].
  Qed.

  Lemma freach_good : forall s i ts p, store_ok D G s i -> Forall fgood ts -> freaches D G (s, ts) p ->
    exists i', store_ok D G (fst p) i' /\ Forall fgood (snd p) /\ ifreaches (i, ts) (i', snd p).
  Proof.
    intros s i ts p Hs Ht H. induction H as [|q r H1 IH H2].
    - exists i. splits; auto. constructor.
    - destruct IH as (i1 & A & B & C). destruct H2 as [s1 ts1 k t s2 t2 En Es]. cbn [fst snd] in *.
      assert (Gt : fgood t).
      { rewrite Forall_forall in B. apply B. eapply nth_error_In; eassumption. }
      destruct (fstep_good s1 i1 t s2 t2 A Gt Es) as (i2 & A2 & B2 & C2).
      exists i2. splits; auto.
      + apply Forall_replaced; assumption.
      + eapply IFR_step; eassumption.
  Qed.
End SafeAll.

Lemma fine_moment_all : forall nat D G cs s i s' ts',
  (forall v, type_fine nat D (G v)) -> store_ok D G s i ->
  (forall c, In c cs -> cmd_fine nat D G c /\ compiles D G c = true) ->
  freaches D G (s, map fstart cs) (s', ts') ->
  exists i', store_ok D G s' i' /\ ifreaches (i, map fstart cs) (i', ts') /\ ~ In FUndef ts'.
Proof.
  intros nat D G cs s i s' ts' HG Hs Hcs H.
  destruct (freach_good nat D G HG s i (map fstart cs) (s', ts') Hs) as (i' & A & B & C); [|exact H|].
  - apply Forall_forall. intros t Ht. apply in_map_iff in Ht. destruct Ht as (c & <- & Hc). cbn. split; [apply Hcs; assumption|constructor].
  - exists i'. splits; auto. intros K. rewrite Forall_forall in B. exact (B FUndef K).
Qed.
