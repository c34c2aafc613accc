(** ThreadsFacts.v -- lemmas for PropsThreads.v. *)
From Coq Require Import ZArith List Bool Arith Lia.
From Verif Require Import Base CType Spec IntervalFacts ExceptionPolicy Promotion SafeBase SafeSpec Program ProgramSpec
  ProgramFacts PropsProgramProofs ComposeSpec ComposeFacts OrderFacts Threads ThreadsSpec.
Import ListNotations.
Local Open Scope Z_scope.

(** ------------------------------------------------------------------ *)
(** lists of threads *)
Lemma nth_replace_same : forall ts n t u, nth_error ts n = Some u -> nth_error (replace ts n t) n = Some t.
Proof. induction ts as [|x ts IH]; intros [|n] t u H; cbn in *; try discriminate; eauto. Qed.
Lemma nth_replace_other : forall ts n m t, n <> m -> nth_error (replace ts n t) m = nth_error ts m.
Proof.
  induction ts as [|x ts IH]; intros [|n] [|m] t H; cbn; try reflexivity; [congruence|]. apply IH. congruence.
Qed.
Lemma length_replace : forall ts n t, length (replace ts n t) = length ts.
Proof. induction ts as [|x ts IH]; intros [|n] t; cbn; auto. Qed.
Lemma Forall_replace : forall (P : thread -> Prop) ts n t, Forall P ts -> P t -> Forall P (replace ts n t).
Proof.
  induction ts as [|x ts IH]; intros [|n] t H Ht; cbn; auto; inversion H; subst; constructor; auto.
Qed.

(** ------------------------------------------------------------------ *)
(** a thread that has not ended takes a step *)
Lemma simple_exec : forall D G fuel s c, simple c -> exists s' r, exec fuel D G s c = Some (s', r).
Proof.
  intros D G fuel s c H. destruct c; cbn [simple] in H; try contradiction; cbn [exec].
  - eauto.
  - destruct (G v); eauto. destruct (finish _ _ _); eauto.
  - destruct (type_of D G e); eauto. destruct (finish _ _ _); eauto.
  - destruct (type_of D G e); eauto. destruct (finish _ _ _); eauto.
  - destruct (G v); eauto. destruct (finish _ _ _); eauto.
  - destruct (G v); eauto. destruct (finish _ _ _); eauto.
  - destruct (G v); eauto. destruct (G w); eauto.
    destruct (finish _ _ _) as [? []]; eauto. destruct (snd (read s v)); eauto. destruct (finish _ _ _); eauto.
Qed.
Lemma simple_fuel : forall D G fuel s c, simple c -> exec fuel D G s c = exec 0 D G s c.
Proof. intros D G fuel s c H. destruct c; cbn [simple] in H; try contradiction; reflexivity. Qed.
Lemma simple_dec : forall c, {simple c} + {~ simple c}.
Proof. intros []; cbn; auto. Qed.
Lemma step1_simple : forall D G s c k, simple c ->
  step1 D G s (TRun c k) = match exec 0 D G s c with Some (s', r) => Some (s', after r k) | None => None end.
Proof. intros D G s c k H. destruct c; cbn [simple] in H; try contradiction; reflexivity. Qed.

Lemma step1_total : forall D G s t, ~ ended t -> exists s' t', step1 D G s t = Some (s', t').
Proof.
  intros D G s [c k|[|[b|b] k]|e [|[b|b] k]|] H; cbn [ended] in H; try tauto; try (cbn [step1]; eauto; fail).
  destruct (simple_dec c) as [S|S].
  - destruct (simple_exec D G 0 s c S) as (s' & r & E). rewrite (step1_simple D G s c k S), E. eauto.
  - destruct c; cbn [simple] in S; try tauto; cbn [step1]; eauto;
    match goal with |- context [snd ?m] => destruct (snd m) as [[]| | |]; eauto end.
Qed.
Lemma step1_ended : forall D G s t, ended t -> step1 D G s t = None.
Proof. intros D G s [c k|[|[b|b] k]|e [|[b|b] k]|] H; cbn in *; tauto || reflexivity. Qed.

(** ------------------------------------------------------------------ *)
(** every step is one of exact arithmetic *)
Section Good.
  Variables (D : dmodel) (G : tenv) (P : cmd -> Prop) (Q : cond -> Prop).
  Hypothesis Hexec : forall c s i s' r, simple c -> P c -> store_ok D G s i -> exec 0 D G s c = Some (s', r) ->
    exists i', store_ok D G s' i'
    /\ ((r = RDone /\ ideal i c i' true) \/ (exists e, r = RRaised e /\ ideal i c i' false)).
  Hypothesis Hcond : forall c s i, Q c -> store_ok D G s i ->
    (exists t, truth i c = Some t /\ snd (eval_cond D G s c) = Ret t) \/ (exists e, snd (eval_cond D G s c) = Throw e).
  Hypothesis Hseq : forall a b, P (CSeq a b) -> P a /\ P b.
  Hypothesis Htry : forall a b, P (CTry a b) -> P a /\ P b.
  Hypothesis Hif : forall c a b, P (CIf c a b) -> Q c /\ P a /\ P b.
  Hypothesis Hwhile : forall c a, P (CWhile c a) -> Q c /\ P a.

  Definition frame_good (f : frame) : Prop := match f with FSeq b | FTry b => P b end.
  Definition thread_good (t : thread) : Prop :=
    match t with
    | TRun c k => P c /\ Forall frame_good k
    | TNext k | TRaise _ k => Forall frame_good k
    | TUndef => False
    end.

  Lemma step_good : forall s i t s' t', store_ok D G s i -> thread_good t -> step1 D G s t = Some (s', t') ->
    exists i', store_ok D G s' i' /\ thread_good t' /\ istep i t i' t'.
  Proof.
    intros s i [c k|[|[b|b] k]|e [|[b|b] k]|] s' t' Hs Hg H; cbn [thread_good] in Hg; try (cbn in H; discriminate H);
      try (cbn in H; injection H as <- <-; inversion Hg as [|f l F1 F2]; subst; cbn [frame_good] in F1; exists i;
           refine (conj Hs (conj _ _));
           [first [exact (conj F1 F2)|exact F2]|first [apply IS_next|apply IS_leave|apply IS_unwind|apply IS_catch]]).
    destruct Hg as [Hc Hk]. destruct (simple_dec c) as [S|S].
    - rewrite step1_simple in H by assumption.
      destruct (exec 0 D G s c) as [[s1 r]|] eqn:E; [|discriminate H]. injection H as <- <-.
      destruct (Hexec c s i s1 r S Hc Hs E) as (i' & A & [[-> B]|(e & -> & B)]); exists i'; cbn [after thread_good]; splits; auto.
      + apply IS_simple; assumption.
      + apply IS_simple_raise; assumption.
    - destruct c as [|v|v ex|op v ex|v|v|inc w v|c1 c2|c c1 c2|c c1|c1 c2]; cbn [simple] in S; try tauto; cbn [step1] in H.
      + injection H as <- <-. destruct (Hseq _ _ Hc). exists i. refine (conj Hs (conj (conj _ _) _)); [assumption|constructor; assumption|apply IS_seq || apply IS_try].
      + destruct (Hif _ _ _ Hc) as (Qc & Pa & Pb).
        destruct (Hcond c s i Qc Hs) as [(t & Ht & E)|(e & E)]; rewrite E in H.
        * assert (H' : Some (s, TRun (if t then c1 else c2) k) = Some (s', t')) by (destruct t; exact H).
          injection H' as <- <-. exists i. refine (conj Hs (conj (conj _ Hk) _)); [destruct t; assumption|apply IS_if; assumption].
        * injection H as <- <-. exists i. refine (conj Hs (conj Hk _)). apply IS_if_raise.
      + destruct (Hwhile _ _ Hc) as (Qc & Pa).
        destruct (Hcond c s i Qc Hs) as [([|] & Ht & E)|(e & E)]; rewrite E in H; injection H as <- <-; exists i; (split; [exact Hs|]).
        * refine (conj (conj Pa _) _); [constructor; assumption|apply IS_while; assumption].
        * refine (conj Hk _). apply IS_while_end; assumption.
        * refine (conj Hk _). apply IS_while_raise.
      + injection H as <- <-. destruct (Htry _ _ Hc). exists i. refine (conj Hs (conj (conj _ _) _)); [assumption|constructor; assumption|apply IS_seq || apply IS_try].
  Qed.

  Lemma reach_good : forall s i ts p, store_ok D G s i -> Forall thread_good ts -> reaches D G (s, ts) p ->
    exists i', store_ok D G (fst p) i' /\ Forall thread_good (snd p) /\ ireaches (i, ts) (i', snd p).
  Proof.
    intros s i ts p Hs Ht H. induction H as [|q r H1 IH H2].
    - exists i. splits; auto. constructor.
    - destruct IH as (i1 & A & B & C). destruct H2 as [s1 ts1 n t s2 t2 En Es]. cbn [fst snd] in *.
      assert (Gt : thread_good t).
      { rewrite Forall_forall in B. apply B. eapply nth_error_In; eassumption. }
      destruct (step_good s1 i1 t s2 t2 A Gt Es) as (i2 & A2 & B2 & C2).
      exists i2. splits; auto.
      + apply Forall_replace; assumption.
      + eapply IR_step; eassumption.
  Qed.
End Good.

Definition all_compile_cmds (D : dmodel) (G : tenv) (cs : list cmd) : Prop := forall c, In c cs -> compiles D G c = true.

Lemma start_good : forall (P : cmd -> Prop) cs, (forall c, In c cs -> P c) -> Forall (thread_good P) (map start cs).
Proof.
  intros P cs H. induction cs as [|c cs IH]; cbn; constructor.
  - cbn. split; [apply H; left; reflexivity|constructor].
  - apply IH. intros d Hd. apply H. right. exact Hd.
Qed.

Lemma no_undef : forall P ts, Forall (thread_good P) ts -> ~ In TUndef ts.
Proof. intros P ts H K. rewrite Forall_forall in H. exact (H TUndef K). Qed.

Lemma moment_ok : forall nat D G cs s i s' ts',
  (forall v, type_ok nat D (G v)) -> store_ok D G s i ->
  (forall c, In c cs -> cmd_ok nat D G c /\ compiles D G c = true) ->
  reaches D G (s, map start cs) (s', ts') ->
  exists i', store_ok D G s' i' /\ ireaches (i, map start cs) (i', ts') /\ ~ In TUndef ts'.
Proof.
  intros nat D G cs s i s' ts' HG Hs Hcs H.
  destruct (reach_good D G (fun c => cmd_ok nat D G c /\ compiles D G c = true)
              (fun c => cond_ok nat D c /\ cond_compiles D G c = true)) with (s := s) (i := i) (ts := map start cs) (p := (s', ts'))
    as (i' & A & B & C); auto.
  - intros c s0 i0 s1 r _ [K1 K2] Hs0 E. exact (C33_lemma nat D G 0 c s0 i0 s1 r HG Hs0 K1 K2 E).
  - intros c s0 i0 [K1 K2] Hs0. destruct (cond_char nat D G s0 i0 c HG Hs0 K1 K2) as [(t & T1 & T2)|(e & _ & T)].
    + left. exists t. split; [assumption|]. rewrite T2. reflexivity.
    + right. exists e. rewrite T. reflexivity.
  - intros a b [K1 K2]. cbn in K1, K2. apply andb_true_iff in K2. tauto.
  - intros a b [K1 K2]. cbn in K1, K2. apply andb_true_iff in K2. tauto.
  - intros c a b [K1 K2]. cbn in K1, K2. apply andb_true_iff in K2. destruct K2 as [K2 K3]. apply andb_true_iff in K2. tauto.
  - intros c a [K1 K2]. cbn in K1, K2. apply andb_true_iff in K2. tauto.
  - apply start_good. assumption.
  - cbn [fst snd] in *. exists i'. splits; auto. eapply no_undef; eassumption.
Qed.

Lemma moment_fine : forall nat D G cs s i s' ts',
  (forall v, type_fine nat D (G v)) -> store_ok D G s i ->
  (forall c, In c cs -> cmd_fine nat D G c /\ compiles D G c = true) ->
  reaches D G (s, map start cs) (s', ts') ->
  exists i', store_ok D G s' i' /\ ireaches (i, map start cs) (i', ts') /\ ~ In TUndef ts'.
Proof.
  intros nat D G cs s i s' ts' HG Hs Hcs H.
  destruct (reach_good D G (fun c => cmd_fine nat D G c /\ compiles D G c = true)
              (fun c => cond_fine nat D G c /\ cond_compiles D G c = true)) with (s := s) (i := i) (ts := map start cs) (p := (s', ts'))
    as (i' & A & B & C); auto.
  - intros c s0 i0 s1 r _ [K1 K2] Hs0 E. exact (C73_cmd nat D G 0 c s0 i0 s1 r HG Hs0 K1 K2 E).
  - intros c s0 i0 [K1 K2] Hs0. destruct (cond_char2 nat D G s0 i0 c HG Hs0 K1 K2) as [(t & T1 & T2)|(l & e & T)%fails_throw].
    + left. exists t. split; [assumption|]. rewrite T2. reflexivity.
    + right. exists e. rewrite T. reflexivity.
  - intros a b [K1 K2]. cbn in K1, K2. apply andb_true_iff in K2. tauto.
  - intros a b [K1 K2]. cbn in K1, K2. apply andb_true_iff in K2. tauto.
  - intros c a b [K1 K2]. cbn in K1, K2. apply andb_true_iff in K2. destruct K2 as [K2 K3]. apply andb_true_iff in K2. tauto.
  - intros c a [K1 K2]. cbn in K1, K2. apply andb_true_iff in K2. tauto.
  - apply start_good. assumption.
  - cbn [fst snd] in *. exists i'. splits; auto. eapply no_undef; eassumption.
Qed.

(** ------------------------------------------------------------------ *)
(** a single thread does what Program.v says *)
Lemma alone_app : forall D G n m s t s1 t1, alone n D G s t = Some (s1, t1) ->
  alone (n + m) D G s t = alone m D G s1 t1.
Proof.
  induction n as [|n IH]; intros m s t s1 t1 H; cbn in *.
  - injection H as -> ->. reflexivity.
  - destruct (step1 D G s t) as [[s' t']|]; [|discriminate]. apply IH; assumption.
Qed.
Lemma alone_step : forall D G s t s1 t1 s2 t2, step1 D G s t = Some (s1, t1) ->
  (exists n, alone n D G s1 t1 = Some (s2, t2)) -> exists n, alone n D G s t = Some (s2, t2).
Proof. intros D G s t s1 t1 s2 t2 H (n & Hn). exists (S n). cbn [alone]. rewrite H. assumption. Qed.
Lemma alone_trans : forall D G s t s1 t1 s2 t2, (exists n, alone n D G s t = Some (s1, t1)) ->
  (exists n, alone n D G s1 t1 = Some (s2, t2)) -> exists n, alone n D G s t = Some (s2, t2).
Proof.
  intros D G s t s1 t1 s2 t2 (n & Hn) (m & Hm). exists (n + m)%nat. rewrite (alone_app _ _ _ _ _ _ _ _ Hn). assumption.
Qed.

Lemma exec_alone : forall D G fuel c s s1 r k, exec fuel D G s c = Some (s1, r) ->
  exists n, alone n D G s (TRun c k) = Some (s1, after r k).
Proof.
  intros D G fuel c.
  induction c as [|v|v ex|op v ex|v|v|inc w v|a IHa b IHb|c a IHa b IHb|c a IHa|a IHa b IHb]; intros s s1 r k H;
    try (exists 1%nat; cbn [alone]; rewrite step1_simple by exact I;
         (rewrite (simple_fuel D G fuel s) in H by exact I); rewrite H; reflexivity).
  - cbn [exec] in H. eapply alone_step; [reflexivity|].
    destruct (exec fuel D G s a) as [[s2 [|e|]]|] eqn:E; try discriminate.
    + eapply alone_trans; [apply (IHa _ _ _ (FSeq b :: k) E)|]. eapply alone_step; [reflexivity|]. apply IHb. assumption.
    + injection H as <- <-. eapply alone_trans; [apply (IHa _ _ _ (FSeq b :: k) E)|].
      eapply alone_step; [reflexivity|]. exists 0%nat. reflexivity.
    + injection H as <- <-. eapply alone_trans; [apply (IHa _ _ _ (FSeq b :: k) E)|]. exists 0%nat. reflexivity.
  - cbn [exec] in H.
    destruct (snd (eval_cond D G s c)) as [[|]|e| |] eqn:E.
    + eapply alone_step; [cbn [step1]; rewrite E; reflexivity|]. apply IHa. assumption.
    + eapply alone_step; [cbn [step1]; rewrite E; reflexivity|]. apply IHb. assumption.
    + injection H as <- <-. eapply alone_step; [cbn [step1]; rewrite E; reflexivity|]. exists 0%nat. reflexivity.
    + injection H as <- <-. eapply alone_step; [cbn [step1]; rewrite E; reflexivity|]. exists 0%nat. reflexivity.
    + injection H as <- <-. eapply alone_step; [cbn [step1]; rewrite E; reflexivity|]. exists 0%nat. reflexivity.
  - cbn [exec] in H. revert s H. generalize fuel at 2. intros f. induction f as [|f IH]; intros s H; cbn [loop] in H; [discriminate|].
    destruct (snd (eval_cond D G s c)) as [[|]|e| |] eqn:E.
    + eapply alone_step; [cbn [step1]; rewrite E; reflexivity|].
      destruct (exec fuel D G s a) as [[s2 [|e|]]|] eqn:E2; try discriminate.
      * eapply alone_trans; [apply (IHa _ _ _ (FSeq (CWhile c a) :: k) E2)|]. eapply alone_step; [reflexivity|]. apply IH. assumption.
      * injection H as <- <-. eapply alone_trans; [apply (IHa _ _ _ (FSeq (CWhile c a) :: k) E2)|].
        eapply alone_step; [reflexivity|]. exists 0%nat. reflexivity.
      * injection H as <- <-. eapply alone_trans; [apply (IHa _ _ _ (FSeq (CWhile c a) :: k) E2)|]. exists 0%nat. reflexivity.
    + injection H as <- <-. eapply alone_step; [cbn [step1]; rewrite E; reflexivity|]. exists 0%nat. reflexivity.
    + injection H as <- <-. eapply alone_step; [cbn [step1]; rewrite E; reflexivity|]. exists 0%nat. reflexivity.
    + injection H as <- <-. eapply alone_step; [cbn [step1]; rewrite E; reflexivity|]. exists 0%nat. reflexivity.
    + injection H as <- <-. eapply alone_step; [cbn [step1]; rewrite E; reflexivity|]. exists 0%nat. reflexivity.
  - cbn [exec] in H. eapply alone_step; [reflexivity|].
    destruct (exec fuel D G s a) as [[s2 [|e|]]|] eqn:E; try discriminate.
    + injection H as <- <-. eapply alone_trans; [apply (IHa _ _ _ (FTry b :: k) E)|].
      eapply alone_step; [reflexivity|]. exists 0%nat. reflexivity.
    + eapply alone_trans; [apply (IHa _ _ _ (FTry b :: k) E)|]. eapply alone_step; [reflexivity|]. apply IHb. assumption.
    + injection H as <- <-. eapply alone_trans; [apply (IHa _ _ _ (FTry b :: k) E)|]. exists 0%nat. reflexivity.
Qed.

Lemma alone_undef : forall D G n s s1 t, alone n D G s TUndef = Some (s1, t) -> s1 = s /\ t = TUndef.
Proof. intros D G [|n] s s1 t H; cbn in H; [injection H as <- <-; auto|discriminate]. Qed.

Lemma alone_exec : forall D G s1 t, ended t -> forall n c s k, alone n D G s (TRun c k) = Some (s1, t) ->
  exists fuel s' r m, exec fuel D G s c = Some (s', r) /\ (m < n)%nat /\ alone m D G s' (after r k) = Some (s1, t).
Proof.
  intros D G s1 t Ht n. induction n as [n IH] using lt_wf_ind. intros c s k H.
  destruct n as [|n]; [cbn in H; injection H as <- <-; contradiction Ht|].
  assert (IHn : forall m, (m < n)%nat -> forall c s k, alone m D G s (TRun c k) = Some (s1, t) ->
    exists fuel s' r m', exec fuel D G s c = Some (s', r) /\ (m' < m)%nat /\ alone m' D G s' (after r k) = Some (s1, t)).
  { intros m Hm. apply IH. lia. }
  assert (IH0 : forall c s k, alone n D G s (TRun c k) = Some (s1, t) ->
    exists fuel s' r m', exec fuel D G s c = Some (s', r) /\ (m' < n)%nat /\ alone m' D G s' (after r k) = Some (s1, t)).
  { apply IH. lia. }
  clear IH. cbn [alone] in H.
  destruct (simple_dec c) as [S|S].
  - rewrite step1_simple in H by assumption. destruct (exec 0 D G s c) as [[s' r]|] eqn:E; [|discriminate].
    exists 0%nat, s', r, n. auto.
  - destruct c as [|v|v ex|op v ex|v|v|inc w v|a b|c a b|c a|a b]; cbn [simple] in S; try tauto; clear S.
    + cbn [step1] in H. destruct (IH0 _ _ _ H) as (f & s' & r & m & E & L & A). destruct r as [|e|]; cbn [after] in A.
      * destruct m as [|m]; [cbn in A; injection A as <- <-; contradiction Ht|]. cbn [alone step1] in A.
        destruct (IHn m ltac:(lia) _ _ _ A) as (f2 & s2 & r2 & m2 & E2 & L2 & A2).
        exists (Nat.max f f2), s2, r2, m2. splits; [|lia|assumption]. cbn [exec].
        rewrite (exec_mono D G f (Nat.max f f2) a s _ ltac:(lia) E).
        apply (exec_mono D G f2 (Nat.max f f2) b s' _ ltac:(lia) E2).
      * destruct m as [|m]; [cbn in A; injection A as <- <-; contradiction Ht|]. cbn [alone step1] in A.
        exists f, s', (RRaised e), m. splits; [|lia|assumption]. cbn [exec]. rewrite E. reflexivity.
      * exists f, s', RUndef, m. splits; [|lia|assumption]. cbn [exec]. rewrite E. reflexivity.
    + cbn [step1] in H. destruct (snd (eval_cond D G s c)) as [[|]|e| |] eqn:Ec.
      * destruct (IH0 _ _ _ H) as (f & s' & r & m & E & L & A). exists f, s', r, m.
        splits; [|lia|assumption]. cbn [exec]. rewrite Ec. assumption.
      * destruct (IH0 _ _ _ H) as (f & s' & r & m & E & L & A). exists f, s', r, m.
        splits; [|lia|assumption]. cbn [exec]. rewrite Ec. assumption.
      * exists 0%nat, s, (RRaised e), n. splits; [cbn [exec]; rewrite Ec; reflexivity|lia|assumption].
      * exists 0%nat, s, RUndef, n. splits; [cbn [exec]; rewrite Ec; reflexivity|lia|assumption].
      * exists 0%nat, s, RUndef, n. splits; [cbn [exec]; rewrite Ec; reflexivity|lia|assumption].
    + cbn [step1] in H. destruct (snd (eval_cond D G s c)) as [[|]|e| |] eqn:Ec.
      * destruct (IH0 _ _ _ H) as (f & s' & r & m & E & L & A). destruct r as [|e|]; cbn [after] in A.
        -- destruct m as [|m]; [cbn in A; injection A as <- <-; contradiction Ht|]. cbn [alone step1] in A.
           destruct (IHn m ltac:(lia) _ _ _ A) as (f2 & s2 & r2 & m2 & E2 & L2 & A2).
           exists (S (Nat.max f f2)), s2, r2, m2. splits; [|lia|assumption]. cbn [exec loop]. rewrite Ec.
           rewrite (exec_mono D G f (S (Nat.max f f2)) a s _ ltac:(lia) E).
           cbn [exec] in E2. eapply loop_mono; [|apply Nat.le_max_r|exact E2].
           cbn beta. intros s0 r0 K. apply (exec_mono D G f2 _ a s0 r0); [lia|exact K].
        -- destruct m as [|m]; [cbn in A; injection A as <- <-; contradiction Ht|]. cbn [alone step1] in A.
           exists (S f), s', (RRaised e), m. splits; [|lia|assumption]. cbn [exec loop]. rewrite Ec.
           rewrite (exec_mono D G f (S f) a s _ ltac:(lia) E). reflexivity.
        -- exists (S f), s', RUndef, m. splits; [|lia|assumption]. cbn [exec loop]. rewrite Ec.
           rewrite (exec_mono D G f (S f) a s _ ltac:(lia) E). reflexivity.
      * exists 1%nat, s, RDone, n. splits; [cbn [exec loop]; rewrite Ec; reflexivity|lia|assumption].
      * exists 1%nat, s, (RRaised e), n. splits; [cbn [exec loop]; rewrite Ec; reflexivity|lia|assumption].
      * exists 1%nat, s, RUndef, n. splits; [cbn [exec loop]; rewrite Ec; reflexivity|lia|assumption].
      * exists 1%nat, s, RUndef, n. splits; [cbn [exec loop]; rewrite Ec; reflexivity|lia|assumption].
    + cbn [step1] in H. destruct (IH0 _ _ _ H) as (f & s' & r & m & E & L & A). destruct r as [|e|]; cbn [after] in A.
      * destruct m as [|m]; [cbn in A; injection A as <- <-; contradiction Ht|]. cbn [alone step1] in A.
        exists f, s', RDone, m. splits; [|lia|assumption]. cbn [exec]. rewrite E. reflexivity.
      * destruct m as [|m]; [cbn in A; injection A as <- <-; contradiction Ht|]. cbn [alone step1] in A.
        destruct (IHn m ltac:(lia) _ _ _ A) as (f2 & s2 & r2 & m2 & E2 & L2 & A2).
        exists (Nat.max f f2), s2, r2, m2. splits; [|lia|assumption]. cbn [exec].
        rewrite (exec_mono D G f (Nat.max f f2) a s _ ltac:(lia) E).
        apply (exec_mono D G f2 (Nat.max f f2) b s' _ ltac:(lia) E2).
      * exists f, s', RUndef, m. splits; [|lia|assumption]. cbn [exec]. rewrite E. reflexivity.
Qed.

Lemma ended_after : forall r, ended (after r []).
Proof. intros []; exact I. Qed.
Lemma result_after : forall r, thread_result (after r []) = r.
Proof. intros []; reflexivity. Qed.
Lemma alone_ended : forall D G n s t s1 t1, ended t -> alone n D G s t = Some (s1, t1) -> s1 = s /\ t1 = t.
Proof.
  intros D G [|n] s t s1 t1 Ht H; cbn in H; [injection H as <- <-; auto|]. rewrite step1_ended in H by assumption. discriminate.
Qed.

Lemma sequential_lemma : forall D G c s s1 r,
  (exists fuel, exec fuel D G s c = Some (s1, r))
  <-> (exists n t, alone n D G s (start c) = Some (s1, t) /\ ended t /\ thread_result t = r).
Proof.
  intros D G c s s1 r. split.
  - intros (fuel & H). destruct (exec_alone D G fuel c s s1 r [] H) as (n & A).
    exists n, (after r []). splits; [exact A|apply ended_after|apply result_after].
  - intros (n & t & A & E & R). destruct (alone_exec D G s1 t E n c s [] A) as (fuel & s' & r' & m & X & _ & Y).
    destruct (alone_ended _ _ _ _ _ _ _ (ended_after r') Y) as [-> ->]. rewrite result_after in R. subst r'. eauto.
Qed.

(** ------------------------------------------------------------------ *)
(** threads that use different variables *)
Lemma eval_local : forall D G s s2 e, (forall v, reads_expr e v -> s v = s2 v) -> eval D G s e = eval D G s2 e.
Proof.
  intros D G s s2 e. induction e as [o z|v|op f a IHa b IHb|a IHa|a IHa|o a IHa]; intros H; cbn [eval reads_expr] in *.
  - reflexivity.
  - unfold read. rewrite (H v eq_refl). reflexivity.
  - rewrite IHa, IHb by auto. reflexivity.
  - rewrite IHa by auto. reflexivity.
  - rewrite IHa by auto. reflexivity.
  - rewrite IHa by auto. reflexivity.
Qed.
Lemma eval_cond_local : forall D G s s2 c, (forall v, reads_cond c v -> s v = s2 v) -> eval_cond D G s c = eval_cond D G s2 c.
Proof.
  intros D G s s2 [r f a b] H. cbn [eval_cond reads_cond] in *.
  rewrite (eval_local D G s s2 a), (eval_local D G s s2 b) by auto. reflexivity.
Qed.
Lemma finish_local : forall A s s2 (m : M A) w w2, (forall a v, s v = s2 v -> w a v = w2 a v) ->
  snd (finish s2 m w2) = snd (finish s m w) /\ (forall v, s v = s2 v -> fst (finish s m w) v = fst (finish s2 m w2) v).
Proof. intros A s s2 m w w2 H. unfold finish. destruct (snd m); cbn; auto. Qed.
Lemma upd_local : forall (s s2 : store) x z v, s v = s2 v -> upd s x z v = upd s2 x z v.
Proof. intros s s2 x z v H. unfold upd. destruct (Nat.eqb v x); auto. Qed.

Definition same_after (s s2 : store) (o o2 : option (store * result)) : Prop :=
  match o with
  | Some (s', r) => exists s2', o2 = Some (s2', r) /\ forall v, s v = s2 v -> s' v = s2' v
  | None => False
  end.
Lemma same_after_finish : forall A s s2 s0 s20 (m : M A) w w2, (forall a v, s v = s2 v -> w a v = w2 a v) ->
  (forall v, s v = s2 v -> s0 v = s20 v) ->
  same_after s s2 (Some (finish s0 m w)) (Some (finish s20 m w2)).
Proof.
  intros A s s2 s0 s20 m w w2 H K. unfold finish, same_after. destruct (snd m); eexists; split; try reflexivity; auto.
Qed.

Lemma exec_local : forall D G s s2 c, simple c -> (forall v, uses c v -> s v = s2 v) ->
  same_after s s2 (exec 0 D G s c) (exec 0 D G s2 c).
Proof.
  assert (RL : forall s s2 v, s v = s2 v -> read s v = read s2 v) by (intros s s2 v H; unfold read; rewrite H; reflexivity).
  intros D G s s2 c S H. destruct c as [|v|v ex|op v ex|v|v|inc w v|a b|c a b|c a|a b]; cbn [simple] in S; try contradiction;
    cbn [uses] in H; cbn [exec].
  - cbn. eauto.
  - destruct (G v); try (cbn; eauto; fail). apply same_after_finish; auto. intros _ u E. apply upd_local. assumption.
  - destruct (type_of D G ex); [|cbn; eauto]. rewrite (eval_local D G s s2 ex) by auto.
    apply same_after_finish; auto. intros a u E. apply upd_local. assumption.
  - destruct (type_of D G ex); [|cbn; eauto]. rewrite (eval_local D G s s2 ex) by auto. rewrite (RL s s2 v) by auto.
    apply same_after_finish; auto. intros a u E. apply upd_local. assumption.
  - destruct (G v); try (cbn; eauto; fail). rewrite (RL s s2 v) by auto.
    apply same_after_finish; auto. intros a u E. apply upd_local. assumption.
  - destruct (G v); try (cbn; eauto; fail). rewrite (RL s s2 v) by auto.
    apply same_after_finish; auto. intros a u E. apply upd_local. assumption.
  - destruct (G v) as [|t|]; try (cbn; eauto; fail). destruct (G w) as [|t'|]; try (cbn; eauto; fail).
    rewrite (RL s s2 v) by auto.
    set (m := mbind (read s2 v) _).
    destruct (finish_local _ s s2 m (fun p => upd s v (Some (snd p))) (fun p => upd s2 v (Some (snd p)))) as [F1 F2].
    { intros a u E. apply upd_local. assumption. }
    destruct (finish s m _) as [s' r]. destruct (finish s2 m _) as [s2' r2]. cbn [fst snd] in F1, F2. subst r2.
    destruct r as [|e|].
    + destruct (snd (read s2 v)); try (cbn; eauto; fail).
      apply same_after_finish; auto. intros b u E. apply upd_local. auto.
    + cbn. eauto.
    + cbn. eauto.
Qed.

Lemma finish_frame : forall A s (m : M A) w v, (forall a, w a v = s v) -> fst (finish s m w) v = s v.
Proof. intros A s m w v H. unfold finish. destruct (snd m); cbn; auto. Qed.
Lemma upd_frame : forall (s : store) x z v, x <> v -> upd s x z v = s v.
Proof. intros s x z v H. unfold upd. destruct (Nat.eqb_spec v x); congruence. Qed.

Lemma exec_frame : forall D G s c s' r v, simple c -> exec 0 D G s c = Some (s', r) -> ~ writes c v -> s' v = s v.
Proof.
  assert (FF : forall A s0 s (m : M A) w s' r v, (forall a, w a v = s v) -> s0 v = s v ->
     Some (finish s0 m w) = Some (s', r) -> s' v = s v).
  { intros A s0 s m w s' r v H K E. injection E as E. rewrite <- (f_equal fst E : _ = s').
    unfold finish. destruct (snd m); cbn; auto. }
  intros D G s c s' r v S E H. destruct c as [|u|u ex|op u ex|u|u|inc w u|a b|c a b|c a|a b]; cbn [simple] in S; try contradiction;
    cbn [writes] in H; cbn [exec] in E.
  - injection E as <- _. reflexivity.
  - destruct (G u); try (injection E as <- _; reflexivity). eapply FF; [|reflexivity|exact E]. intros. apply upd_frame. assumption.
  - destruct (type_of D G ex); [|injection E as <- _; reflexivity]. eapply FF; [|reflexivity|exact E]. intros. apply upd_frame. assumption.
  - destruct (type_of D G ex); [|injection E as <- _; reflexivity]. eapply FF; [|reflexivity|exact E]. intros. apply upd_frame. assumption.
  - destruct (G u); try (injection E as <- _; reflexivity). eapply FF; [|reflexivity|exact E]. intros. apply upd_frame. assumption.
  - destruct (G u); try (injection E as <- _; reflexivity). eapply FF; [|reflexivity|exact E]. intros. apply upd_frame. assumption.
  - destruct (G u) as [|t|]; try (injection E as <- _; reflexivity). destruct (G w) as [|t'|]; try (injection E as <- _; reflexivity).
    set (m := mbind (read s u) _) in E.
    destruct (finish s m (fun p => upd s u (Some (snd p)))) as [s1 r1] eqn:E1.
    assert (F1 : s1 v = s v).
    { eapply (FF _ s s m); [|reflexivity|exact (f_equal Some E1)]. intros a. apply upd_frame. tauto. }
    destruct r1 as [|e|].
    + destruct (snd (read s u)); try (injection E as <- _; exact F1).
      refine (FF _ s1 s _ _ s' r v _ F1 E). intros b. cbn beta. rewrite upd_frame by tauto. exact F1.
    + injection E as <- _. exact F1.
    + injection E as <- _. exact F1.
Qed.

Definition frame_uses (f : frame) (v : nat) : Prop := match f with FSeq b | FTry b => uses b v end.
Definition frame_writes (f : frame) (v : nat) : Prop := match f with FSeq b | FTry b => writes b v end.
Definition stack_uses (k : list frame) (v : nat) : Prop := exists f, In f k /\ frame_uses f v.
Definition stack_writes (k : list frame) (v : nat) : Prop := exists f, In f k /\ frame_writes f v.
Definition tuses (t : thread) (v : nat) : Prop :=
  match t with TRun c k => uses c v \/ stack_uses k v | TNext k | TRaise _ k => stack_uses k v | TUndef => False end.
Definition twrites (t : thread) (v : nat) : Prop :=
  match t with TRun c k => writes c v \/ stack_writes k v | TNext k | TRaise _ k => stack_writes k v | TUndef => False end.

Lemma stack_uses_cons : forall f k v, stack_uses (f :: k) v <-> frame_uses f v \/ stack_uses k v.
Proof.
  intros f k v. split.
  - intros (g & [<-|H] & U); [auto|right; exists g; auto].
  - intros [U|(g & H & U)]; [exists f; split; [left; reflexivity|assumption]|exists g; split; [right; assumption|assumption]].
Qed.
Lemma stack_writes_cons : forall f k v, stack_writes (f :: k) v <-> frame_writes f v \/ stack_writes k v.
Proof.
  intros f k v. split.
  - intros (g & [<-|H] & U); [auto|right; exists g; auto].
  - intros [U|(g & H & U)]; [exists f; split; [left; reflexivity|assumption]|exists g; split; [right; assumption|assumption]].
Qed.

Lemma tuses_after : forall r k v, tuses (after r k) v -> stack_uses k v.
Proof. intros [] k v; cbn; tauto. Qed.
Lemma twrites_after : forall r k v, twrites (after r k) v -> stack_writes k v.
Proof. intros [] k v; cbn; tauto. Qed.

Lemma step1_shrinks : forall D G s t s' t' v, step1 D G s t = Some (s', t') ->
  (tuses t' v -> tuses t v) /\ (twrites t' v -> twrites t v) /\ (~ twrites t v -> s' v = s v).
Proof.
  intros D G s [c k|[|[b|b] k]|e [|[b|b] k]|] s' t' v H; try (cbn in H; discriminate H);
    try (cbn in H; injection H as <- <-; cbn [tuses twrites]; rewrite ?stack_uses_cons, ?stack_writes_cons; cbn [frame_uses frame_writes]; splits; tauto).
  destruct (simple_dec c) as [S|S].
  - rewrite step1_simple in H by assumption. destruct (exec 0 D G s c) as [[s1 r]|] eqn:E; [|discriminate]. injection H as <- <-.
    cbn [tuses twrites]. splits.
    + intros U. right. eapply tuses_after; eassumption.
    + intros U. right. eapply twrites_after; eassumption.
    + intros N. eapply exec_frame; [eassumption|eassumption|tauto].
  - destruct c as [|u|u ex|op u ex|u|u|inc w u|a b|c a b|c a|a b]; cbn [simple] in S; try tauto; cbn [step1] in H;
    try (destruct (snd (eval_cond D G s c)) as [[|]|e| |]);
    injection H as <- <-; cbn [tuses twrites uses writes]; rewrite ?stack_uses_cons, ?stack_writes_cons; cbn [frame_uses frame_writes uses writes];
    splits; tauto.
Qed.

Lemma step1_local : forall D G s s2 t s' t', (forall v, tuses t v -> s v = s2 v) -> step1 D G s t = Some (s', t') ->
  exists s2', step1 D G s2 t = Some (s2', t') /\ forall v, s v = s2 v -> s' v = s2' v.
Proof.
  intros D G s s2 [c k|[|[b|b] k]|e [|[b|b] k]|] s' t' A H; try (cbn in H; discriminate H);
    try (cbn in H; injection H as <- <-; cbn; eauto; fail).
  destruct (simple_dec c) as [S|S].
  - rewrite step1_simple in * by assumption.
    assert (L : same_after s s2 (exec 0 D G s c) (exec 0 D G s2 c)).
    { apply exec_local; [assumption|]. intros v U. apply A. left. assumption. }
    destruct (exec 0 D G s c) as [[s1 r]|] eqn:E; [|discriminate]. injection H as <- <-.
    destruct L as (s2' & -> & L). eauto.
  - destruct c as [|u|u ex|op u ex|u|u|inc w u|a b|c a b|c a|a b]; cbn [simple] in S; try tauto; cbn [step1] in *;
    try (injection H as <- <-; eauto; fail);
    (rewrite <- (eval_cond_local D G s s2 c) by (intros v U; apply A; left; left; exact U));
    destruct (snd (eval_cond D G s c)) as [[|]|e| |]; injection H as <- <-; eauto.
Qed.

(** in every state a set of independent threads reaches, each is where it would be alone *)
Definition apart (D : dmodel) (G : tenv) (s : store) (cs : list cmd) (p : pool) : Prop :=
  length (snd p) = length cs
  /\ (forall n c t, nth_error cs n = Some c -> nth_error (snd p) n = Some t ->
        (forall v, tuses t v -> uses c v) /\ (forall v, twrites t v -> writes c v)
        /\ exists k s1, alone k D G s (start c) = Some (s1, t) /\ forall v, uses c v -> s1 v = fst p v)
  /\ (forall v, (forall c, In c cs -> ~ writes c v) -> fst p v = s v).

Lemma nth_start : forall cs n t, nth_error (map start cs) n = Some t -> exists c, nth_error cs n = Some c /\ t = start c.
Proof.
  induction cs as [|c cs IH]; intros [|n] t H; cbn in *; try discriminate; eauto. injection H as <-. eauto.
Qed.
Lemma nth_same_length : forall (A B : Type) (l : list A) (l' : list B) n x, length l = length l' ->
  nth_error l n = Some x -> exists y, nth_error l' n = Some y.
Proof.
  intros A B l l' n x L H. assert (n < length l)%nat by (apply nth_error_Some; congruence).
  destruct (nth_error l' n) as [y|] eqn:E; [eauto|]. apply nth_error_None in E. lia.
Qed.

Lemma apart_reaches : forall D G cs s p, independent cs -> reaches D G (s, map start cs) p -> apart D G s cs p.
Proof.
  intros D G cs s p I H. induction H as [|q r H1 IH H2].
  - unfold apart. cbn [fst snd]. splits.
    + apply map_length.
    + intros n c t Hc Ht. destruct (nth_start _ _ _ Ht) as (c' & Hc' & ->). rewrite Hc in Hc'. injection Hc' as <-.
      unfold start. cbn [tuses twrites]. splits.
      * intros v [U|(f & [] & _)]. assumption.
      * intros v [U|(f & [] & _)]. assumption.
      * exists 0%nat, s. split; [reflexivity|auto].
    + reflexivity.
  - destruct H2 as [s0 ts n t s' t' Hn Hs]. destruct IH as (L & A & B). cbn [fst snd] in *.
    destruct (nth_same_length _ _ _ cs _ _ L Hn) as (c & Hc).
    destruct (A n c t Hc Hn) as (U & W & k & s1 & Ak & Eq).
    unfold apart. cbn [fst snd]. splits.
    + rewrite length_replace. assumption.
    + intros m d u Hd Hu. destruct (Nat.eq_dec n m) as [<-|Nm].
      * rewrite Hc in Hd. injection Hd as <-. rewrite (nth_replace_same _ _ _ _ Hn) in Hu. injection Hu as <-. splits.
        -- intros v Hv. apply U. apply (step1_shrinks D G s0 t s' t' v Hs). assumption.
        -- intros v Hv. apply W. apply (step1_shrinks D G s0 t s' t' v Hs). assumption.
        -- assert (Eq' : forall v, tuses t v -> s0 v = s1 v) by (intros v Hv; symmetry; auto).
           destruct (step1_local D G s0 s1 t s' t' Eq' Hs) as (s1' & Hs1 & P).
           exists (k + 1)%nat, s1'. split.
           ++ rewrite (alone_app _ _ _ _ _ _ _ _ Ak). cbn [alone]. rewrite Hs1. reflexivity.
           ++ intros v Hv. symmetry. apply P. symmetry. auto.
      * rewrite (nth_replace_other _ _ _ _ Nm) in Hu. destruct (A m d u Hd Hu) as (U2 & W2 & k2 & s2 & Ak2 & Eq2). splits; auto.
        exists k2, s2. split; [assumption|]. intros v Hv. rewrite (Eq2 v Hv). symmetry.
        apply (step1_shrinks D G s0 t s' t' v Hs). intros Tw. exact (I n m c d v Nm Hc Hd (W v Tw) Hv).
    + intros v Hv. rewrite <- (B v Hv). apply (step1_shrinks D G s0 t s' t' v Hs). intros Tw.
      apply (Hv c); [eapply nth_error_In; eassumption|auto].
Qed.

Lemma noninterference_lemma : forall D G cs s s' ts', independent cs -> reaches D G (s, map start cs) (s', ts') ->
  forall n c t, nth_error cs n = Some c -> nth_error ts' n = Some t ->
  exists k s1, alone k D G s (start c) = Some (s1, t) /\ forall v, uses c v -> s1 v = s' v.
Proof.
  intros D G cs s s' ts' I H n c t Hc Ht. destruct (apart_reaches D G cs s (s', ts') I H) as (_ & A & _).
  destruct (A n c t Hc Ht) as (_ & _ & K). exact K.
Qed.

Lemma writes_uses : forall c v, writes c v -> uses c v.
Proof. induction c; cbn; intuition. Qed.
Lemma writes_dec : forall c v, {writes c v} + {~ writes c v}.
Proof.
  induction c as [|u|u ex|op u ex|u|u|inc w u|a IHa b IHb|c a IHa b IHb|c a IHa|a IHa b IHb]; intros v; cbn [writes];
    try (right; tauto); try (destruct (Nat.eq_dec u v); [left|right]; assumption).
  - destruct (Nat.eq_dec w v), (Nat.eq_dec u v); tauto.
  - destruct (IHa v), (IHb v); tauto.
  - destruct (IHa v), (IHb v); tauto.
  - apply IHa.
  - destruct (IHa v), (IHb v); tauto.
Qed.
Lemma some_writes : forall cs v, (exists c, In c cs /\ writes c v) \/ (forall c, In c cs -> ~ writes c v).
Proof.
  induction cs as [|c cs IH]; intros v; [right; intros c []|].
  destruct (writes_dec c v) as [W|W]; [left; exists c; split; [left; reflexivity|assumption]|].
  destruct (IH v) as [(d & Hd & K)|K]; [left; exists d; split; [right; assumption|assumption]|].
  right. intros d [<-|Hd]; auto.
Qed.

Lemma alone_same_end : forall D G n m s t s1 t1 s2 t2, alone n D G s t = Some (s1, t1) -> alone m D G s t = Some (s2, t2) ->
  ended t1 -> ended t2 -> s1 = s2 /\ t1 = t2.
Proof.
  induction n as [|n IH]; intros m s t s1 t1 s2 t2 H1 H2 E1 E2.
  - cbn in H1. injection H1 as <- <-. destruct (alone_ended _ _ _ _ _ _ _ E1 H2) as [-> ->]. auto.
  - destruct m as [|m].
    + cbn in H2. injection H2 as <- <-. destruct (alone_ended _ _ _ _ _ _ _ E2 H1) as [-> ->]. auto.
    + cbn [alone] in H1, H2. destruct (step1 D G s t) as [[s' t']|]; [|discriminate]. eapply IH; eassumption.
Qed.

Lemma schedule_lemma : forall D G cs s s1 ts1 s2 ts2, independent cs ->
  reaches D G (s, map start cs) (s1, ts1) -> reaches D G (s, map start cs) (s2, ts2) ->
  Forall ended ts1 -> Forall ended ts2 -> ts1 = ts2 /\ forall v, s1 v = s2 v.
Proof.
  intros D G cs s s1 ts1 s2 ts2 I H1 H2 E1 E2.
  destruct (apart_reaches D G cs s _ I H1) as (L1 & A1 & B1). destruct (apart_reaches D G cs s _ I H2) as (L2 & A2 & B2).
  cbn [fst snd] in *. rewrite Forall_forall in E1, E2.
  assert (K : forall n c t1 t2, nth_error cs n = Some c -> nth_error ts1 n = Some t1 -> nth_error ts2 n = Some t2 ->
    t1 = t2 /\ forall v, uses c v -> s1 v = s2 v).
  { intros n c t1 t2 Hc Ht1 Ht2. destruct (A1 n c t1 Hc Ht1) as (_ & _ & k1 & r1 & K1 & Q1).
    destruct (A2 n c t2 Hc Ht2) as (_ & _ & k2 & r2 & K2 & Q2).
    destruct (alone_same_end _ _ _ _ _ _ _ _ _ _ K1 K2 (E1 _ (nth_error_In _ _ Ht1)) (E2 _ (nth_error_In _ _ Ht2))) as [-> ->].
    split; [reflexivity|]. intros v Hv. rewrite <- (Q1 v Hv). auto. }
  split.
  - clear - L1 L2 K. rewrite <- L2 in L1. apply (nth_ext ts1 ts2 TUndef TUndef L1). intros n Hn.
    destruct (nth_error ts1 n) as [t1|] eqn:T1; [|apply nth_error_None in T1; lia].
    destruct (nth_same_length _ _ _ ts2 _ _ L1 T1) as (t2 & T2). destruct (nth_same_length _ _ _ cs _ _ L2 T2) as (c & Hc).
    destruct (K n c t1 t2 Hc T1 T2) as [-> _].
    rewrite (nth_error_nth ts1 n TUndef T1), (nth_error_nth ts2 n TUndef T2). reflexivity.
  - intros v. destruct (some_writes cs v) as [(c & Hc & W)|N].
    + apply In_nth_error in Hc. destruct Hc as (n & Hc).
      destruct (nth_same_length _ _ cs ts1 n c (eq_sym L1) Hc) as (t1 & T1). destruct (nth_same_length _ _ cs ts2 n c (eq_sym L2) Hc) as (t2 & T2).
      destruct (K n c t1 t2 Hc T1 T2) as [_ Q]. apply Q. apply writes_uses. assumption.
    + rewrite (B1 v N), (B2 v N). reflexivity.
Qed.

Lemma results_lemma : forall D G cs s s' ts', independent cs -> reaches D G (s, map start cs) (s', ts') ->
  forall n c t, nth_error cs n = Some c -> nth_error ts' n = Some t -> ended t ->
  exists fuel s1, exec fuel D G s c = Some (s1, thread_result t) /\ forall v, uses c v -> s1 v = s' v.
Proof.
  intros D G cs s s' ts' I H n c t Hc Ht E.
  destruct (noninterference_lemma D G cs s s' ts' I H n c t Hc Ht) as (k & s1 & A & Q).
  destruct (proj2 (sequential_lemma D G c s s1 (thread_result t)) (ex_intro _ k (ex_intro _ t (conj A (conj E eq_refl))))) as (fuel & X).
  exists fuel, s1. auto.
Qed.
Lemma unwritten_lemma : forall D G cs s s' ts', independent cs -> reaches D G (s, map start cs) (s', ts') ->
  forall v, (forall c, In c cs -> ~ writes c v) -> s' v = s v.
Proof.
  intros D G cs s s' ts' I H v N. destruct (apart_reaches D G cs s _ I H) as (_ & _ & B). exact (B v N).
Qed.

(** ------------------------------------------------------------------ *)
(** a schedule given as the list of the threads that take the steps *)
Fixpoint follow (D : dmodel) (G : tenv) (l : list nat) (p : pool) : option pool :=
  match l with
  | [] => Some p
  | n :: l' =>
      match nth_error (snd p) n with
      | Some t => match step1 D G (fst p) t with
                  | Some (s', t') => follow D G l' (s', replace (snd p) n t')
                  | None => None
                  end
      | None => None
      end
  end.
Lemma reaches_trans : forall D G p q r, reaches D G p q -> reaches D G q r -> reaches D G p r.
Proof. intros D G p q r H K. induction K as [|x y K IH S]; [assumption|]. eapply RStep; eassumption. Qed.
Lemma follow_reaches : forall D G l p q, follow D G l p = Some q -> reaches D G p q.
Proof.
  induction l as [|n l IH]; intros [s ts] q H; cbn [follow fst snd] in H.
  - injection H as <-. constructor.
  - destruct (nth_error ts n) as [t|] eqn:N; [|discriminate]. destruct (step1 D G s t) as [[s' t']|] eqn:E; [|discriminate].
    eapply reaches_trans; [|apply IH; exact H]. eapply RStep; [apply RHere|]. econstructor; eassumption.
Qed.

Lemma shared_lemma : exists D G cs s s1 ts1 s2 ts2,
  reaches D G (s, map start cs) (s1, ts1) /\ reaches D G (s, map start cs) (s2, ts2)
  /\ Forall ended ts1 /\ Forall ended ts2 /\ ts1 = ts2 /\ s1 1%nat <> s2 1%nat.
Proof.
  exists LP64, (fun _ => OSafe (mkSafe SChar 0 100 Native default_exception_policy)),
    [CCompound (BA Mul) 1%nat (EConst (ORaw Int) 2); CCompound (BA Sub) 1%nat (EConst (ORaw Int) 10)], (fun _ => Some 40).
  do 4 eexists. split; [|split].
  - apply (follow_reaches LP64 _ [0;1]%nat). vm_compute. reflexivity.
  - apply (follow_reaches LP64 _ [1;0]%nat). vm_compute. reflexivity.
  - split; [repeat constructor|]. split; [repeat constructor|]. split; [reflexivity|]. vm_compute. congruence.
Qed.
