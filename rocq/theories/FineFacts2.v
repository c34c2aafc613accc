(** FineFacts2.v -- more lemmas for PropsFine.v: threads that use different variables, and
    threads that are interrupted only between statements. *)
From Coq Require Import ZArith List Bool Arith Lia.
From Verif Require Import Base CType Spec IntervalFacts ExceptionPolicy Promotion SafeBase SafeSpec Program ProgramSpec
  ProgramFacts OrderFacts Threads ThreadsSpec ThreadsFacts Interleave InterleaveFacts Fine FineSpec FineFacts.
Import ListNotations.
Local Open Scope Z_scope.

Lemma reduce_agree : forall D G s s' e, (forall v, reads_expr e v -> s' v = s v) -> reduce D G s' e = reduce D G s e.
Proof.
  intros D G s s' [] H; cbn [reduce]; try reflexivity. unfold read. rewrite (H v); [reflexivity|]. cbn. reflexivity.
Qed.
Lemma estep_agree : forall D G s s' e p, estep D G s e p -> (forall v, reads_expr e v -> s' v = s v) -> estep D G s' e p.
Proof.
  intros D G s s' e p H. induction H as [e t z H|e t o H N|op f a a' b H IH|op f a b o H IH|op f a b b' H IH|op f a b o H IH
    |a a' H IH|a o H IH|a a' H IH|a o H IH|t a a' H IH|t a o H IH]; intros A; cbn [reads_expr] in A.
  - apply ES_call. rewrite (reduce_agree D G s s'); assumption.
  - eapply ES_call_stop; [|assumption]. rewrite (reduce_agree D G s s') by assumption. eassumption.
  - apply ES_left. auto.
  - apply ES_left_stop. auto.
  - apply ES_right. auto.
  - apply ES_right_stop. auto.
  - apply ES_neg. auto.
  - apply ES_neg_stop. auto.
  - apply ES_pos. auto.
  - apply ES_pos_stop. auto.
  - apply ES_cast. auto.
  - apply ES_cast_stop. auto.
Qed.
Lemma estep_reads : forall D G s e p, estep D G s e p ->
  match p with On e' => forall v, reads_expr e' v -> reads_expr e v | Stop _ => True end.
Proof.
  intros D G s e p H. induction H as [e t z H|e t o H N|op f a a' b H IH|op f a b o H IH|op f a b b' H IH|op f a b o H IH
    |a a' H IH|a o H IH|a a' H IH|a o H IH|t a a' H IH|t a o H IH]; auto; intros v K; cbn [reads_expr] in *; auto.
  - destruct K.
  - destruct K; auto.
  - destruct K; auto.
Qed.

Lemma stopped_uses : forall A (o : outcome A) k v, fuses (stopped o k) v -> Exists (fun f => frame_uses f v) k.
Proof. intros A [] k v H; cbn in H; tauto. Qed.
Lemma stopped_writes : forall A (o : outcome A) k v, fwrites (stopped o k) v -> Exists (fun f => frame_writes f v) k.
Proof. intros A [] k v H; cbn in H; tauto. Qed.

(** a step needs and changes only variables of the thread *)
Lemma fstep_agree : forall D G s t s' t' r, fstep D G s t s' t' -> (forall v, fuses t v -> r v = s v) ->
  exists r', fstep D G r t r' t' /\ (forall v, r v = s v -> r' v = s' v).
Proof.
  intros D G s t s' t' r H A.
  destruct H; cbn [fuses] in A;
    try (exists r; split; [first [constructor; fail | eapply FS_convert; eassumption | eapply FS_convert_stop; eassumption
        | eapply FS_compare; eassumption | eapply FS_compare_stop; eassumption ]|auto]; fail).
  - cbn [exec] in H. destruct (G v) as [T|w|T N P E] eqn:Ev.
    + injection H as <- <-. exists r. split; [apply FS_default; cbn [exec]; rewrite Ev; reflexivity|auto].
    + unfold finish in H. destruct (snd (run (default_ctor w))) as [x|er| |] eqn:Em; injection H as <- <-.
      * exists (upd r v None). split; [apply FS_default; cbn [exec]; rewrite Ev; unfold finish; rewrite Em; reflexivity|].
        intros u Hu; unfold upd; destruct (Nat.eqb_spec u v) as [->|Nu]; auto.
      * exists r. split; [apply FS_default; cbn [exec]; rewrite Ev; unfold finish; rewrite Em; reflexivity|auto].
      * exists r. split; [apply FS_default; cbn [exec]; rewrite Ev; unfold finish; rewrite Em; reflexivity|auto].
      * exists r. split; [apply FS_default; cbn [exec]; rewrite Ev; unfold finish; rewrite Em; reflexivity|auto].
    + injection H as <- <-. exists r. split; [apply FS_default; cbn [exec]; rewrite Ev; reflexivity|auto].
  - exists r. split; [|auto]. apply FS_post. rewrite A; [assumption|]. cbn. auto.
  - exists r. split; [|auto]. apply FS_post_undef. rewrite A; [assumption|]. cbn. auto.
  - exists r. split; [|auto]. apply FS_eval. eapply estep_agree; [eassumption|]. auto.
  - exists r. split; [|auto]. apply FS_eval_stop. eapply estep_agree; [eassumption|]. auto.
  - exists (upd r v (Some z)). split; [constructor|]. intros u Hu; unfold upd; destruct (Nat.eqb_spec u v) as [->|Nu]; auto.
  - exists r. split; [|auto]. apply FS_left. eapply estep_agree; [eassumption|]. cbn in A. auto.
  - exists r. split; [|auto]. apply FS_left_stop. eapply estep_agree; [eassumption|]. cbn in A. auto.
  - exists r. split; [|auto]. apply FS_right. eapply estep_agree; [eassumption|]. cbn in A. auto 6.
  - exists r. split; [|auto]. apply FS_right_stop. eapply estep_agree; [eassumption|]. cbn in A. auto 6.
Qed.
Lemma fstep_writes : forall D G s t s' t', fstep D G s t s' t' -> forall v, ~ fwrites t v -> s' v = s v.
Proof.
  intros D G s t s' t' H u N. destruct H; try reflexivity; cbn [fwrites writes] in N.
  - cbn [exec] in H. destruct (G v) as [T|w|T M P E]; try (injection H as <- _; reflexivity).
    unfold finish in H. destruct (snd (run (default_ctor w))); injection H as <- _; try reflexivity.
    unfold upd. destruct (Nat.eqb_spec u v) as [->|Nu]; [tauto|reflexivity].
  - unfold upd. destruct (Nat.eqb_spec u v) as [->|Nu]; [tauto|reflexivity].
Qed.
Lemma fstep_uses : forall D G s t s' t', fstep D G s t s' t' -> forall v, fuses t' v -> fuses t v.
Proof.
  intros D G s t s' t' H u K. destruct H; cbn [fuses uses compound_expr reads_expr reads_cond] in K |- *; auto.
  - right. destruct r; cbn in K; tauto.
  - tauto.
  - tauto.
  - tauto.
  - destruct K as [K|K]; [destruct inc; cbn in K; tauto|]. inversion K as [f l K1|f l K1]; subst; [cbn in K1; tauto|tauto].
  - destruct K.
  - destruct K as [K|K]; [tauto|]. inversion K as [f l K1|f l K1]; subst; [cbn in K1; tauto|tauto].
  - destruct K as [K|K]; [tauto|]. inversion K as [f l K1|f l K1]; subst; [cbn in K1; tauto|tauto].
  - tauto.
  - pose proof (estep_reads D G s e _ H u) as Q. cbn in Q. tauto.
  - apply stopped_uses in K. tauto.
  - tauto.
  - apply stopped_uses in K. tauto.
  - pose proof (estep_reads D G s a _ H u) as Q. cbn in Q. tauto.
  - apply stopped_uses in K. tauto.
  - pose proof (estep_reads D G s b _ H u) as Q. cbn in Q. tauto.
  - apply stopped_uses in K. tauto.
  - destruct w; tauto.
  - apply stopped_uses in K. tauto.
  - destruct K as [K|K]; [apply Exists_cons_hd|apply Exists_cons_tl]; assumption.
  - destruct K as [K|K]; [apply Exists_cons_hd|apply Exists_cons_tl]; assumption.
Qed.
Lemma fstep_writes_less : forall D G s t s' t', fstep D G s t s' t' -> forall v, fwrites t' v -> fwrites t v.
Proof.
  intros D G s t s' t' H u K. destruct H; cbn [fwrites writes] in K |- *; auto.
  - right. destruct r; cbn in K; tauto.
  - destruct K as [K|K]; [destruct inc; cbn in K; tauto|]. inversion K as [f l K1|f l K1]; subst; [cbn in K1; tauto|tauto].
  - destruct K.
  - destruct K as [K|K]; [tauto|]. inversion K as [f l K1|f l K1]; subst; [cbn in K1; tauto|tauto].
  - destruct K as [K|K]; [tauto|]. inversion K as [f l K1|f l K1]; subst; [cbn in K1; tauto|tauto].
  - tauto.
  - apply stopped_writes in K. tauto.
  - apply stopped_writes in K. tauto.
  - apply stopped_writes in K. tauto.
  - apply stopped_writes in K. tauto.
  - destruct w; tauto.
  - apply stopped_writes in K. tauto.
  - destruct K as [K|K]; [apply Exists_cons_hd|apply Exists_cons_tl]; assumption.
  - destruct K as [K|K]; [apply Exists_cons_hd|apply Exists_cons_tl]; assumption.
Qed.

(** what is true of each thread *)
Definition on_its_own (D : dmodel) (G : tenv) (s : store) (c : cmd) (s' : store) (t : fthread) : Prop :=
  exists s1, falone D G s (fstart c) s1 t /\ (forall v, uses c v -> s1 v = s' v)
  /\ (forall v, fuses t v -> uses c v) /\ (forall v, fwrites t v -> writes c v).

Lemma fine_own : forall D G cs s p, independent cs -> freaches D G (s, map fstart cs) p ->
  forall n c t, nth_error cs n = Some c -> nth_error (snd p) n = Some t -> on_its_own D G s c (fst p) t.
Proof.
  intros D G cs s p Hi H. induction H as [|q r H1 IH H2]; intros n c t Hc Ht; cbn [fst snd] in *.
  - rewrite nth_error_map, Hc in Ht. injection Ht as <-. exists s. split; [constructor|]. split; [reflexivity|].
    split; intros v K; cbn in K; destruct K as [K|K]; auto; inversion K.
  - destruct H2 as [s1 ts1 m u s2 u2 En Es]. cbn [fst snd] in *.
    assert (Hm : exists d, nth_error cs m = Some d).
    { assert (L : length ts1 = length cs).
      { clear -H1. remember (s, map fstart cs) as p0. remember (s1, ts1) as p1. revert s1 ts1 Heqp1.
        induction H1 as [|q r H IH K]; intros s1 ts1 E.
        - subst p0. injection E as <- <-. apply map_length.
        - destruct K as [x xs k a y b K1 K2]. injection E as -> <-. rewrite <- (IH x xs eq_refl).
          clear. revert k. induction xs as [|z xs IH]; intros [|k]; cbn; auto. }
      destruct (nth_error cs m) as [d|] eqn:E; [eauto|]. apply nth_error_None in E. rewrite <- L in E. apply nth_error_None in E. congruence. }
    destruct Hm as (d & Hd). destruct (IH m d u Hd En) as (a & Ra & Aa & Ua & Wa).
    destruct (Nat.eq_dec m n) as [<-|Nm].
    + rewrite (nth_replaced ts1 m u2 u En) in Ht. injection Ht as <-. rewrite Hc in Hd. injection Hd as ->.
      destruct (fstep_agree D G s1 u s2 u2 a Es) as (a' & Sa & A1).
      { intros v Hv. apply Aa. auto. }
      exists a'. split; [eapply FA_step; eassumption|]. split.
      * intros v Hv. apply A1, Aa. assumption.
      * split; intros v Hv; [apply Ua; eapply fstep_uses; eassumption|apply Wa; eapply fstep_writes_less; eassumption].
    + rewrite (nth_not_replaced ts1 m n u2 Nm) in Ht. destruct (IH n c t Hc Ht) as (b & Rb & Ab & Ub & Wb).
      exists b. split; [assumption|]. split; [|auto]. intros v Hv. rewrite (Ab v Hv). symmetry.
      eapply fstep_writes; [eassumption|]. intros K. exact (Hi m n d c v Nm Hd Hc (Wa v K) Hv).
Qed.

(** ------------------------------------------------------------------ *)
(** threads that are interrupted only between statements *)
Section Between.
  Variables (D : dmodel) (G : tenv).
  Lemma falone_trans : forall s t s1 t1 s2 t2, falone D G s t s1 t1 -> falone D G s1 t1 s2 t2 -> falone D G s t s2 t2.
  Proof. intros s t s1 t1 s2 t2 H K. induction K; [assumption|]. eapply FA_step; eassumption. Qed.
  Lemma falone_one : forall s t s1 t1, fstep D G s t s1 t1 -> falone D G s t s1 t1.
  Proof. intros. eapply FA_step; [constructor|eassumption]. Qed.
  Lemma falone_cons : forall s t s1 t1 s2 t2, fstep D G s t s1 t1 -> falone D G s1 t1 s2 t2 -> falone D G s t s2 t2.
  Proof. intros. eapply falone_trans; [apply falone_one|]; eassumption. Qed.

  Lemma esteps_fine : forall s e e' v k, esteps D G s e e' -> falone D G s (FEval v e k) s (FEval v e' k).
  Proof. intros s e e' v k H. induction H; [constructor|]. eapply falone_cons; [apply FS_eval; eassumption|assumption]. Qed.
  Lemma erun_fine : forall s e o t v k, type_of D G e = Some t -> erun D G s e o ->
    (exists z, o = Ret z /\ falone D G s (FEval v e k) s (FEval v (EConst t z) k))
    \/ (bad o /\ falone D G s (FEval v e k) s (stopped o k)).
  Proof.
    intros s e o t v k T H. apply erun_esteps in H. destruct H as [(z & u & -> & K)|(e' & K & S)].
    - pose proof (const_inj _ _ _ _ _ _ _ K T) as ->. left. exists z. split; [reflexivity|]. apply esteps_fine. assumption.
    - right. split; [apply (estep_keeps D G s e' _ S)|]. eapply falone_trans; [apply esteps_fine; eassumption|].
      apply falone_one. apply FS_eval_stop. assumption.
  Qed.
  Lemma convert_fine : forall s v t x m k, convert D (G v) t x = Some m ->
    falone D G s (FEval v (EConst t x) k) (fst (finish s m (fun z => upd s v (Some z)))) (fafter (snd (finish s m (fun z => upd s v (Some z)))) k).
  Proof.
    intros s v t x m k H. unfold finish. destruct (snd m) as [z|er| |] eqn:E; cbn [fst snd fafter].
    - eapply falone_cons; [eapply FS_convert; eassumption|]. apply falone_one. constructor.
    - pose proof (FS_convert_stop D G s v t x m k H) as Q. rewrite E in Q. apply falone_one, Q. discriminate.
    - pose proof (FS_convert_stop D G s v t x m k H) as Q. rewrite E in Q. apply falone_one, Q. discriminate.
    - pose proof (FS_convert_stop D G s v t x m k H) as Q. rewrite E in Q. apply falone_one, Q. discriminate.
  Qed.
  Lemma finish_bad : forall A B s (m : M A) (f : A -> M B) w k, bad (snd m) ->
    fst (finish s (mbind m f) w) = s /\ fafter (snd (finish s (mbind m f) w)) k = stopped (snd m) k.
  Proof.
    intros A B s m f w k Hb. unfold finish. rewrite snd_bind. destruct (snd m) as [a|er| |]; [destruct (Hb a eq_refl)| | |]; cbn; auto.
  Qed.

  Lemma assign_fine : forall s v e k s' r, compiles D G (CAssign v e) = true -> exec 0 D G s (CAssign v e) = Some (s', r) ->
    falone D G s (FEval v e k) s' (fafter r k).
  Proof.
    intros s v e k s' r C H. cbn [exec compiles] in *. destruct (type_of D G e) as [t|] eqn:T; [|discriminate].
    destruct (convert D (G v) t 0) as [m0|] eqn:E0; [|discriminate]. injection H as H.
    destruct (erun_fine s e _ t v k T (order_is_interleaving D G s e t T)) as [(z & E & K)|(B & K)].
    - destruct (convert_any D (G v) t 0 z m0 E0) as (m & Em). eapply falone_trans; [exact K|].
      pose proof (convert_fine s v t z m k Em) as Q.
      assert (F : finish s (mbind (eval D G s e) (fun x => run (convert D (G v) t x))) (fun z => upd s v (Some z))
                  = finish s m (fun z => upd s v (Some z))).
      { unfold finish. rewrite snd_bind, E, Em. reflexivity. }
      rewrite <- F, H in Q. exact Q.
    - destruct (finish_bad _ _ s (eval D G s e) (fun x => run (convert D (G v) t x)) (fun z => upd s v (Some z)) k B) as [F1 F2].
      rewrite H in F1, F2. cbn in F1, F2. subst s'. rewrite F2. exact K.
  Qed.

  Lemma compound_fine : forall s op v e k s' r, compiles D G (CCompound op v e) = true -> exec 0 D G s (CCompound op v e) = Some (s', r) ->
    falone D G s (FEval v (compound_expr op v e) k) s' (fafter r k).
  Proof.
    intros s op v e k s' r C H. pose proof (compound_compiles D G op v e C) as C'. cbn [exec compiles] in C, H.
    destruct (type_of D G e) as [t|] eqn:T; [|discriminate].
    destruct (compound D op (G v) t 0 0) as [m0|] eqn:E0; [|discriminate]. injection H as H.
    pose proof (order_is_interleaving D G s e t T) as R. apply erun_esteps in R.
    destruct R as [(y & u & Ey & K)|(e' & K & S)].
    - pose proof (const_inj _ _ _ _ _ _ _ K T) as ->.
      eapply falone_trans; [apply esteps_fine; apply esteps_right; exact K|].
      destruct (s v) as [x|] eqn:Ev.
      + assert (A : estep D G s (EVar v) (On (EConst (G v) x))).
        { apply ES_call. cbn [reduce]. unfold read. rewrite Ev. reflexivity. }
        destruct (compound_any D op (G v) t 0 0 x y m0 E0) as (m & Em).
        destruct (compound_convert D G op v t x y m Em) as (rr & q & c & Eb & Ec & ->).
        assert (F : finish s (mbind (eval D G s e) (fun y => mbind (read s v) (fun x => run (compound D op (G v) t x y)))) (fun z => upd s v (Some z))
                  = finish s (mbind q (fun z => run (convert D (G v) (OSafe rr) z))) (fun z => upd s v (Some z))).
        { unfold finish at 1. rewrite snd_bind, Ey, snd_bind. unfold read. rewrite Ev. cbn [mret snd]. rewrite Em. reflexivity. }
        rewrite F in H. clear F.
        eapply falone_cons; [apply FS_eval, ES_left; exact A|].
        assert (Rd : reduce D G s (EBin op true (EConst (G v) x) (EConst t y)) = Some (OSafe rr, snd q)) by (cbn [reduce]; rewrite Eb; reflexivity).
        destruct (snd q) as [z|er| |] eqn:Eq.
        * eapply falone_cons; [apply FS_eval, ES_call; exact Rd|]. destruct (convert_any D (G v) (OSafe rr) 0 z c Ec) as (c' & Ec').
          pose proof (convert_fine s v (OSafe rr) z c' k Ec') as Q.
          assert (F : finish s (mbind q (fun z => run (convert D (G v) (OSafe rr) z))) (fun z => upd s v (Some z))
                  = finish s c' (fun z => upd s v (Some z))).
          { unfold finish. rewrite snd_bind, Eq, Ec'. reflexivity. }
          rewrite <- F, H in Q. exact Q.
        * destruct (finish_bad _ _ s q (fun z => run (convert D (G v) (OSafe rr) z)) (fun z => upd s v (Some z)) k) as [F1 F2];
            [rewrite Eq; intros z; discriminate|]. rewrite H in F1, F2. cbn in F1, F2. rewrite Eq in F2. subst s'. rewrite F2.
          apply falone_one, FS_eval_stop. eapply ES_call_stop; [exact Rd|discriminate].
        * destruct (finish_bad _ _ s q (fun z => run (convert D (G v) (OSafe rr) z)) (fun z => upd s v (Some z)) k) as [F1 F2];
            [rewrite Eq; intros z; discriminate|]. rewrite H in F1, F2. cbn in F1, F2. rewrite Eq in F2. subst s'. rewrite F2.
          apply falone_one, FS_eval_stop. eapply ES_call_stop; [exact Rd|discriminate].
        * destruct (finish_bad _ _ s q (fun z => run (convert D (G v) (OSafe rr) z)) (fun z => upd s v (Some z)) k) as [F1 F2];
            [rewrite Eq; intros z; discriminate|]. rewrite H in F1, F2. cbn in F1, F2. rewrite Eq in F2. subst s'. rewrite F2.
          apply falone_one, FS_eval_stop. eapply ES_call_stop; [exact Rd|discriminate].
      + unfold finish in H. rewrite snd_bind, Ey, snd_bind in H. unfold read in H. rewrite Ev in H. cbn in H. injection H as <- <-.
        cbn [fafter]. change FUndef with (stopped (@Undef Z) k). apply falone_one, FS_eval_stop, ES_left_stop.
        eapply ES_call_stop; [cbn [reduce]; unfold read; rewrite Ev; reflexivity|discriminate].
    - assert (B : bad (snd (eval D G s e))) by apply (estep_keeps D G s e' _ S).
      destruct (finish_bad _ _ s (eval D G s e) (fun y => mbind (read s v) (fun x => run (compound D op (G v) t x y))) (fun z => upd s v (Some z)) k B) as [F1 F2].
      rewrite H in F1, F2. cbn in F1, F2. subst s'. rewrite F2.
      eapply falone_trans; [apply esteps_fine; apply esteps_right; exact K|]. apply falone_one, FS_eval_stop, ES_right_stop. assumption.
  Qed.

  Lemma inc_fine : forall s v k s' r, compiles D G (CInc v) = true -> exec 0 D G s (CInc v) = Some (s', r) ->
    falone D G s (FRun (CInc v) k) s' (fafter r k).
  Proof.
    intros s v k s' r C H. eapply falone_cons; [constructor|]. apply compound_fine.
    - cbn [compiles type_of] in *. destruct (G v) as [T|w|T N P E]; try discriminate.
      destruct (increment D w 0) as [m|] eqn:Ei; [|discriminate]. unfold increment in Ei.
      destruct (compound_any D (BA Add) (OSafe w) (ORaw Int) 0 1 0 0 m Ei) as (q & ->). reflexivity.
    - cbn [compiles exec type_of eval] in *. destruct (G v) as [T|w|T N P E]; try discriminate. rewrite <- H. f_equal.
      unfold finish. rewrite !snd_bind. cbn [mret snd]. rewrite snd_bind. reflexivity.
  Qed.
  Lemma dec_fine : forall s v k s' r, compiles D G (CDec v) = true -> exec 0 D G s (CDec v) = Some (s', r) ->
    falone D G s (FRun (CDec v) k) s' (fafter r k).
  Proof.
    intros s v k s' r C H. eapply falone_cons; [constructor|]. apply compound_fine.
    - cbn [compiles type_of] in *. destruct (G v) as [T|w|T N P E]; try discriminate.
      destruct (decrement D w 0) as [m|] eqn:Ei; [|discriminate]. unfold decrement in Ei.
      destruct (compound_any D (BA Sub) (OSafe w) (ORaw Int) 0 1 0 0 m Ei) as (q & ->). reflexivity.
    - cbn [compiles exec type_of eval] in *. destruct (G v) as [T|w|T N P E]; try discriminate. rewrite <- H. f_equal.
      unfold finish. rewrite !snd_bind. cbn [mret snd]. rewrite snd_bind. reflexivity.
  Qed.
  Lemma post_fine : forall s inc w v k s' r, compiles D G (CPost inc w v) = true -> exec 0 D G s (CPost inc w v) = Some (s', r) ->
    falone D G s (FRun (CPost inc w v) k) s' (fafter r k).
  Proof.
    intros s inc w v k s' r C H. destruct (s v) as [z|] eqn:Ev.
    - destruct (post_compiles D G inc w v z C) as [C1 C2]. eapply falone_cons; [apply FS_post; eassumption|].
      assert (X : exists s1 r1, exec 0 D G s (if inc then CInc v else CDec v) = Some (s1, r1)
                 /\ match r1 with RDone => exec 0 D G s1 (CAssign w (EConst (G v) z)) = Some (s', r) | _ => s' = s1 /\ r = r1 end).
      { cbn [exec] in H. destruct (G v) as [T|a|T N P E] eqn:Gv; [destruct inc; cbn in C1; rewrite Gv in C1; discriminate| |destruct inc; cbn in C1; rewrite Gv in C1; discriminate].
        assert (Ha : exists m, (if inc then increment D a z else decrement D a z) = Some m).
        { destruct inc; cbn [compiles] in C1; rewrite Gv in C1.
          - destruct (increment D a 0) as [m|] eqn:Ei; [|discriminate]. unfold increment in *. exact (compound_any D _ _ _ 0 1 z 1 m Ei).
          - destruct (decrement D a 0) as [m|] eqn:Ei; [|discriminate]. unfold decrement in *. exact (compound_any D _ _ _ 0 1 z 1 m Ei). }
        destruct Ha as (m & Hm).
        destruct (G w) as [T|b|T N P E] eqn:Gw; [cbn [compiles] in C; rewrite Gv, Gw in C; discriminate| |cbn [compiles] in C; rewrite Gv, Gw in C; discriminate].
        assert (F : finish s (mbind (read s v) (fun x => run (if inc then post_increment D a x else post_decrement D a x))) (fun p => upd s v (Some (snd p)))
                    = finish s m (fun x => upd s v (Some x))).
        { unfold finish. rewrite snd_bind. unfold read. rewrite Ev. cbn [mret snd]. unfold post_increment, post_decrement.
          destruct inc; rewrite Hm; cbn [option_map run]; rewrite snd_bind; destruct (snd m); reflexivity. }
        rewrite F in H. unfold read in H. rewrite Ev in H. cbn [mret snd] in H.
        exists (fst (finish s m (fun x => upd s v (Some x)))), (snd (finish s m (fun x => upd s v (Some x)))). split.
        - assert (F2 : finish s (mbind (read s v) (fun x => run (if inc then increment D a x else decrement D a x))) (fun x => upd s v (Some x))
                    = finish s m (fun x => upd s v (Some x))).
          { unfold finish. rewrite snd_bind. unfold read. rewrite Ev. cbn [mret snd]. rewrite Hm. reflexivity. }
          rewrite <- surjective_pairing, <- F2. destruct inc; cbn [exec]; rewrite Gv; reflexivity.
        - destruct (finish s m (fun x => upd s v (Some x))) as [s1 r1]. cbn [fst snd]. destruct r1.
          + cbn [exec type_of eval]. rewrite Gw. cbn [convert]. rewrite <- H. unfold finish. rewrite snd_bind. reflexivity.
          + injection H as <- <-. auto.
          + injection H as <- <-. auto. }
      destruct X as (s1 & r1 & X1 & X2).
      eapply falone_trans; [destruct inc; [apply inc_fine|apply dec_fine]; eassumption|].
      destruct r1; cbn [fafter].
      + eapply falone_cons; [constructor|]. eapply falone_cons; [constructor|]. apply assign_fine; assumption.
      + destruct X2 as [-> ->]. apply falone_one. constructor.
      + destruct X2 as [-> ->]. constructor.
    - cbn [exec] in H. assert (X : s' = s /\ r = RUndef).
      { destruct (G v) as [T|a|T N P E]; try (injection H as <- <-; auto). destruct (G w) as [T|b|T N P E]; try (injection H as <- <-; auto).
        unfold finish, read in H. rewrite Ev in H. cbn in H. injection H as <- <-. auto. }
      destruct X as [-> ->]. apply falone_one. apply FS_post_undef. assumption.
  Qed.

  (** conditions *)
  Lemma crun_fine : forall s c o a b k, crun D G s c o ->
    falone D G s (FTest c a b k) s (match o with Ret w => FRun (if w then a else b) k | _ => stopped o k end).
  Proof.
    intros s c o a b k H. induction H as [r f t x u y m H|r f a1 a' b1 o H1 H2 IH|r f a1 b1 b' o H1 H2 IH|r f a1 b1 e H|r f a1 b1 e H|r f a1 b1 o H N|r f a1 b1 o H N].
    - destruct (snd m) as [w|er| |] eqn:E.
      + apply falone_one. eapply FS_compare; eassumption.
      + pose proof (FS_compare_stop D G s r f t x u y m a b k H) as Q. rewrite E in Q. apply falone_one, Q. discriminate.
      + pose proof (FS_compare_stop D G s r f t x u y m a b k H) as Q. rewrite E in Q. apply falone_one, Q. discriminate.
      + pose proof (FS_compare_stop D G s r f t x u y m a b k H) as Q. rewrite E in Q. apply falone_one, Q. discriminate.
    - eapply falone_cons; [apply FS_left; eassumption|assumption].
    - eapply falone_cons; [apply FS_right; eassumption|assumption].
    - apply falone_one. exact (FS_left_stop D G s r f a1 (Throw e) b1 a b k H).
    - apply falone_one. exact (FS_right_stop D G s r f a1 b1 (Throw e) a b k H).
    - pose proof (FS_left_stop D G s r f a1 o b1 a b k H) as Q. apply falone_one. pose proof (estep_keeps D G s a1 _ H) as [B _].
      destruct o as [z|er| |]; [destruct (B z eq_refl)|destruct (N er eq_refl)| |]; exact Q.
    - pose proof (FS_right_stop D G s r f a1 b1 o a b k H) as Q. apply falone_one. pose proof (estep_keeps D G s b1 _ H) as [B _].
      destruct o as [z|er| |]; [destruct (B z eq_refl)|destruct (N er eq_refl)| |]; exact Q.
  Qed.
  Lemma cond_fine_steps : forall s c a b k, cond_compiles D G c = true ->
    falone D G s (FTest c a b k) s (match snd (eval_cond D G s c) with Ret w => FRun (if w then a else b) k | o => stopped o k end).
  Proof.
    intros s c a b k C. destruct (cond_interleaving D G s c C) as (o & R & Nr). pose proof (crun_fine s c o a b k R) as Q.
    unfold near in Nr. destruct (snd (eval_cond D G s c)) as [w|er| |]; cbn [stopped] in *.
    - subst o. exact Q.
    - subst o. exact Q.
    - destruct Nr; subst o; exact Q.
    - destruct Nr; subst o; exact Q.
  Qed.

  Lemma step1_fine : forall s t s' t', ftyped D G (between t) -> step1 D G s t = Some (s', t') ->
    falone D G s (between t) s' (between t').
  Proof.
    intros s [c k|[|[b|b] k]|e [|[b|b] k]|] s' t' Ht H; try (cbn in H; discriminate H);
      try (cbn in H; injection H as <- <-; apply falone_one; constructor; fail).
    cbn [between ftyped] in *. destruct Ht as [C _].
    assert (AF : forall r, between (after r k) = fafter r k) by (intros []; reflexivity).
    destruct c as [|v|v ex|op v ex|v|v|inc w v|c1 c2|c c1 c2|c c1|c1 c2].
    - cbn in H. injection H as <- <-. apply falone_one. constructor.
    - cbn [step1] in H. destruct (exec 0 D G s (CDefault v)) as [[s1 r]|] eqn:E; [|discriminate]. injection H as <- <-. rewrite AF.
      apply falone_one. constructor. assumption.
    - cbn [step1] in H. destruct (exec 0 D G s (CAssign v ex)) as [[s1 r]|] eqn:E; [|discriminate]. injection H as <- <-. rewrite AF.
      eapply falone_cons; [constructor|]. apply assign_fine; assumption.
    - cbn [step1] in H. destruct (exec 0 D G s (CCompound op v ex)) as [[s1 r]|] eqn:E; [|discriminate]. injection H as <- <-. rewrite AF.
      eapply falone_cons; [constructor|]. apply compound_fine; assumption.
    - cbn [step1] in H. destruct (exec 0 D G s (CInc v)) as [[s1 r]|] eqn:E; [|discriminate]. injection H as <- <-. rewrite AF.
      apply inc_fine; assumption.
    - cbn [step1] in H. destruct (exec 0 D G s (CDec v)) as [[s1 r]|] eqn:E; [|discriminate]. injection H as <- <-. rewrite AF.
      apply dec_fine; assumption.
    - cbn [step1] in H. destruct (exec 0 D G s (CPost inc w v)) as [[s1 r]|] eqn:E; [|discriminate]. injection H as <- <-. rewrite AF.
      apply post_fine; assumption.
    - cbn in H. injection H as <- <-. apply falone_one. constructor.
    - cbn [step1] in H. cbn [compiles] in C. apply andb_true_iff in C. destruct C as [C C3]. apply andb_true_iff in C. destruct C as [C1 C2].
      eapply falone_cons; [constructor|]. eapply falone_trans; [apply cond_fine_steps; assumption|].
      destruct (snd (eval_cond D G s c)) as [[|]|er| |]; injection H as <- <-; constructor.
    - cbn [step1] in H. cbn [compiles] in C. apply andb_true_iff in C. destruct C as [C C3].
      eapply falone_cons; [constructor|]. eapply falone_trans; [apply cond_fine_steps; assumption|].
      destruct (snd (eval_cond D G s c)) as [[|]|er| |]; injection H as <- <-; try constructor; apply falone_one; constructor.
    - cbn in H. injection H as <- <-. apply falone_one. constructor.
  Qed.

  Lemma map_replace : forall ts n t, map between (replace ts n t) = replace_nth (map between ts) n (between t).
  Proof. induction ts as [|x ts IH]; intros [|n] t; cbn; [reflexivity|reflexivity|reflexivity|]. f_equal. apply IH. Qed.
  Lemma replace_twice : forall (ts : list fthread) n t u, replace_nth (replace_nth ts n t) n u = replace_nth ts n u.
  Proof. induction ts as [|x ts IH]; intros [|n] t u; cbn; try reflexivity. f_equal. apply IH. Qed.
  Lemma replace_same : forall (ts : list fthread) n t, nth_error ts n = Some t -> replace_nth ts n t = ts.
  Proof. induction ts as [|x ts IH]; intros [|n] t H; cbn in *; try discriminate; [congruence|]. f_equal. apply IH. assumption. Qed.
  Lemma freaches_trans : forall p q r, freaches D G p q -> freaches D G q r -> freaches D G p r.
  Proof. intros p q r H K. induction K; [assumption|]. eapply FRStep; eassumption. Qed.
  Lemma falone_pool : forall s t s' t' ts n, falone D G s t s' t' -> nth_error ts n = Some t ->
    freaches D G (s, ts) (s', replace_nth ts n t').
  Proof.
    intros s t s' t' ts n H Hn. induction H as [|s1 t1 s2 t2 H IH K].
    - rewrite replace_same by assumption. constructor.
    - eapply FRStep; [exact IH|]. rewrite <- (replace_twice ts n t1 t2). constructor 1 with (t := t1); [|assumption].
      eapply nth_replaced. exact Hn.
  Qed.
  Lemma between_typed : forall p q, Forall (ftyped D G) (map between (snd p)) -> reaches D G p q ->
    freaches D G (fst p, map between (snd p)) (fst q, map between (snd q)) /\ Forall (ftyped D G) (map between (snd q)).
  Proof.
    intros p q Ht H. induction H as [|q r H1 IH H2]; [split; [constructor|assumption]|].
    destruct IH as [R T]. destruct H2 as [s1 ts1 n t s2 t2 En Es]. cbn [fst snd] in *.
    assert (Nt : nth_error (map between ts1) n = Some (between t)) by (rewrite nth_error_map, En; reflexivity).
    assert (Tt : ftyped D G (between t)) by (rewrite Forall_forall in T; apply T; eapply nth_error_In; exact Nt).
    pose proof (falone_pool s1 _ s2 _ _ n (step1_fine s1 t s2 t2 Tt Es) Nt) as R2. rewrite <- map_replace in R2. split.
    - eapply freaches_trans; eassumption.
    - exact (freach_typed D G (s1, map between ts1) (s2, map between (replace ts1 n t2)) T R2).
  Qed.
End Between.

Lemma fine_includes : forall D G cs s s' ts', (forall c, In c cs -> compiles D G c = true) ->
  reaches D G (s, map start cs) (s', ts') -> freaches D G (s, map fstart cs) (s', map between ts').
Proof.
  intros D G cs s s' ts' Hc H. destruct (between_typed D G (s, map start cs) (s', ts')) as [R _]; [|exact H|].
  - cbn. rewrite map_map. apply Forall_forall. intros t Ht. apply in_map_iff in Ht. destruct Ht as (c & <- & Hin). cbn. split; [auto|constructor].
  - cbn in R. rewrite map_map in R. exact R.
Qed.

Lemma fine_no_interference : forall D G cs s s' ts', independent cs -> freaches D G (s, map fstart cs) (s', ts') ->
  forall n c t, nth_error cs n = Some c -> nth_error ts' n = Some t ->
  exists s1, falone D G s (fstart c) s1 t /\ forall v, uses c v -> s1 v = s' v.
Proof.
  intros D G cs s s' ts' Hi H n c t Hc Ht. destruct (fine_own D G cs s (s', ts') Hi H n c t Hc Ht) as (s1 & A & B & _). eauto.
Qed.
