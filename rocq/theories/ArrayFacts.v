(** ArrayFacts.v -- lemmas for PropsArray.v. *)
From Coq Require Import ZArith List Bool Arith Lia.
From Verif Require Import Base CType Spec ExceptionPolicy Promotion SafeBase SafeSpec IntervalFacts Program ProgramSpec
  SafeConvFacts PropsConvProofs ProgramFacts PropsProgramProofs ComposeSpec ComposeFacts OrderFacts ArrayProgram ArraySpec.
Import ListNotations.
Local Open Scope Z_scope.

Lemma put_length : forall l n z, (n < length l)%nat -> length (put l n z) = length l.
Proof. intros l n z H. unfold put. rewrite app_length. cbn [length]. rewrite firstn_length, skipn_length. lia. Qed.
Lemma put_nth : forall l n z k, (n < length l)%nat -> nth_error (put l n z) k = if Nat.eqb k n then Some z else nth_error l k.
Proof.
  induction l as [|x l IH]; intros n z k H; cbn [length] in H; [lia|]. destruct n as [|n].
  - destruct k as [|k]; reflexivity.
  - destruct k as [|k]; [reflexivity|]. unfold put in *. cbn. apply (IH n z k). lia.
Qed.
Lemma subscript_any : forall D t x y m, subscript D t x = Some m -> exists k, subscript D t y = Some k.
Proof. intros D t x y m H. destruct t; cbn [subscript] in *; [eauto| |]; eapply convert_any; eassumption. Qed.

Section Go.
  Variables (n : bool) (D : dmodel) (G : tenv) (A : aenv) (okc : cmd -> Prop) (okx : expr -> Prop) (okd : cond -> Prop).
  Hypothesis HG : forall v, type_ok n D (G v).
  Hypothesis HA : forall a, type_ok n D (fst (A a)).
  Hypothesis Hcmd : forall fuel c s i s' r, okc c -> compiles D G c = true -> store_ok D G s i -> exec fuel D G s c = Some (s', r) ->
    exists i', store_ok D G s' i' /\ ((r = RDone /\ ideal i c i' true) \/ (exists e, r = RRaised e /\ ideal i c i' false)).
  Hypothesis Hexpr : forall e t s i, okx e -> type_of D G e = Some t -> store_ok D G s i ->
    type_ok n D t
    /\ ((exists z, value i e = Some z /\ snd (eval D G s e) = Ret z /\ holds D t z) \/ (exists e', snd (eval D G s e) = Throw e')).
  Hypothesis Hcond : forall c s i, okd c -> cond_compiles D G c = true -> store_ok D G s i ->
    (exists t, truth i c = Some t /\ snd (eval_cond D G s c) = Ret t) \/ (exists e, snd (eval_cond D G s c) = Throw e).

  Lemma conv_snd : forall tgt src x m0, type_ok n D tgt -> type_ok n D src -> holds D src x -> convert D tgt src 0 = Some m0 ->
    (snd (run (convert D tgt src x)) = Ret x /\ holds D tgt x) \/ exists e, snd (run (convert D tgt src x)) = Throw e.
  Proof.
    intros tgt src x m0 Tt Ts Hx H. destruct (convert_any D tgt src 0 x m0 H) as (m & E). rewrite E. cbn [run].
    destruct (convert_char n D tgt src x m Tt Ts Hx E) as [[A1 ->]|(e & _ & ->)].
    - left. split; [reflexivity|assumption].
    - right. exists e. reflexivity.
  Qed.

  (** a subscript: in bounds, or it raises, or it is out of bounds and the type allows that *)
  Lemma position_char : forall s i l t e m0, store_ok D G s i -> okx e -> type_of D G e = Some t -> subscript D t 0 = Some m0 ->
    (exists k, value i e = Some (Z.of_nat k) /\ (k < length l)%nat /\ snd (position D G s l t e) = Ret (Z.of_nat k))
    \/ (exists e', snd (position D G s l t e) = Throw e')
    \/ (exists k, value i e = Some k /\ ~ (0 <= k < Z.of_nat (length l)) /\ snd (position D G s l t e) = Undef
        /\ lim_lo D t <= k <= lim_hi D t).
  Proof.
    intros s i l t e m0 Hs Ke Et Es. unfold position. rewrite !snd_bind.
    destruct (Hexpr e t s i Ke Et Hs) as [Tt [(z & Vz & Ez & Hz)|(e' & Ee)]]; [|rewrite Ee; eauto].
    rewrite Ez, snd_bind.
    assert (K : snd (run (subscript D t z)) = Ret z \/ exists e', snd (run (subscript D t z)) = Throw e').
    { assert (To : type_ok n D (ORaw (ptrdiff D))).
      { split; [|split; intros; discriminate]. cbn. unfold in_type. destruct D; vm_compute; intuition congruence. }
      destruct t as [T|a|T N P E]; cbn [subscript run] in *; [left; reflexivity| |];
      destruct (conv_snd _ _ z m0 To Tt Hz Es) as [[-> _]|?]; eauto. }
    destruct K as [-> |(e' & ->)]; [|eauto].
    destruct (in_array l z) eqn:B; unfold in_array in B.
    - left. apply andb_true_iff in B. rewrite Z.leb_le, Z.ltb_lt in B. exists (Z.to_nat z). rewrite Z2Nat.id by lia.
      split; [exact Vz|]. split; [lia|reflexivity].
    - right; right. exists z. split; [exact Vz|]. split; [|split; [reflexivity|exact Hz]].
      intros K. apply andb_false_iff in B. rewrite Z.leb_gt, Z.ltb_ge in B. lia.
  Qed.

  Definition a_good (c : acmd) (q : astate) (p' : amem) (r : result) : Prop :=
    exists i' m', store_ok D G (fst p') i' /\ arrays_ok D A (snd p') m'
    /\ ((r = RDone /\ a_ideal A q c (i', m') Done)
        \/ (exists e, r = RRaised e /\ a_ideal A q c (i', m') Raised)
        \/ (r = RUndef /\ a_ideal A q c (i', m') OutOfBounds /\ ~ in_bounds D G A c)).

  Lemma get_good : forall fuel v a e s mem i m p' r, okx e -> a_compiles D G A (AGet v a e) = true ->
    store_ok D G s i -> arrays_ok D A mem m -> a_exec fuel D G A (s, mem) (AGet v a e) = Some (p', r) ->
    a_good (AGet v a e) (i, m) p' r.
  Proof.
    intros fuel v a e s mem i m p' r Ke Hc Hs Hm H. cbn [a_compiles a_exec] in *.
    destruct (type_of D G e) as [t|] eqn:Et; [|discriminate].
    destruct (subscript D t 0) as [m0|] eqn:Es; [|discriminate].
    destruct (convert D (G v) (fst (A a)) 0) as [m1|] eqn:Ec; [|discriminate].
    injection H as H. unfold a_finish in H. rewrite snd_bind in H. destruct (Hm a) as [Hl Hn].
    destruct (position_char s i (mem a) t e m0 Hs Ke Et Es) as [(k & Vk & Bk & Rk)|[(e' & Re)|(k & Vk & Bk & Rk & Lk)]].
    - rewrite Rk in H. rewrite Nat2Z.id in H. rewrite Hl in Bk. destruct (Hn k Bk) as [N1 N2].
      rewrite (nth_error_nth _ _ 0 N1) in H.
      destruct (conv_snd (G v) (fst (A a)) (m a k) m1 (HG v) (HA a) N2 Ec) as [[Rc Hh]|(e' & Rc)]; rewrite Rc in H;
        injection H as <- <-.
      + exists (upd i v (m a k)), m. refine (conj _ (conj Hm (or_introl (conj eq_refl _)))).
        * intros w. cbn. unfold upd. destruct (Nat.eqb_spec w v) as [->|]; [split; [reflexivity|exact Hh]|apply Hs].
        * apply AI_get; [exact Vk|]. unfold inside. lia.
      + exists i, m. refine (conj Hs (conj Hm (or_intror (or_introl (ex_intro _ e' (conj eq_refl _)))))). apply AI_get_raise.
    - rewrite Re in H. injection H as <- <-. exists i, m.
      refine (conj Hs (conj Hm (or_intror (or_introl (ex_intro _ e' (conj eq_refl _)))))). apply AI_get_raise.
    - rewrite Rk in H. injection H as <- <-. exists i, m. rewrite Hl in Bk.
      refine (conj Hs (conj Hm (or_intror (or_intror (conj eq_refl (conj _ _)))))).
      + apply (AI_get_out A (i, m) v a e k Vk). exact Bk.
      + intros B. cbn in B. specialize (B t Et). lia.
  Qed.

  Lemma set_good : forall fuel a f e d s mem i m p' r, okx e -> okx d -> a_compiles D G A (ASet a f e d) = true ->
    store_ok D G s i -> arrays_ok D A mem m -> a_exec fuel D G A (s, mem) (ASet a f e d) = Some (p', r) ->
    a_good (ASet a f e d) (i, m) p' r.
  Proof.
    intros fuel a f e d s mem i m p' r Ke Kd Hc Hs Hm H. cbn [a_compiles a_exec] in *.
    destruct (type_of D G e) as [t|] eqn:Et; [|discriminate].
    destruct (type_of D G d) as [u|] eqn:Eu; [|discriminate].
    destruct (subscript D t 0) as [m0|] eqn:Es; [|discriminate].
    destruct (convert D (fst (A a)) u 0) as [m1|] eqn:Ec; [|discriminate].
    injection H as H. unfold a_finish in H. rewrite snd_bind in H. destruct (Hm a) as [Hl Hn].
    destruct (Hexpr d u s i Kd Eu Hs) as [Tu Rd].
    assert (Raise : forall e', (s, mem, RRaised e') = (p', r) -> a_good (ASet a f e d) (i, m) p' r).
    { intros e' [= <- <-]. exists i, m. refine (conj Hs (conj Hm (or_intror (or_introl (ex_intro _ e' (conj eq_refl _)))))).
      apply AI_set_raise. }
    assert (Out : forall k, value i e = Some k -> ~ (0 <= k < Z.of_nat (length (mem a))) -> lim_lo D t <= k <= lim_hi D t ->
      (s, mem, RUndef) = (p', r) -> a_good (ASet a f e d) (i, m) p' r).
    { intros k Vk Bk Lk [= <- <-]. exists i, m. rewrite Hl in Bk.
      refine (conj Hs (conj Hm (or_intror (or_intror (conj eq_refl (conj _ _)))))).
      - apply (AI_set_out A (i, m) a f e d k Vk). exact Bk.
      - intros B. cbn in B. specialize (B t Et). lia. }
    destruct (position_char s i (mem a) t e m0 Hs Ke Et Es) as [(k & Vk & Bk & Rk)|[(e' & Re)|(k & Vk & Bk & Rk & Lk)]];
    destruct Rd as [(z & Vz & Rz & Hz)|(e2 & Rz)];
    destruct f; unfold both in H; repeat (rewrite ?snd_bind, ?Rk, ?Re, ?Rz in H; cbn [mret snd fst] in H); eauto.
    all: destruct (conv_snd (fst (A a)) u z m1 (HA a) Tu Hz Ec) as [[Rc Hh]|(e' & Rc)]; rewrite Rc in H; cbn [mret snd fst] in H; eauto.
    all: injection H as <- <-; exists i, (upd2 m a k z); rewrite Nat2Z.id;
      refine (conj Hs (conj _ (or_introl (conj eq_refl _)))).
    all: try (apply AI_set; [exact Vk|unfold inside; lia|exact Vz]).
    all: intros b; cbn [snd]; unfold upd, upd2; destruct (Nat.eqb_spec b a) as [->|Nb]; [|apply Hm];
      rewrite (put_length (mem a) k z Bk); (split; [exact Hl|]);
      intros j Hj; rewrite (put_nth (mem a) k z j Bk); destruct (Nat.eqb j k); [split; [reflexivity|exact Hh]|apply Hn; exact Hj].
  Qed.

  Lemma a_loop_good : forall c x body, okd c -> cond_compiles D G c = true ->
    (forall s mem i m p' r, store_ok D G s i -> arrays_ok D A mem m -> body (s, mem) = Some (p', r) -> a_good x (i, m) p' r) ->
    forall k s mem i m p' r, store_ok D G s i -> arrays_ok D A mem m ->
    a_loop (fun s => eval_cond D G s c) body k (s, mem) = Some (p', r) -> a_good (AWhile c x) (i, m) p' r.
  Proof.
    intros c x body Hc Hcc Hb. induction k as [|k IH]; intros s mem i m p' r Hs Hm H; cbn [a_loop fst] in H; [discriminate|].
    destruct (Hcond c s i Hc Hcc Hs) as [(w & Tw & Ew)|(e & Ew)]; rewrite Ew in H.
    - destruct w.
      + destruct (body (s, mem)) as [[[s1 mem1] r1]|] eqn:Eb; [|discriminate].
        destruct (Hb s mem i m _ r1 Hs Hm Eb) as (i1 & m1 & Hs1 & Hm1 & [(-> & I1)|[(e & -> & I1)|(-> & I1 & B1)]]); cbn [fst snd] in *.
        * destruct (IH s1 mem1 i1 m1 p' r Hs1 Hm1 H) as (i2 & m2 & Hs2 & Hm2 & K). exists i2, m2. refine (conj Hs2 (conj Hm2 _)).
          destruct K as [(-> & I2)|[(e & -> & I2)|(-> & I2 & B2)]]; [left|right; left; exists e|right; right];
            repeat (split; [first [reflexivity|apply (AI_while A (i, m) c x (i1, m1) _ _ Tw I1 I2)]|]);
            try apply (AI_while A (i, m) c x (i1, m1) _ _ Tw I1 I2). exact B2.
        * injection H as <- <-. exists i1, m1. refine (conj Hs1 (conj Hm1 (or_intror (or_introl (ex_intro _ e (conj eq_refl _)))))).
          apply (AI_while_stop A (i, m) c x _ _ Tw I1). discriminate.
        * injection H as <- <-. exists i1, m1. refine (conj Hs1 (conj Hm1 (or_intror (or_intror (conj eq_refl (conj _ B1)))))).
          apply (AI_while_stop A (i, m) c x _ _ Tw I1). discriminate.
      + injection H as <- <-. exists i, m. refine (conj Hs (conj Hm (or_introl (conj eq_refl _)))). apply AI_while_end. exact Tw.
    - injection H as <- <-. exists i, m. refine (conj Hs (conj Hm (or_intror (or_introl (ex_intro _ e (conj eq_refl _)))))).
      apply AI_while_raise.
  Qed.

  Lemma a_exec_good : forall fuel c s mem i m p' r, a_ok okc okx okd c -> a_compiles D G A c = true ->
    store_ok D G s i -> arrays_ok D A mem m -> a_exec fuel D G A (s, mem) c = Some (p', r) -> a_good c (i, m) p' r.
  Proof.
    intros fuel. induction c as [c|v a e|a f e d|x IHx y IHy|c x IHx y IHy|c x IHx|x IHx y IHy];
      intros s mem i m p' r Hok Hc Hs Hm H.
    - cbn [a_ok a_compiles a_exec] in *. destruct (exec fuel D G s c) as [[s1 r1]|] eqn:E; [|discriminate]. injection H as <- <-.
      destruct (Hcmd fuel c s i s1 r1 Hok Hc Hs E) as (i' & B & [[-> K]|(e & -> & K)]); exists i', m; refine (conj B (conj Hm _)).
      + left. split; [reflexivity|]. apply (AI_do A i m c i' true K).
      + right; left. exists e. split; [reflexivity|]. apply (AI_do A i m c i' false K).
    - cbn [a_ok] in Hok. eapply get_good; eassumption.
    - cbn [a_ok] in Hok. destruct Hok. eapply set_good; eassumption.
    - cbn [a_ok a_compiles a_exec] in *. destruct Hok as [Kx Ky]. apply andb_true_iff in Hc. destruct Hc as [Cx Cy].
      destruct (a_exec fuel D G A (s, mem) x) as [[[s1 mem1] r1]|] eqn:E; [|discriminate].
      destruct (IHx s mem i m _ r1 Kx Cx Hs Hm E) as (i1 & m1 & Hs1 & Hm1 & [(-> & I1)|[(e & -> & I1)|(-> & I1 & B1)]]); cbn [fst snd] in *.
      + destruct (IHy s1 mem1 i1 m1 p' r Ky Cy Hs1 Hm1 H) as (i2 & m2 & Hs2 & Hm2 & K). exists i2, m2. refine (conj Hs2 (conj Hm2 _)).
        destruct K as [(-> & I2)|[(e & -> & I2)|(-> & I2 & B2)]]; [left|right; left; exists e|right; right].
        * split; [reflexivity|]. exact (AI_seq A _ _ _ _ _ _ I1 I2).
        * split; [reflexivity|]. exact (AI_seq A _ _ _ _ _ _ I1 I2).
        * split; [reflexivity|]. split; [exact (AI_seq A _ _ _ _ _ _ I1 I2)|]. cbn. tauto.
      + injection H as <- <-. exists i1, m1. refine (conj Hs1 (conj Hm1 (or_intror (or_introl (ex_intro _ e (conj eq_refl _)))))).
        apply (AI_seq_stop A _ _ _ _ _ I1). discriminate.
      + injection H as <- <-. exists i1, m1. refine (conj Hs1 (conj Hm1 (or_intror (or_intror (conj eq_refl (conj _ _)))))).
        * apply (AI_seq_stop A _ _ _ _ _ I1). discriminate.
        * cbn. tauto.
    - cbn [a_ok a_compiles a_exec] in *. destruct Hok as (Kc & Kx & Ky). apply andb_true_iff in Hc. destruct Hc as [Hc Cy].
      apply andb_true_iff in Hc. destruct Hc as [Cc Cx].
      destruct (Hcond c s i Kc Cc Hs) as [(w & Tw & Ew)|(e & Ew)]; rewrite Ew in H.
      + assert (K : a_good (if w then x else y) (i, m) p' r) by (destruct w; eauto).
        destruct K as (i2 & m2 & Hs2 & Hm2 & K). exists i2, m2. refine (conj Hs2 (conj Hm2 _)).
        destruct K as [(-> & I2)|[(e & -> & I2)|(-> & I2 & B2)]]; [left|right; left; exists e|right; right];
          pose proof (AI_if A (i, m) c w x y _ _ Tw I2) as I3.
        * split; [reflexivity|exact I3].
        * split; [reflexivity|exact I3].
        * split; [reflexivity|]. split; [exact I3|]. destruct w; cbn; tauto.
      + injection H as <- <-. exists i, m. refine (conj Hs (conj Hm (or_intror (or_introl (ex_intro _ e (conj eq_refl _)))))).
        apply AI_if_raise.
    - cbn [a_ok a_compiles] in *. destruct Hok as (Kc & Kx). apply andb_true_iff in Hc. destruct Hc as [Cc Cx].
      apply (a_loop_good c x (fun p => a_exec fuel D G A p x) Kc Cc) with (k := fuel) (s := s) (mem := mem); [|exact Hs|exact Hm|exact H].
      intros s1 mem1 i1 m1 p1 r1 Hs1 Hm1 E. eapply IHx; eassumption.
    - cbn [a_ok a_compiles a_exec] in *. destruct Hok as [Kx Ky]. apply andb_true_iff in Hc. destruct Hc as [Cx Cy].
      destruct (a_exec fuel D G A (s, mem) x) as [[[s1 mem1] r1]|] eqn:E; [|discriminate].
      destruct (IHx s mem i m _ r1 Kx Cx Hs Hm E) as (i1 & m1 & Hs1 & Hm1 & [(-> & I1)|[(e & -> & I1)|(-> & I1 & B1)]]); cbn [fst snd] in *.
      + injection H as <- <-. exists i1, m1. refine (conj Hs1 (conj Hm1 (or_introl (conj eq_refl _)))).
        apply (AI_try A _ _ _ _ _ I1). discriminate.
      + destruct (IHy s1 mem1 i1 m1 p' r Ky Cy Hs1 Hm1 H) as (i2 & m2 & Hs2 & Hm2 & K). exists i2, m2. refine (conj Hs2 (conj Hm2 _)).
        destruct K as [(-> & I2)|[(e' & -> & I2)|(-> & I2 & B2)]]; [left|right; left; exists e'|right; right];
          pose proof (AI_try_catch A _ _ _ _ _ _ I1 I2) as I3.
        * split; [reflexivity|exact I3].
        * split; [reflexivity|exact I3].
        * split; [reflexivity|]. split; [exact I3|]. cbn. tauto.
      + injection H as <- <-. exists i1, m1. refine (conj Hs1 (conj Hm1 (or_intror (or_intror (conj eq_refl (conj _ _)))))).
        * apply (AI_try A _ _ _ _ _ I1). discriminate.
        * cbn. tauto.
  Qed.
End Go.

Lemma C88_lemma : forall nat D G A fuel c s mem i m s' mem' r,
  (forall v, type_ok nat D (G v)) -> (forall a, type_ok nat D (fst (A a))) ->
  store_ok D G s i -> arrays_ok D A mem m ->
  a_ok (cmd_ok nat D G) (expr_ok nat D) (cond_ok nat D) c -> a_compiles D G A c = true ->
  a_exec fuel D G A (s, mem) c = Some ((s', mem'), r) ->
  exists i' m', store_ok D G s' i' /\ arrays_ok D A mem' m'
  /\ ((r = RDone /\ a_ideal A (i, m) c (i', m') Done)
      \/ (exists e, r = RRaised e /\ a_ideal A (i, m) c (i', m') Raised)
      \/ (r = RUndef /\ a_ideal A (i, m) c (i', m') OutOfBounds /\ ~ in_bounds D G A c)).
Proof.
  intros nat D G A fuel c s mem i m s' mem' r HG HA Hs Hm Hok Hc H.
  apply (a_exec_good nat D G A (cmd_ok nat D G) (expr_ok nat D) (cond_ok nat D) HG HA) with (fuel := fuel) (s := s) (mem := mem) (p' := (s', mem'));
    try assumption.
  - intros f c1 s1 i1 s2 r1 K1 K2 K3 K4. exact (C33_lemma nat D G f c1 s1 i1 s2 r1 HG K3 K1 K2 K4).
  - intros e t s1 i1 K1 K2 K3. destruct (expr_char nat D G s1 i1 e t HG K3 K1 K2) as [T [(z & V & R & B)|(e' & _ & R)]];
      (split; [exact T|]); rewrite R; [left; exists z|right; exists e']; cbn; auto.
  - intros c1 s1 i1 K1 K2 K3. destruct (cond_char nat D G s1 i1 c1 HG K3 K1 K2) as [(w & T1 & T2)|(e & _ & T)].
    + left. exists w. split; [assumption|]. rewrite T2. reflexivity.
    + right. exists e. rewrite T. reflexivity.
Qed.
Lemma C88_all_lemma : forall nat D G A fuel c s mem i m s' mem' r,
  (forall v, type_fine nat D (G v)) -> (forall a, type_fine nat D (fst (A a))) ->
  store_ok D G s i -> arrays_ok D A mem m ->
  a_ok (cmd_fine nat D G) (expr_fine nat D G None) (cond_fine nat D G) c -> a_compiles D G A c = true ->
  a_exec fuel D G A (s, mem) c = Some ((s', mem'), r) ->
  exists i' m', store_ok D G s' i' /\ arrays_ok D A mem' m'
  /\ ((r = RDone /\ a_ideal A (i, m) c (i', m') Done)
      \/ (exists e, r = RRaised e /\ a_ideal A (i, m) c (i', m') Raised)
      \/ (r = RUndef /\ a_ideal A (i, m) c (i', m') OutOfBounds /\ ~ in_bounds D G A c)).
Proof.
  intros nat D G A fuel c s mem i m s' mem' r HG HA Hs Hm Hok Hc H.
  apply (a_exec_good nat D G A (cmd_fine nat D G) (expr_fine nat D G None) (cond_fine nat D G) (fun v => proj1 (HG v)) (fun a => proj1 (HA a)))
    with (fuel := fuel) (s := s) (mem := mem) (p' := (s', mem')); try assumption.
  - intros f c1 s1 i1 s2 r1 K1 K2 K3 K4. exact (C73_cmd nat D G f c1 s1 i1 s2 r1 HG K3 K1 K2 K4).
  - intros e t s1 i1 K1 K2 K3.
    destruct (outcome_none _ _ _ _ _ (expr_char2 nat D G s1 i1 e None t HG K3 K1 K2)) as [T [(z & V & R & B)|(l & e' & R)%fails_throw]];
      (split; [exact (proj1 T)|]); rewrite R; [left; exists z|right; exists e']; cbn; auto.
  - intros c1 s1 i1 K1 K2 K3. destruct (cond_char2 nat D G s1 i1 c1 HG K3 K1 K2) as [(w & T1 & T2)|(l & e & T)%fails_throw].
    + left. exists w. split; [assumption|]. rewrite T2. reflexivity.
    + right. exists e. rewrite T. reflexivity.
Qed.
Lemma C88_bounds_lemma : forall nat D G A fuel c s mem i m s' mem' r,
  (forall v, type_fine nat D (G v)) -> (forall a, type_fine nat D (fst (A a))) ->
  store_ok D G s i -> arrays_ok D A mem m ->
  a_ok (cmd_fine nat D G) (expr_fine nat D G None) (cond_fine nat D G) c -> in_bounds D G A c -> a_compiles D G A c = true ->
  a_exec fuel D G A (s, mem) c = Some ((s', mem'), r) -> r <> RUndef.
Proof.
  intros nat D G A fuel c s mem i m s' mem' r HG HA Hs Hm Hok Hb Hc H ->.
  destruct (C88_all_lemma nat D G A fuel c s mem i m s' mem' RUndef HG HA Hs Hm Hok Hc H)
    as (i' & m' & _ & _ & [[K _]|[(e & K & _)|(_ & _ & K)]]); try discriminate. exact (K Hb).
Qed.
Lemma C88_wide_lemma : exists D G A fuel c s mem i m s' mem',
  (forall v, type_ok true D (G v)) /\ (forall a, type_ok true D (fst (A a)))
  /\ store_ok D G s i /\ arrays_ok D A mem m
  /\ a_ok (cmd_ok true D G) (expr_ok true D) (cond_ok true D) c /\ a_compiles D G A c = true
  /\ a_exec fuel D G A (s, mem) c = Some ((s', mem'), RUndef).
Proof.
  exists LP64, (fun _ => OSafe (safe LP64 Int Native default_exception_policy)),
    (fun _ => (OSafe (safe LP64 Int Native default_exception_policy), 1%nat)), 1%nat, (AGet 0%nat 0%nat (EVar 0%nat)),
    (fun _ => Some 1), (fun _ => [0]), (fun _ => 1), (fun _ _ => 0).
  assert (T : type_ok true LP64 (OSafe (safe LP64 Int Native default_exception_policy))).
  { unfold type_ok, throws_arithmetic. cbn. unfold in_type. repeat split; try (intros E [= <-]; auto); auto; vm_compute; congruence. }
  do 2 eexists. split; [intros; exact T|]. split; [intros; exact T|]. split; [|split; [|split; [exact I|split]]].
  - intros v. split; [reflexivity|]. vm_compute. split; congruence.
  - intros a. split; [reflexivity|]. intros n H. cbn in H. destruct n; [|exfalso; lia]. split; [reflexivity|vm_compute; split; congruence].
  - vm_compute. reflexivity.
  - vm_compute. reflexivity.
Qed.
Lemma C88_modulus_lemma : exists D G A fuel x s mem i m s' mem',
  (forall v, type_fine true D (G v)) /\ (forall a, type_fine true D (fst (A a)))
  /\ store_ok D G s i /\ arrays_ok D A mem m
  /\ type_fine true D x /\ holds D x 10
  /\ in_bounds D G A (AGet 1%nat 0%nat (EBin (BA Mod) true (EVar 0%nat) (EConst x 10)))
  /\ a_compiles D G A (AGet 1%nat 0%nat (EBin (BA Mod) true (EVar 0%nat) (EConst x 10))) = true
  /\ a_exec fuel D G A (s, mem) (AGet 1%nat 0%nat (EBin (BA Mod) true (EVar 0%nat) (EConst x 10))) = Some ((s', mem'), RUndef).
Proof.
  exists LP64, (fun _ => OSafe (safe LP64 UInt Native default_exception_policy)),
    (fun _ => (OSafe (safe LP64 Int Native default_exception_policy), 6%nat)), 1%nat, (OLit Int 10 None None),
    (fun _ => Some 7), (fun _ => [0; 0; 0; 0; 0; 0]), (fun _ => 7), (fun _ _ => 0).
  assert (T : forall b, type_fine b LP64 (OSafe (safe LP64 Int Native default_exception_policy))
    /\ type_fine b LP64 (OSafe (safe LP64 UInt Native default_exception_policy))).
  { intros b. unfold type_fine, type_ok, throws_arithmetic. cbn. unfold in_type.
    repeat split; try (intros E [= <-]; auto); try (intros; discriminate); auto; vm_compute; congruence. }
  do 2 eexists. split; [intros; apply T|]. split; [intros; apply T|]. split; [|split; [|split; [|split; [|split; [|split]]]]].
  - intros v. split; [reflexivity|]. vm_compute. split; congruence.
  - intros a. split; [reflexivity|]. intros n H. cbn in H.
    destruct n as [|[|[|[|[|[|n]]]]]]; [..|exfalso; lia]; (split; [reflexivity|vm_compute; split; congruence]).
  - split; [|intros E [=]]. split; [|split; intros; discriminate]. vm_compute. intuition congruence.
  - vm_compute. split; congruence.
  - intros t H. vm_compute in H. injection H as <-. vm_compute. split; congruence.
  - vm_compute. reflexivity.
  - vm_compute. reflexivity.
Qed.

(** ------------------------------------------------------------------ *)
(** no false alarm *)
Lemma convert_in_range : forall n D tgt src x m, type_ok n D tgt -> type_ok n D src -> holds D src x -> holds D tgt x ->
  convert D tgt src x = Some m -> returns m x.
Proof.
  intros n D tgt src x m (Wt & Et & _) (Ws & Es & _) Hx Ht H.
  destruct tgt as [T|s|T N P E]; cbn [convert] in H; [| |discriminate].
  - destruct src as [U|s|U N P E].
    + destruct (ctype_eqb T U) eqn:E; [|discriminate]. injection H as <-. reflexivity.
    + destruct (to_builtin_char D T s x m (Es (sE s) eq_refl) (holds_in_base D _ x Ws Hx) H) as [[A ->]|[A _]]; [reflexivity|].
      exfalso. apply A. exact Ht.
    + unfold holds in Hx. cbn [lim_lo lim_hi] in Hx. assert (x = N) by lia. subst x.
      assert (HN : in_type D U N) by (destruct Ws as (A & _); exact A).
      destruct (C46_lemma D T U N E HN) as [A _]; [intros E0 HE; apply Es; exact HE|].
      destruct (A Ht) as (k & K & R). rewrite H in K. injection K as <-. exact R.
  - destruct (construct_char D s src x m Wt Ws (Et (sE s) eq_refl) Hx H) as [[_ ->]|[A _]]; [reflexivity|].
    exfalso. apply A. exact Ht.
Qed.
Lemma ptrdiff_holds : forall D k, 0 <= k < 2 ^ (pointer_bits D - 1) -> holds D (ORaw (ptrdiff D)) k.
Proof. intros D k H. unfold holds. destruct D; cbn [pointer_bits lim_lo lim_hi ptrdiff] in *; unfold lo, hi; cbn; lia. Qed.

Lemma position_in_range : forall n D G s l t e m0 k, type_ok n D t -> holds D t (Z.of_nat k) -> subscript D t 0 = Some m0 ->
  returns (eval D G s e) (Z.of_nat k) -> (k < length l)%nat -> Z.of_nat k < 2 ^ (pointer_bits D - 1) ->
  returns (position D G s l t e) (Z.of_nat k).
Proof.
  intros n D G s l t e m0 k Tt Ht Hs He Hk Hp. unfold position. rewrite (bind_ret _ _ _ _ _ He).
  destruct (subscript_any D t 0 (Z.of_nat k) m0 Hs) as (m1 & Em). rewrite Em. cbn [run].
  assert (R : returns m1 (Z.of_nat k)).
  { destruct t as [T|a|T N P E]; cbn [subscript] in Em; [injection Em as <-; reflexivity| |];
    refine (convert_in_range n D _ _ _ m1 _ Tt Ht (ptrdiff_holds D _ _) Em); try lia;
    (split; [|split; intros; discriminate]); cbn; unfold in_type; destruct D; vm_compute; intuition congruence. }
  rewrite (bind_ret _ _ _ _ _ R). unfold in_array.
  destruct (Z.leb_spec 0 (Z.of_nat k)); [|lia]. destruct (Z.ltb_spec (Z.of_nat k) (Z.of_nat (length l))); [|lia]. reflexivity.
Qed.

Lemma C88_get_lemma : forall nat D G A fuel v a e s mem i m k,
  (forall v, type_ok nat D (G v)) -> (forall a, type_ok nat D (fst (A a))) ->
  store_ok D G s i -> arrays_ok D A mem m -> expr_ok nat D e -> a_compiles D G A (AGet v a e) = true ->
  returns (eval D G s e) (Z.of_nat k) -> (k < snd (A a))%nat -> Z.of_nat k < 2 ^ (pointer_bits D - 1) ->
  holds D (G v) (m a k) ->
  a_exec fuel D G A (s, mem) (AGet v a e) = Some ((upd s v (Some (m a k)), mem), RDone).
Proof.
  intros nat D G A fuel v a e s mem i m k HG HA Hs Hm Hok Hc He Hk Hp Hv. cbn [a_compiles a_exec] in *.
  destruct (type_of D G e) as [t|] eqn:Et; [|discriminate].
  destruct (subscript D t 0) as [m0|] eqn:Es; [|discriminate].
  destruct (convert D (G v) (fst (A a)) 0) as [m1|] eqn:Ec; [|discriminate].
  destruct (expr_char nat D G s i e t HG Hs Hok Et) as [Tt [(z & _ & Rz & Hz)|(x & _ & T)]];
    [|rewrite T in He; discriminate].
  assert (z = Z.of_nat k) by (unfold returns in *; congruence). subst z.
  destruct (Hm a) as [Hl Hn]. destruct (Hn k Hk) as [Hnth Hh].
  assert (P : returns (position D G s (mem a) t e) (Z.of_nat k))
    by (eapply position_in_range; eauto; rewrite Hl; exact Hk).
  rewrite (bind_ret _ _ _ _ _ P), Nat2Z.id, (nth_error_nth _ _ _ Hnth).
  destruct (convert_any D (G v) (fst (A a)) 0 (m a k) m1 Ec) as (m2 & E2). rewrite E2. cbn [run].
  rewrite (convert_in_range nat D _ _ _ m2 (HG v) (HA a) Hh Hv E2). reflexivity.
Qed.
Lemma C88_set_lemma : forall nat D G A fuel a first e d s mem i m k y,
  (forall v, type_ok nat D (G v)) -> (forall a, type_ok nat D (fst (A a))) ->
  store_ok D G s i -> arrays_ok D A mem m -> expr_ok nat D e -> expr_ok nat D d ->
  a_compiles D G A (ASet a first e d) = true ->
  returns (eval D G s e) (Z.of_nat k) -> (k < snd (A a))%nat -> Z.of_nat k < 2 ^ (pointer_bits D - 1) ->
  returns (eval D G s d) y -> holds D (fst (A a)) y ->
  exists mem', a_exec fuel D G A (s, mem) (ASet a first e d) = Some ((s, mem'), RDone)
  /\ arrays_ok D A mem' (upd2 m a k y).
Proof.
  intros nat D G A fuel a first e d s mem i m k y HG HA Hs Hm Hok Hod Hc He Hk Hp Hd Hv. cbn [a_compiles a_exec] in *.
  destruct (type_of D G e) as [t|] eqn:Et; [|discriminate]. destruct (type_of D G d) as [u|] eqn:Eu; [|discriminate].
  destruct (subscript D t 0) as [m0|] eqn:Es; [|discriminate].
  destruct (convert D (fst (A a)) u 0) as [m1|] eqn:Ec; [|discriminate].
  destruct (expr_char nat D G s i e t HG Hs Hok Et) as [Tt [(z & _ & Rz & Hz)|(x & _ & T)]];
    [|rewrite T in He; discriminate].
  destruct (expr_char nat D G s i d u HG Hs Hod Eu) as [Tu [(w & _ & Rw & Hw)|(x & _ & T)]];
    [|rewrite T in Hd; discriminate].
  assert (z = Z.of_nat k) by (unfold returns in *; congruence). subst z.
  assert (w = y) by (unfold returns in *; congruence). subst w.
  destruct (Hm a) as [Hl Hn].
  assert (P : returns (position D G s (mem a) t e) (Z.of_nat k))
    by (eapply position_in_range; eauto; rewrite Hl; exact Hk).
  assert (B : returns (both first (position D G s (mem a) t e) (eval D G s d)) (Z.of_nat k, y)).
  { unfold both. destruct first.
    - rewrite (bind_ret _ _ _ _ _ P), (bind_ret _ _ _ _ _ Hd). reflexivity.
    - rewrite (bind_ret _ _ _ _ _ Hd), (bind_ret _ _ _ _ _ P). reflexivity. }
  rewrite (bind_ret _ _ _ _ _ B). cbn [fst snd].
  destruct (convert_any D (fst (A a)) u 0 y m1 Ec) as (m2 & E2). rewrite E2. cbn [run].
  rewrite (bind_ret _ _ _ _ _ (convert_in_range nat D _ _ _ m2 (HA a) Tu Hw Hv E2)).
  cbn. rewrite Nat2Z.id. eexists. split; [reflexivity|].
  intros b. unfold upd, upd2. destruct (Nat.eqb_spec b a) as [->|Nb]; cbn [andb].
  - split; [rewrite put_length; [exact Hl|rewrite Hl; exact Hk]|].
    intros n Hb. rewrite put_nth by (rewrite Hl; exact Hk). destruct (Nat.eqb_spec n k) as [->|Nk]; [auto|apply Hn; exact Hb].
  - apply Hm.
Qed.
