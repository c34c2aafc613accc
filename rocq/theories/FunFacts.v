(** FunFacts.v -- programs with functions: proofs. *)
From Coq Require Import ZArith List Bool Arith Lia.
From Verif Require Import Base CType Spec ExceptionPolicy Promotion SafeBase SafeSpec SafeFacts Program ProgramSpec
  ProgramFacts PropsProgramProofs ComposeSpec ComposeFacts FunProgram FunSpec.
Import ListNotations.
Local Open Scope Z_scope.
Local Open Scope m_scope.

Definition raises {A : Type} (m : M A) : Prop := exists l e, m = (l, Throw e).
Lemma bind_raises : forall (A B : Type) (m : M A) (k : A -> M B), raises m -> raises (mbind m k).
Proof. intros A B m k (l & e & ->). exists l, e. reflexivity. Qed.
Lemma bind_assoc : forall (A B C : Type) (m : M A) (k : A -> M B) (h : B -> M C),
  mbind (mbind m k) h = mbind m (fun x => mbind (k x) h).
Proof.
  intros A B C [l [a|e| |]] k h; cbn; try reflexivity. destruct (k a) as [l1 [b|e| |]]; cbn; try reflexivity.
  destruct (h b) as [l2 o]. rewrite app_assoc. reflexivity.
Qed.

Section Go.
  Variable n : bool.
  Variable D : dmodel.
  Variable glob : nat -> bool.
  Variable F : list fundef.
  Variable G0 : tenv.
  Variable ty : otype -> Prop.
  Variable okc : tenv -> cmd -> Prop.
  Variable okd : tenv -> cond -> Prop.
  Variable okx : tenv -> otype -> expr -> Prop.
  Hypothesis Hty : forall T, ty T -> type_ok n D T.
  Hypothesis Hcmd : forall G f c s i s' r, (forall v, ty (G v)) -> okc G c -> compiles D G c = true -> store_ok D G s i ->
    exec f D G s c = Some (s', r) -> good D G i c s' r.
  Hypothesis Hcond : forall G c s i, (forall v, ty (G v)) -> okd G c -> cond_compiles D G c = true -> store_ok D G s i ->
    (exists t, truth i c = Some t /\ returns (eval_cond D G s c) t) \/ raises (eval_cond D G s c).
  Hypothesis Hexp : forall G T e t s i m0, (forall v, ty (G v)) -> ty T -> okx G T e -> type_of D G e = Some t ->
    convert D T t 0 = Some m0 -> store_ok D G s i ->
    (exists z, value i e = Some z /\ returns (x <- eval D G s e ;; run (convert D T t x)) z /\ holds D T z)
    \/ raises (x <- eval D G s e ;; run (convert D T t x)).
  Hypothesis HF : functions_ok okc okd okx F D glob G0 ty.
  Hypothesis HP : program_compiles D glob F = true.

  Definition f_good (G : tenv) (i : nat -> Z) (c : fcmd) (s' : store) (r : result) : Prop :=
    exists i', store_ok D G s' i'
    /\ ((r = RDone /\ f_ideal glob F i c i' true) \/ (exists e, r = RRaised e /\ f_ideal glob F i c i' false)).

  Lemma fcond_good : forall G c s i, (forall v, ty (G v)) -> fcond_ok okd G c -> fcond_compiles D G c = true -> store_ok D G s i ->
    (exists t, ftruth i c = Some t /\ returns (eval_fcond D G s c) t) \/ raises (eval_fcond D G s c).
  Proof.
    intros G c s i HG. induction c as [c|a IHa|a IHa b IHb|a IHa b IHb]; intros Hok Hc Hs;
      cbn [fcond_ok fcond_compiles ftruth eval_fcond] in *.
    - exact (Hcond G c s i HG Hok Hc Hs).
    - destruct (IHa Hok Hc Hs) as [(t & T & R)|R]; [left|right; apply bind_raises; exact R].
      exists (negb t). rewrite T. split; [reflexivity|]. rewrite (bind_ret _ _ _ _ _ R). reflexivity.
    - destruct Hok as [Ka Kb]. apply andb_true_iff in Hc. destruct Hc as [Ca Cb].
      destruct (IHa Ka Ca Hs) as [(t & T & R)|R]; [|right; apply bind_raises; exact R].
      rewrite (bind_ret _ _ _ _ _ R), T. destruct t; [exact (IHb Kb Cb Hs)|]. left. exists false. split; reflexivity.
    - destruct Hok as [Ka Kb]. apply andb_true_iff in Hc. destruct Hc as [Ca Cb].
      destruct (IHa Ka Ca Hs) as [(t & T & R)|R]; [|right; apply bind_raises; exact R].
      rewrite (bind_ret _ _ _ _ _ R), T. destruct t; [|exact (IHb Kb Cb Hs)]. left. exists true. split; reflexivity.
  Qed.

  Lemma pass_good : forall G s i E, (forall v, ty (G v)) -> (forall v, ty (E v)) -> store_ok D G s i ->
    forall ps args fr j, args_ok okx G E ps args -> args_compile D glob G E ps args = true -> store_ok D E fr j ->
    (exists fr1 j1, returns (pass D G s E ps args fr) fr1 /\ ideal_pass i ps args j = Some j1 /\ store_ok D E fr1 j1)
    \/ raises (pass D G s E ps args fr).
  Proof.
    intros G s i E HG HE Hs. induction ps as [|p ps IH]; intros [|e es] fr j Hok Hc Hj; cbn [args_compile pass ideal_pass] in *;
      try discriminate.
    - left. exists fr, j. split; [reflexivity|]. split; [reflexivity|exact Hj].
    - inversion Hok as [|? ? ? ? K1 K2]. subst. apply andb_true_iff in Hc. destruct Hc as [Hc C2]. apply andb_true_iff in Hc. destruct Hc as [_ C1].
      destruct (type_of D G e) as [t|] eqn:Et; [|discriminate]. destruct (convert D (E p) t 0) as [m0|] eqn:Ec; [|discriminate].
      rewrite <- bind_assoc.
      destruct (Hexp G (E p) e t s i m0 HG (HE p) K1 Et Ec Hs) as [(z & V & R & B)|R]; [|right; apply bind_raises; exact R].
      rewrite (bind_ret _ _ _ _ _ R), V. apply IH; [exact K2|exact C2|]. apply store_ok_upd; assumption.
  Qed.

  (** the types of global variables are the same everywhere *)
  Definition agrees (G : tenv) : Prop := forall v, glob v = true -> G v = G0 v.

  Lemma enter_good : forall G s i d, In d F -> agrees G -> store_ok D G s i ->
    store_ok D (f_env d) (enter glob s d) (fun v => if glob v then i v else f_init d v).
  Proof.
    intros G s i d Hd HA Hs v. destruct (HF d Hd) as (_ & _ & _ & _ & Hi & Hg). unfold enter.
    destruct (glob v) eqn:E; [|split; [reflexivity|apply Hi; exact E]].
    destruct (Hs v) as [A B]. split; [exact A|]. rewrite (Hg v E), <- (HA v E). exact B.
  Qed.
  Lemma leave_good : forall G s i d s1 j, In d F -> agrees G -> store_ok D G s i -> store_ok D (f_env d) s1 j ->
    store_ok D G (leave glob s s1) (after_call glob i j).
  Proof.
    intros G s i d s1 j Hd HA Hs H1 v. destruct (HF d Hd) as (_ & _ & _ & _ & _ & Hg). unfold leave, after_call.
    destruct (glob v) eqn:E; [|apply Hs]. destruct (H1 v) as [A B]. split; [exact A|]. rewrite (HA v E), <- (Hg v E). exact B.
  Qed.

  Lemma f_loop_good : forall G c a, (forall v, ty (G v)) -> fcond_ok okd G c -> fcond_compiles D G c = true ->
    forall body,
    (forall s i s' r, store_ok D G s i -> body s = Some (s', r) -> f_good G i a s' r) ->
    forall k s i s' r, store_ok D G s i -> loop (fun s => eval_fcond D G s c) body k s = Some (s', r) ->
    f_good G i (FWhile c a) s' r.
  Proof.
    intros G c a HG Hc Hcc body Hbody. induction k as [|k IH]; intros s i s' r Hs H; cbn [loop] in H; [discriminate|].
    destruct (fcond_good G c s i HG Hc Hcc Hs) as [(t & Ht & Rt)|(l & e & Te)].
    - rewrite Rt in H. cbn [snd] in H. destruct t.
      + destruct (body s) as [[s1 r1]|] eqn:Eb; [|discriminate].
        destruct (Hbody s i s1 r1 Hs Eb) as (i1 & Hs1 & [[-> I1]|(e & -> & I1)]).
        * destruct (IH s1 i1 s' r Hs1 H) as (i2 & Hs2 & K). exists i2. split; [assumption|].
          destruct K as [[-> I2]|(e & -> & I2)]; [left|right; exists e]; (split; [reflexivity|]);
          eapply FI_while; eassumption.
        * injection H as <- <-. exists i1. split; [assumption|]. right. exists e. split; [reflexivity|].
          apply FI_while_body_raise; assumption.
      + injection H as <- <-. exists i. split; [assumption|]. left. split; [reflexivity|]. apply FI_while_end. assumption.
    - rewrite Te in H. cbn [snd] in H. injection H as <- <-. exists i. split; [assumption|].
      right. exists e. split; [reflexivity|]. apply FI_while_raise.
  Qed.

  Lemma f_exec_good : forall k G s c i s' r, (forall v, ty (G v)) -> agrees G -> fcmd_ok okc okd okx F G c ->
    f_compiles D glob F G c = true -> store_ok D G s i -> f_exec D glob F k G s c = Some (s', r) -> f_good G i c s' r.
  Proof.
    induction k as [|k IHk]; [intros; discriminate|].
    intros G s c. revert s. induction c as [c|v f args|a IHa b IHb|c a IHa b IHb|c a IHa|a IHa b IHb];
      intros s i s' r HG HA Hok Hc Hs H; cbn [fcmd_ok f_compiles] in *.
    - cbn [f_exec] in H. destruct (Hcmd G (S k) c s i s' r HG Hok Hc Hs H) as (i' & B & [[-> K]|(e & -> & K)]); exists i'; (split; [exact B|]).
      + left. split; [reflexivity|]. apply FI_do. exact K.
      + right. exists e. split; [reflexivity|]. apply FI_do. exact K.
    - cbn [f_exec] in H. destruct (nth_error F f) as [d|] eqn:Ef; [|discriminate].
      specialize (Hok d eq_refl). apply andb_true_iff in Hc. destruct Hc as [Hc Cv]. apply andb_true_iff in Hc. destruct Hc as [Ca Cr].
      pose proof (nth_error_In F f Ef) as Hd. destruct (HF d Hd) as (Kb & Kr & Tr & Te & _ & Hg).
      pose proof (enter_good G s i d Hd HA Hs) as He.
      destruct (pass_good G s i (f_env d) HG Te Hs (f_params d) args _ _ Hok Ca He) as [(fr & j0 & R & I & S0)|(l & e & R)]; rewrite R in H; cbn [snd] in H.
      + assert (Hcb : f_compiles D glob F (f_env d) (f_body d) = true).
        { unfold program_compiles in HP. rewrite forallb_forall in HP. apply HP. exact Hd. }
        destruct (f_exec D glob F k (f_env d) fr (f_body d)) as [[s1 r1]|] eqn:Eb; [|discriminate].
        destruct (IHk (f_env d) fr (f_body d) j0 s1 r1 Te Hg Kb Hcb S0 Eb) as (j & S1 & [[-> I1]|(e & -> & I1)]).
        * pose proof (leave_good G s i d s1 j Hd HA Hs S1) as S2.
          destruct (type_of D (f_env d) (f_result d)) as [t|] eqn:Et; [|discriminate].
          destruct (convert D (f_type d) t 0) as [m0|] eqn:Ec; [|discriminate].
          destruct (convert D (G v) (f_type d) 0) as [m1|] eqn:Ev; [|discriminate].
          injection H as H. rewrite <- bind_assoc in H.
          destruct (Hexp (f_env d) (f_type d) (f_result d) t s1 j m0 Te Tr Kr Et Ec S1) as [(z & V & Rz & B)|Rz].
          -- rewrite (bind_ret _ _ _ _ _ Rz) in H. destruct (convert_any D (G v) (f_type d) 0 z m1 Ev) as (k1 & K1). rewrite K1 in H. cbn [run] in H.
             destruct (convert_char n D (G v) (f_type d) z k1 (Hty _ (HG v)) (Hty _ Tr) B K1) as [[B1 Rk]|(e & _ & Rk)]; rewrite Rk in H;
               cbn [finish snd] in H; injection H as <- <-.
             ++ exists (upd (after_call glob i j) v z). split; [apply store_ok_upd; assumption|]. left. split; [reflexivity|].
                eapply FI_call; eassumption.
             ++ exists (after_call glob i j). split; [exact S2|]. right. exists e. split; [reflexivity|]. eapply FI_call_result_raise; eassumption.
          -- destruct (bind_raises _ _ _ (fun y => run (convert D (G v) (f_type d) y)) Rz) as (l & e & Te1). rewrite Te1 in H.
             cbn [finish snd] in H. injection H as <- <-.
             exists (after_call glob i j). split; [exact S2|]. right. exists e. split; [reflexivity|]. eapply FI_call_result_raise; eassumption.
        * injection H as <- <-. exists (after_call glob i j). split; [exact (leave_good G s i d s1 j Hd HA Hs S1)|].
          right. exists e. split; [reflexivity|]. eapply FI_call_body_raise; eassumption.
      + injection H as <- <-. exists i. split; [exact Hs|]. right. exists e. split; [reflexivity|]. apply FI_call_argument_raise.
    - apply andb_prop in Hc. destruct Hc as [Ca Cb]. destruct Hok as [Oa Ob].
      change (match f_exec D glob F (S k) G s a with Some (s1, RDone) => f_exec D glob F (S k) G s1 b | x => x end = Some (s', r)) in H.
      destruct (f_exec D glob F (S k) G s a) as [[s1 r1]|] eqn:Ea; [|discriminate].
      destruct (IHa s i s1 r1 HG HA Oa Ca Hs Ea) as (i1 & Hs1 & [[-> I1]|(e & -> & I1)]).
      + destruct (IHb s1 i1 s' r HG HA Ob Cb Hs1 H) as (i2 & Hs2 & K). exists i2. split; [assumption|].
        destruct K as [[-> I2]|(e & -> & I2)]; [left|right; exists e]; (split; [reflexivity|]);
        eapply FI_seq; eassumption.
      + injection H as <- <-. exists i1. split; [assumption|]. right. exists e. split; [reflexivity|].
        apply FI_seq_raise. assumption.
    - apply andb_prop in Hc. destruct Hc as [Cc Cb]. apply andb_prop in Cc. destruct Cc as [Cc Ca].
      destruct Hok as (Oc & Oa & Ob).
      change (match snd (eval_fcond D G s c) with Ret true => f_exec D glob F (S k) G s a | Ret false => f_exec D glob F (S k) G s b
              | Throw e => Some (s, RRaised e) | Undef | Trapped => Some (s, RUndef) end = Some (s', r)) in H.
      destruct (fcond_good G c s i HG Oc Cc Hs) as [(t & Ht & Rt)|(l & e & Te)].
      + rewrite Rt in H. cbn [snd] in H.
        assert (K : f_good G i (if t then a else b) s' r) by (destruct t; eauto).
        destruct K as (i1 & Hs1 & K). exists i1. split; [assumption|].
        destruct K as [[-> I2]|(e & -> & I2)]; [left|right; exists e]; (split; [reflexivity|]);
        eapply FI_if; eassumption.
      + rewrite Te in H. cbn [snd] in H. injection H as <- <-. exists i. split; [assumption|].
        right. exists e. split; [reflexivity|]. apply FI_if_raise.
    - apply andb_prop in Hc. destruct Hc as [Cc Ca]. destruct Hok as (Oc & Oa).
      refine (f_loop_good G c a HG Oc Cc (fun s => f_exec D glob F (S k) G s a) _ (S k) s i s' r Hs H).
      intros s0 i0 s1 r1 Hs0 H0. exact (IHa s0 i0 s1 r1 HG HA Oa Ca Hs0 H0).
    - apply andb_prop in Hc. destruct Hc as [Ca Cb]. destruct Hok as [Oa Ob].
      change (match f_exec D glob F (S k) G s a with Some (s1, RRaised _) => f_exec D glob F (S k) G s1 b | x => x end = Some (s', r)) in H.
      destruct (f_exec D glob F (S k) G s a) as [[s1 r1]|] eqn:Ea; [|discriminate].
      destruct (IHa s i s1 r1 HG HA Oa Ca Hs Ea) as (i1 & Hs1 & [[-> I1]|(e & -> & I1)]).
      + injection H as <- <-. exists i1. split; [assumption|]. left. split; [reflexivity|]. apply FI_try. assumption.
      + destruct (IHb s1 i1 s' r HG HA Ob Cb Hs1 H) as (i2 & Hs2 & K). exists i2. split; [assumption|].
        destruct K as [[-> I2]|(e' & -> & I2)]; [left|right; exists e']; (split; [reflexivity|]);
        eapply FI_try_catch; eassumption.
  Qed.
End Go.

Lemma C91_simple : forall nat D glob F G fuel c s i s' r,
  simple_program nat D glob F G c -> program_compiles D glob F = true -> f_compiles D glob F G c = true ->
  store_ok D G s i -> f_exec D glob F fuel G s c = Some (s', r) ->
  exists i', store_ok D G s' i'
  /\ ((r = RDone /\ f_ideal glob F i c i' true) \/ (exists e, r = RRaised e /\ f_ideal glob F i c i' false)).
Proof.
  intros nat D glob F G fuel c s i s' r (HG & HF & Hok) HP Hc Hs H.
  refine (f_exec_good nat D glob F G (type_ok nat D) (cmd_ok nat D) (fun _ => cond_ok nat D) (fun _ _ => expr_ok nat D)
    (fun T K => K) _ _ _ HF HP fuel G s c i s' r HG (fun v _ => eq_refl) Hok Hc Hs H).
  - intros G1 f c1 s1 i1 s2 r1 K0 K1 K2 K3 K4. exact (C33_lemma nat D G1 f c1 s1 i1 s2 r1 K0 K3 K1 K2 K4).
  - intros G1 c1 s1 i1 K0 K1 K2 K3. destruct (cond_char nat D G1 s1 i1 c1 K0 K3 K1 K2) as [T|(e & _ & T)]; [left; exact T|right].
    do 2 eexists. exact T.
  - intros G1 T e t s1 i1 m0 K0 KT K1 K2 K3 K4.
    destruct (expr_char nat D G1 s1 i1 e t K0 K4 K1 K2) as [Tt [(z & V & R & B)|(x & _ & R)]].
    + rewrite (bind_ret _ _ _ _ _ R). destruct (convert_any D T t 0 z m0 K3) as (k & K). rewrite K. cbn [run].
      destruct (convert_char nat D T t z k KT Tt B K) as [[B1 R1]|(x & _ & R1)]; [left; exists z; auto|right].
      do 2 eexists. exact R1.
    + right. apply bind_raises. do 2 eexists. exact R.
Qed.

Lemma C91_fine : forall nat D glob F G fuel c s i s' r,
  fine_program nat D glob F G c -> program_compiles D glob F = true -> f_compiles D glob F G c = true ->
  store_ok D G s i -> f_exec D glob F fuel G s c = Some (s', r) ->
  exists i', store_ok D G s' i'
  /\ ((r = RDone /\ f_ideal glob F i c i' true) \/ (exists e, r = RRaised e /\ f_ideal glob F i c i' false)).
Proof.
  intros nat D glob F G fuel c s i s' r (HG & HF & Hok) HP Hc Hs H.
  refine (f_exec_good nat D glob F G (type_fine nat D) (cmd_fine nat D) (cond_fine nat D) (fun G t => expr_fine nat D G (Some t))
    (fun T K => proj1 K) _ _ _ HF HP fuel G s c i s' r HG (fun v _ => eq_refl) Hok Hc Hs H).
  - intros G1 f c1 s1 i1 s2 r1 K0 K1 K2 K3 K4. exact (C73_cmd nat D G1 f c1 s1 i1 s2 r1 K0 K3 K1 K2 K4).
  - intros G1 c1 s1 i1 K0 K1 K2 K3. destruct (cond_char2 nat D G1 s1 i1 c1 K0 K3 K1 K2) as [T|T%fails_throw]; [left; exact T|right; exact T].
  - intros G1 T e t s1 i1 m0 K0 KT K1 K2 K3 K4.
    destruct (outcome_convert nat D T t _ _ m0 KT (expr_char2 nat D G1 s1 i1 e (Some T) t K0 K4 K1 K2) K3) as [R|R%fails_throw]; [left|right]; exact R.
Qed.

(** more fuel: the same result *)
Lemma f_exec_mono : forall D glob F n n' G s c r, (n <= n')%nat ->
  f_exec D glob F n G s c = Some r -> f_exec D glob F n' G s c = Some r.
Proof.
  intros D glob F. induction n as [|n IHn]; [intros; discriminate|]. intros [|n'] G s c r Hn; [lia|]. revert s r.
  induction c as [c|v f args|a IHa b IHb|c a IHa b IHb|c a IHa|a IHa b IHb]; intros s r H.
  - cbn [f_exec] in *. eapply exec_mono; eassumption.
  - cbn [f_exec] in *. destruct (nth_error F f) as [d|]; [|exact H].
    destruct (snd (pass D G s (f_env d) (f_params d) args (enter glob s d))) as [fr|e| |]; try exact H.
    destruct (f_exec D glob F n (f_env d) fr (f_body d)) as [[s1 r1]|] eqn:E; [|discriminate].
    rewrite (IHn n' (f_env d) fr (f_body d) (s1, r1) ltac:(lia) E). exact H.
  - change (match f_exec D glob F (S n) G s a with Some (s1, RDone) => f_exec D glob F (S n) G s1 b | x => x end = Some r) in H.
    change (match f_exec D glob F (S n') G s a with Some (s1, RDone) => f_exec D glob F (S n') G s1 b | x => x end = Some r).
    destruct (f_exec D glob F (S n) G s a) as [[s1 [|e|]]|] eqn:E; try discriminate; rewrite (IHa _ _ E); auto.
  - change (match snd (eval_fcond D G s c) with Ret true => f_exec D glob F (S n) G s a | Ret false => f_exec D glob F (S n) G s b
            | Throw e => Some (s, RRaised e) | Undef | Trapped => Some (s, RUndef) end = Some r) in H.
    change (match snd (eval_fcond D G s c) with Ret true => f_exec D glob F (S n') G s a | Ret false => f_exec D glob F (S n') G s b
            | Throw e => Some (s, RRaised e) | Undef | Trapped => Some (s, RUndef) end = Some r).
    destruct (snd (eval_fcond D G s c)) as [[|]| | |]; auto.
  - change (loop (fun s => eval_fcond D G s c) (fun s => f_exec D glob F (S n') G s a) (S n') s = Some r).
    change (loop (fun s => eval_fcond D G s c) (fun s => f_exec D glob F (S n) G s a) (S n) s = Some r) in H.
    eapply loop_mono; [|eassumption|exact H]. intros s0 r0 H0. exact (IHa s0 r0 H0).
  - change (match f_exec D glob F (S n) G s a with Some (s1, RRaised _) => f_exec D glob F (S n) G s1 b | x => x end = Some r) in H.
    change (match f_exec D glob F (S n') G s a with Some (s1, RRaised _) => f_exec D glob F (S n') G s1 b | x => x end = Some r).
    destruct (f_exec D glob F (S n) G s a) as [[s1 [|e|]]|] eqn:E; try discriminate; rewrite (IHa _ _ E); auto.
Qed.
