(** ToldProgFacts.v -- lemmas for C100: stream input, and programs with input and output, arrays
    and functions. *)
From Coq Require Import ZArith Bool List Lia.
From Verif Require Import Base CType Spec ExceptionPolicy Promotion SafeBase SafeSpec Program Stream IOProgram
  ArrayProgram FunProgram BaseStream BaseStreamFacts ToldSpec ToldFacts ToldProgSpec.
Import ListNotations.
Local Open Scope Z_scope.

Lemma input_b_told : forall b D s i old i' v m, input_b b D s i old = Some (i', v, m) -> told (fun E => E = sE s) m.
Proof.
  intros b D s i old i' v m H. unfold input_b in H.
  destruct (input_compiles D s) eqn:C; [|discriminate].
  assert (Hd : dispatch_compiles (sE s) domain_error = true).
  { unfold input_compiles in C. destruct (construct D s (ORaw Int) 0); [|discriminate].
    destruct (construct D s (ORaw (st s)) 0); [exact C|discriminate]. }
  assert (Hv : forall T x, told (fun E => E = sE s) (mbind (validated D s T x) (fun _ => mret tt))).
  { intros T x. apply told_bind; [|intros a; apply told_ret]. unfold validated.
    destruct (construct D s (ORaw T) x) as [m0|] eqn:E; [exact (construct_told _ _ _ _ _ E)|apply told_undef]. }
  destruct (is_small_char (st s)).
  - destruct (extract_b b D Int i None) as [i1 [x|]]; injection H as <- <- <-; [apply Hv|apply told_undef].
  - destruct (extract_raw_b b D (st s) (if csigned D (st s) then i else reject_minus i) old) as [i2 x].
    destruct (failbit i2).
    + injection H as <- <- <-. apply told_dispatch; [reflexivity|exact Hd].
    + destruct x as [x|]; injection H as <- <- <-; [apply Hv|apply told_undef].
Qed.
Lemma input_told : forall D s i old i' v m, input D s i old = Some (i', v, m) -> told (fun E => E = sE s) m.
Proof. intros D s i old i' v m H. rewrite <- dec_input in H. exact (input_b_told _ _ _ _ _ _ _ _ H). Qed.

(** input and output *)
Lemma io_loop_thrown : forall Es (cnd : store -> M bool) body n p p' r,
  (forall s, told Es (cnd s)) -> (forall p p1 r, body p = Some (p1, r) -> thrown Es r) ->
  io_loop cnd body n p = Some (p', r) -> thrown Es r.
Proof.
  intros Es cnd body. induction n as [|n IH]; intros p p' r Hc Hb H; cbn [io_loop] in H; [discriminate|].
  destruct (snd (cnd (fst (fst p)))) as [[|]|e| |] eqn:Ec.
  - destruct (body p) as [[p1 [|e|]]|] eqn:Eb; try discriminate.
    + exact (IH _ _ _ Hc Hb H).
    + injection H as <- <-. exact (Hb _ _ _ Eb).
    + injection H as <- <-. exact I.
  - injection H as <- <-. exact I.
  - injection H as <- <-. exact (told_thrown _ _ _ _ (Hc _) Ec).
  - injection H as <- <-. exact I.
  - injection H as <- <-. exact I.
Qed.
Lemma io_thrown : forall n D G c p p' r, io_exec n D G p c = Some (p', r) -> thrown (occurs_io G c) r.
Proof.
  intros n D G. induction c as [c|v|v|a IHa b IHb|c a IHa b IHb|c a IHa|a IHa b IHb];
    intros [[s i] o] p' r H; cbn [io_exec] in H.
  - destruct (exec n D G s c) as [[s1 r1]|] eqn:E; [|discriminate]. injection H as <- <-.
    exact (exec_thrown _ _ _ _ _ _ _ E).
  - destruct (G v) as [T|t|T N P E] eqn:Ev; try (injection H as <- <-; exact I).
    destruct (input D t i (s v)) as [[[i1 x] m]|] eqn:Em; injection H as <- <-; [|exact I].
    pose proof (input_told _ _ _ _ _ _ _ Em) as Hm. unfold ending.
    destruct (snd m) as [a|e| |] eqn:Eo; cbn [thrown]; auto.
    destruct (told_thrown _ _ _ _ Hm Eo) as (E & -> & Ha). exists (sE t). split; [|exact Ha].
    cbn [occurs_io]. rewrite Ev. reflexivity.
  - destruct (G v) as [T|t|T N P E], (s v); injection H as <- <-; exact I.
  - destruct (io_exec n D G (s, i, o) a) as [[p1 [|e|]]|] eqn:Ea; try discriminate.
    + eapply thrown_mono; [|exact (IHb _ _ _ H)]. intros E HE. cbn [occurs_io]. auto.
    + injection H as <- <-. eapply thrown_mono; [|exact (IHa _ _ _ Ea)]. intros E HE. cbn [occurs_io]. auto.
    + injection H as <- <-. exact I.
  - destruct (snd (eval_cond D G s c)) as [[|]|e| |] eqn:Ec.
    + eapply thrown_mono; [|exact (IHa _ _ _ H)]. intros E HE. cbn [occurs_io]. auto.
    + eapply thrown_mono; [|exact (IHb _ _ _ H)]. intros E HE. cbn [occurs_io]. auto.
    + injection H as <- <-. destruct (told_thrown _ _ _ _ (cond_told D G s c) Ec) as (E & HE & Ha).
      exists E. split; [cbn [occurs_io]; auto|exact Ha].
    + injection H as <- <-. exact I.
    + injection H as <- <-. exact I.
  - eapply io_loop_thrown; [| |exact H].
    + intros s0. eapply told_mono; [|exact (cond_told D G s0 c)]. intros E HE. cbn [occurs_io]. auto.
    + intros p0 p1 r0 H0. eapply thrown_mono; [|exact (IHa _ _ _ H0)]. intros E HE. cbn [occurs_io]. auto.
  - destruct (io_exec n D G (s, i, o) a) as [[p1 [|e|]]|] eqn:Ea; try discriminate.
    + injection H as <- <-. exact I.
    + eapply thrown_mono; [|exact (IHb _ _ _ H)]. intros E HE. cbn [occurs_io]. auto.
    + injection H as <- <-. exact I.
Qed.
Lemma io_raised : forall n D G c p p' e, io_exec n D G p c = Some (p', RRaised e) ->
  exists E, occurs_io G c E /\ answers E e HThrow.
Proof. intros n D G c p p' e H. exact (io_thrown _ _ _ _ _ _ _ H). Qed.

(** arrays *)
Lemma run_convert_told : forall (Es : ep -> Prop) D tgt src x,
  (forall E, get_ep tgt = Some E -> Es E) -> (forall E, get_ep src = Some E -> Es E) ->
  told Es (run (convert D tgt src x)).
Proof.
  intros Es D tgt src x H1 H2. apply run_told. intros m Hm.
  eapply told_mono; [|exact (convert_told _ _ _ _ _ Hm)]. intros E HE.
  destruct tgt as [T|ts|T N P F]; cbn [checker get_ep] in *; auto. subst E. auto.
Qed.
Lemma a_finish_thrown : forall (B : Type) Es p (m : M B) w p' r, told Es m -> a_finish p m w = (p', r) -> thrown Es r.
Proof.
  intros B Es p m w p' r Hm H. unfold a_finish in H.
  destruct (snd m) as [a|e| |] eqn:Eo; injection H as <- <-; cbn [thrown]; auto. exact (told_thrown _ _ _ _ Hm Eo).
Qed.
Lemma position_told : forall (Es : ep -> Prop) D G s l t e, type_of D G e = Some t ->
  (forall E, occurs G e E -> Es E) -> told Es (position D G s l t e).
Proof.
  intros Es D G s l t e Ht H. unfold position. apply told_bind; [eapply told_mono; [exact H|apply eval_told]|].
  intros x. apply told_bind.
  - unfold subscript. destruct t as [T|ts|T N P F]; [apply told_ret| |];
      (apply run_convert_told; [discriminate|]); intros E HE; apply H; eapply type_occurs; eassumption.
  - intros k. destruct (in_array l k); [apply told_ret|apply told_undef].
Qed.
Lemma a_loop_thrown : forall Es (cnd : store -> M bool) body n p p' r,
  (forall s, told Es (cnd s)) -> (forall p p1 r, body p = Some (p1, r) -> thrown Es r) ->
  a_loop cnd body n p = Some (p', r) -> thrown Es r.
Proof.
  intros Es cnd body. induction n as [|n IH]; intros p p' r Hc Hb H; cbn [a_loop] in H; [discriminate|].
  destruct (snd (cnd (fst p))) as [[|]|e| |] eqn:Ec.
  - destruct (body p) as [[p1 [|e|]]|] eqn:Eb; try discriminate.
    + exact (IH _ _ _ Hc Hb H).
    + injection H as <- <-. exact (Hb _ _ _ Eb).
    + injection H as <- <-. exact I.
  - injection H as <- <-. exact I.
  - injection H as <- <-. exact (told_thrown _ _ _ _ (Hc _) Ec).
  - injection H as <- <-. exact I.
  - injection H as <- <-. exact I.
Qed.
Lemma a_thrown : forall n D G A c p p' r, a_exec n D G A p c = Some (p', r) -> thrown (occurs_array G A c) r.
Proof.
  intros n D G A. induction c as [c|v a e|a f e d|x IHx y IHy|c x IHx y IHy|c x IHx|x IHx y IHy];
    intros [s m] p' r H; cbn [a_exec] in H.
  - destruct (exec n D G s c) as [[s1 r1]|] eqn:E; [|discriminate]. injection H as <- <-.
    exact (exec_thrown _ _ _ _ _ _ _ E).
  - destruct (type_of D G e) as [t|] eqn:Et; [|injection H as <- <-; exact I].
    injection H as H. eapply a_finish_thrown; [|exact H]. apply told_bind.
    + eapply position_told; [exact Et|]. intros E HE. cbn [occurs_array]. auto.
    + intros k. apply run_convert_told; intros E HE; cbn [occurs_array]; auto.
  - destruct (type_of D G e) as [t|] eqn:Et; [|injection H as <- <-; exact I].
    destruct (type_of D G d) as [u|] eqn:Eu; [|injection H as <- <-; exact I].
    injection H as H. eapply a_finish_thrown; [|exact H]. apply told_bind.
    + apply both_told; [eapply position_told; [exact Et|]|eapply told_mono; [|apply eval_told]];
        intros E HE; cbn [occurs_array]; auto.
    + intros q. apply told_bind; [|intros z; apply told_ret].
      apply run_convert_told; intros E HE; cbn [occurs_array]; [auto|].
      right. right. eapply type_occurs; eassumption.
  - destruct (a_exec n D G A (s, m) x) as [[p1 [|e|]]|] eqn:Ea; try discriminate.
    + eapply thrown_mono; [|exact (IHy _ _ _ H)]. intros E HE. cbn [occurs_array]. auto.
    + injection H as <- <-. eapply thrown_mono; [|exact (IHx _ _ _ Ea)]. intros E HE. cbn [occurs_array]. auto.
    + injection H as <- <-. exact I.
  - destruct (snd (eval_cond D G s c)) as [[|]|e| |] eqn:Ec.
    + eapply thrown_mono; [|exact (IHx _ _ _ H)]. intros E HE. cbn [occurs_array]. auto.
    + eapply thrown_mono; [|exact (IHy _ _ _ H)]. intros E HE. cbn [occurs_array]. auto.
    + injection H as <- <-. destruct (told_thrown _ _ _ _ (cond_told D G s c) Ec) as (E & HE & Ha).
      exists E. split; [cbn [occurs_array]; auto|exact Ha].
    + injection H as <- <-. exact I.
    + injection H as <- <-. exact I.
  - eapply a_loop_thrown; [| |exact H].
    + intros s0. eapply told_mono; [|exact (cond_told D G s0 c)]. intros E HE. cbn [occurs_array]. auto.
    + intros p0 p1 r0 H0. eapply thrown_mono; [|exact (IHx _ _ _ H0)]. intros E HE. cbn [occurs_array]. auto.
  - destruct (a_exec n D G A (s, m) x) as [[p1 [|e|]]|] eqn:Ea; try discriminate.
    + injection H as <- <-. exact I.
    + eapply thrown_mono; [|exact (IHy _ _ _ H)]. intros E HE. cbn [occurs_array]. auto.
    + injection H as <- <-. exact I.
Qed.
Lemma a_raised : forall n D G A c p p' e, a_exec n D G A p c = Some (p', RRaised e) ->
  exists E, occurs_array G A c E /\ answers E e HThrow.
Proof. intros n D G A c p p' e H. exact (a_thrown _ _ _ _ _ _ _ _ H). Qed.

(** functions *)
Lemma fcond_told : forall D G s c, told (occurs_fcond G c) (eval_fcond D G s c).
Proof.
  intros D G s. induction c as [c|a IHa|a IHa b IHb|a IHa b IHb]; cbn [eval_fcond occurs_fcond].
  - apply cond_told.
  - apply told_bind; [exact IHa|]. intros x. apply told_ret.
  - apply told_bind; [eapply told_mono; [|exact IHa]; auto|]. intros [|]; [eapply told_mono; [|exact IHb]; auto|apply told_ret].
  - apply told_bind; [eapply told_mono; [|exact IHa]; auto|]. intros [|]; [apply told_ret|eapply told_mono; [|exact IHb]; auto].
Qed.
Lemma pass_told : forall (Es : ep -> Prop) D G s E ps args fr,
  (forall p F, In p ps -> get_ep (E p) = Some F -> Es F) -> (forall e F, In e args -> occurs G e F -> Es F) ->
  told Es (pass D G s E ps args fr).
Proof.
  intros Es D G s E. induction ps as [|p ps IH]; intros [|e args] fr Hp He; cbn [pass];
    try apply told_undef; [apply told_ret|].
  destruct (type_of D G e) as [t|] eqn:Et; [|apply told_undef].
  apply told_bind; [eapply told_mono; [|apply eval_told]; intros F HF; eapply He; [left; reflexivity|exact HF]|].
  intros x. apply told_bind.
  - apply run_convert_told; intros F HF.
    + eapply Hp; [left; reflexivity|exact HF].
    + eapply He; [left; reflexivity|]. eapply type_occurs; eassumption.
  - intros y. apply IH.
    + intros q F Hq. apply Hp. right. exact Hq.
    + intros d F Hd. apply He. right. exact Hd.
Qed.
Lemma f_thrown : forall D glob F n G c s s' r, f_exec D glob F n G s c = Some (s', r) ->
  thrown (fun E => occurs_fcmd G c E \/ exists d, In d F /\ occurs_function d E) r.
Proof.
  intros D glob F. induction n as [|n IH]; intros G c s s' r H; [discriminate|].
  revert s s' r H. induction c as [c|v f args|a IHa b IHb|c a IHa b IHb|c a IHa|a IHa b IHb];
    intros s s' r H; cbn [f_exec] in H.
  - eapply thrown_mono; [|exact (exec_thrown _ _ _ _ _ _ _ H)]. intros E HE. left. exact HE.
  - destruct (nth_error F f) as [d|] eqn:Ed; [|injection H as <- <-; exact I].
    pose proof (nth_error_In _ _ Ed) as Id.
    assert (Hp : told (fun E => occurs_fcmd G (FCall v f args) E \/ exists d, In d F /\ occurs_function d E)
                   (pass D G s (f_env d) (f_params d) args (enter glob s d))).
    { apply pass_told.
      - intros p E Ip HE. right. exists d. split; [exact Id|]. left. exists p. auto.
      - intros e E Ie HE. left. right. exists e. auto. }
    destruct (snd (pass D G s (f_env d) (f_params d) args (enter glob s d))) as [fr|e| |] eqn:Ep.
    + destruct (f_exec D glob F n (f_env d) fr (f_body d)) as [[s1 [|e|]]|] eqn:Eb; try discriminate.
      * cbv zeta in H. destruct (type_of D (f_env d) (f_result d)) as [t|] eqn:Et; [|injection H as <- <-; exact I].
        injection H as H. eapply finish_thrown; [|exact H]. apply told_bind; [|intros x; apply told_bind; [|intros y]].
        -- eapply told_mono; [|apply eval_told]. intros E HE. right. exists d. split; [exact Id|].
           unfold occurs_function. auto.
        -- apply run_convert_told; intros E HE; right; exists d; (split; [exact Id|]); unfold occurs_function.
           ++ auto.
           ++ right. right. left. eapply type_occurs; eassumption.
        -- apply run_convert_told; intros E HE.
           ++ left. left. exact HE.
           ++ right. exists d. split; [exact Id|]. unfold occurs_function. auto.
      * injection H as <- <-. eapply thrown_mono; [|exact (IH _ _ _ _ _ Eb)].
        intros E [HE|HE]; right; [|exact HE]. exists d. split; [exact Id|]. unfold occurs_function. auto.
      * injection H as <- <-. exact I.
    + injection H as <- <-. exact (told_thrown _ _ _ _ Hp Ep).
    + injection H as <- <-. exact I.
    + injection H as <- <-. exact I.
  - match type of H with match ?x with _ => _ end = _ => destruct x as [[s1 [|e|]]|] eqn:Ea end; try discriminate.
    + eapply thrown_mono; [|exact (IHb _ _ _ H)]. intros E [HE|HE]; [left; right; exact HE|right; exact HE].
    + injection H as <- <-. eapply thrown_mono; [|exact (IHa _ _ _ Ea)]. intros E [HE|HE]; [left; left; exact HE|right; exact HE].
    + injection H as <- <-. exact I.
  - destruct (snd (eval_fcond D G s c)) as [[|]|e| |] eqn:Ec.
    + eapply thrown_mono; [|exact (IHa _ _ _ H)]. intros E [HE|HE]; [left; right; left; exact HE|right; exact HE].
    + eapply thrown_mono; [|exact (IHb _ _ _ H)]. intros E [HE|HE]; [left; right; right; exact HE|right; exact HE].
    + injection H as <- <-. destruct (told_thrown _ _ _ _ (fcond_told D G s c) Ec) as (E & HE & Ha).
      exists E. split; [left; left; exact HE|exact Ha].
    + injection H as <- <-. exact I.
    + injection H as <- <-. exact I.
  - eapply loop_thrown; [| |exact H].
    + intros s0. eapply told_mono; [|exact (fcond_told D G s0 c)]. intros E HE. left. left. exact HE.
    + intros p0 p1 r0 H0. eapply thrown_mono; [|exact (IHa _ _ _ H0)].
      intros E [HE|HE]; [left; right; exact HE|right; exact HE].
  - match type of H with match ?x with _ => _ end = _ => destruct x as [[s1 [|e|]]|] eqn:Ea end; try discriminate.
    + injection H as <- <-. exact I.
    + eapply thrown_mono; [|exact (IHb _ _ _ H)]. intros E [HE|HE]; [left; right; exact HE|right; exact HE].
    + injection H as <- <-. exact I.
Qed.
Lemma f_raised : forall n D glob F G c s s' e, f_exec D glob F n G s c = Some (s', RRaised e) ->
  exists E, (occurs_fcmd G c E \/ exists d, In d F /\ occurs_function d E) /\ answers E e HThrow.
Proof. intros n D glob F G c s s' e H. exact (f_thrown _ _ _ _ _ _ _ _ _ H). Qed.
