(** BaseProgramFacts.v -- lemmas for PropsBaseProgram.v. *)
From Coq Require Import ZArith List Bool Arith Lia.
From Verif Require Import Base CType Spec CTypeFacts ExceptionPolicy Promotion SafeBase SafeSpec IntervalFacts Program ProgramSpec
  ProgramFacts PropsProgramProofs ComposeSpec ComposeFacts Stream StreamSpec StreamFacts PropsStreamProofs
  BaseStream BaseStreamSpec BaseStreamFacts IOProgram IOProgramSpec IOProgramFacts BaseProgram BaseProgramSpec.
Import ListNotations.
Local Open Scope Z_scope.

(** a variable with a value still has one after input; in the range of the underlying type if
    it was in that range *)
Lemma num_value_b_range : forall b D T neg ds v er, 0 <= number_b b ds -> num_value_b b D T neg ds = (v, er) -> in_type D T v.
Proof.
  intros b D T neg ds v er P H. pose proof (lo_le_0 D T) as L. pose proof (hi_ge_127 D T) as U.
  destruct (csigned D T) eqn:S; [|destruct neg].
  - apply (num_value_b_spec b D T neg ds v er); auto.
  - unfold num_value_b in H. destruct ds as [|c ds]; [injection H as <- _; unfold in_type; lia|]. rewrite S in H.
    destruct (Z.ltb_spec (hi D T) (number_b b (c :: ds))); injection H as <- _; [unfold in_type; lia|apply conv_range].
  - apply (num_value_b_spec b D T false ds v er); auto.
Qed.
Lemma input_b_some : forall b D t i x i' v m, wide_type (st t) -> input_b b D t i (Some x) = Some (i', v, m) ->
  exists z, v = Some z /\ (in_type D (st t) x -> in_type D (st t) z).
Proof.
  intros b D t i x i' v m W H. unfold input_b in H. destruct (input_compiles D t); [|discriminate].
  rewrite (wide_small _ W) in H. rewrite (wide_raw_b b D (st t) _ _ W) in H.
  assert (K : forall j, exists j' z, extract_b b D (st t) j (Some x) = (j', Some z) /\ (in_type D (st t) x -> in_type D (st t) z)).
  { intros j. destruct (good j) eqn:Gj.
    - rewrite extract_b_good by assumption. destruct (skip_ws (chars j)) as [|c r] eqn:E; [eauto|]. rewrite <- E.
      destruct (scan_b b (skip_ws (chars j))) as [[neg ds] rest] eqn:Sc.
      destruct (num_value_b b D (st t) neg ds) as [w er] eqn:N. do 2 eexists. split; [reflexivity|]. intros _.
      exact (num_value_b_range _ _ _ _ _ _ _ (scan_b_pos _ _ _ _ _ Sc) N).
    - rewrite extract_b_bad by assumption. eauto. }
  destruct (K (if csigned D (st t) then i else reject_minus i)) as (j' & z & E2 & Hz). rewrite E2 in H. exists z.
  split; [|exact Hz]. destruct (failbit j'); injection H as _ <- _; reflexivity.
Qed.

Lemma width_uac : forall D T, width D (uac D Int T) = Z.max (width D T) (width D Int).
Proof. intros D T. destruct D, T; reflexivity. Qed.
Lemma digits_b_plain : forall b fuel n, 0 <= n < 2 ^ Z.of_nat fuel -> plain (digits_b b fuel n) /\ (0 < n -> exists c r, digits_b b fuel n = c :: r /\ c <> 48).
Proof.
  intros b. assert (C : forall d, 0 <= d < radix b -> 48 <= char_of d <= 57 \/ 97 <= char_of d <= 102).
  { intros d Hd. pose proof (radix_range b). unfold char_of. destruct (Z.ltb_spec d 10); lia. }
  assert (C0 : forall d, 0 < d < radix b -> char_of d <> 48).
  { intros d Hd. unfold char_of. destruct (Z.ltb_spec d 10); lia. }
  induction fuel as [|f IH]; intros n Hn.
  - cbn in *. split; [split; [discriminate|constructor]|lia].
  - pose proof (radix_range b) as R. cbn [digits_b]. destruct (Z.ltb_spec n (radix b)) as [E|E].
    + split; [split; [discriminate|constructor; [apply C; lia|constructor]]|]. intros Hp. do 2 eexists. split; [reflexivity|apply C0; lia].
    + rewrite Nat2Z.inj_succ, Z.pow_succ_r in Hn by lia.
      assert (Q : 0 < n / radix b) by (apply Z.div_str_pos; lia).
      assert (Q2 : n / radix b < 2 ^ Z.of_nat f) by (apply Z.div_lt_upper_bound; nia).
      destruct (IH (n / radix b)) as [[_ F] K]; [lia|]. destruct (K Q) as (c & r & Ec & Nc). rewrite Ec in *. split; [split|].
      * intros c' cs' [= -> _]. congruence.
      * apply Forall_app. split; [exact F|]. constructor; [apply C; apply Z.mod_pos_bound; lia|constructor].
      * intros _. do 2 eexists. split; [reflexivity|exact Nc].
Qed.
Lemma put_b_plain : forall b D T v, b <> BDec -> plain (put_b b D T v).
Proof.
  intros b D T v N.
  assert (K : plain (digits_b b (S (Z.to_nat (Z.log2 (v mod 2 ^ width D T)))) (v mod 2 ^ width D T))).
  { set (n := v mod 2 ^ width D T).
    assert (P : 0 <= n) by (apply Z.mod_pos_bound; apply Z.pow_pos_nonneg; [lia|destruct D, T; vm_compute; discriminate]).
    apply digits_b_plain. split; [assumption|]. rewrite Nat2Z.inj_succ, Z2Nat.id by apply Z.log2_nonneg.
    destruct (Z.eq_dec n 0) as [K|K]; [rewrite K; cbn; lia|]. apply Z.log2_spec. lia. }
  destruct b; [congruence|exact K|exact K].
Qed.
Lemma written_b : forall b D s x, wf_operand D (OSafe s) -> holds D (OSafe s) x ->
  written b D (st s) (output_b b D s x) x.
Proof.
  intros b D s x W H. destruct (output_b_put b D s x W H) as [-> I]. unfold written.
  assert (K : b <> BDec -> (0 <= x -> denotes_in b (put_b b D (uac D Int (st s)) x) x)
    /\ (x < 0 -> denotes_in b (put_b b D (uac D Int (st s)) x) (x + 2 ^ Z.max (width D (st s)) (width D Int)))).
  { intros N. pose proof (put_b_spec b D (uac D Int (st s)) x N) as P.
    destruct (width_range D (uac D Int (st s))) as [R1 R2]. unfold in_type in I.
    destruct (csigned D (uac D Int (st s))) eqn:Sg.
    - destruct (R1 eq_refl) as [A B]. split; intros Hx.
      + rewrite Z.mod_small in P by lia. exact P.
      + rewrite <- width_uac. erewrite <- (Z.mod_unique_pos x _ (-1)) in P; [exact P| |]; lia.
    - pose proof (R2 eq_refl) as B. pose proof (lo_unsigned D _ Sg) as L. split; intros Hx; [|lia]. rewrite Z.mod_small in P by lia. exact P. }
  destruct b; [apply put_int_decimal|split; [apply put_b_plain; discriminate|apply K; discriminate]|split; [apply put_b_plain; discriminate|apply K; discriminate]].
Qed.

Section Go.
  Variables (D : dmodel) (G : tenv) (okc : cmd -> Prop) (okd : cond -> Prop).
  Hypothesis HG : forall v, wf_operand D (G v) /\ (forall E, get_ep (G v) = Some E -> throws_arithmetic E).
  Hypothesis Hcmd : forall fuel c s i s' r, okc c -> compiles D G c = true -> store_ok D G s i -> exec fuel D G s c = Some (s', r) ->
    exists i', store_ok D G s' i' /\ ((r = RDone /\ ideal i c i' true) \/ (exists e, r = RRaised e /\ ideal i c i' false)).
  Hypothesis Hcond : forall c s i, okd c -> cond_compiles D G c = true -> store_ok D G s i ->
    (exists t, truth i c = Some t /\ snd (eval_cond D G s c) = Ret t) \/ (exists e, snd (eval_cond D G s c) = Throw e).

  Definition bp_good (caught : bool) (c : bcmd) (q : bistate) (p' : bstate) (r : result) : Prop :=
    exists i', store_is (fst (fst p')) i'
    /\ ((r = RDone /\ store_ok D G (fst (fst p')) i' /\ bp_ideal D G q c (i', snd (fst p'), snd p') true)
        \/ (exists e, r = RRaised e /\ (caught = true -> store_ok D G (fst (fst p')) i')
            /\ bp_ideal D G q c (i', snd (fst p'), snd p') false)).

  Lemma ok_is : forall s i, store_ok D G s i -> store_is s i.
  Proof. intros s i H v. apply H. Qed.

  Lemma bp_read_good : forall v caught s t o i p' r fuel, bp_ok okc okd D G caught (BPRead v) -> bp_compiles D G (BPRead v) = true ->
    store_ok D G s i -> bp_exec fuel D G (s, t, o) (BPRead v) = Some (p', r) -> bp_good caught (BPRead v) (i, t, o) p' r.
  Proof.
    intros v caught s [b t] o i p' r fuel Hok Hc Hs H. cbn [bp_ok bp_compiles bp_exec fst snd] in *.
    destruct (HG v) as [Wf Th]. destruct (G v) as [T|a|T N P E] eqn:Gv; try discriminate. cbn [base_ty lim_lo lim_hi] in *.
    destruct Hok as [Hw Hfull]. specialize (Th (sE a) eq_refl). destruct (Hs v) as [Sv Hv]. rewrite Sv in H.
    destruct (input_b b D a t (Some (i v))) as [[[t' x] m]|] eqn:Ei; [|unfold input_b in Ei; rewrite Hc in Ei; discriminate].
    injection H as <- <-. destruct (input_b_some b D a t (i v) t' x m Hw Ei) as (z & -> & Hz).
    assert (Is : store_is (upd s v (Some z)) (upd i v z)).
    { intros w. unfold upd. destruct (Nat.eqb w v); [reflexivity|apply Hs]. }
    exists (upd i v z). split; [exact Is|]. cbn [fst snd].
    destruct (input_exact_b b D a t (Some (i v)) t' (Some z) m Hw Wf Th Ei)
      as [(sg & z' & rest & Gd & Nu & Ac & Rg & Rt & Ez & Cr & Fb)|[Tm No]].
    - injection Ez as <-. left. unfold ending. rewrite Rt. cbn. split; [reflexivity|]. split.
      + intros w. split; [apply Is|]. unfold upd. destruct (Nat.eqb_spec w v) as [->|Nw]; [rewrite Gv; exact Rg|apply Hs].
      + constructor; [|exact Fb]. exists sg. rewrite Cr, Gv. auto.
    - right. destruct Tm as (er & _ & ->). exists er. split; [reflexivity|]. split.
      + intros Hb. destruct (Hfull Hb) as [F1 F2]. rewrite Gv in Hv. unfold holds in Hv. cbn in Hv, F1, F2. unfold in_type in Hz.
        intros w. split; [apply Is|]. unfold upd. destruct (Nat.eqb_spec w v) as [->|Nw]; [|apply Hs].
        rewrite Gv. unfold holds. cbn. lia.
      + constructor. intros z' rest (sg & Gd & Nu & Ac & Rg). rewrite Gv in Ac, Rg. exact (No sg z' rest Gd Nu Ac Rg).
  Qed.

  Lemma bp_loop_good : forall c a caught body, okd c -> cond_compiles D G c = true ->
    (forall s t o i p' r, store_ok D G s i -> body (s, t, o) = Some (p', r) -> bp_good caught a (i, t, o) p' r) ->
    forall k s t o i p' r, store_ok D G s i -> bp_loop (fun s => eval_cond D G s c) body k (s, t, o) = Some (p', r) ->
    bp_good caught (BPWhile c a) (i, t, o) p' r.
  Proof.
    intros c a caught body Hc Hcc Hb. induction k as [|k IH]; intros s t o i p' r Hs H; cbn [bp_loop fst] in H; [discriminate|].
    destruct (Hcond c s i Hc Hcc Hs) as [(w & Tw & Ew)|(e & Ew)]; rewrite Ew in H.
    - destruct w.
      + destruct (body (s, t, o)) as [[[[s1 t1] o1] r1]|] eqn:Eb; [|discriminate].
        destruct (Hb s t o i _ r1 Hs Eb) as (i1 & Is & [(-> & Hs1 & I1)|(e & -> & Hs1 & I1)]); cbn [fst snd] in *.
        * destruct (IH s1 t1 o1 i1 p' r Hs1 H) as (i2 & Is2 & K). exists i2. split; [exact Is2|].
          destruct K as [(-> & Hs2 & I2)|(e & -> & Hs2 & I2)]; [left|right; exists e]; (split; [reflexivity|split; [exact Hs2|]]);
            eapply BI_while; eassumption.
        * injection H as <- <-. exists i1. split; [exact Is|]. right. exists e. split; [reflexivity|]. split; [exact Hs1|].
          eapply BI_while_body_raise; eassumption.
      + injection H as <- <-. exists i. split; [apply ok_is; exact Hs|]. left. split; [reflexivity|]. split; [exact Hs|].
        apply BI_while_end. exact Tw.
    - injection H as <- <-. exists i. split; [apply ok_is; exact Hs|]. right. exists e. split; [reflexivity|]. split; [auto|].
      apply BI_while_raise.
  Qed.

  Lemma bp_exec_good : forall fuel c caught s t o i p' r, bp_ok okc okd D G caught c -> bp_compiles D G c = true ->
    store_ok D G s i -> bp_exec fuel D G (s, t, o) c = Some (p', r) -> bp_good caught c (i, t, o) p' r.
  Proof.
    intros fuel. induction c as [c|v|v|b|b|a IHa b IHb|c a IHa b IHb|c a IHa|a IHa b IHb];
      intros caught s t o i p' r Hok Hc Hs H.
    - cbn [bp_ok bp_compiles bp_exec] in *. destruct (exec fuel D G s c) as [[s1 r1]|] eqn:E; [|discriminate]. injection H as <- <-.
      destruct (Hcmd fuel c s i s1 r1 Hok Hc Hs E) as (i' & A & [[-> B]|(e & -> & B)]); exists i'; (split; [apply ok_is; exact A|]);
        [left|right; exists e]; (split; [reflexivity|split; [auto|constructor; exact B]]).
    - eapply bp_read_good; eassumption.
    - cbn [bp_compiles bp_exec] in *. destruct (HG v) as [Wf _]. destruct (Hs v) as [Sv Hv]. rewrite Sv in H.
      destruct (G v) as [T|a|T N P E] eqn:Gv; try discriminate. injection H as <- <-. exists i. split; [apply ok_is; exact Hs|].
      left. split; [reflexivity|]. split; [exact Hs|]. destruct o as [b o]. constructor. rewrite Gv. exact (written_b b D a (i v) Wf Hv).
    - cbn [bp_exec] in H. injection H as <- <-. exists i. split; [apply ok_is; exact Hs|]. left. split; [reflexivity|]. split; [exact Hs|].
      destruct t as [b' t]. constructor.
    - cbn [bp_exec] in H. injection H as <- <-. exists i. split; [apply ok_is; exact Hs|]. left. split; [reflexivity|]. split; [exact Hs|].
      destruct o as [b' o]. constructor.
    - cbn [bp_ok bp_compiles bp_exec] in *. destruct Hok as [Ka Kb]. apply andb_true_iff in Hc. destruct Hc as [Ca Cb].
      destruct (bp_exec fuel D G (s, t, o) a) as [[[[s1 t1] o1] r1]|] eqn:E; [|discriminate].
      destruct (IHa caught s t o i _ r1 Ka Ca Hs E) as (i1 & Is & [(-> & Hs1 & I1)|(e & -> & Hs1 & I1)]); cbn [fst snd] in *.
      + destruct (IHb caught s1 t1 o1 i1 p' r Kb Cb Hs1 H) as (i2 & Is2 & K). exists i2. split; [exact Is2|].
        destruct K as [(-> & Hs2 & I2)|(e & -> & Hs2 & I2)]; [left|right; exists e]; (split; [reflexivity|split; [exact Hs2|]]);
          eapply BI_seq; eassumption.
      + injection H as <- <-. exists i1. split; [exact Is|]. right. exists e. split; [reflexivity|]. split; [exact Hs1|].
        apply BI_seq_raise. exact I1.
    - cbn [bp_ok bp_compiles bp_exec] in *. destruct Hok as (Kc & Ka & Kb). apply andb_true_iff in Hc. destruct Hc as [Hc Cb].
      apply andb_true_iff in Hc. destruct Hc as [Cc Ca].
      destruct (Hcond c s i Kc Cc Hs) as [(w & Tw & Ew)|(e & Ew)]; rewrite Ew in H.
      + assert (K : bp_good caught (if w then a else b) (i, t, o) p' r) by (destruct w; eauto).
        destruct K as (i2 & Is2 & K). exists i2. split; [exact Is2|].
        destruct K as [(-> & Hs2 & I2)|(e & -> & Hs2 & I2)]; [left|right; exists e]; (split; [reflexivity|split; [exact Hs2|]]);
          eapply BI_if; eassumption.
      + injection H as <- <-. exists i. split; [apply ok_is; exact Hs|]. right. exists e. split; [reflexivity|]. split; [auto|].
        apply BI_if_raise.
    - cbn [bp_ok bp_compiles] in *. destruct Hok as (Kc & Ka). apply andb_true_iff in Hc. destruct Hc as [Cc Ca].
      apply (bp_loop_good c a caught (fun p => bp_exec fuel D G p a) Kc Cc) with (k := fuel) (s := s); [|exact Hs|exact H].
      intros s1 t1 o1 i1 p1 r1 Hs1 E. eapply IHa; eassumption.
    - cbn [bp_ok bp_compiles bp_exec] in *. destruct Hok as [Ka Kb]. apply andb_true_iff in Hc. destruct Hc as [Ca Cb].
      destruct (bp_exec fuel D G (s, t, o) a) as [[[[s1 t1] o1] r1]|] eqn:E; [|discriminate].
      destruct (IHa true s t o i _ r1 Ka Ca Hs E) as (i1 & Is & [(-> & Hs1 & I1)|(e & -> & Hs1 & I1)]); cbn [fst snd] in *.
      + injection H as <- <-. exists i1. split; [exact Is|]. left. split; [reflexivity|]. split; [exact Hs1|]. apply BI_try. exact I1.
      + destruct (IHb caught s1 t1 o1 i1 p' r Kb Cb (Hs1 eq_refl) H) as (i2 & Is2 & K). exists i2. split; [exact Is2|].
        destruct K as [(-> & Hs2 & I2)|(e' & -> & Hs2 & I2)]; [left|right; exists e']; (split; [reflexivity|split; [exact Hs2|]]);
          eapply BI_try_catch; eassumption.
  Qed.
End Go.

Lemma C102_lemma : forall nat D G fuel c s i t o s' t' o' r,
  (forall v, type_ok nat D (G v)) -> store_ok D G s i ->
  bp_ok (cmd_ok nat D G) (cond_ok nat D) D G false c -> bp_compiles D G c = true ->
  bp_exec fuel D G (s, t, o) c = Some ((s', t', o'), r) ->
  exists i', store_is s' i'
  /\ ((r = RDone /\ store_ok D G s' i' /\ bp_ideal D G (i, t, o) c (i', t', o') true)
      \/ (exists e, r = RRaised e /\ bp_ideal D G (i, t, o) c (i', t', o') false)).
Proof.
  intros nat D G fuel c s i t o s' t' o' r HG Hs Hok Hc H.
  destruct (bp_exec_good D G (cmd_ok nat D G) (cond_ok nat D)) with (fuel := fuel) (c := c) (caught := false) (s := s) (t := t) (o := o)
    (i := i) (p' := ((s', t'), o')) (r := r) as (i' & A & B); auto.
  - intros v. destruct (HG v) as (W & T & _). split; assumption.
  - intros f c1 s1 i1 s2 r1 K1 K2 K3 K4. exact (C33_lemma nat D G f c1 s1 i1 s2 r1 HG K3 K1 K2 K4).
  - intros c1 s1 i1 K1 K2 K3. destruct (cond_char nat D G s1 i1 c1 HG K3 K1 K2) as [(w & T1 & T2)|(e & _ & T)].
    + left. exists w. split; [assumption|]. rewrite T2. reflexivity.
    + right. exists e. rewrite T. reflexivity.
  - exists i'. split; [exact A|]. cbn [fst snd] in B. destruct B as [B|(e & B1 & _ & B3)]; [left; exact B|right; eauto].
Qed.
Lemma C102_all_lemma : forall nat D G fuel c s i t o s' t' o' r,
  (forall v, type_fine nat D (G v)) -> store_ok D G s i ->
  bp_ok (cmd_fine nat D G) (cond_fine nat D G) D G false c -> bp_compiles D G c = true ->
  bp_exec fuel D G (s, t, o) c = Some ((s', t', o'), r) ->
  exists i', store_is s' i'
  /\ ((r = RDone /\ store_ok D G s' i' /\ bp_ideal D G (i, t, o) c (i', t', o') true)
      \/ (exists e, r = RRaised e /\ bp_ideal D G (i, t, o) c (i', t', o') false)).
Proof.
  intros nat D G fuel c s i t o s' t' o' r HG Hs Hok Hc H.
  destruct (bp_exec_good D G (cmd_fine nat D G) (cond_fine nat D G)) with (fuel := fuel) (c := c) (caught := false) (s := s) (t := t) (o := o)
    (i := i) (p' := ((s', t'), o')) (r := r) as (i' & A & B); auto.
  - intros v. destruct (HG v) as ((W & T & _) & _). split; assumption.
  - intros f c1 s1 i1 s2 r1 K1 K2 K3 K4. exact (C73_cmd nat D G f c1 s1 i1 s2 r1 HG K3 K1 K2 K4).
  - intros c1 s1 i1 K1 K2 K3. destruct (cond_char2 nat D G s1 i1 c1 HG K3 K1 K2) as [(w & T1 & T2)|F].
    + left. exists w. split; [assumption|]. rewrite T2. reflexivity.
    + right. destruct (fails_throw _ _ F) as (l & e & T). exists e. rewrite T. reflexivity.
  - exists i'. split; [exact A|]. cbn [fst snd] in B. destruct B as [B|(e & B1 & _ & B3)]; [left; exact B|right; eauto].
Qed.

(** the programs of C87 are the programs whose streams stay in std::dec *)
Definition lift_dec (r : option (iostate * result)) : option (bstate * result) :=
  match r with Some (p, e) => Some (state_in_decimal p, e) | None => None end.
Lemma dec_loop : forall cnd body body', (forall p, body' (state_in_decimal p) = lift_dec (body p)) ->
  forall n p, bp_loop cnd body' n (state_in_decimal p) = lift_dec (io_loop cnd body n p).
Proof.
  intros cnd body body' Hb. induction n as [|n IH]; intros p; [reflexivity|]. cbn [bp_loop io_loop].
  destruct p as [[s t] o] eqn:Ep. rewrite <- Ep. replace (fst (fst (state_in_decimal p))) with s by (subst; reflexivity).
  replace (fst (fst p)) with s by (subst; reflexivity).
  destruct (snd (cnd s)) as [[|]| | |]; try reflexivity. rewrite Hb. destruct (body p) as [[p1 [| |]]|]; try reflexivity. apply IH.
Qed.
Lemma dec_exec : forall fuel D G c p, bp_exec fuel D G (state_in_decimal p) (in_decimal c) = lift_dec (io_exec fuel D G p c).
Proof.
  intros fuel D G. induction c as [c|v|v|a IHa b IHb|c a IHa b IHb|c a IHa|a IHa b IHb]; intros [[s t] o].
  - cbn. destruct (exec fuel D G s c) as [[s1 r1]|]; reflexivity.
  - cbn [in_decimal bp_exec io_exec state_in_decimal fst snd]. destruct (G v); try reflexivity. rewrite dec_input.
    destruct (input D s0 t (s v)) as [[[t' x] m]|]; reflexivity.
  - cbn [in_decimal bp_exec io_exec state_in_decimal fst snd]. destruct (G v); try reflexivity. destruct (s v); try reflexivity.
  - specialize (IHa (s, t, o)). cbn [in_decimal bp_exec io_exec state_in_decimal] in *. rewrite IHa.
    destruct (io_exec fuel D G (s, t, o) a) as [[p1 [| |]]|]; try reflexivity. cbn [lift_dec]. apply IHb.
  - specialize (IHa (s, t, o)). specialize (IHb (s, t, o)). cbn [in_decimal bp_exec io_exec state_in_decimal] in *.
    rewrite IHa, IHb. destruct (snd (eval_cond D G s c)) as [[|]| | |]; reflexivity.
  - exact (dec_loop _ _ _ IHa fuel (s, t, o)).
  - specialize (IHa (s, t, o)). cbn [in_decimal bp_exec io_exec state_in_decimal] in *. rewrite IHa.
    destruct (io_exec fuel D G (s, t, o) a) as [[p1 [| |]]|]; try reflexivity. cbn [lift_dec]. apply IHb.
Qed.
Lemma dec_compiles : forall D G c, bp_compiles D G (in_decimal c) = io_compiles D G c.
Proof.
  intros D G. induction c as [c|v|v|a IHa b IHb|c a IHa b IHb|c a IHa|a IHa b IHb]; cbn; rewrite ?IHa, ?IHb; reflexivity.
Qed.
Lemma C102_decimal_lemma : forall fuel D G c s t o,
  bp_compiles D G (in_decimal c) = io_compiles D G c
  /\ bp_exec fuel D G (s, (BDec, t), (BDec, o)) (in_decimal c)
     = match io_exec fuel D G (s, t, o) c with
       | Some ((s', t', o'), r) => Some ((s', (BDec, t'), (BDec, o')), r)
       | None => None
       end.
Proof.
  intros fuel D G c s t o. split; [apply dec_compiles|]. pose proof (dec_exec fuel D G c (s, t, o)) as H. cbn [state_in_decimal] in H.
  rewrite H. destruct (io_exec fuel D G (s, t, o) c) as [[[[s' t'] o'] r]|]; reflexivity.
Qed.
