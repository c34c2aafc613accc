(** BaseLossFacts.v -- programs with input and output in several bases raise nothing if the
    input is as expected and nothing is lost: proofs. *)
From Coq Require Import ZArith List Bool Arith Lia.
From Verif Require Import Base CType Spec ExceptionPolicy Promotion SafeBase SafeSpec IntervalFacts Program ProgramSpec
  SafeFacts ProgramFacts PropsProgramProofs ComposeSpec ComposeFacts BuiltinSpec BuiltinFacts BuiltinAllSpec BuiltinAllFacts
  Stream StreamSpec StreamFacts PropsStreamProofs BaseStream BaseStreamSpec BaseStreamFacts IOProgram IOProgramSpec IOProgramFacts
  IOLossSpec IOLossFacts BaseProgram BaseProgramSpec BaseProgramFacts BaseLossSpec.
Import ListNotations.
Local Open Scope Z_scope.

(** what is written is determined by the value *)
Lemma denotes_in_pos : forall b cs n, denotes_in b cs n -> 0 <= n.
Proof. induction 1 as [c d [H _]|cs n c d H IH [Hd _]]; destruct b; lia. Qed.
Lemma denotes_in_zero : forall b cs n, denotes_in b cs n -> n = 0 -> exists r, cs = 48 :: r.
Proof.
  induction 1 as [c d [H [[L ->]|[L _]]]|cs n c d H IH [Hd _]]; intros E; [|lia|].
  - subst d. exists []. reflexivity.
  - pose proof (denotes_in_pos b cs n H). destruct IH as (r & ->); [destruct b; lia|]. exists (r ++ [c]). reflexivity.
Qed.
Lemma plain_init : forall ds c, plain (ds ++ [c]) -> plain ds.
Proof.
  intros ds c [A B]. split; [|apply Forall_app in B; apply B]. intros d r ->. apply (A d (r ++ [c])). reflexivity.
Qed.
Lemma plain_last : forall ds c, plain (ds ++ [c]) -> 48 <= c <= 57 \/ 97 <= c <= 102.
Proof. intros ds c [A B]. apply Forall_app in B. destruct B as [_ B]. inversion B. assumption. Qed.
Lemma digit_in_unique : forall b c c' d, digit_in b c d -> digit_in b c' d ->
  (48 <= c <= 57 \/ 97 <= c <= 102) -> (48 <= c' <= 57 \/ 97 <= c' <= 102) -> c = c'.
Proof. intros b c c' d [_ H] [_ H'] P P'. destruct b; lia. Qed.
Lemma denotes_in_unique : forall b cs n, denotes_in b cs n -> plain cs -> forall cs', denotes_in b cs' n -> plain cs' -> cs = cs'.
Proof.
  intros b. set (k := match b with BDec => 10 | BOct => 8 | BHex => 16 end).
  assert (Hk : 8 <= k <= 16) by (destruct b; cbn; lia).
  assert (Rg : forall c d, digit_in b c d -> 0 <= d < k) by (intros c d [H _]; exact H).
  assert (One : forall cs n c d, denotes_in b cs n -> plain (cs ++ [c]) -> 0 <= d < k -> k * n + d < k -> False).
  { intros cs n c d H [Z _] Hd L. pose proof (denotes_in_pos b cs n H). assert (n = 0) by nia.
    destruct (denotes_in_zero b cs n H) as (r & ->); [assumption|].
    destruct r as [|x r]; [apply (Z c []); reflexivity|apply (Z x (r ++ [c])); reflexivity]. }
  induction 1 as [c d Hc|cs n c d H IH Hc]; intros Z cs' H' Z'.
  - remember d as e eqn:Ee. destruct H' as [c' d' Hc'|cs1 n1 c1 d1 H1 Hc1].
    + f_equal. exact (digit_in_unique b c c' d' Hc Hc' (plain_last [] c Z) (plain_last [] c' Z')).
    + exfalso. apply (One cs1 n1 c1 d1 H1 Z'); [exact (Rg _ _ Hc1)|]. pose proof (Rg _ _ Hc). unfold k in *. lia.
  - remember (match b with BDec => 10 | BOct => 8 | BHex => 16 end * n + d) as e eqn:Ee. fold k in Ee.
    destruct H' as [c' d' Hc'|cs1 n1 c1 d1 H1 Hc1].
    + exfalso. apply (One cs n c d H Z); [exact (Rg _ _ Hc)|]. pose proof (Rg _ _ Hc'). lia.
    + fold k in Ee. pose proof (Rg _ _ Hc). pose proof (Rg _ _ Hc1).
      assert (n1 = n /\ d1 = d) as [-> ->].
      { assert (n1 = n) by nia. split; [assumption|]. subst. lia. }
      f_equal; [apply IH; [eapply plain_init; exact Z|exact H1|eapply plain_init; exact Z']|].
      f_equal. exact (digit_in_unique b c c1 d Hc Hc1 (plain_last _ _ Z) (plain_last _ _ Z')).
Qed.
Lemma written_unique : forall b D T cs cs' z, written b D T cs z -> written b D T cs' z -> cs = cs'.
Proof.
  intros b D T cs cs' z H H'. destruct b; [exact (decimal_unique _ _ _ H H')| |];
    destruct H as (P & A & B), H' as (P' & A' & B'); destruct (Z.lt_ge_cases z 0) as [L|L];
    [exact (denotes_in_unique _ _ _ (B L) P _ (B' L) P')|exact (denotes_in_unique _ _ _ (A L) P _ (A' L) P')
    |exact (denotes_in_unique _ _ _ (B L) P _ (B' L) P')|exact (denotes_in_unique _ _ _ (A L) P _ (A' L) P')].
Qed.

(** more fuel, same result *)
Lemma bp_loop_mono : forall cnd body body', (forall p r, body p = Some r -> body' p = Some r) ->
  forall n n' p r, (n <= n')%nat -> bp_loop cnd body n p = Some r -> bp_loop cnd body' n' p = Some r.
Proof.
  intros cnd body body' Hb. induction n as [|n IH]; intros n' p r Hn H; cbn [bp_loop] in H; [discriminate|].
  destruct n' as [|n']; [lia|]. cbn [bp_loop].
  destruct (snd (cnd (fst (fst p)))) as [[|]| | |]; auto.
  destruct (body p) as [[p1 [|e|]]|] eqn:E; try discriminate; rewrite (Hb p _ E); auto.
  apply IH; [lia|assumption].
Qed.
Lemma bp_exec_mono : forall D G n n', (n <= n')%nat -> forall c p r, bp_exec n D G p c = Some r -> bp_exec n' D G p c = Some r.
Proof.
  intros D G n n' Hn. induction c as [c|v|v|b|b|a IHa b IHb|c a IHa b IHb|c a IHa|a IHa b IHb]; intros [[s t] o] r H; cbn [bp_exec] in *.
  - destruct (exec n D G s c) as [q|] eqn:E; [|discriminate]. assert (E2 : exec n' D G s c = Some q) by (eapply exec_mono; eassumption); rewrite E2. exact H.
  - exact H.
  - exact H.
  - exact H.
  - exact H.
  - destruct (bp_exec n D G (s, t, o) a) as [[p1 [|e|]]|] eqn:E; try discriminate; rewrite (IHa _ _ E); auto.
  - destruct (snd (eval_cond D G s c)) as [[|]| | |]; auto.
  - eapply bp_loop_mono; [|exact Hn|exact H]. exact IHa.
  - destruct (bp_exec n D G (s, t, o) a) as [[p1 [|e|]]|] eqn:E; try discriminate; rewrite (IHa _ _ E); auto.
Qed.

Section Go.
  Variables (D : dmodel) (G : tenv) (okc : cmd -> Prop) (okd : cond -> Prop).
  Hypothesis HG : forall v, wf_operand D (G v) /\ (forall E, get_ep (G v) = Some E -> throws_arithmetic E).
  Hypothesis Hcmd : forall f c s i i', okc c -> compiles D G c = true -> store_ok D G s i ->
    lossless_exec f D G i c = Some i' -> exists s', exec f D G s c = Some (s', RDone) /\ store_ok D G s' i'.
  Hypothesis Hcond : forall c s i t, okd c -> cond_compiles D G c = true -> store_ok D G s i ->
    lossless_cond D G i c = Some t -> returns (eval_cond D G s c) t.

  Lemma bp_read_quiet : forall b v s i t z rest, wide_type (base_ty (G v)) -> bp_compiles D G (BPRead v) = true ->
    store_ok D G s i -> offers_in b D G t v z rest -> forall n o,
    bp_exec n D G (s, (b, t), o) (BPRead v) = Some ((upd s v (Some z), (b, remaining rest), o), RDone).
  Proof.
    intros b v s i t z rest Hw Hc Hs (sg & Gd & Nu & Ac & Rg) n o. cbn [bp_compiles bp_exec fst snd] in *.
    destruct (HG v) as [Wf Th]. destruct (G v) as [T|a|T N P E] eqn:Gv; try discriminate. cbn [base_ty] in *.
    specialize (Th (sE a) eq_refl).
    destruct (input_b b D a t (s v)) as [[[t' x] m]|] eqn:Ei; [|unfold input_b in Ei; rewrite Hc in Ei; discriminate].
    destruct (input_wide_b b D a t (s v) t' x m Hw Wf Th Ei) as [(sg' & z' & rest' & _ & Nu' & _ & _ & R & -> & ->)|(_ & No)].
    - destruct (numeral_unique_b _ _ _ _ _ _ _ _ Nu Nu') as (<- & <- & _). rewrite R. reflexivity.
    - exfalso. exact (No sg z rest Gd Nu Ac Rg).
  Qed.

  Lemma bp_exec_quiet : forall p c p', bp_lossless D G p c p' ->
    forall caught s, bp_ok okc okd D G caught c -> bp_compiles D G c = true -> store_ok D G s (fst (fst p)) ->
    exists n s', bp_exec n D G (s, snd (fst p), snd p) c = Some ((s', snd (fst p'), snd p'), RDone) /\ store_ok D G s' (fst (fst p')).
  Proof.
    induction 1 as [n i t o c i' L|i b t o v z rest Of|i t b o v cs Dc|i b t o b'|i t b o b'|p a p1 b p2 La IHa Lb IHb|i t o c w a b p1 Lc La IHa
      |i t o c a Lc|i t o c a p1 p2 Lc La IHa Lw IHw|p a b p1 La IHa]; intros caught s Hok Hc Hs; cbn [fst snd] in *.
    - cbn [bp_ok bp_compiles] in *. destruct (Hcmd n c s i i' Hok Hc Hs L) as (s' & E & S'). exists n, s'. split; [|exact S'].
      cbn [bp_exec]. rewrite E. reflexivity.
    - destruct Hok as [Hw _]. exists 0%nat, (upd s v (Some z)). split; [exact (bp_read_quiet b v s i t z rest Hw Hc Hs Of 0 o)|].
      apply store_ok_upd; [exact Hs|]. destruct Of as (sg & _ & _ & _ & Rg). exact Rg.
    - cbn [bp_compiles] in Hc. exists 0%nat, s. split; [|exact Hs]. cbn [bp_exec]. destruct (HG v) as [Wf _].
      destruct (Hs v) as [Sv Hv]. rewrite Sv. destruct (G v) as [T|a|T N P E] eqn:Gv; try discriminate.
      cbn [fst snd]. rewrite (written_unique _ _ _ _ _ _ (written_b b D a (i v) Wf Hv) Dc). reflexivity.
    - exists 0%nat, s. split; [reflexivity|exact Hs].
    - exists 0%nat, s. split; [reflexivity|exact Hs].
    - cbn [bp_ok bp_compiles] in *. destruct Hok as [Ka Kb]. apply andb_true_iff in Hc. destruct Hc as [Ca Cb].
      destruct p as [[i t] o], p1 as [[i1 t1] o1]. cbn [fst snd] in *.
      destruct (IHa caught s Ka Ca Hs) as (n & s1 & E1 & S1). destruct (IHb caught s1 Kb Cb S1) as (m & s2 & E2 & S2).
      exists (Nat.max n m), s2. split; [|exact S2]. cbn [bp_exec].
      rewrite (bp_exec_mono D G n (Nat.max n m) ltac:(lia) _ _ _ E1). exact (bp_exec_mono D G m (Nat.max n m) ltac:(lia) _ _ _ E2).
    - cbn [bp_ok bp_compiles] in *. destruct Hok as (Kc & Ka & Kb). apply andb_true_iff in Hc. destruct Hc as [Hc Cb].
      apply andb_true_iff in Hc. destruct Hc as [Cc Ca].
      destruct (IHa caught s ltac:(destruct w; assumption) ltac:(destruct w; assumption) Hs) as (n & s1 & E1 & S1).
      exists n, s1. split; [|exact S1]. cbn [bp_exec]. rewrite (Hcond c s i w Kc Cc Hs Lc). cbn [snd]. destruct w; exact E1.
    - cbn [bp_ok bp_compiles] in *. destruct Hok as (Kc & Ka). apply andb_true_iff in Hc. destruct Hc as [Cc Ca].
      exists 1%nat, s. split; [|exact Hs]. cbn [bp_exec bp_loop fst]. rewrite (Hcond c s i false Kc Cc Hs Lc). reflexivity.
    - pose proof Hok as Hok'. pose proof Hc as Hc'. cbn [bp_ok bp_compiles] in Hok, Hc. destruct Hok as (Kc & Ka).
      apply andb_true_iff in Hc. destruct Hc as [Cc Ca]. destruct p1 as [[i1 t1] o1]. cbn [fst snd] in *.
      destruct (IHa caught s Ka Ca Hs) as (n & s1 & E1 & S1). destruct (IHw caught s1 Hok' Hc' S1) as (m & s2 & E2 & S2).
      exists (S (Nat.max n m)), s2. split; [|exact S2]. cbn [bp_exec] in *.
      set (k := S (Nat.max n m)) in *. unfold k at 2. cbn [bp_loop fst].
      rewrite (Hcond c s i true Kc Cc Hs Lc). cbn [snd].
      rewrite (bp_exec_mono D G n k ltac:(lia) _ _ _ E1).
      eapply bp_loop_mono; [| |exact E2]; [|lia]. intros p r. apply bp_exec_mono. lia.
    - cbn [bp_ok bp_compiles] in *. destruct Hok as [Ka Kb]. apply andb_true_iff in Hc. destruct Hc as [Ca Cb].
      destruct p as [[i t] o]. cbn [fst snd] in *. destruct (IHa true s Ka Ca Hs) as (n & s1 & E1 & S1).
      exists n, s1. split; [|exact S1]. cbn [bp_exec]. rewrite E1. reflexivity.
  Qed.
End Go.

Lemma C102_quiet : forall D G c s i t o i' t' o',
  (forall v, type_ok true D (G v)) -> store_ok D G s i ->
  bp_ok (cmd_ok true D G) (cond_ok true D) D G false c -> bp_compiles D G c = true ->
  bp_lossless D G (i, t, o) c (i', t', o') ->
  exists fuel s', bp_exec fuel D G (s, t, o) c = Some ((s', t', o'), RDone) /\ store_ok D G s' i'.
Proof.
  intros D G c s i t o i' t' o' HG Hs Hok Hc L.
  refine (bp_exec_quiet D G (cmd_ok true D G) (cond_ok true D) _ _ _ _ _ _ L false s Hok Hc Hs).
  - intros v. destruct (HG v) as (W & T & _). split; assumption.
  - intros f c1 s1 i1 i2 K1 K2 K3 K4. exact (lossless_exec_char D G f HG c1 s1 i1 i2 K1 K2 K3 K4).
  - intros c1 s1 i1 w K1 K2 K3 K4. exact (lossless_cond_char D G s1 i1 c1 w HG K3 K1 K2 K4).
Qed.
Lemma C102_quiet_all : forall D G c s i t o i' t' o',
  (forall v, type_fine true D (G v)) -> store_ok D G s i ->
  bp_ok (fun c => cmd_fine true D G c /\ every_op_cmd (shift_bounded D) D G c)
    (fun c => cond_fine true D G c /\ every_op_cond (shift_bounded D) D G c) D G false c -> bp_compiles D G c = true ->
  bp_lossless D G (i, t, o) c (i', t', o') ->
  exists fuel s', bp_exec fuel D G (s, t, o) c = Some ((s', t', o'), RDone) /\ store_ok D G s' i'.
Proof.
  intros D G c s i t o i' t' o' HG Hs Hok Hc L.
  refine (bp_exec_quiet D G _ _ _ _ _ _ _ _ L false s Hok Hc Hs).
  - intros v. destruct (HG v) as ((W & T & _) & _). split; assumption.
  - intros f c1 s1 i1 i2 K1 K2 K3 K4. exact (lossless_exec_char2 D G f HG c1 s1 i1 i2 (proj1 K1) (proj2 K1) K2 K3 K4).
  - intros c1 s1 i1 w K1 K2 K3 K4. exact (lossless_cond_char2 D G s1 i1 c1 w HG K3 (proj1 K1) (proj2 K1) K2 K4).
Qed.

Lemma C102_convert_lemma : forall b b' D a sg z text rest,
  wide_type (st a) -> wf_operand D (OSafe a) -> throws_arithmetic (sE a) -> input_compiles D a = true ->
  numeral_in b text sg z rest -> accepted D (st a) sg -> smin a <= z <= smax a ->
  exists s' cs, bp_exec 0 D (fun _ => OSafe a) (fun _ => Some (smin a), (BDec, mkIs text false false), (BDec, []))
    (BPSeq (BPSeq (BPIn b) (BPOut b')) (BPSeq (BPRead 0%nat) (BPWrite 0%nat)))
    = Some ((s', (b, remaining rest), (b', cs)), RDone) /\ written b' D (st a) cs z.
Proof.
  intros b b' D a sg z text rest W Wf Th Ic Nu Ac Rg.
  assert (Hs : store_ok D (fun _ => OSafe a) (fun _ => Some (smin a)) (fun _ => smin a)).
  { intros v. split; [reflexivity|]. unfold holds. cbn. lia. }
  assert (HG : forall v : nat, wf_operand D (OSafe a) /\ (forall E, get_ep (OSafe a) = Some E -> throws_arithmetic E)).
  { intros v. split; [exact Wf|]. intros E [= <-]. exact Th. }
  pose proof (bp_read_quiet D (fun _ => OSafe a) HG b 0%nat _ _ (mkIs text false false) z rest W Ic Hs) as R.
  specialize (R (ex_intro _ sg (conj eq_refl (conj Nu (conj Ac Rg)))) 0%nat (b', [])).
  eexists _, (output_b b' D a z). split; [|apply written_b; [exact Wf|exact Rg]].
  cbn [bp_exec fst snd] in *. rewrite R. reflexivity.
Qed.
