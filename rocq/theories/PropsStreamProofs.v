(** PropsStreamProofs.v -- the proofs of the theorems of PropsStream.v *)
From Coq Require Import ZArith List Bool Lia.
From Verif Require Import Base CType Spec CTypeFacts CheckedInteger CheckedResultOps Interval
  ExceptionPolicy Promotion SafeBase SafeSpec IntervalFacts SafeFacts SafeConvFacts Stream StreamSpec
  StreamFacts.
Import ListNotations.
Local Open Scope Z_scope.

Lemma small_int : forall D T, is_small_char T = true -> lo D Int <= lo D T /\ hi D T <= hi D Int.
Proof. intros D T H. destruct T; try discriminate H; destruct D; vm_compute; split; discriminate. Qed.

Lemma C44_wide_lemma : forall D s i old i' v m,
  wide_type (st s) -> wf_operand D (OSafe s) -> throws_arithmetic (sE s) ->
  input D s i old = Some (i', v, m) ->
  (exists sg z rest, good i = true /\ numeral (chars i) sg z rest /\ accepted D (st s) sg
   /\ smin s <= z <= smax s
   /\ returns m tt /\ v = Some z /\ chars i' = rest /\ failbit i' = false)
  \/ (throws_arith m
      /\ forall sg z rest, good i = true -> numeral (chars i) sg z rest -> accepted D (st s) sg ->
         ~ (smin s <= z <= smax s)).
Proof.
  intros D s i old i' v m Wt W E H. pose proof W as (W1 & W2 & _). cbn in W1, W2. unfold in_type in W1, W2.
  destruct (input_wide D s i old i' v m Wt W E H)
    as [(sg & z & rest & G & N & A & I & -> & -> & [[B R]|[B R]])|(T & _ & _ & N)].
  - left. exists sg, z, rest. splits; auto; lia.
  - right. split; [assumption|]. intros sg' z' rest' _ N' _ B'.
    destruct (numeral_unique _ _ _ _ _ _ _ N N') as (-> & _). auto.
  - right. split; [assumption|]. intros sg' z' rest' G' N' A' B'.
    apply (N sg' z' rest' G' N' A'). unfold in_type. lia.
Qed.
Lemma C44_full_lemma : forall D s i x i' v m,
  wide_type (st s) -> wf_operand D (OSafe s) -> throws_arithmetic (sE s) ->
  smin s = lo D (st s) -> smax s = hi D (st s) -> holds D (OSafe s) x ->
  input D s i (Some x) = Some (i', v, m) ->
  exists z, v = Some z /\ holds D (OSafe s) z.
Proof.
  intros D s i x i' v m Wt W E E1 E2 Hx H. unfold holds in *. cbn in *. rewrite E1, E2 in *.
  destruct (input_wide D s i (Some x) i' v m Wt W E H)
    as [(sg & z & rest & G & N & A & I & -> & -> & _)|(T & _ & [->|(z & I & ->)] & N)]; eauto.
Qed.
Lemma C44_small_lemma : forall D s i old i' v m,
  st s = SChar \/ st s = UChar -> wf_operand D (OSafe s) -> throws_arithmetic (sE s) ->
  good i = true -> ~ Forall blank (chars i) ->
  input D s i old = Some (i', v, m) ->
  (exists z, returns m tt /\ v = Some z /\ smin s <= z <= smax s
   /\ forall sg n rest, numeral (chars i) sg n rest -> in_type D Int n -> z = n /\ chars i' = rest)
  \/ (throws_arith m /\ v = old
      /\ forall sg n rest, numeral (chars i) sg n rest -> ~ (smin s <= n <= smax s)).
Proof.
  intros D s i old i' v m T W E G Nb H.
  assert (Sm : is_small_char (st s) = true) by (destruct T as [->| ->]; reflexivity).
  pose proof W as (W1 & W2 & _). cbn in W1, W2. unfold in_type in W1, W2.
  pose proof (small_int D (st s) Sm) as K.
  destruct (input_small D s i old i' v m Sm W E H G) as (x & I & A & _ & [(B & R & V)|(B & R & V)]).
  { rewrite skip_ws_empty. assumption. }
  - left. exists x. splits; auto; try lia. intros sg n rest N In.
    destruct (A _ _ _ N In) as [? ->]. auto.
  - right. splits; auto. intros sg n rest N Bn.
    destruct (A _ _ _ N) as [-> _]; [unfold in_type; lia|]. auto.
Qed.

(** output *)
Lemma conv_in : forall D T x, in_type D T x -> conv D T x = x.
Proof. intros. apply conv_id. assumption. Qed.
Lemma output_put : forall D s x, wf_operand D (OSafe s) -> holds D (OSafe s) x -> output D s x = put_int x.
Proof.
  intros D s x (W1 & W2 & _) H. unfold holds in H. cbn in W1, W2, H.
  assert (I : in_type D (st s) x) by (unfold in_type in *; lia).
  pose proof (uac_int_preserves D (st s) x I) as J.
  unfold output. cbv zeta. f_equal. destruct (is_small_char (st s)) eqn:E.
  - assert (K : in_type D Int x).
    { pose proof (small_int D (st s) E). unfold in_type in *. lia. }
    rewrite (conv_in D Int x K). apply conv_in. exact J.
  - apply conv_in. exact J.
Qed.
Lemma C55_output_lemma : forall D s x, wf_operand D (OSafe s) -> holds D (OSafe s) x ->
  exists sg ds n, output D s x = sign_text sg ++ ds /\ denotes ds n /\ x = signed sg n
  /\ (sg = Minus <-> x < 0) /\ sg <> Plus.
Proof. intros D s x W H. rewrite output_put by assumption. apply put_int_spec. Qed.

Definition not_digit_first (rest : list Z) : Prop := forall c r d, rest = c :: r -> ~ digit_char c d.
Lemma output_numeral : forall D s x bl rest, wf_operand D (OSafe s) -> holds D (OSafe s) x ->
  Forall blank bl -> not_digit_first rest ->
  exists sg, numeral (bl ++ output D s x ++ rest) sg x rest /\ accepted D (st s) sg.
Proof.
  intros D s x bl rest W H Fb Hr.
  destruct (C55_output_lemma D s x W H) as (sg & ds & n & E & Hd & Ex & Hs & _).
  exists sg. split.
  - exists bl, ds, n. splits; auto. rewrite E, <- app_assoc. reflexivity.
  - unfold accepted. destruct (csigned D (st s)) eqn:Es; [left; reflexivity|right].
    pose proof W as (W1 & _). cbn in W1. unfold holds in H. cbn in H. unfold in_type in W1.
    pose proof (lo_unsigned D (st s) Es). intros K. apply Hs in K. lia.
Qed.
Lemma C55_round_trip_lemma : forall D s x bl rest old i' v m,
  number_type (st s) -> wf_operand D (OSafe s) -> throws_arithmetic (sE s) -> holds D (OSafe s) x ->
  Forall blank bl -> (forall c r d, rest = c :: r -> ~ digit_char c d) ->
  input D s (mkIs (bl ++ output D s x ++ rest) false false) old = Some (i', v, m) ->
  returns m tt /\ v = Some x /\ i' = mkIs rest false (at_end rest).
Proof.
  intros D s x bl rest old i' v m Nt W E H Fb Hr Hi.
  destruct (output_numeral D s x bl rest W H Fb Hr) as (sg & N & A).
  pose proof W as (W1 & W2 & _). cbn in W1, W2. unfold holds in H. cbn in H. unfold in_type in W1, W2.
  assert (I : in_type D (st s) x) by (unfold in_type; lia).
  destruct (is_small_char (st s)) eqn:Sm.
  - pose proof (small_int D (st s) Sm) as K.
    destruct (input_small D s _ old i' v m Sm W E Hi eq_refl) as (z & _ & B & _ & C).
    { cbn [chars]. destruct (numeral_scan _ _ _ _ N) as (ds & Nd & _ & _ & _ & Es). rewrite Es.
      destruct sg, ds; cbn; congruence. }
    destruct (B sg x rest N) as [-> ->]; [unfold in_type in *; lia|].
    destruct C as [(_ & R & V)|(C & _)]; [auto|lia].
  - assert (Wt : wide_type (st s)).
    { unfold wide_type, number_type in *. destruct (st s); try discriminate Sm; splits; congruence. }
    destruct (input_wide D s _ old i' v m Wt W E Hi)
      as [(sg' & z & rest' & G & N' & A' & I' & -> & -> & C)|(_ & _ & _ & C)].
    + cbn [chars] in N'. destruct (numeral_unique _ _ _ _ _ _ _ N N') as (<- & <- & _).
      destruct C as [[_ R]|[C _]]; [auto|lia].
    + exfalso. exact (C sg x rest eq_refl N A I).
Qed.
Lemma input_any : forall D s i old r, input D s i old = Some r ->
  forall i' old', exists r', input D s i' old' = Some r'.
Proof.
  intros D s i old r H i' old'. unfold input in *. destruct (input_compiles D s); [|discriminate]. eauto.
Qed.

Lemma sequence_gen : forall D l bl,
  Forall blank bl ->
  (forall s x, In (s, x) l -> number_type (st s) /\ wf_operand D (OSafe s) /\ throws_arithmetic (sE s)
     /\ holds D (OSafe s) x /\ exists i old r, input D s i old = Some r) ->
  exists i', read_all D (map fst l) (mkIs (bl ++ write_all (output D) l) false false) (map snd l) i'
  /\ failbit i' = false /\ Forall blank (chars i').
Proof.
  intros D l. induction l as [|[s x] l IH]; intros bl Fb H.
  - exists (mkIs (bl ++ []) false false). split; [constructor|]. rewrite app_nil_r. auto.
  - destruct (H s x (or_introl eq_refl)) as (Nt & W & E & Hx & i0 & old0 & r0 & C).
    destruct (IH [32]) as (i' & R & F).
    { constructor; [|constructor]. unfold blank. cbn. auto 8. }
    { intros s' x' K. apply H. right. assumption. }
    exists i'. split; [|assumption]. cbn [map fst snd write_all flat_map].
    assert (K : forall old, exists m, input D s (mkIs (bl ++ (output D s x ++ [32]) ++
        flat_map (fun p => output D (fst p) (snd p) ++ [32]) l) false false) old
        = Some (mkIs ([32] ++ write_all (output D) l) false false, Some x, m) /\ returns m tt).
    { intros old. rewrite <- app_assoc.
      destruct (input_any D s i0 old0 r0 C (mkIs (bl ++ output D s x ++
        ([32] ++ flat_map (fun p => output D (fst p) (snd p) ++ [32]) l)) false false) old) as ([[i1 v1] m1] & E1).
      assert (Nd : forall c r d, [32] ++ flat_map (fun p => output D (fst p) (snd p) ++ [32]) l = c :: r -> ~ digit_char c d).
      { intros c r d [= <- _]. unfold digit_char. lia. }
      destruct (C55_round_trip_lemma D s x bl _ old i1 v1 m1 Nt W E Hx Fb Nd E1) as (R1 & -> & ->).
      exists m1. split; [exact E1|exact R1]. }
    destruct (K None) as (m & Km & Rm).
    eapply read_cons with (m := m); [|exact Rm|exact R].
    intros old. destruct (K old) as (m' & Km' & Rm'). unfold returns in Rm, Rm'. subst m m'. exact Km'.
Qed.
Lemma C55_sequence_lemma : forall D l,
  (forall s x, In (s, x) l -> number_type (st s) /\ wf_operand D (OSafe s) /\ throws_arithmetic (sE s)
     /\ holds D (OSafe s) x /\ exists i old r, input D s i old = Some r) ->
  exists i', read_all D (map fst l) (mkIs (write_all (output D) l) false false) (map snd l) i'
  /\ failbit i' = false /\ Forall blank (chars i').
Proof. intros D l H. apply (sequence_gen D l []); [constructor|assumption]. Qed.
