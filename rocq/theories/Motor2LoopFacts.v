(** Motor2LoopFacts.v -- whole moves of the second stepper motor program. *)
From Coq Require Import ZArith Bool List Lia.
From Verif Require Import Base CType Spec SafeBase SafeSpec SafeFacts ExceptionPolicy Promotion Program BoolConv
  Motor2 Motor2Spec Motor2Facts Motor2StepFacts Motor2TurnFacts Motor2RunFacts Motor2PureFacts.
Import ListNotations.
Local Open Scope Z_scope.

Definition unit_dir (d : Z) : Prop := d = 1 \/ d = -1.

Lemma loop_more : forall f w w1, turn w = (w1, RDone) -> mem w1 run_flg = Some 1 -> loop (S f) w = loop f w1.
Proof.
  intros f w w1 E H. cbn [loop]. rewrite E, H. change (snd (run (to_bool LP64 (OSafe uint8) 1))) with (Ret true). reflexivity.
Qed.
Lemma loop_stop : forall f w w1, turn w = (w1, RDone) -> mem w1 run_flg = Some 0 -> loop (S f) w = Some (w1, RDone).
Proof.
  intros f w w1 E H. cbn [loop]. rewrite E, H. change (snd (run (to_bool LP64 (OSafe uint8) 0))) with (Ret false). reflexivity.
Qed.
Lemma loop_raise : forall f w w1 e, turn w = (w1, RRaised e) -> loop (S f) w = Some (w1, RRaised e).
Proof. intros f w w1 e E. cbn [loop]. rewrite E. reflexivity. Qed.
Lemma inv_flag : forall n d x a ix p w, inv n d x a ix p w -> ph p <> ramp_idle -> mem w run_flg = Some 1.
Proof. intros n d x a ix p w H N. destruct H as (_ & _ & _ & _ & _ & _ & _ & _ & _ & _ & _ & _ & F). rewrite F. destruct (ph p); congruence. Qed.
Lemma inv_pos : forall n d x a ix p w, inv n d x a ix p w -> mem w motor_pos = Some x.
Proof. intros n d x a ix p w H. apply H. Qed.

(** the phase index after j turns *)
Definition index_after (d ix : Z) (j : nat) (p : ps) : Z :=
  match ph p with ramp_last => (ix + d * (Z.of_nat j - 1)) mod 4 | _ => (ix + d * Z.of_nat j) mod 4 end.

Lemma turns_ok : forall n d, unit_dir d -> forall j x a ix p w p' a', inv n d x a ix p w -> registers a ix w ->
  walk n j p a = Some (p', a') -> active p = true \/ j = 0%nat -> ph p <> ramp_idle -> 0 <= a -> a' <= 4294967295 ->
  in16 x -> in16 (x + d * Z.of_nat j) ->
  exists w', turns j w = (w', RDone) /\ inv n d (x + d * Z.of_nat j) a' (match j with O => ix | _ => index_after d ix j p' end) p' w'
    /\ registers a' (match j with O => ix | _ => index_after d ix j p' end) w' /\ (forall f, loop (j + f) w = loop f w')
    /\ ph p' <> ramp_idle.
Proof.
  intros n d Hd. induction j as [|j IH]; intros x a ix p w p' a' I R W Ac NI Ba Ba' Bx Bx'.
  - cbn [walk] in W. injection W as <- <-. exists w. change (Z.of_nat 0) with 0. rewrite Z.mul_0_r, Z.add_0_r.
    split; [reflexivity|]. split; [assumption|]. split; [assumption|]. split; [reflexivity|assumption].
  - cbn [walk] in W. destruct (ok_turn n p && active p) eqn:E; [|discriminate].
    apply andb_true_iff in E. destruct E as [E1 E2].
    pose proof (walk_grows _ _ _ _ _ _ W) as G. pose proof (ok_cc _ _ E1) as Bc.
    pose proof (active_turn n p E2) as N1.
    assert (Bx1 : in16 (x + d)) by (unfold in16 in *; destruct Hd; subst d; lia).
    destruct (turn_ok n d x a ix p w I E1 NI) as (w1 & T & I1 & R1 & _); try assumption; try lia; [destruct Hd; lia|intros _; first [exact Bx1 | lia]|].
    specialize (R1 N1).
    assert (M : moved (p_turn n p) d = d) by (unfold moved; destruct (ph (p_turn n p)); congruence).
    rewrite M in I1.
    assert (Aj : active (p_turn n p) = true \/ j = 0%nat).
    { destruct j; [right; reflexivity|left]. cbn [walk] in W. destruct (ok_turn n (p_turn n p)); [|discriminate].
      destruct (active (p_turn n p)); [reflexivity|discriminate]. }
    destruct (IH (x + d) (a + cc p) _ (p_turn n p) w1 p' a' I1 R1 W Aj N1) as (w' & T' & I' & R' & L' & N'); try assumption; try lia.
    { replace (x + d + d * Z.of_nat j) with (x + d * Z.of_nat (S j)) by lia. assumption. }
    assert (X : match j with O => turned (p_turn n p) d ix | _ => index_after d (turned (p_turn n p) d ix) j p' end = index_after d ix (S j) p').
    { destruct j as [|j].
      - cbn [walk] in W. injection W as <- <-. unfold index_after, turned.
        assert (Bi : 0 <= ix <= 3) by apply I.
        destruct (ph (p_turn n p)); try congruence; try (f_equal; lia).
        change (Z.of_nat 1 - 1) with 0. rewrite Z.mul_0_r, Z.add_0_r. symmetry. apply Z.mod_small. lia.
      - destruct Aj as [Aj|]; [|discriminate]. unfold turned, index_after.
        unfold active in Aj. destruct (ph (p_turn n p)); try discriminate;
        destruct (ph p'); rewrite Zplus_mod_idemp_l; f_equal; lia. }
    exists w'. split; [cbn [turns]; rewrite (andthen_done _ _ _ _ T); exact T'|].
    rewrite <- X. replace (x + d * Z.of_nat (S j)) with (x + d + d * Z.of_nat j) by lia.
    split; [exact I'|]. split; [exact R'|]. split; [|exact N'].
    intros f. cbn [Nat.add]. rewrite (loop_more (j + f) w w1 T); [apply L'|]. apply (inv_flag _ _ _ _ _ _ _ I1 N1).
Qed.

Lemma inv_ready : forall n d x a ix p w, inv n d x a ix p w -> ready x w.
Proof.
  intros n d x a ix p w (_ & _ & V & _ & X & _ & _ & _ & _ & T1 & T2 & T3 & _).
  unfold ready. repeat split; assumption.
Qed.

(** a move that ends *)
Lemma loop_lands : forall n d, unit_dir d -> forall x ix w t, inv n d x 1000 ix p_start w -> registers 1000 ix w ->
  lands n t -> t <= 4294967295 -> 1 <= n -> in16 x -> in16 (x + d * n) ->
  exists w', (forall f, n < Z.of_nat f -> loop f w = Some (w', RDone))
    /\ ready (x + d * n) w' /\ ramp_sts w' = ramp_idle /\ mem w' phase_ix = Some ((ix + d * (n - 1)) mod 4)
    /\ mem w' run_flg = Some 0 /\ mem w' ccpr = Some t /\ exists z, mem w' c = Some z /\ 1 <= z <= first_delay.
Proof.
  intros n d Hd x ix w t I R (p & a & W & L & Ok & <- & Bz) Bt Bn Bx Bx'.
  pose proof (ok_cc _ _ Ok) as Bc. pose proof (walk_grows _ _ _ _ _ _ W) as G.
  assert (En : Z.of_nat (Z.to_nat n) = n) by lia.
  destruct (turns_ok n d Hd (Z.to_nat n) x 1000 ix p_start w p a I R W) as (w1 & T & I1 & R1 & F1 & N1);
    try assumption; try lia; [left; reflexivity|discriminate|rewrite En; assumption|].
  rewrite En in I1.
  assert (Lp : ph (p_turn n p) = ramp_idle) by (unfold p_turn, p_switch; rewrite L; reflexivity).
  assert (Ei : match Z.to_nat n with O => ix | S _ => index_after d ix (Z.to_nat n) p end = (ix + d * (n - 1)) mod 4).
  { unfold index_after. rewrite L, En. destruct (Z.to_nat n) eqn:Q; [lia|reflexivity]. }
  rewrite Ei in I1.
  (* the last interrupt adds nothing to the position *)
  assert (K : exists w2, turn w1 = (w2, RDone) /\ inv n d (x + d * n) (a + cc p) ((ix + d * (n - 1)) mod 4) (p_turn n p) w2).
  { destruct (turn_last n d (x + d * n) a ((ix + d * (n - 1)) mod 4) p w1 I1 Ok L) as (w2 & E2 & I2); try assumption; try lia; [destruct Hd; lia|]. eauto. }
  destruct K as (w2 & T2 & I2).
  exists w2. split; [|split; [exact (inv_ready _ _ _ _ _ _ _ I2)|]].
  - intros f Bf. replace f with (Z.to_nat n + S (f - Z.to_nat n - 1))%nat by lia. rewrite F1.
    apply loop_stop; [assumption|]. destruct I2 as (_ & _ & _ & _ & _ & _ & _ & _ & _ & _ & _ & _ & F). rewrite F, Lp. reflexivity.
  - destruct I2 as (S2 & C2 & _ & A2 & _ & _ & _ & P2 & _ & _ & _ & _ & F). rewrite Lp in *.
    split; [exact S2|]. split; [exact P2|]. split; [exact F|]. split; [exact A2|]. exists (cc p). split; [|exact Bz].
    destruct C2 as (_ & _ & C2 & _). rewrite C2. unfold p_turn, p_switch. rewrite L. reflexivity.
Qed.

(** a move during which the timer value or the position overflows *)
Lemma loop_raises : forall n d, unit_dir d -> forall j x a ix p w p' a', inv n d x a ix p w -> registers a ix w ->
  walk n j p a = Some (p', a') -> ph p <> ramp_idle -> 0 <= a -> in16 x ->
  (4294967295 < a' \/ ~ in16 (x + d * Z.of_nat j) \/ ok_turn n p' = true /\ 4294967295 < a' + cc p') ->
  a <= 4294967295 ->
  exists k w' e, (k <= j)%nat /\ (forall f, (k < f)%nat -> loop f w = Some (w', RRaised e))
    /\ mem w' motor_pos = Some (x + d * Z.of_nat k) /\ mem w' run_flg = Some 1.
Proof.
  intros n d Hd. induction j as [|j IH]; intros x a ix p w p' a' I R W NI Ba Bx H Ba0.
  - cbn [walk] in W. injection W as <- <-. change (Z.of_nat 0) with 0 in *. rewrite Z.mul_0_r, Z.add_0_r in *.
    destruct H as [H|[H|(Ok & H)]]; [lia|contradiction|]. pose proof (ok_cc _ _ Ok) as Bc.
    destruct (turn_over n d x a ix p w I Bc H) as (w' & e & T & P & F).
    exists 0%nat, w', e. split; [lia|]. split; [|split; [rewrite P; f_equal; lia|rewrite F; exact (inv_flag _ _ _ _ _ _ _ I NI)]].
    intros f Bf. destruct f as [|f]; [lia|]. apply loop_raise. exact T.
  - cbn [walk] in W. destruct (ok_turn n p && active p) eqn:E; [|discriminate].
    apply andb_true_iff in E. destruct E as [E1 E2].
    pose proof (ok_cc _ _ E1) as Bc. pose proof (active_turn n p E2) as N1.
    destruct (Z_lt_dec 4294967295 (a + cc p)) as [O|O].
    { destruct (turn_over n d x a ix p w I Bc O) as (w' & e & T & P & F).
      exists 0%nat, w', e. split; [lia|]. split; [|split; [rewrite P; f_equal; lia|rewrite F; exact (inv_flag _ _ _ _ _ _ _ I NI)]].
      intros f Bf. destruct f as [|f]; [lia|]. apply loop_raise. exact T. }
    destruct (Z_le_dec (-32768) (x + d)) as [O1|O1]; [destruct (Z_le_dec (x + d) 32767) as [O2|O2]|].
    2, 3: destruct (turn_end n d x a ix p w I E1 N1) as (w' & e & T & P & F); [lia..|];
      exists 0%nat, w', e; (split; [lia|]); (split; [|split; [rewrite P; f_equal; lia|assumption]]);
      intros f Bf; (destruct f as [|f]; [lia|]); apply loop_raise; exact T.
    destruct (turn_ok n d x a ix p w I E1 NI) as (w1 & T & I1 & R1 & _); try assumption; try lia; [destruct Hd; lia|].
    specialize (R1 N1).
    assert (M : moved (p_turn n p) d = d) by (unfold moved; destruct (ph (p_turn n p)); congruence).
    rewrite M in I1.
    destruct (IH (x + d) (a + cc p) _ (p_turn n p) w1 p' a' I1 R1 W N1) as (k & w' & e & Bk & L & P & F); try lia.
    + unfold in16. lia.
    + replace (x + d + d * Z.of_nat j) with (x + d * Z.of_nat (S j)) by lia. assumption.
    + exists (S k), w', e. split; [lia|]. split; [|split; [rewrite P; f_equal; lia|assumption]].
      intros f Bf. destruct f as [|f]; [lia|].
      rewrite (loop_more f w w1 T) by exact (inv_flag _ _ _ _ _ _ _ I1 N1). apply L. lia.
Qed.
