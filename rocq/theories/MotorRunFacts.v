(** MotorRunFacts.v -- whole moves of the stepper motor. *)
From Coq Require Import ZArith Bool List Lia.
From Verif Require Import Base CType Spec CTypeFacts Utility UtilityFacts SafeCompare
  CheckedInteger CheckedIntegerFacts CheckedResultOps CheckedResultFacts Interval IntervalFacts
  ExceptionPolicy Promotion SafeBase SafeSpec SafeFacts SafeConvFacts Program ProgramFacts ValueFacts.
From Verif Require Import Motor MotorSpec MotorFacts MotorStepFacts.
Import ListNotations.
Local Open Scope Z_scope.
Local Open Scope motor_scope.

(** ------------------------------------------------------------------ *)
(** the delays stay between the shortest and the first one *)
Fixpoint accel (k : nat) : Z :=
  match k with
  | O => first_delay
  | S k' => accel k' - 2 * accel k' / (4 * Z.of_nat k + 1)
  end.

Lemma accel_bounds : forall k, shortest_delay <= accel k <= first_delay
  /\ first_delay * first_delay <= accel k * accel k * (4 * Z.of_nat k + 1) \/ 
  (shortest_delay <= accel k <= first_delay /\ 3201 <= Z.of_nat k).
Proof.
  change shortest_delay with 6400. change first_delay with 1280000.
  induction k as [|k IH].
  - left. cbn. lia.
  - cbn [accel]. set (a := accel k) in *. rewrite Nat2Z.inj_succ in *. set (j := Z.of_nat k) in *.
    assert (Hj : 0 <= j) by (unfold j; lia). clearbody a j.
    set (b := 2 * a / (4 * Z.succ j + 1)).
    assert (Ha : 6400 <= a <= 1280000) by (destruct IH; tauto).
    assert (Hb : b * (4 * Z.succ j + 1) <= 2 * a < b * (4 * Z.succ j + 1) + (4 * Z.succ j + 1)).
    { unfold b. pose proof (Z.div_mod (2 * a) (4 * Z.succ j + 1) ltac:(lia)).
      pose proof (Z.mod_pos_bound (2 * a) (4 * Z.succ j + 1) ltac:(lia)). lia. }
    assert (Hb0 : 0 <= b) by (apply Z.div_pos; lia). clearbody b.
    destruct (Z_lt_le_dec (Z.succ j) 3201) as [L|L].
    + destruct IH as [[_ IH]|[_ IH]]; [|lia]. left.
      replace (4 * Z.succ j + 1) with (4 * j + 5) in * by lia.
      assert (S : a * (4 * j + 3) <= (a - b) * (4 * j + 5)) by lia.
      assert (P : 0 < a - b).
      { pose proof (Z.mul_le_mono_nonneg_l 5 (4 * j + 5) b Hb0 ltac:(lia)). lia. }
      assert (Q : 1280000 * 1280000 <= (a - b) * (a - b) * (4 * j + 5)).
      { apply Z.le_trans with (1 := IH).
        assert (N : 0 <= a * (4 * j + 3)) by (apply Z.mul_nonneg_nonneg; lia).
        pose proof (Z.mul_le_mono_nonneg _ _ _ _ N S N S) as S2.
        pose proof (Z.square_nonneg a) as S3.
        apply (Z.mul_le_mono_pos_r _ _ (4 * j + 5)); [lia|]. clear - S2 S3. lia. }
      split; [|exact Q]. split; [|lia].
      apply Z.le_trans with 11000; [lia|]. apply Z.nlt_ge. intro C.
      assert (C2 : (a - b) * (a - b) <= 11000 * 11000) by (apply Z.mul_le_mono_nonneg; lia).
      assert (C3 : (a - b) * (a - b) * (4 * j + 5) <= 11000 * 11000 * 12805)
        by (apply Z.mul_le_mono_nonneg; try lia; apply Z.square_nonneg).
      lia.
    + right. split; [|lia]. split; [|lia].
      destruct (Z.eq_dec b 0); [lia|].
      pose proof (Z.mul_le_mono_nonneg_r 1 b (4 * Z.succ j - 1) ltac:(lia) ltac:(lia)). lia.
Qed.
Lemma accel_range : forall k, shortest_delay <= accel k <= first_delay.
Proof. intros k. destruct (accel_bounds k); tauto. Qed.

Lemma delay_up : forall n k, Z.of_nat k < n / 2 -> delay_after n k = accel k.
Proof.
  induction k as [|k IH]; intros H; [reflexivity|].
  cbn [delay_after accel]. rewrite (proj2 (Z.ltb_lt _ _) H), IH by lia. reflexivity.
Qed.
Lemma delay_range : forall n k, shortest_delay <= delay_after n k <= first_delay.
Proof.
  intros n k. induction k as [|k IH]; [cbn; lia|].
  destruct (Z_lt_le_dec (Z.of_nat (S k)) (n / 2)) as [L|L].
  - rewrite delay_up by assumption. apply accel_range.
  - cbn [delay_after]. rewrite (proj2 (Z.ltb_ge _ _) L).
    destruct (Z.ltb_spec (Z.of_nat (S k)) n); [|assumption].
    change shortest_delay with 6400 in *. change first_delay with 1280000 in *.
    assert (0 <= 2 * delay_after n k / (4 * (n - Z.of_nat (S k)) - 1)) by (apply Z.div_pos; lia). lia.
Qed.

(** ------------------------------------------------------------------ *)
Lemma do_update : forall r s t_ ph, s ccpr = Some t_ -> s phase_ix = Some ph -> 0 <= t_ < 2 ^ 24 -> 0 <= ph <= 3 ->
  update (mkW r s)
  = (mkW r (upd (upd (upd (upd (upd s phase (Some (snd (windings ph) * 256 + fst (windings ph))))
       CCP1CON (Some (fst (windings ph)))) CCP2CON (Some (snd (windings ph))))
       CCPR1H (Some ((t_ / 256) mod 256))) CCPR1L (Some (t_ mod 256))), RDone).
Proof.
  intros r s t_ ph Ht Hp Bt Bp. unfold update. pose proof (windings_bounds ph) as [W1 W2].
  rewrite (andthen_done _ _ _ _ (do_lookup r s ph Hp Bp)).
  erewrite andthen_done by (apply set_con1 with (b := snd (windings ph)); [look|lia|lia]).
  erewrite andthen_done by (apply set_con2 with (a := fst (windings ph)); [look|lia|lia]).
  erewrite andthen_done by (eapply set_high; [look|assumption]).
  eapply set_low; [look|assumption].
Qed.

(** what can be seen of a motor that has moved *)
Record seen (w : world) (q n n2 dir i_ c_ t_ ph : Z) : Prop := {
  see_q : mem w motor_position = Some q;
  see_n : mem w m = Some n;
  see_n2 : mem w m2 = Some n2;
  see_dir : mem w d = Some dir;
  see_i : mem w i = Some i_;
  see_c : mem w c = Some c_;
  see_t : mem w ccpr = Some t_;
  see_ph : mem w phase_ix = Some ph;
  see_h : mem w CCPR1H = Some ((t_ / 256) mod 256);
  see_l : mem w CCPR1L = Some (t_ mod 256);
  see_1 : mem w CCP1CON = Some (fst (windings ph));
  see_2 : mem w CCP2CON = Some (snd (windings ph)) }.

Lemma finish_ok : forall r s dir c_ t_ ph, s d = Some dir -> s c = Some c_ -> s ccpr = Some t_ -> s phase_ix = Some ph ->
  -1 <= dir <= 1 -> c_min <= c_ <= c0 -> 0 <= t_ < 2 ^ 24 -> 0 <= ph <= 3 ->
  exists s', finish_step (mkW r s) = (mkW r s', RDone)
    /\ s' ccpr = Some ((t_ + c_) mod 2 ^ 24) /\ s' phase_ix = Some ((ph + dir) mod 4)
    /\ s' CCPR1H = Some (((t_ + c_) mod 2 ^ 24 / 256) mod 256) /\ s' CCPR1L = Some ((t_ + c_) mod 2 ^ 24 mod 256)
    /\ s' CCP1CON = Some (fst (windings ((ph + dir) mod 4))) /\ s' CCP2CON = Some (snd (windings ((ph + dir) mod 4)))
    /\ (forall v, In v [motor_position; m; m2; d; i; c; CCP1IE; delay] -> s' v = s v).
Proof.
  intros r s dir c_ t_ ph Hd Hc Ht Hp Bd Bc Bt Bp. unfold finish_step.
  eexists. split.
  { erewrite andthen_done.
    2: { erewrite branch_value by (eapply cond_c_max; [exact Hc|assumption]).
         rewrite (proj2 (Z.ltb_ge c0 c_)) by lia. cbn [negb].
         erewrite branch_value by (eapply cond_c_min; [exact Hc|assumption]).
         rewrite (proj2 (Z.ltb_ge c_ c_min)) by lia. reflexivity. }
    erewrite andthen_done by (eapply set_ccpr; eassumption).
    erewrite andthen_done by (eapply set_phase_ix; [look|look|assumption|assumption]).
    eapply do_update; [look|look| |]; apply Z.mod_pos_bound || (pose proof (Z.mod_pos_bound (ph + dir) 4); lia); reflexivity. }
  splits; try look.
  intros v Hv. repeat (destruct Hv as [<-|Hv]; [reflexivity|]). destruct Hv.
Qed.

Definition dispatch : action := fun w =>
  match ramp_sts w with
  | ramp_up => case_up w
  | ramp_const => case_const w
  | ramp_down => case_down w
  | ramp_idle => failed w
  end.

Lemma turn_prefix : forall w q n n2 dir i_ c_ t_ ph, seen w q n n2 dir i_ c_ t_ ph ->
  dir = 1 \/ dir = -1 -> 0 <= q <= 50000 -> 0 <= q + dir <= 50000 -> 0 <= i_ < 200000 -> c_min <= c_ <= c0 ->
  exists s', turn w = dispatch (mkW (ramp_sts w) s')
    /\ seen (mkW (ramp_sts w) s') (q + dir) n n2 dir (i_ + 1) c_ t_ ph
    /\ s' delay = Some ((c_ + 128) / 256) /\ s' CCP1IE = mem w CCP1IE.
Proof.
  intros [r s] q n n2 dir i_ c_ t_ ph Hs Bd Bq Bq' Bi Bc.
  destruct Hs as [Hq Hn Hn2 Hd Hi Hc Ht Hp Hh Hl H1 H2]. cbn [mem ramp_sts] in *.
  eexists. split.
  { unfold turn, isr_motor_step. fold dispatch.
    erewrite andthen_done.
    2: { unfold to_microseconds. erewrite andthen_done by (eapply set_t; eassumption).
         eapply set_delay; [look|unfold c_min in Bc; lia]. }
    erewrite andthen_done.
    2: { erewrite branch_value by (eapply cond_d; [look|lia]).
         instantiate (1 := mkW r (upd (upd (upd s t (Some c_)) delay (Some ((c_ + 128) / 256))) motor_position (Some (q + dir)))).
         destruct Bd as [E|E]; rewrite E in *.
         - apply inc_position; [look|lia].
         - apply dec_position; [look|lia]. }
    erewrite andthen_done by (eapply inc_i; [look|lia]). reflexivity. }
  splits; try look. split; cbn [mem]; look.
Qed.

(** the next delay in the first half of the way *)
Lemma case_up_more : forall s q n n2 dir j c_ t_ ph, seen (mkW ramp_up s) q n n2 dir j c_ t_ ph ->
  dir = 1 \/ dir = -1 -> 1 <= j <= 200000 -> 0 <= n2 <= 50000 -> j <> n2 -> c_min <= c_ <= c0 ->
  0 <= t_ < 2 ^ 24 -> 0 <= ph <= 3 -> c_min <= c_ - 2 * c_ / (4 * j + 1) ->
  exists s', case_up (mkW ramp_up s) = (mkW ramp_up s', RDone)
    /\ seen (mkW ramp_up s') q n n2 dir j (c_ - 2 * c_ / (4 * j + 1))
         ((t_ + (c_ - 2 * c_ / (4 * j + 1))) mod 2 ^ 24) ((ph + dir) mod 4)
    /\ s' CCP1IE = s CCP1IE /\ s' delay = s delay.
Proof.
  intros s q n n2 dir j c_ t_ ph Hs Bd Bj Bn2 Hj Bc Bt Bp Bc'.
  destruct Hs as [Hq Hn Hn2 Hd Hi Hc Ht Hp Hh Hl H1 H2]. cbn [mem ramp_sts] in *.
  set (c' := c_ - 2 * c_ / (4 * j + 1)) in *.
  assert (Bc2 : c_min <= c' <= c0).
  { split; [assumption|]. unfold c', c_min in *. assert (0 <= 2 * c_ / (4 * j + 1)) by (apply Z.div_pos; lia). lia. }
  set (s1 := upd s c (Some c')).
  destruct (finish_ok ramp_up s1 dir c' t_ ph) as (s' & F & K1 & K2 & K3 & K4 & K5 & K6 & K7); try assumption; try look; [lia|].
  exists s'. split.
  - unfold case_up. erewrite branch_value by (eapply cond_i_m2; cbn [mem]; [eassumption|eassumption|lia|lia]).
    rewrite (proj2 (Z.eqb_neq j n2) Hj).
    erewrite andthen_done by (eapply sub_c; eassumption). fold c' s1.
    erewrite branch_value by (eapply cond_c_lt; cbn [mem]; [look|assumption]).
    rewrite (proj2 (Z.ltb_ge c' c_min)) by lia. exact F.
  - split; [|split; rewrite K7 by (cbn; tauto); look].
    split; cbn [mem]; try assumption; rewrite K7 by (cbn; tauto); look.
Qed.

(** the next delay in the second half of the way *)
Lemma case_down_more : forall s q n n2 dir j c_ t_ ph, seen (mkW ramp_down s) q n n2 dir j c_ t_ ph ->
  dir = 1 \/ dir = -1 -> 1 <= j < n -> n <= 50000 -> c_min <= c_ <= c0 ->
  0 <= t_ < 2 ^ 24 -> 0 <= ph <= 3 ->
  let c' := Z.min c0 (c_ + 2 * c_ / (4 * (n - j) - 1)) in
  exists s', case_down (mkW ramp_down s) = (mkW ramp_down s', RDone)
    /\ seen (mkW ramp_down s') q n n2 dir j c' ((t_ + c') mod 2 ^ 24) ((ph + dir) mod 4)
    /\ s' CCP1IE = s CCP1IE /\ s' delay = s delay.
Proof.
  intros s q n n2 dir j c_ t_ ph Hs Bd Bj Bn Bc Bt Bp c'.
  destruct Hs as [Hq Hn Hn2 Hd Hi Hc Ht Hp Hh Hl H1 H2]. cbn [mem ramp_sts] in *.
  assert (B2 : 0 <= 2 * c_ / (4 * (n - j) - 1) <= 2560000).
  { unfold c_min, c0 in Bc. split; [apply Z.div_pos; lia|apply Z.div_le_upper_bound; [lia|]].
    pose proof (Z.mul_le_mono_nonneg_r 3 (4 * (n - j) - 1) 2560000 ltac:(lia) ltac:(lia)). lia. }
  set (x' := c_ + 2 * c_ / (4 * (n - j) - 1)) in *.
  assert (Bc2 : c_min <= c' <= c0) by (unfold c', x'; unfold c_min, c0 in *; lia).
  set (s1 := upd (upd s x (Some x')) c (Some c')).
  destruct (finish_ok ramp_down s1 dir c' t_ ph) as (s' & F & K1 & K2 & K3 & K4 & K5 & K6 & K7); try assumption; try look; [lia|].
  exists s'. split.
  - unfold case_down. erewrite branch_value by (eapply cond_i_m; cbn [mem]; [eassumption|eassumption|lia|lia]).
    rewrite (proj2 (Z.eqb_neq j n)) by lia.
    erewrite andthen_done by (eapply set_x; [eassumption|eassumption|eassumption|assumption|lia|lia]). fold x'.
    erewrite andthen_done; [exact F|].
    erewrite branch_value by (eapply cond_x; cbn [mem]; [look|unfold x'; unfold c_min, c0 in *; lia]).
    unfold s1. destruct (Z.ltb_spec c0 x') as [L|L].
    + replace c' with c0 by (unfold c'; lia). apply set_c_c0.
    + replace c' with x' by (unfold c'; lia). apply set_c_x; [look|]. unfold c' in Bc2. lia.
  - split; [|split; rewrite K7 by (cbn; tauto); look].
    split; cbn [mem]; try assumption; rewrite K7 by (cbn; tauto); look.
Qed.

(** the last interrupt *)
Lemma case_down_last : forall s q n n2 dir c_ t_ ph, seen (mkW ramp_down s) q n n2 dir n c_ t_ ph ->
  1 <= n <= 50000 ->
  case_down (mkW ramp_down s) = (mkW ramp_idle (upd s CCP1IE (Some 0)), RDone).
Proof.
  intros s q n n2 dir c_ t_ ph Hs Bn.
  destruct Hs as [Hq Hn Hn2 Hd Hi Hc Ht Hp Hh Hl H1 H2]. cbn [mem ramp_sts] in *.
  unfold case_down. erewrite branch_value by (eapply cond_i_m; cbn [mem]; [eassumption|eassumption|lia|lia]).
  rewrite Z.eqb_refl. erewrite andthen_done by reflexivity. cbn [mem]. setlit.
Qed.

(** the middle of the way *)
Lemma case_up_middle : forall s q n n2 dir c_ t_ ph, seen (mkW ramp_up s) q n n2 dir n2 c_ t_ ph ->
  0 <= n2 <= 50000 -> case_up (mkW ramp_up s) = case_down (mkW ramp_down s).
Proof.
  intros s q n n2 dir c_ t_ ph Hs Bn.
  destruct Hs as [Hq Hn Hn2 Hd Hi Hc Ht Hp Hh Hl H1 H2]. cbn [mem ramp_sts] in *.
  unfold case_up. erewrite branch_value by (eapply cond_i_m2; cbn [mem]; [eassumption|eassumption|lia|lia]).
  rewrite Z.eqb_refl. erewrite andthen_done by reflexivity. reflexivity.
Qed.

(** ------------------------------------------------------------------ *)
(** the state after k steps of a move of n steps that began at p *)
Definition ramp_after (n k : Z) : ramp_state :=
  if k <? n / 2 then ramp_up else if k <? n then ramp_down else ramp_idle.
Definition after (h l p dir n : Z) (k : nat) (w : world) : Prop :=
  let j := Z.of_nat k in
  seen w (p + dir * j) n (n / 2) dir j (delay_after n k) (timer_after h l n k) (phase_after dir n k)
  /\ ramp_sts w = ramp_after n j
  /\ mem w CCP1IE = Some (if j <? n then 1 else 0)
  /\ (k <> 0%nat -> mem w delay = Some ((delay_after n (pred k) + 128) / 256)).

Lemma timer_range : forall h l n k, 0 <= h <= 255 -> 0 <= l <= 255 -> 0 <= timer_after h l n k < 2 ^ 24.
Proof.
  intros h l n k Bh Bl. induction k as [|k IH].
  - cbn [timer_after]. change first_delay with 1280000. change (2 ^ 24) with 16777216. lia.
  - cbn [timer_after]. destruct (_ <? _); [|assumption]. apply Z.mod_pos_bound. reflexivity.
Qed.
Lemma phase_next : forall dir n k, Z.of_nat (S k) < n ->
  phase_after dir n (S k) = (phase_after dir n k + dir) mod 4.
Proof.
  intros dir n k H. unfold phase_after. rewrite Z.add_mod_idemp_l by lia.
  rewrite !Z.min_l by lia. rewrite Nat2Z.inj_succ. f_equal. ring.
Qed.

Lemma next_turn : forall h l p dir n k w, dir = 1 \/ dir = -1 -> 2 <= n <= 50000 ->
  0 <= p <= 50000 -> 0 <= p + dir * n <= 50000 -> 0 <= h <= 255 -> 0 <= l <= 255 -> Z.of_nat k < n ->
  after h l p dir n k w -> exists w', turn w = (w', RDone) /\ after h l p dir n (S k) w'.
Proof.
  intros h l p dir n k w Bd Bn Bp Bp' Bh Bl Hk (Hs & Hr & He & Hdel).
  pose proof (delay_range n k) as Bc. change shortest_delay with c_min in Bc. change first_delay with c0 in Bc.
  pose proof (delay_range n (S k)) as Bc'. change shortest_delay with c_min in Bc'. change first_delay with c0 in Bc'.
  pose proof (timer_range h l n k Bh Bl) as Bt.
  assert (Bph : 0 <= phase_after dir n k <= 3) by (unfold phase_after; pose proof (Z.mod_pos_bound (dir * (1 + Z.min (Z.of_nat k) (n - 1))) 4 ltac:(lia)); lia).
  pose proof (Z.div_mod n 2 ltac:(lia)) as D1. pose proof (Z.mod_pos_bound n 2 ltac:(lia)) as D2.
  set (n2 := n / 2) in *.
  destruct (turn_prefix w _ _ _ _ _ _ _ _ Hs) as (s1 & T & S1 & Dl & Ie); [assumption|destruct Bd; subst dir; lia|destruct Bd; subst dir; lia|lia|assumption|].
  rewrite He in Ie. rewrite (proj2 (Z.ltb_lt _ _) Hk) in Ie.
  assert (P : p + dir * Z.of_nat k + dir = p + dir * Z.of_nat (S k)) by (rewrite Nat2Z.inj_succ; ring). rewrite P in S1.
  assert (P2 : Z.of_nat k + 1 = Z.of_nat (S k)) by lia. rewrite P2 in S1.
  rewrite Hr in T, S1. unfold ramp_after in Hr, T, S1. fold n2 in Hr, T, S1.
  assert (Last : Z.of_nat (S k) = n -> seen (mkW ramp_down s1) (p + dir * Z.of_nat (S k)) n n2 dir (Z.of_nat (S k)) (delay_after n k) (timer_after h l n k) (phase_after dir n k) ->
     exists w', case_down (mkW ramp_down s1) = (w', RDone) /\ after h l p dir n (S k) w').
  { intros E Q. eexists. split; [eapply case_down_last; [rewrite E in Q; exact Q|lia]|].
    assert (T1 : timer_after h l n (S k) = timer_after h l n k) by (cbn [timer_after]; rewrite E, Z.ltb_irrefl; reflexivity).
    assert (T2 : phase_after dir n (S k) = phase_after dir n k) by (unfold phase_after; do 3 f_equal; lia).
    assert (T3 : delay_after n (S k) = delay_after n k)
      by (cbn [delay_after]; rewrite E; fold n2; rewrite (proj2 (Z.ltb_ge n n2)), Z.ltb_irrefl by lia; reflexivity).
    unfold after. cbv zeta. rewrite T1, T2, T3. destruct Q. splits.
    - split; cbn [mem] in *; look.
    - unfold ramp_after. cbn [ramp_sts]. fold n2. rewrite (proj2 (Z.ltb_ge _ n2)), (proj2 (Z.ltb_ge _ n)) by lia. reflexivity.
    - rewrite (proj2 (Z.ltb_ge _ n)) by lia. reflexivity.
    - intros _. cbn [pred mem]. look. }
  assert (Down : Z.of_nat (S k) < n -> n2 <= Z.of_nat (S k) ->
     seen (mkW ramp_down s1) (p + dir * Z.of_nat (S k)) n n2 dir (Z.of_nat (S k)) (delay_after n k) (timer_after h l n k) (phase_after dir n k) ->
     exists w', case_down (mkW ramp_down s1) = (w', RDone) /\ after h l p dir n (S k) w').
  { intros L1 L2 Q. destruct (case_down_more s1 _ _ _ _ _ _ _ _ Q) as (s2 & F & G & G1 & G2); try assumption; try lia.
    eexists. split; [exact F|].
    assert (T3 : delay_after n (S k) = Z.min c0 (delay_after n k + 2 * delay_after n k / (4 * (n - Z.of_nat (S k)) - 1)))
      by (cbn [delay_after]; fold n2; rewrite (proj2 (Z.ltb_ge _ n2)), (proj2 (Z.ltb_lt _ n)) by lia; reflexivity).
    assert (T1 : timer_after h l n (S k) = (timer_after h l n k + delay_after n (S k)) mod 2 ^ 24) by (cbn [timer_after]; rewrite (proj2 (Z.ltb_lt _ n)) by lia; reflexivity).
    rewrite <- T3, <- T1, <- phase_next in G by lia.
    unfold after. cbv zeta. splits; [exact G| | |].
    - unfold ramp_after. cbn [ramp_sts]. fold n2. rewrite (proj2 (Z.ltb_ge _ n2)), (proj2 (Z.ltb_lt _ n)) by lia. reflexivity.
    - rewrite (proj2 (Z.ltb_lt _ n)) by lia. cbn [mem]. congruence.
    - intros _. cbn [pred mem]. congruence. }
  rewrite T. unfold dispatch. cbn [ramp_sts].
  destruct (Z.ltb_spec (Z.of_nat k) n2) as [L|L].
  - destruct (Z.eq_dec (Z.of_nat (S k)) n2) as [E|E].
    + assert (S2 := S1). rewrite E in S2. rewrite (case_up_middle _ _ _ _ _ _ _ _ S2) by lia.
      apply Down; [lia|lia|]. destruct S1. split; cbn [mem] in *; assumption.
    + assert (T3 : delay_after n (S k) = delay_after n k - 2 * delay_after n k / (4 * Z.of_nat (S k) + 1))
        by (cbn [delay_after]; fold n2; rewrite (proj2 (Z.ltb_lt _ n2)) by lia; reflexivity).
      destruct (case_up_more s1 _ _ _ _ _ _ _ _ S1) as (s2 & F & G & G1 & G2); try assumption; try lia.
      eexists. split; [exact F|].
      assert (T1 : timer_after h l n (S k) = (timer_after h l n k + delay_after n (S k)) mod 2 ^ 24) by (cbn [timer_after]; rewrite (proj2 (Z.ltb_lt _ n)) by lia; reflexivity).
      rewrite <- T3, <- T1, <- phase_next in G by lia.
      unfold after. cbv zeta. splits; [exact G| | |].
      * unfold ramp_after. cbn [ramp_sts]. fold n2. rewrite (proj2 (Z.ltb_lt _ n2)) by lia. reflexivity.
      * rewrite (proj2 (Z.ltb_lt _ n)) by lia. cbn [mem]. congruence.
      * intros _. cbn [pred mem]. congruence.
  - rewrite (proj2 (Z.ltb_lt _ _) Hk) in *.
    destruct (Z.eq_dec (Z.of_nat (S k)) n) as [E|E]; [apply Last; assumption|apply Down; [lia|lia|assumption]].
Qed.

(** ------------------------------------------------------------------ *)
(** the beginning of a move *)
Definition begun (h l p dir n : Z) (w : world) : Prop :=
  seen w p n (n / 2) dir 0 first_delay (timer_after h l n 0) (dir mod 4)
  /\ ramp_sts w = ramp_up /\ mem w CCP1IE = Some 1.

Lemma start_ok : forall r s h l p dir n, s motor_position = Some p -> s m = Some n -> s d = Some dir ->
  s TMR1H = Some h -> s TMR1L = Some l -> 0 <= h <= 255 -> 0 <= l <= 255 -> 1 <= n <= 50000 -> dir = 1 \/ dir = -1 ->
  exists w1, start (mkW r s) = (w1, RDone) /\ begun h l p dir n w1.
Proof.
  intros r s h l p dir n Hq Hm Hd Hh Hl Bh Bl Bn Bd.
  assert (Bp : 0 <= dir mod 4 <= 3) by (pose proof (Z.mod_pos_bound dir 4 ltac:(lia)); lia).
  eexists. split.
  { unfold start.
    erewrite andthen_done by setlit.
    erewrite andthen_done by (eapply set_m2; [look|lia]).
    erewrite andthen_done by reflexivity. cbn [mem].
    erewrite andthen_done by (unfold C0; setlit).
    erewrite andthen_done by (eapply first_ccpr; [look|look|lia|lia]).
    erewrite andthen_done by (eapply first_phase_ix; [look|lia]).
    erewrite andthen_done by (eapply do_update; [look|look|unfold c0; change (2 ^ 24) with 16777216; lia|exact Bp]).
    setlit. }
  unfold begun; splits; [|reflexivity|look].
  split; cbn [mem]; look.
Qed.

Lemma run_forward : forall w h l p q, mem w motor_position = Some p -> 0 <= p < q -> q <= 50000 ->
  0 <= h <= 255 -> 0 <= l <= 255 ->
  exists w1, motor_run (call q h l w) = (w1, RDone) /\ begun h l p 1 (q - p) w1.
Proof.
  intros [r s] h l p q Hp Bp Bq Bh Bl. cbn [mem] in Hp. unfold motor_run, call. cbn [mem ramp_sts].
  edestruct start_ok as (w1 & E & B); cycle 9.
  { exists w1. split; [|exact B].
    erewrite branch_value by (eapply cond_forward; cbn [mem]; [look|look|lia|lia]).
    rewrite (proj2 (Z.ltb_lt _ _)) by lia.
    erewrite andthen_done by setlit.
    erewrite andthen_done by (eapply set_m_forward; [look|look|lia|lia]). exact E. }
  all: try look; try lia.
Qed.

Lemma run_backward : forall w h l p q, mem w motor_position = Some p -> 0 <= q < p -> p <= 50000 ->
  0 <= h <= 255 -> 0 <= l <= 255 ->
  exists w1, motor_run (call q h l w) = (w1, RDone) /\ begun h l p (-1) (p - q) w1.
Proof.
  intros [r s] h l p q Hp Bp Bq Bh Bl. cbn [mem] in Hp. unfold motor_run, call. cbn [mem ramp_sts].
  edestruct start_ok as (w1 & E & B); cycle 9.
  { exists w1. split; [|exact B].
    erewrite branch_value by (eapply cond_forward; cbn [mem]; [look|look|lia|lia]).
    rewrite (proj2 (Z.ltb_ge _ _)) by lia.
    erewrite branch_value by (eapply cond_backward; cbn [mem]; [look|look|lia|lia]).
    rewrite (proj2 (Z.ltb_lt _ _)) by lia.
    erewrite andthen_done by setlit.
    erewrite andthen_done by (eapply set_m_backward; [look|look|lia|lia]). exact E. }
  all: try look; try lia.
Qed.

Lemma run_stay : forall w h l p, mem w motor_position = Some p -> 0 <= p <= 50000 ->
  exists w1, motor_run (call p h l w) = (w1, RDone) /\ mem w1 motor_position = Some p /\ ramp_sts w1 = ramp_idle.
Proof.
  intros [r s] h l p Hp Bp. cbn [mem] in Hp. unfold motor_run, call. cbn [mem ramp_sts].
  eexists. split.
  - erewrite branch_value by (eapply cond_forward; cbn [mem]; [look|look|lia|lia]).
    rewrite Z.ltb_irrefl.
    erewrite branch_value by (eapply cond_backward; cbn [mem]; [look|look|lia|lia]).
    rewrite Z.ltb_irrefl.
    erewrite andthen_done by setlit. erewrite andthen_done by setlit. reflexivity.
  - split; [cbn [mem]; look|reflexivity].
Qed.

Lemma begun_after : forall h l p dir n w, 2 <= n -> begun h l p dir n w -> after h l p dir n 0 w.
Proof.
  intros h l p dir n w Hn (S & R & E). unfold after. cbv zeta. cbn [Z.of_nat].
  assert (1 <= n / 2) by (apply Z.div_le_lower_bound; lia).
  replace (p + dir * 0) with p by ring. splits.
  - unfold phase_after. rewrite Z.min_l by (cbn; lia). replace (dir * (1 + Z.of_nat 0)) with dir by (cbn; ring). exact S.
  - unfold ramp_after. rewrite (proj2 (Z.ltb_lt _ _)) by lia. exact R.
  - rewrite (proj2 (Z.ltb_lt _ _)) by lia. exact E.
  - intros C. congruence.
Qed.

Lemma after_turns : forall h l p dir n, dir = 1 \/ dir = -1 -> 2 <= n <= 50000 ->
  0 <= p <= 50000 -> 0 <= p + dir * n <= 50000 -> 0 <= h <= 255 -> 0 <= l <= 255 ->
  forall k j w, Z.of_nat (j + k) <= n -> after h l p dir n j w ->
  exists w', turns k w = (w', RDone) /\ after h l p dir n (j + k) w'.
Proof.
  intros h l p dir n Bd Bn Bp Bp' Bh Bl. induction k as [|k IH]; intros j w Hk A.
  - exists w. rewrite Nat.add_0_r. auto.
  - destruct (next_turn h l p dir n j w) as (w1 & T & A1); try assumption; [lia|].
    destruct (IH (S j) w1) as (w2 & T2 & A2); [lia|assumption|].
    exists w2. split; [|rewrite Nat.add_succ_r; exact A2].
    cbn [turns]. rewrite (andthen_done _ _ _ _ T). exact T2.
Qed.

Lemma after_busy : forall h l p dir n k w, after h l p dir n k w -> 2 <= n -> busy w = (Z.of_nat k <? n).
Proof.
  intros h l p dir n k w (_ & R & _) Hn. unfold busy. rewrite R. unfold ramp_after.
  assert (n / 2 <= n) by (apply Z.div_le_upper_bound; lia).
  destruct (Z.ltb_spec (Z.of_nat k) (n / 2)), (Z.ltb_spec (Z.of_nat k) n); try reflexivity; lia.
Qed.

Lemma after_loop : forall h l p dir n, dir = 1 \/ dir = -1 -> 2 <= n <= 50000 ->
  0 <= p <= 50000 -> 0 <= p + dir * n <= 50000 -> 0 <= h <= 255 -> 0 <= l <= 255 ->
  forall k j w, Z.of_nat j <= n -> n <= Z.of_nat (j + k) -> after h l p dir n j w ->
  exists w', while_busy k w = Some (w', RDone) /\ after h l p dir n (Z.to_nat n) w'.
Proof.
  intros h l p dir n Bd Bn Bp Bp' Bh Bl. induction k as [|k IH]; intros j w Hj Hk A.
  - exists w. replace (Z.to_nat n) with j by lia. split; [|assumption].
    cbn [while_busy]. rewrite (after_busy _ _ _ _ _ _ _ A) by lia. rewrite (proj2 (Z.ltb_ge _ _)) by lia. reflexivity.
  - cbn [while_busy]. rewrite (after_busy _ _ _ _ _ _ _ A) by lia.
    destruct (Z.ltb_spec (Z.of_nat j) n) as [L|L].
    + destruct (next_turn h l p dir n j w) as (w1 & T & A1); try assumption.
      rewrite T. apply (IH (S j)); [lia|lia|assumption].
    + exists w. replace (Z.to_nat n) with j by lia. auto.
Qed.

(** ------------------------------------------------------------------ *)
(** a move of one step *)
Definition running (p dir : Z) (k : nat) (w : world) : Prop :=
  exists t_ ph, 0 <= t_ < 2 ^ 24 /\ 0 <= ph <= 3
  /\ seen w (p + dir * Z.of_nat k) 1 0 dir (Z.of_nat k) (accel k) t_ ph /\ ramp_sts w = ramp_up.

Lemma begun_running : forall h l p dir w, 0 <= h <= 255 -> 0 <= l <= 255 -> begun h l p dir 1 w -> running p dir 0 w.
Proof.
  intros h l p dir w Bh Bl (S & R & _). exists (timer_after h l 1 0), (dir mod 4).
  splits; try apply timer_range; try assumption.
  - apply Z.mod_pos_bound. lia.
  - pose proof (Z.mod_pos_bound dir 4 ltac:(lia)). lia.
  - replace (p + dir * Z.of_nat 0) with p by (cbn; ring). exact S.
Qed.

Lemma running_next : forall p dir k w, dir = 1 \/ dir = -1 -> 0 <= p <= 50000 ->
  0 <= p + dir * Z.of_nat k <= 50000 -> 0 <= p + dir * Z.of_nat (S k) <= 50000 -> running p dir k w ->
  exists w', turn w = (w', RDone) /\ running p dir (S k) w'.
Proof.
  intros p dir k w Bd Bp Bq Bq' (t_ & ph & Bt & Bph & Hs & Hr).
  pose proof (accel_range k) as Bc. change shortest_delay with c_min in Bc. change first_delay with c0 in Bc.
  pose proof (accel_range (S k)) as Bc'. change shortest_delay with c_min in Bc'. change first_delay with c0 in Bc'.
  assert (P : p + dir * Z.of_nat k + dir = p + dir * Z.of_nat (S k)) by (rewrite Nat2Z.inj_succ; ring).
  assert (Bk : Z.of_nat k <= 50000) by (destruct Bd; subst dir; lia).
  destruct (turn_prefix w _ _ _ _ _ _ _ _ Hs) as (s1 & T & S1 & Dl & Ie); try assumption; [lia|lia|].
  rewrite P in S1. replace (Z.of_nat k + 1) with (Z.of_nat (S k)) in S1 by lia. rewrite Hr in *.
  rewrite T. unfold dispatch. cbn [ramp_sts].
  destruct (case_up_more s1 _ _ _ _ _ _ _ _ S1) as (s2 & F & G & G1 & G2); try assumption; try lia; [apply Bc'|].
  eexists. split; [exact F|]. unfold running. do 2 eexists. splits; [| | | |exact G|reflexivity].
  - apply Z.mod_pos_bound. reflexivity.
  - apply Z.mod_pos_bound. reflexivity.
  - apply Z.mod_pos_bound. reflexivity.
  - pose proof (Z.mod_pos_bound (ph + dir) 4 ltac:(lia)). lia.
Qed.

Lemma running_stop : forall p dir k w, dir = 1 \/ dir = -1 ->
  p + dir * Z.of_nat k = (if dir =? 1 then 50000 else 0) -> running p dir k w ->
  exists w', turn w = (w', RRaised (if dir =? 1 then positive_overflow_error else domain_error)) /\ mem w' motor_position = Some (if dir =? 1 then 50000 else 0) /\ busy w' = true.
Proof.
  intros p dir k [r s] Bd Hq (t_ & ph & Bt & Bph & Hs & Hr).
  pose proof (accel_range k) as Bc. change shortest_delay with c_min in Bc. change first_delay with c0 in Bc.
  rewrite Hq in Hs. destruct Hs as [Sq Sn Sn2 Sd Si Sc St Sp Sh Sl S1 S2]. cbn [mem ramp_sts] in *. subst r.
  set (s1 := upd (upd s t (Some (accel k))) delay (Some ((accel k + 128) / 256))).
  assert (M : to_microseconds (mkW ramp_up s) = (mkW ramp_up s1, RDone)).
  { unfold to_microseconds. erewrite andthen_done by (eapply set_t; eassumption).
    eapply set_delay; [look|unfold c_min in Bc; lia]. }
  assert (Q1 : s1 motor_position = Some (if dir =? 1 then 50000 else 0)) by look.
  assert (D1 : s1 d = Some dir) by look. clearbody s1.
  exists (mkW ramp_up s1). splits; [|exact Q1|reflexivity].
  unfold turn, isr_motor_step. erewrite andthen_done by exact M.
  erewrite andthen_raise; [reflexivity|].
  erewrite branch_value by (eapply cond_d; [cbn [mem]; exact D1|lia]).
  destruct Bd as [E|E]; rewrite E in *; cbn [Z.ltb Z.eqb Z.compare Pos.compare Pos.compare_cont Pos.eqb] in *;
    unfold do; cbn [mem exec types]; unfold read; unfold motor_position in *; rewrite Q1, mbind_ret.
  - let z := eval vm_compute in (increment LP64 position_t 50000) in
    replace (increment LP64 position_t 50000) with z by (vm_compute; reflexivity). reflexivity.
  - let z := eval vm_compute in (decrement LP64 position_t 0) in
    replace (decrement LP64 position_t 0) with z by (vm_compute; reflexivity). reflexivity.
Qed.

Lemma running_busy : forall p dir k w, running p dir k w -> busy w = true.
Proof. intros p dir k w (t_ & ph & _ & _ & _ & R). unfold busy. rewrite R. reflexivity. Qed.

Lemma running_turns : forall p dir, dir = 1 \/ dir = -1 -> 0 <= p <= 50000 ->
  forall k j w, 0 <= p + dir * Z.of_nat (j + k) <= 50000 -> running p dir j w ->
  exists w', turns k w = (w', RDone) /\ running p dir (j + k) w'.
Proof.
  intros p dir Bd Bp. induction k as [|k IH]; intros j w Hk A.
  - exists w. rewrite Nat.add_0_r. auto.
  - destruct (running_next p dir j w) as (w1 & T & A1); try assumption; try (destruct Bd; subst dir; lia).
    destruct (IH (S j) w1) as (w2 & T2 & A2); [rewrite Nat.add_succ_r in Hk; exact Hk|assumption|].
    exists w2. split; [|rewrite Nat.add_succ_r; exact A2].
    cbn [turns]. rewrite (andthen_done _ _ _ _ T). exact T2.
Qed.

Lemma running_loop : forall p dir, dir = 1 \/ dir = -1 -> 0 <= p <= 50000 ->
  forall f j w, 0 <= p + dir * Z.of_nat j <= 50000 -> (if dir =? 1 then 50000 - p else p) < Z.of_nat (j + f) ->
  running p dir j w ->
  exists w', while_busy f w = Some (w', RRaised (if dir =? 1 then positive_overflow_error else domain_error))
    /\ mem w' motor_position = Some (if dir =? 1 then 50000 else 0).
Proof.
  intros p dir Bd Bp. induction f as [|f IH]; intros j w Hj Hf A.
  - exfalso. destruct Bd; subst dir; cbn [Z.eqb Pos.eqb] in *; lia.
  - cbn [while_busy]. rewrite (running_busy _ _ _ _ A).
    destruct (Z.eq_dec (p + dir * Z.of_nat j) (if dir =? 1 then 50000 else 0)) as [E|E].
    + destruct (running_stop p dir j w Bd E A) as (w' & T & Q & _). rewrite T. exists w'. split; [reflexivity|exact Q].
    + destruct (running_next p dir j w) as (w1 & T & A1); try assumption;
        [destruct Bd; subst dir; cbn [Z.eqb Pos.eqb] in *; lia|].
      rewrite T. apply (IH (S j)); [|rewrite Nat.add_succ_r in Hf; exact Hf|assumption].
      destruct Bd; subst dir; cbn [Z.eqb Pos.eqb] in *; lia.
Qed.

(** ------------------------------------------------------------------ *)
(** any move *)
Lemma move_ok : forall f w h l p q, mem w motor_position = Some p -> 0 <= p <= 50000 -> 0 <= q <= 50000 ->
  0 <= h <= 255 -> 0 <= l <= 255 -> 50000 < Z.of_nat f ->
  exists w', move f q h l w = Some (w', if single_step p q then RRaised (if p <? q then positive_overflow_error else domain_error) else RDone)
    /\ mem w' motor_position = Some (reached p q) /\ (single_step p q = false -> busy w' = false).
Proof.
  intros f w h l p q Hp Bp Bq Bh Bl Hf.
  assert (G : forall dir n w1, dir = 1 \/ dir = -1 -> 1 <= n -> q = p + dir * n -> motor_run (call q h l w) = (w1, RDone) ->
     begun h l p dir n w1 -> single_step p q = (n =? 1) -> (p <? q) = (dir =? 1) ->
     exists w', move f q h l w
      = Some (w', if single_step p q then RRaised (if p <? q then positive_overflow_error else domain_error) else RDone)
      /\ mem w' motor_position = Some (reached p q) /\ (single_step p q = false -> busy w' = false)).
  { intros dir n w1 Bd Hn Eq R B Es Ed. unfold move, reached. rewrite R, Es, Ed.
    destruct (Z.eqb_spec n 1) as [E|E].
    - subst n. destruct (running_loop p dir Bd Bp f 0 w1) as (w' & W & Q).
      + cbn [Z.of_nat]. lia.
      + cbn [Nat.add]. destruct (dir =? 1); lia.
      + exact (begun_running h l p dir w1 Bh Bl B).
      + exists w'. splits; [exact W|exact Q|congruence].
    - assert (A := begun_after h l p dir n w1 ltac:(lia) B).
      destruct (after_loop h l p dir n) with (k := f) (j := 0%nat) (w := w1) as (w' & W & Q); try assumption; try lia.
      + exists w'. splits; [exact W| |].
        * destruct Q as (Q & _). rewrite (see_q _ _ _ _ _ _ _ _ _ Q). f_equal. rewrite Z2Nat.id by lia. lia.
        * intros _. rewrite (after_busy _ _ _ _ _ _ _ Q) by lia. apply Z.ltb_ge. lia. }
  destruct (Z.lt_trichotomy p q) as [L|[L|L]].
  - destruct (run_forward w h l p q) as (w1 & R & B); try assumption; try lia.
    apply (G 1 (q - p) w1); auto; try lia.
    all: unfold single_step; lia.
  - subst q. destruct (run_stay w h l p Hp Bp) as (w1 & R & Q1 & Q2). unfold move, reached, single_step. rewrite R.
    exists w1. rewrite Z.sub_diag. cbn [Z.abs Z.eqb]. splits.
    + destruct f; cbn [while_busy]; unfold busy; rewrite Q2; reflexivity.
    + exact Q1.
    + intros _. unfold busy. rewrite Q2. reflexivity.
  - destruct (run_backward w h l p q) as (w1 & R & B); try assumption; try lia.
    apply (G (-1) (p - q) w1); auto; try lia.
    all: unfold single_step; lia.
Qed.

Lemma reached_range : forall p q, 0 <= q <= 50000 -> 0 <= reached p q <= 50000.
Proof. intros p q B. unfold reached. destruct (single_step p q), (p <? q); lia. Qed.

Lemma moves_ok : forall f ms w p, 50000 < Z.of_nat f -> Forall good_move ms ->
  mem w motor_position = Some p -> 0 <= p <= 50000 ->
  exists w' r, moves f ms w = Some (w', r) /\ mem w' motor_position = Some (journey p (targets ms))
    /\ (if some_single_step p (targets ms) then exists e, r = RRaised e else r = RDone).
Proof.
  intros f ms. induction ms as [|[[q h] l] ms IH]; intros w p Hf Hg Hp Bp.
  - exists w, RDone. splits; try assumption; reflexivity.
  - pose proof (Forall_inv Hg) as (Bq & Bh & Bl). pose proof (Forall_inv_tail Hg) as Hg'.
    destruct (move_ok f w h l p q) as (w1 & M & Q & _); try assumption.
    destruct (IH w1 (reached p q) Hf Hg' Q (reached_range p q Bq)) as (w' & r & E & P & F).
    cbn [moves targets map fst journey some_single_step]. fold (targets ms). rewrite M, E.
    exists w', (and_result (if single_step p q then RRaised (if p <? q then positive_overflow_error else domain_error) else RDone) r).
    split; [destruct (single_step p q); reflexivity|]. split; [exact P|].
    destruct (single_step p q); cbn [orb].
    + destruct (some_single_step (reached p q) (targets ms)).
      * destruct F as (e & ->). eexists. reflexivity.
      * subst r. eexists. reflexivity.
    + destruct (some_single_step (reached p q) (targets ms)).
      * destruct F as (e & ->). eexists. reflexivity.
      * subst r. reflexivity.
Qed.

Lemma main_ok : forall f ms, 50000 < Z.of_nat f -> Forall good_move ms ->
  exists w' r, main f ms = Some (w', r) /\ mem w' motor_position = Some (journey 0 (targets ms))
    /\ (if some_single_step 0 (targets ms) then exists e, r = RRaised e else r = RDone).
Proof.
  intros f ms Hf Hg. unfold main.
  destruct (initialize boot) as [w r] eqn:E.
  assert (K : mem w motor_position = Some 0 /\ r = RDone).
  { vm_compute in E. injection E as <- <-. split; reflexivity. }
  destruct K as [K ->]. apply moves_ok; auto. lia.
Qed.

(** ------------------------------------------------------------------ *)
(** the statements of PropsMotor.v *)
Lemma good_run : forall w p q h l, mem w motor_position = Some p ->
  0 <= p <= 50000 -> 0 <= q <= 50000 -> 0 <= h <= 255 -> 0 <= l <= 255 -> 2 <= Z.abs (q - p) ->
  let n := Z.abs (q - p) in let dir := Z.sgn (q - p) in
  exists w1, motor_run (call q h l w) = (w1, RDone)
  /\ forall k, Z.of_nat k <= n -> exists w', turns k w1 = (w', RDone)
     /\ mem w' motor_position = Some (p + dir * Z.of_nat k)
     /\ mem w' c = Some (delay_after n k)
     /\ mem w' CCPR1H = Some (timer_after h l n k / 256 mod 256)
     /\ mem w' CCPR1L = Some (timer_after h l n k mod 256)
     /\ mem w' CCP1CON = Some (fst (windings (phase_after dir n k)))
     /\ mem w' CCP2CON = Some (snd (windings (phase_after dir n k)))
     /\ mem w' CCP1IE = Some (if Z.of_nat k <? n then 1 else 0)
     /\ (k <> 0%nat -> mem w' delay = Some ((delay_after n (pred k) + 128) / 256))
     /\ busy w' = (Z.of_nat k <? n).
Proof.
  intros w p q h l Hp Bp Bq Bh Bl Hn n dir.
  assert (G : exists w1, motor_run (call q h l w) = (w1, RDone) /\ begun h l p dir n w1).
  { unfold n, dir. destruct (Z.lt_trichotomy p q) as [L|[L|L]]; [|lia|].
    - rewrite Z.abs_eq, Z.sgn_pos by lia. apply run_forward; auto; lia.
    - rewrite Z.abs_neq, Z.sgn_neg by lia. replace (- (q - p)) with (p - q) by lia. apply run_backward; auto; lia. }
  destruct G as (w1 & R & B). exists w1. split; [exact R|]. intros k Hk.
  assert (Bd : dir = 1 \/ dir = -1) by (unfold dir; lia).
  assert (Bn : p + dir * n = q) by (unfold dir, n; rewrite Z.mul_comm, Z.abs_sgn; lia).
  destruct (after_turns h l p dir n) with (k := k) (j := 0%nat) (w := w1) as (w' & T & A); try assumption; try lia.
  { exact (begun_after h l p dir n w1 Hn B). }
  cbn [Nat.add] in A. exists w'. pose proof (after_busy _ _ _ _ _ _ _ A Hn) as Hb.
  destruct A as (S & _ & E & Dl). destruct S. splits; assumption.
Qed.

Lemma single_run : forall w p q h l, mem w motor_position = Some p ->
  0 <= p <= 50000 -> 0 <= q <= 50000 -> 0 <= h <= 255 -> 0 <= l <= 255 -> Z.abs (q - p) = 1 ->
  let dir := q - p in
  exists w1, motor_run (call q h l w) = (w1, RDone)
  /\ forall k, 0 <= p + dir * Z.of_nat k <= 50000 -> exists w', turns k w1 = (w', RDone)
     /\ mem w' motor_position = Some (p + dir * Z.of_nat k) /\ busy w' = true
     /\ (~ 0 <= p + dir * Z.of_nat (S k) <= 50000 -> exists w2 e, turn w' = (w2, RRaised e)
          /\ mem w2 motor_position = Some (p + dir * Z.of_nat k) /\ busy w2 = true).
Proof.
  intros w p q h l Hp Bp Bq Bh Bl Hn dir. assert (Bd : dir = 1 \/ dir = -1) by (unfold dir; lia).
  assert (G : exists w1, motor_run (call q h l w) = (w1, RDone) /\ begun h l p dir 1 w1).
  { destruct (Z.lt_ge_cases p q) as [L|L].
    - destruct (run_forward w h l p q) as (w1 & R & B); auto; try lia. replace (q - p) with 1 in B by lia.
      exists w1. replace dir with 1 by (unfold dir; lia). auto.
    - destruct (run_backward w h l p q) as (w1 & R & B); auto; try lia. replace (p - q) with 1 in B by lia.
      exists w1. replace dir with (-1) by (unfold dir; lia). auto. }
  destruct G as (w1 & R & B). exists w1. split; [exact R|]. intros k Hk. clearbody dir.
  destruct (running_turns p dir Bd Bp k 0 w1 Hk (begun_running h l p dir w1 Bh Bl B)) as (w' & T & A).
  cbn [Nat.add] in A. exists w'. splits; [exact T| |exact (running_busy _ _ _ _ A)|].
  - destruct A as (t_ & ph & _ & _ & S & _). exact (see_q _ _ _ _ _ _ _ _ _ S).
  - intros Ho.
    assert (E : p + dir * Z.of_nat k = (if dir =? 1 then 50000 else 0)).
    { destruct Bd as [E|E]; rewrite E in *; cbn [Z.eqb Pos.eqb]; lia. }
    destruct (running_stop p dir k w' Bd E A) as (w2 & T2 & Q2 & B2). exists w2. eexists. splits; [exact T2| |exact B2].
    rewrite E. exact Q2.
Qed.
