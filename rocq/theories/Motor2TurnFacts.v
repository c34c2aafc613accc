(** Motor2TurnFacts.v -- one turn of the loop of the second stepper motor program, as a function
    on integers. *)
From Coq Require Import ZArith Bool List Lia.
From Verif Require Import Base CType SafeBase SafeSpec ExceptionPolicy Promotion Program BoolConv
  Motor2 Motor2Spec Motor2Facts Motor2StepFacts.
Import ListNotations.
Local Open Scope Z_scope.

(** the state of a move: ramp_sts, step_no, denom, c, step_down *)
Record ps : Type := mkP { ph : ramp_state; kk : Z; dn : Z; cc : Z; sd : Z }.

Definition p_down (n : Z) (s : ps) : ps :=
  if kk s =? n - 1 then mkP ramp_last (kk s) (dn s) (cc s) (sd s)
  else
    let dn' := dn s + 4 in
    let c' := if 0 <? dn' then cc s - cc s * 2 / dn' else cc s + cc s * 2 / - dn' in
    if least_delay <? c' then mkP (ph s) (kk s) dn' c' (sd s)
    else mkP ramp_max (kk s) dn' least_delay (n - kk s).
Definition p_up (n : Z) (s : ps) : ps :=
  if kk s =? (n - 1) / 2 then
    let s1 := mkP ramp_down (kk s) ((n - kk s) * 4 - 1) (cc s) (sd s) in
    if Z.even n then mkP ramp_down (kk s) ((n - kk s) * 4 - 1 + 4) (cc s) (sd s) else p_down n s1
  else p_down n s.
Definition p_max (n : Z) (s : ps) : ps :=
  if kk s =? sd s then mkP ramp_down (kk s) (5 - (n - kk s) * 4) (cc s) (sd s) else s.
Definition p_switch (n : Z) (s : ps) : ps :=
  match ph s with
  | ramp_up => p_up n s
  | ramp_down => p_down n s
  | ramp_max => p_max n s
  | ramp_last | ramp_idle => mkP ramp_idle (kk s) (dn s) (cc s) (sd s)
  end.
Definition p_turn (n : Z) (s : ps) : ps :=
  let s1 := p_switch n s in
  match ph s1 with
  | ramp_idle => s1
  | r => mkP r (kk s1 + 1) (dn s1) (cc s1) (sd s1)
  end.

(** conditions under which no operation but the addition to ccpr and to the position can raise *)
Definition ok_down (n : Z) (s : ps) : bool :=
  (kk s =? n - 1)
  || ((kk s <=? n) && (dn s + 4 <=? 32767) && (-32768 <=? dn s) && ((3 <=? dn s + 4) || (dn s + 4 <=? -3))).
Definition ok_turn (n : Z) (s : ps) : bool :=
  (1 <=? n) && (n <=? 32767) && (0 <=? kk s) && (kk s <? 65535) && (0 <=? cc s) && (cc s <=? 500000000)
  && match ph s with
     | ramp_up =>
         if kk s =? (n - 1) / 2 then
           ((n - kk s) * 4 + 3 <=? 32767)
           && ok_down n (mkP ramp_down (kk s) ((n - kk s) * 4 - 1) (cc s) (sd s))
         else ok_down n s
     | ramp_down => ok_down n s
     | ramp_max => (0 <=? sd s) && (sd s <=? 65535) && (negb (kk s =? sd s) || ((kk s <=? n) && (-32768 <=? 5 - (n - kk s) * 4)))
     | ramp_last | ramp_idle => true
     end.

(** the variables concerned *)
Definition core (s : store) (n : Z) (p : ps) : Prop :=
  s step_no = Some (kk p) /\ s denom = Some (dn p) /\ s c = Some (cc p) /\ s move = Some n
  /\ s midpt = Some ((n - 1) / 2) /\ (ph p = ramp_max -> s step_down = Some (sd p)).
(** the variables that the ramps do not touch *)
Definition untouched (v : nat) : Prop :=
  v <> denom /\ v <> c /\ v <> step_down.
Definition valid (s : store) : Prop := forall v, exists z, s v = Some z /\ holds LP64 (types v) z.

Lemma valid_upd : forall s v z, valid s -> holds LP64 (types v) z -> valid (upd s v (Some z)).
Proof.
  intros s v z H Hz u. unfold upd. destruct (Nat.eqb u v) eqn:E; [|apply H].
  apply Nat.eqb_eq in E. subst u. exists z. auto.
Qed.
Lemma upd_same : forall (s : store) v z, upd s v z v = z.
Proof. intros. unfold upd. rewrite Nat.eqb_refl. reflexivity. Qed.
Lemma upd_other : forall (s : store) v z u, u <> v -> upd s v z u = s u.
Proof. intros s v z u H. unfold upd. destruct (Nat.eqb_spec u v); congruence. Qed.
Lemma holds_by : forall v a b z, smin (safe_of v) = a -> smax (safe_of v) = b -> a <= z <= b -> holds LP64 (types v) z.
Proof. intros v a b z <- <- B. rewrite types_safe. exact B. Qed.
Ltac hold := match goal with |- holds _ (types ?v) _ =>
  let a := eval vm_compute in (smin (safe_of v)) in let b := eval vm_compute in (smax (safe_of v)) in
  apply (holds_by v a b); [reflexivity | reflexivity | first [lia | unfold least_delay, first_delay; lia]] end.
Ltac frame := intros v (U1 & U2 & U3); intros; repeat (rewrite upd_other by assumption); reflexivity.

Lemma branch_val : forall k a b r s v, eval_cond LP64 types s k = mret v ->
  branch k a b (mkW r s) = if v then a (mkW r s) else b (mkW r s).
Proof. intros k a b r s v H. unfold branch, choose. cbn [mem]. rewrite H. destruct v; reflexivity. Qed.
Lemma branch_test_val : forall k a b r s v, eval_test LP64 types s k = mret v ->
  branch_test k a b (mkW r s) = if v then a (mkW r s) else b (mkW r s).
Proof. intros k a b r s v H. unfold branch_test, choose. cbn [mem]. rewrite H. destruct v; reflexivity. Qed.

Lemma down_ok : forall s n p r, core s n p -> r <> ramp_max -> ph p = r -> valid s ->
  1 <= n <= 32767 -> 0 <= kk p < 65535 -> 0 <= cc p <= 500000000 -> ok_down n p = true ->
  exists s', case_down (mkW r s) = (mkW (ph (p_down n p)) s', RDone)
    /\ core s' n (p_down n p) /\ valid s' /\ forall v, untouched v -> s' v = s v.
Proof.
  intros s n p r (Hk & Hd & Hc & Hn & Hm & Hs) Hr Hp Hv Bn Bk Bc Ok.
  unfold case_down, p_down. erewrite branch_val by (apply (cond_last s (kk p) n); auto; lia).
  unfold ok_down in Ok. destruct (kk p =? n - 1) eqn:E; cbn [orb] in Ok.
  - exists s. cbn [ph]. split; [reflexivity|]. split; [|split; [assumption|auto]].
    unfold core. cbn [kk dn cc ph sd]. repeat split; auto. discriminate.
  - rewrite !andb_true_iff, orb_true_iff, !Z.leb_le in Ok. destruct Ok as (((O1 & O2) & O3) & O4).
    cbv zeta. set (d' := dn p + 4) in *.
    erewrite andthen_done by (apply (add_denom r s (dn p)); auto).
    fold d'. set (s1 := upd s denom (Some d')).
    assert (V1 : valid s1) by (apply valid_upd; [assumption|hold]).
    set (c' := if 0 <? d' then cc p - cc p * 2 / d' else cc p + cc p * 2 / - d').
    assert (Bc' : 0 <= c' <= 1000000000).
    { unfold c'. destruct (Z.ltb_spec 0 d').
      - assert (0 <= cc p * 2 / d' <= cc p) by (split; [apply Z.div_pos; lia|apply Z.div_le_upper_bound; nia]). lia.
      - assert (0 <= cc p * 2 / - d' <= cc p) by (split; [apply Z.div_pos; lia|apply Z.div_le_upper_bound; nia]). lia. }
    assert (S1c : s1 c = Some (cc p)) by (unfold s1; look).
    assert (S1d : s1 denom = Some d') by (unfold s1; look).
    erewrite (andthen_done _ _ (mkW r s1) (mkW r (upd s1 c (Some c')))).
    2: { erewrite branch_val by (apply (cond_denom s1 d'); [assumption|lia]).
         unfold c'. destruct (Z.ltb_spec 0 d').
         - change 2 with (2 ^ 1). apply (sub_c r s1 (cc p) d'); auto; lia.
         - change 2 with (2 ^ 1). apply (grow_c r s1 (cc p) d'); auto; lia. }
    set (s2 := upd s1 c (Some c')).
    assert (V2 : valid s2) by (apply valid_upd; [assumption|hold]).
    erewrite branch_val by (apply (cond_least s2 c'); [unfold s2; look|lia]).
    destruct (least_delay <? c') eqn:L; cbn [negb].
    + exists s2. cbn [ph]. split; [unfold skip; rewrite Hp; reflexivity|]. split; [|split; [assumption|]].
      * unfold core. cbn [kk dn cc ph sd]. repeat split; unfold s2, s1; look.
      * unfold s2, s1. frame.
    + unfold andthen at 1, become. cbn [mem].
      erewrite andthen_done by (apply (set_step_down ramp_max s2 n (kk p)); [unfold s2, s1; look|unfold s2, s1; look|lia|lia]).
      exists (upd (upd s2 step_down (Some (n - kk p))) c (Some least_delay)). cbn [ph].
      split; [setk|]. split; [|split].
      * unfold core. cbn [kk dn cc ph sd]. repeat split; try (intros _); unfold s2, s1; look.
      * apply valid_upd; [apply valid_upd; [assumption|hold]|hold].
      * unfold s2, s1. frame.
Qed.

Lemma switch_ok : forall s n p, core s n p -> valid s -> ok_turn n p = true ->
  exists s',
    (match ph p with
     | ramp_up => case_up | ramp_down => case_down | ramp_max => case_max
     | ramp_last | ramp_idle => case_default end) (mkW (ph p) s) = (mkW (ph (p_switch n p)) s', RDone)
    /\ core s' n (p_switch n p) /\ valid s' /\ (forall v, untouched v -> v <> CCP1IE -> v <> run_flg -> s' v = s v)
    /\ s' run_flg = (match ph (p_switch n p) with ramp_idle => Some 0 | _ => s run_flg end).
Proof.
  intros s n p H Hv Ok. assert (H' := H). destruct H' as (Hk & Hd & Hc & Hn & Hm & Hs).
  unfold ok_turn in Ok. rewrite !andb_true_iff, !Z.leb_le, Z.ltb_lt in Ok.
  destruct Ok as ((((((B1 & B2) & B3) & B4) & B5) & B6) & Ok).
  assert (U : untouched run_flg) by (unfold untouched; repeat split; discriminate).
  assert (Fin : exists s', case_default (mkW (ph p) s) = (mkW ramp_idle s', RDone)
      /\ core s' n (mkP ramp_idle (kk p) (dn p) (cc p) (sd p)) /\ valid s'
      /\ (forall v, untouched v -> v <> CCP1IE -> v <> run_flg -> s' v = s v) /\ s' run_flg = Some 0).
  { unfold case_default, andthen at 1, become. cbn [mem].
    erewrite andthen_done by setk. rewrite do_bool. cbn [Z.b2z ph].
    eexists. split; [reflexivity|]. split; [|split; [|split]].
    + unfold core. cbn [kk dn cc ph sd]. repeat split; first [look|discriminate].
    + apply valid_upd; [apply valid_upd; [assumption|hold]|hold].
    + frame.
    + apply upd_same. }
  assert (NI : forall q, ph q <> ramp_idle -> ph (p_down n q) <> ramp_idle).
  { intros q Q. unfold p_down. destruct (kk q =? n - 1); [cbn; discriminate|]. cbv zeta.
    match goal with |- context [least_delay <? ?u] => destruct (least_delay <? u) end; [exact Q|cbn; discriminate]. }
  assert (NR : forall q (s1 : store), ph q <> ramp_idle ->
    s1 run_flg = match ph (p_down n q) with ramp_idle => Some 0 | _ => s1 run_flg end).
  { intros q s1 Q. pose proof (NI q Q). destruct (ph (p_down n q)); congruence. }
  destruct (ph p) eqn:Hp; unfold p_switch; rewrite Hp.
  - exact Fin.
  - (* up *) unfold case_up, p_up. erewrite branch_val by (apply (cond_mid s (kk p) ((n - 1) / 2)); auto;
      [lia|split; [apply Z.div_pos; lia|apply Z.div_le_upper_bound; lia]]).
    destruct (kk p =? (n - 1) / 2) eqn:E.
    + apply andb_true_iff in Ok. destruct Ok as (O1 & O2). apply Z.leb_le in O1. apply Z.eqb_eq in E.
      assert (Bm : 0 <= (n - 1) / 2 <= n - 1) by (split; [apply Z.div_pos; lia|apply Z.div_le_upper_bound; lia]).
      unfold andthen at 1, become. cbn [mem].
      erewrite (andthen_done _ _ (mkW ramp_down s) (mkW ramp_down (upd s denom (Some ((n - kk p) * 4 - 1))))).
      2: { erewrite branch_val by (apply (cond_beyond s (kk p) n); auto; lia).
           rewrite (proj2 (Z.ltb_ge n (kk p))) by lia. apply (set_denom_mid ramp_down s n (kk p)); auto; lia. }
      set (s1 := upd s denom (Some ((n - kk p) * 4 - 1))).
      assert (V1 : valid s1) by (apply valid_upd; [assumption|hold]).
      erewrite branch_test_val by (apply (test_even s1 n); [unfold s1; look|lia]).
      cbv zeta. destruct (Z.even n).
      * erewrite (add_denom ramp_down s1 ((n - kk p) * 4 - 1)); [|unfold s1; look|lia|lia].
        eexists. split; [reflexivity|]. split; [|split; [|split]].
        -- unfold core. cbn [kk dn cc ph sd]. repeat split; first [unfold s1; look|discriminate].
        -- apply valid_upd; [assumption|hold].
        -- unfold s1. frame.
        -- unfold s1. look.
      * destruct (down_ok s1 n (mkP ramp_down (kk p) ((n - kk p) * 4 - 1) (cc p) (sd p)) ramp_down) as (s' & E' & C' & V' & F');
          [|discriminate|reflexivity|assumption|cbn [kk dn cc ph sd]; lia..|exact O2|].
        { unfold core. cbn [kk dn cc ph sd]. repeat split; first [unfold s1; look|discriminate]. }
        exists s'. rewrite E'. split; [reflexivity|]. split; [assumption|]. split; [assumption|].
        assert (F : forall v, untouched v -> s' v = s v)
          by (intros v Uv; rewrite (F' v Uv); unfold s1; apply upd_other; apply Uv).
        split; [auto|]. rewrite <- (F run_flg U). apply NR. discriminate.
    + destruct (down_ok s n p ramp_up) as (s' & E' & C' & V' & F'); [exact H|discriminate|exact Hp|exact Hv|lia|lia|lia|exact Ok|].
      exists s'. rewrite E'. split; [reflexivity|]. split; [assumption|]. split; [assumption|].
      split; [auto|]. rewrite <- (F' run_flg U). apply NR. rewrite Hp. discriminate.
  - (* max *) rewrite !andb_true_iff, !Z.leb_le in Ok. destruct Ok as ((O1 & O2) & O3).
    unfold case_max, p_max. erewrite branch_val by (apply (cond_down s (kk p) (sd p)); auto; lia).
    destruct (kk p =? sd p) eqn:E; cbn [negb orb] in O3.
    + rewrite !andb_true_iff, !Z.leb_le in O3. unfold andthen at 1, become. cbn [mem].
      rewrite (set_denom_max ramp_down s n (kk p)) by (auto; lia).
      eexists. split; [reflexivity|]. split; [|split; [|split]].
      * unfold core. cbn [kk dn cc ph sd]. repeat split; first [look|discriminate].
      * apply valid_upd; [assumption|hold].
      * frame.
      * look.
    + exists s. unfold skip. rewrite Hp. split; [reflexivity|]. split; [assumption|]. split; [assumption|]. auto.
  - (* down *) destruct (down_ok s n p ramp_down) as (s' & E' & C' & V' & F'); [exact H|discriminate|exact Hp|exact Hv|lia|lia|lia|exact Ok|].
    exists s'. rewrite E'. split; [reflexivity|]. split; [assumption|]. split; [assumption|].
    split; [auto|]. rewrite <- (F' run_flg U). apply NR. rewrite Hp. discriminate.
  - exact Fin.
Qed.

(** the memory during a move of n steps in the direction d, at position x *)
Definition inv (n d x a ix : Z) (p : ps) (w : world) : Prop :=
  ramp_sts w = ph p /\ core (mem w) n p /\ valid (mem w) /\ mem w ccpr = Some a /\ mem w motor_pos = Some x
  /\ mem w pos_inc = Some d /\ mem w phase_inc = Some (d mod 256) /\ mem w phase_ix = Some ix /\ 0 <= ix <= 3
  /\ mem w TMR1H = Some 0 /\ mem w TMR1L = Some 0 /\ mem w T1CON = Some 53
  /\ mem w run_flg = Some (match ph p with ramp_idle => 0 | _ => 1 end).

Definition moved (p : ps) (d : Z) : Z := match ph p with ramp_idle => 0 | _ => d end.
Definition turned (p : ps) (d ix : Z) : Z :=
  match ph p with ramp_idle | ramp_last => ix | _ => (ix + d) mod 4 end.
(** the registers of the timer and of the windings *)
Definition registers (a ix : Z) (w : world) : Prop :=
  mem w CCPR1H = Some (a / 256 mod 256) /\ mem w CCPR1L = Some (a mod 256)
  /\ mem w CCP1CON = Some (fst (coils ix)) /\ mem w CCP2CON = Some (snd (coils ix)).

Lemma turn_ok : forall n d x a ix p w, inv n d x a ix p w -> ok_turn n p = true -> ph p <> ramp_idle ->
  -1 <= d <= 1 -> 0 <= a -> a + cc p <= 4294967295 -> (ph p <> ramp_last -> -32768 <= x + d <= 32767) ->
  exists w', turn w = (w', RDone) /\ inv n d (x + moved (p_turn n p) d) (a + cc p) (turned (p_turn n p) d ix) (p_turn n p) w'
    /\ (ph (p_turn n p) <> ramp_idle -> registers (a + cc p) (turned (p_turn n p) d ix) w')
    /\ mem w' delay = Some ((cc p + 128) / 256).
Proof.
  intros n d x a ix p [r s] (Hr & C & Hv & Ha & Hx & Hd & Hpi & Hi & Bi & T1 & T2 & T3 & Hf) Ok Hb Bd Ba Bc Bx.
  cbn [ramp_sts mem] in *. subst r.
  assert (Bx0 : -32768 <= x <= 32767).
  { destruct (Hv motor_pos) as (z & Hz & Bz). rewrite Hx in Hz. injection Hz as <-. exact Bz. }
  assert (O := Ok). unfold ok_turn in O. rewrite !andb_true_iff, !Z.leb_le, Z.ltb_lt in O.
  destruct O as ((((((B1 & B2) & B3) & B4) & B5) & B6) & _).
  destruct C as (Hk & Hdn & Hc & Hn & Hm & Hs).
  assert (NL : ph (p_switch n p) <> ramp_idle -> ph p <> ramp_last).
  { intros F1 F2. apply F1. unfold p_switch. rewrite F2. reflexivity. }
  unfold turn, to_microseconds.
  assert (D2 : 0 <= (cc p + 128) / 256 <= 2147483647) by (split; [apply Z.div_pos; lia|apply Z.div_le_upper_bound; lia]).
  erewrite (andthen_done _ _ _ (mkW (ph p) (upd (upd s t (Some (cc p))) delay (Some ((cc p + 128) / 256))))).
  2: { erewrite andthen_done by (apply (set_t (ph p) s (cc p)); auto; lia).
       apply (set_delay (ph p) _ (cc p)); [look|lia]. }
  set (s0 := upd (upd s t (Some (cc p))) delay (Some ((cc p + 128) / 256))).
  assert (V0 : valid s0) by (apply valid_upd; [apply valid_upd; [assumption|hold]|hold]).
  unfold isr_motor_step.
  erewrite andthen_done by (apply (add_ccpr (ph p) s0 a (cc p)); [unfold s0; look|unfold s0; look|lia|lia|lia]).
  set (s1 := upd s0 ccpr (Some (a + cc p))).
  assert (V1 : valid s1) by (apply valid_upd; [assumption|hold]).
  assert (C1 : core s1 n p) by (unfold core; repeat split; try (intros F; specialize (Hs F)); unfold s1, s0; look).
  destruct (switch_ok s1 n p C1 V1 Ok) as (s2 & E2 & C2 & V2 & F2 & R2).
  erewrite andthen_done.
  2: { cbn [ramp_sts]. rewrite <- E2. destruct (ph p); reflexivity. }
  clear E2.
  assert (G : forall v, untouched v -> v <> CCP1IE -> v <> run_flg -> v <> ccpr -> v <> t -> v <> delay -> s2 v = s v).
  { intros v U U1 U2 U3 U4 U5. rewrite (F2 v U U1 U2). unfold s1, s0. rewrite !upd_other by assumption. reflexivity. }
  assert (G' : s2 ccpr = Some (a + cc p)).
  { rewrite (F2 ccpr); [apply upd_same|unfold untouched; repeat split; discriminate|discriminate|discriminate]. }
  assert (Gf : s2 run_flg = Some (match ph (p_switch n p) with ramp_idle => 0 | _ => 1 end)).
  { rewrite R2. destruct (ph (p_switch n p)); try reflexivity;
    (replace (s1 run_flg) with (s run_flg) by (unfold s1, s0; look)); rewrite Hf; destruct (ph p); congruence. }
  assert (Gx : s2 motor_pos = Some x)
    by (rewrite G by (first [unfold untouched; repeat split; discriminate | discriminate]); assumption).
  assert (Gd : s2 pos_inc = Some d)
    by (rewrite G by (first [unfold untouched; repeat split; discriminate | discriminate]); assumption).
  assert (Gi : s2 phase_ix = Some ix)
    by (rewrite G by (first [unfold untouched; repeat split; discriminate | discriminate]); assumption).
  assert (Gp : s2 phase_inc = Some (d mod 256))
    by (rewrite G by (first [unfold untouched; repeat split; discriminate | discriminate]); assumption).
  assert (Gt1 : s2 TMR1H = Some 0)
    by (rewrite G by (first [unfold untouched; repeat split; discriminate | discriminate]); assumption).
  assert (Gt2 : s2 TMR1L = Some 0)
    by (rewrite G by (first [unfold untouched; repeat split; discriminate | discriminate]); assumption).
  assert (Gt3 : s2 T1CON = Some 53)
    by (rewrite G by (first [unfold untouched; repeat split; discriminate | discriminate]); assumption).
  assert (Gl : s2 delay = Some ((cc p + 128) / 256)).
  { rewrite (F2 delay); [|unfold untouched; repeat split; discriminate|discriminate|discriminate].
    unfold s1. rewrite upd_other by discriminate. apply upd_same. }
  assert (Bp : 0 <= d mod 256 <= 255) by (pose proof (Z.mod_pos_bound d 256 ltac:(lia)); lia).
  assert (Pm : (ix + d mod 256) mod 4 = (ix + d) mod 4).
  { rewrite <- Zplus_mod_idemp_r, <- Znumtheory.Zmod_div_mod, Zplus_mod_idemp_r by (try lia; exists 64; reflexivity). reflexivity. }
  destruct C2 as (K1 & K2 & K3 & K4 & K5 & K6).
  assert (KK : kk (p_switch n p) = kk p).
  { unfold p_switch, p_up, p_max, p_down. destruct (ph p); cbv zeta; cbn [kk dn cc sd ph];
    repeat (match goal with |- context [if ?b then _ else _] => destruct b end; cbn [kk dn cc sd ph]); reflexivity. }
  unfold after_switch, p_turn. cbn [ramp_sts]. cbv zeta.
  destruct (ph (p_switch n p)) eqn:Hq.
  1: { exists (mkW ramp_idle s2). unfold skip. split; [reflexivity|]. split; [|split; [rewrite Hq; congruence|exact Gl]].
       unfold inv, moved, turned. rewrite Hq. cbn [ramp_sts mem]. repeat split; auto; try lia.
       - intros F. apply K6. congruence.
       - rewrite Z.add_0_r. assumption. }
  all: specialize (Bx (NL ltac:(discriminate))).
  all: unfold moved, turned; cbn [ph].
  all: erewrite andthen_done by (apply (add_pos _ s2 x d); auto).
  all: erewrite andthen_done by (apply (inc_step _ _ (kk p)); [rewrite <- KK; look|lia]).
  all: erewrite andthen_done by (apply (do_timer _ _ (a + cc p)); [look|lia]).
  all: pose proof (Z.mod_pos_bound (a + cc p) 256 ltac:(lia)); pose proof (Z.mod_pos_bound ((a + cc p) / 256) 256 ltac:(lia)).
  all: rewrite KK.
  4: { (* last: the phase stays *)
    unfold andthen at 1, skip.
    match goal with |- context [windings (mkW ?r ?s)] =>
      destruct (do_windings r s ix) as (z1 & E & Y1 & Y2 & Y3); [look|assumption|]; rewrite E end.
    eexists. split; [reflexivity|]. split; [|split].
    - unfold inv, core. cbn [ramp_sts mem kk dn cc sd ph].
      split; [reflexivity|]. split; [repeat split; first [look|discriminate]|].
      split; [repeat (apply valid_upd; [|hold]); assumption|]. repeat split; first [look|lia].
    - intros _. unfold registers. cbn [mem]. repeat split; look.
    - cbn [mem]. look. }
  all: pose proof (Z.mod_pos_bound (ix + d) 4 ltac:(lia)).
  all: erewrite andthen_done by (apply (do_turn_phase _ _ ix (d mod 256)); [look|look|lia|lia]).
  all: rewrite Pm.
  all: match goal with |- context [windings (mkW ?r ?s)] =>
      destruct (do_windings r s ((ix + d) mod 4)) as (z1 & E & Y1 & Y2 & Y3); [look|lia|]; rewrite E end.
  all: eexists; split; [reflexivity|]; split; [|split; [intros _; unfold registers; cbn [mem]; repeat split; look|cbn [mem]; look]].
  all: unfold inv, core; cbn [ramp_sts mem kk dn cc sd ph];
      (split; [reflexivity|]); (split; [repeat split; first [look | discriminate | intros F; specialize (K6 F); look | intros _; specialize (K6 eq_refl); look]|]);
      (split; [repeat (apply valid_upd; [|hold]); assumption|]); repeat split; first [look|lia].
Qed.
