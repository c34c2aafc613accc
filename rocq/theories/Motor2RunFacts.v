(** Motor2RunFacts.v -- a move of the second stepper motor program: the start, the turns and
    the end. *)
From Coq Require Import ZArith Bool List Lia.
From Verif Require Import Base CType Spec SafeBase SafeSpec SafeFacts ExceptionPolicy Promotion Program BoolConv
  Motor2 Motor2Spec Motor2Facts Motor2StepFacts Motor2TurnFacts.
Import ListNotations.
Local Open Scope Z_scope.

(** an addition out of range *)
Lemma add_raises : forall r s v u sr x y, op_type (BA Add) (types v) (types u) = Some sr -> throws_arithmetic (sE sr) ->
  (if construct LP64 (safe_of v) (OSafe sr) 0 then true else false) = true ->
  s v = Some x -> s u = Some y -> holds LP64 (types v) x -> holds LP64 (types u) y ->
  ~ (smin sr <= x + y <= smax sr) ->
  exists e, do (CCompound (BA Add) v (V u)) (mkW r s) = (mkW r s, RRaised e).
Proof.
  intros r s v u sr x y Ho HE Hc Hx Hy Rx Ry N. unfold do. cbn [mem exec type_of V eval]. unfold read. rewrite Hx, Hy, !mbind_ret.
  assert (W : forall v z, holds LP64 (types v) z -> wf_operand LP64 (types v)).
  { intros v0 z. rewrite types_safe. intros B. destruct (safe_of_wf v0) as [W1 W2].
    split; [exact W1|split; [exact W2|]]. unfold holds in B. cbn [lim_lo lim_hi] in *. lia. }
  assert (T : exists e, run (compound LP64 (BA Add) (types v) (types u) x y) = ([(arithmetic_error, e)], Throw e)).
  { unfold compound. destruct (op_type_some (BA Add) _ _ _ x y Ho) as (k & K). rewrite K.
    destruct (arith_exact Add Z.add LP64 (types v) (types u) x y sr k (or_introl (conj eq_refl eq_refl)) (W v x Rx) (W u y Ry) Rx Ry K HE)
      as (_ & [[_ B]|(e & _ & ->)]); [contradiction|].
    exists e. rewrite types_safe. destruct (construct LP64 (safe_of v) (OSafe sr) 0); [|discriminate]. reflexivity. }
  destruct T as (e & T). rewrite T. exists e. reflexivity.
Qed.

Lemma holds_of : forall s v z, valid s -> s v = Some z -> holds LP64 (types v) z.
Proof. intros s v z H E. destruct (H v) as (z' & E' & B). rewrite E in E'. injection E' as <-. exact B. Qed.

(** the timer value overflows: nothing is done but the pause *)
Lemma turn_over : forall n d x a ix p w, inv n d x a ix p w -> 0 <= cc p <= 500000000 -> 4294967295 < a + cc p ->
  exists w' e, turn w = (w', RRaised e) /\ mem w' motor_pos = Some x /\ mem w' run_flg = mem w run_flg.
Proof.
  intros n d x a ix p [r s] (Hr & C & Hv & Ha & Hx & _) Bc B. cbn [ramp_sts mem] in *.
  destruct C as (Hk & Hdn & Hc & Hn & Hm & Hs).
  unfold turn, to_microseconds.
  assert (D2 : 0 <= (cc p + 128) / 256 <= 2147483647) by (split; [apply Z.div_pos; lia|apply Z.div_le_upper_bound; lia]).
  erewrite (andthen_done _ _ _ (mkW r (upd (upd s t (Some (cc p))) delay (Some ((cc p + 128) / 256))))).
  2: { erewrite andthen_done by (apply (set_t r s (cc p)); auto; lia).
       apply (set_delay r _ (cc p)); [look|lia]. }
  set (s0 := upd (upd s t (Some (cc p))) delay (Some ((cc p + 128) / 256))).
  let sr := eval vm_compute in (op_type (BA Add) (types ccpr) (types c)) in
  match sr with Some ?sr' =>
    destruct (add_raises r s0 ccpr c sr' a (cc p)) as (e & E) end.
  - vm_compute. reflexivity.
  - reflexivity.
  - vm_compute. reflexivity.
  - unfold s0. look.
  - unfold s0. look.
  - exact (holds_of s ccpr a Hv Ha).
  - exact (holds_of s c (cc p) Hv Hc).
  - cbn [smin smax]. lia.
  - exists (mkW r s0), e. split; [|split; unfold s0; cbn [mem]; look].
    unfold isr_motor_step. apply andthen_raise. exact E.
Qed.

(** the position overflows *)
Lemma turn_end : forall n d x a ix p w, inv n d x a ix p w -> ok_turn n p = true -> ph (p_turn n p) <> ramp_idle ->
  0 <= a -> a + cc p <= 4294967295 -> ~ (-32768 <= x + d <= 32767) ->
  exists w' e, turn w = (w', RRaised e) /\ mem w' motor_pos = Some x /\ mem w' run_flg = Some 1.
Proof.
  intros n d x a ix p [r s] (Hr & C & Hv & Ha & Hx & Hd & Hpi & Hi & Bi & T1 & T2 & T3 & Hf) Ok Hb Ba Bc Bx.
  cbn [ramp_sts mem] in *. subst r.
  assert (O := Ok). unfold ok_turn in O. rewrite !andb_true_iff, !Z.leb_le, Z.ltb_lt in O.
  destruct O as ((((((B1 & B2) & B3) & B4) & B5) & B6) & _).
  destruct C as (Hk & Hdn & Hc & Hn & Hm & Hs).
  unfold turn, to_microseconds.
  assert (D2 : 0 <= (cc p + 128) / 256 <= 2147483647) by (split; [apply Z.div_pos; lia|apply Z.div_le_upper_bound; lia]).
  erewrite (andthen_done _ _ _ (mkW (ph p) (upd (upd s t (Some (cc p))) delay (Some ((cc p + 128) / 256))))).
  2: { erewrite andthen_done by (apply (set_t (ph p) s (cc p)); auto; lia).
       apply (set_delay (ph p) _ (cc p)); [look|lia]. }
  set (s0 := upd (upd s t (Some (cc p))) delay (Some ((cc p + 128) / 256))).
  assert (V0 : valid s0) by (apply valid_upd; [apply valid_upd; [assumption|hold]|hold]).
  unfold isr_motor_step.
  erewrite andthen_done by (apply (add_ccpr (ph p) s0 a (cc p)); [unfold s0; look|unfold s0; look|lia|lia|lia]).
  set (s1 := upd s0 ccpr (Some (a + cc p))).
  assert (V1 : valid s1) by (apply valid_upd; [assumption|hold]).
  assert (C1 : core s1 n p) by (unfold core; repeat split; try (intros F; specialize (Hs F)); unfold s1, s0; look).
  destruct (switch_ok s1 n p C1 V1 Ok) as (s2 & E2 & C2 & V2 & F2 & R2).
  erewrite andthen_done.
  2: { cbn [ramp_sts]. rewrite <- E2. destruct (ph p); reflexivity. }
  clear E2.
  assert (G : forall v, untouched v -> v <> CCP1IE -> v <> run_flg -> v <> ccpr -> v <> t -> v <> delay -> s2 v = s v).
  { intros v U U1 U2 U3 U4 U5. rewrite (F2 v U U1 U2). unfold s1, s0. rewrite !upd_other by assumption. reflexivity. }
  assert (Hq : ph (p_switch n p) <> ramp_idle).
  { intros F. apply Hb. unfold p_turn. cbv zeta. rewrite F. exact F. }
  assert (Hq' : ph p <> ramp_idle).
  { intros F. apply Hq. unfold p_switch. rewrite F. reflexivity. }
  assert (Gf : s2 run_flg = Some 1).
  { rewrite R2. destruct (ph (p_switch n p)); try congruence;
    (replace (s1 run_flg) with (s run_flg) by (unfold s1, s0; look)); rewrite Hf; destruct (ph p); congruence. }
  assert (Gx : s2 motor_pos = Some x) by (rewrite G by (first [unfold untouched; repeat split; discriminate | discriminate]); assumption).
  assert (Gd : s2 pos_inc = Some d) by (rewrite G by (first [unfold untouched; repeat split; discriminate | discriminate]); assumption).
  assert (E : forall r, exists e, do (CCompound (BA Add) motor_pos (V pos_inc)) (mkW r s2) = (mkW r s2, RRaised e)).
  { intros r.
    let sr := eval vm_compute in (op_type (BA Add) (types motor_pos) (types pos_inc)) in
    match sr with Some ?sr' =>
      apply (add_raises r s2 motor_pos pos_inc sr' x d) end.
    - vm_compute. reflexivity.
    - reflexivity.
    - vm_compute. reflexivity.
    - assumption.
    - assumption.
    - exact (holds_of s motor_pos x Hv Hx).
    - exact (holds_of s pos_inc d Hv Hd).
    - exact Bx. }
  exists (mkW (ph (p_switch n p)) s2). destruct (E (ph (p_switch n p))) as (e & E'). exists e.
  split; [|auto].
  unfold after_switch. cbn [ramp_sts]. destruct (ph (p_switch n p)); try congruence; apply andthen_raise; exact E'.
Qed.

(** the interrupt after the last step *)
Lemma turn_last : forall n d x a ix p w, inv n d x a ix p w -> ok_turn n p = true -> ph p = ramp_last ->
  -1 <= d <= 1 -> 0 <= a -> a + cc p <= 4294967295 ->
  exists w', turn w = (w', RDone) /\ inv n d x (a + cc p) ix (p_turn n p) w'.
Proof.
  intros n d x a ix p w I Ok L Bd Ba Bc.
  destruct (turn_ok n d x a ix p w I Ok) as (w' & T & I' & _); try assumption; try congruence.
  exists w'. split; [assumption|]. revert I'. unfold moved, turned.
  assert (Lp : ph (p_turn n p) = ramp_idle) by (unfold p_turn, p_switch; rewrite L; reflexivity).
  rewrite Lp, Z.add_0_r. auto.
Qed.

(** the start of a move *)
Definition p_start : ps := mkP ramp_up 0 1 first_delay 0.

Lemma start_ok : forall r s n d x ix, valid s -> s move = Some n -> s pos_inc = Some d -> s motor_pos = Some x ->
  s phase_ix = Some ix -> s phase_inc = Some (d mod 256) ->
  s TMR1H = Some 0 -> s TMR1L = Some 0 -> s T1CON = Some 53 -> 1 <= n <= 32767 ->
  exists w', start (mkW r s) = (w', RDone) /\ inv n d x 1000 ((ix + d) mod 4) p_start w' /\ registers 1000 ((ix + d) mod 4) w'.
Proof.
  intros r s n d x ix Hv Hn Hd Hx Hi Hp H1 H2 H3 B. unfold start.
  assert (Bi : 0 <= ix <= 255) by exact (holds_of s phase_ix ix Hv Hi).
  assert (Bp : 0 <= d mod 256 <= 255) by (pose proof (Z.mod_pos_bound d 256 ltac:(lia)); lia).
  assert (Pm : (ix + d mod 256) mod 4 = (ix + d) mod 4).
  { rewrite <- Zplus_mod_idemp_r, <- Znumtheory.Zmod_div_mod, Zplus_mod_idemp_r by (try lia; exists 64; reflexivity). reflexivity. }
  assert (M : (n - 1) / 2 ^ 1 = (n - 1) / 2) by reflexivity.
  assert (Bm : 0 <= (n - 1) / 2 <= 32767) by (split; [apply Z.div_pos; lia|apply Z.div_le_upper_bound; lia]).
  erewrite andthen_done by (apply (set_midpt r s n); [assumption|lia]). rewrite M.
  erewrite andthen_done by setk.
  erewrite andthen_done by setk.
  erewrite andthen_done by setk.
  unfold andthen at 1, become. cbn [mem].
  erewrite andthen_done by apply do_bool. cbn [Z.b2z].
  erewrite andthen_done by (apply do_clear; look).
  erewrite andthen_done by (apply set_timer16; look).
  erewrite andthen_done by (apply (add_ccpr_1000 _ _ 0); [look|lia]).
  change (0 + 1000) with 1000.
  erewrite andthen_done by (apply (do_timer _ _ 1000); [look|lia]).
  erewrite andthen_done by (apply (do_turn_phase _ _ ix (d mod 256)); [look|look|lia|lia]).
  rewrite Pm. pose proof (Z.mod_pos_bound (ix + d) 4 ltac:(lia)) as Bq.
  change (1000 / 256 mod 256) with 3. change (1000 mod 256) with 232.
  match goal with |- context [andthen windings _ (mkW ?r ?s)] =>
    destruct (do_windings r s ((ix + d) mod 4)) as (z1 & E & Y1 & Y2 & Y3); [look|lia|] end.
  rewrite (andthen_done _ _ _ _ E).
  erewrite andthen_done by setk.
  rewrite do_set by look.
  eexists. split; [reflexivity|]. split.
  - unfold inv, core, p_start. cbn [ramp_sts mem kk dn cc sd ph].
    split; [reflexivity|]. split; [repeat split; first [look|discriminate]|].
    split; [repeat (apply valid_upd; [|hold]); assumption|]. repeat split; first [look|lia].
  - unfold registers. cbn [mem]. repeat split; look.
Qed.

Lemma motor_run_ok : forall r s p q ix, valid s -> s motor_pos = Some p -> s phase_ix = Some ix ->
  s TMR1H = Some 0 -> s TMR1L = Some 0 -> s T1CON = Some 53 ->
  s pos_new = Some q -> 1 <= Z.abs (q - p) <= 32767 ->
  let ix' := (ix + Z.sgn (q - p)) mod 4 in
  exists w', motor_run (mkW r s) = (w', RDone)
    /\ inv (Z.abs (q - p)) (Z.sgn (q - p)) p 1000 ix' p_start w' /\ registers 1000 ix' w'.
Proof.
  intros r s p q ix Hv Hp Hi H1 H2 H3 Hq B ix'. unfold ix', motor_run. clear ix'.
  assert (Bp : -32768 <= p <= 32767) by exact (holds_of s motor_pos p Hv Hp).
  assert (Bq : -32768 <= q <= 32767) by exact (holds_of s pos_new q Hv Hq).
  erewrite branch_val by (apply (cond_back s p q); auto).
  destruct (Z.ltb_spec q p).
  - replace (Z.abs (q - p)) with (p - q) in * by lia. replace (Z.sgn (q - p)) with (-1) by (symmetry; apply Z.sgn_neg; lia).
    erewrite andthen_done by (apply (set_move_back r s p q); auto; lia).
    erewrite andthen_done by setk. erewrite andthen_done by setk.
    apply (start_ok r (upd (upd (upd s move (Some (p - q))) pos_inc (Some (-1))) phase_inc (Some 255)) (p - q) (-1) p ix); try look; try lia.
    repeat (apply valid_upd; [|hold]); assumption.
  - erewrite branch_val by (apply (cond_differ s p q); auto).
    replace (q =? p) with false by (symmetry; apply Z.eqb_neq; lia). cbn [negb].
    replace (Z.abs (q - p)) with (q - p) in * by lia. replace (Z.sgn (q - p)) with 1 by (symmetry; apply Z.sgn_pos; lia).
    erewrite andthen_done by (apply (set_move_fore r s p q); auto; lia).
    erewrite andthen_done by setk. erewrite andthen_done by setk.
    apply (start_ok r (upd (upd (upd s move (Some (q - p))) pos_inc (Some 1)) phase_inc (Some 1)) (q - p) 1 p ix); try look; try lia.
    repeat (apply valid_upd; [|hold]); assumption.
Qed.
