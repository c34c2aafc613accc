(** Motor2MoveFacts.v -- proofs of the statements about the second stepper motor program. *)
From Coq Require Import ZArith Bool List Lia.
From Verif Require Import Base CType Spec SafeBase SafeSpec SafeFacts SafeConvFacts ExceptionPolicy Promotion Program BoolConv
  Motor2 Motor2Spec Motor2Facts Motor2StepFacts Motor2TurnFacts Motor2RunFacts Motor2PureFacts Motor2LoopFacts.
Import ListNotations.
Local Open Scope Z_scope.

Lemma dir_unit : forall p q, q <> p -> unit_dir (Z.sgn (q - p)).
Proof. intros p q H. unfold unit_dir. destruct (Z.sgn_spec (q - p)) as [[? ->]|[[? ->]|[? ->]]]; lia. Qed.
Lemma dir_abs : forall p q, p + Z.sgn (q - p) * Z.abs (q - p) = q.
Proof. intros p q. rewrite Z.mul_comm, Z.abs_sgn. lia. Qed.
Lemma between : forall p q k, in16 p -> in16 q -> 0 <= k <= Z.abs (q - p) -> in16 (p + Z.sgn (q - p) * k).
Proof. intros p q k Hp Hq B. unfold in16 in *. destruct (Z.sgn_spec (q - p)) as [[? ->]|[[? ->]|[? ->]]]; lia. Qed.

Lemma ready_pos : forall p w, ready p w -> in16 p.
Proof. intros p w (H & _ & _ & _ & V). exact (holds_of (mem w) motor_pos p V H). Qed.

Lemma tell_ok : forall w p q ix, ready p w -> mem w phase_ix = Some ix -> in16 q -> 1 <= Z.abs (q - p) <= 32767 ->
  exists w1, tell q w = (w1, RDone)
    /\ inv (Z.abs (q - p)) (Z.sgn (q - p)) p 1000 ((ix + Z.sgn (q - p)) mod 4) p_start w1
    /\ registers 1000 ((ix + Z.sgn (q - p)) mod 4) w1.
Proof.
  intros [r s] p q ix (H & H1 & H2 & H3 & V) Hi Bq B. unfold in16 in Bq. unfold tell. cbn [ramp_sts mem] in *.
  erewrite andthen_done by (apply (set_pos_new r _ q); [look|lia]).
  apply motor_run_ok; try look; try assumption.
  apply valid_upd; [apply valid_upd; [exact V|hold]|hold].
Qed.

(** the state after k turns *)
Lemma stepping_of : forall n d x a ix p w, inv n d x a ix p w -> registers a ix w -> ph p <> ramp_idle -> stepping x ix a w.
Proof.
  intros n d x a ix p w I (R1 & R2 & R3 & R4) N. pose proof (inv_flag _ _ _ _ _ _ _ I N) as F.
  destruct I as (_ & _ & _ & A & X & _ & _ & P & _). unfold stepping. repeat split; assumption.
Qed.

Lemma move_turns : forall w p q ix, ready p w -> mem w phase_ix = Some ix -> in16 q -> 1 <= Z.abs (q - p) <= 32767 ->
  let n := Z.abs (q - p) in let d := Z.sgn (q - p) in
  forall w1, tell q w = (w1, RDone) ->
  forall k p' a, Z.of_nat k <= n -> walk n k p_start 1000 = Some (p', a) -> a <= 4294967295 ->
  exists w', turns k w1 = (w', RDone)
    /\ stepping (p + d * Z.of_nat k) ((ix + d * (if at_last p' then Z.of_nat k else Z.of_nat k + 1)) mod 4) a w'
    /\ mem w' c = Some (cc p').
Proof.
  intros w p q ix Hr Hi Hq B n d w1 E k p' a Bk W Ba.
  destruct (tell_ok w p q ix Hr Hi Hq B) as (w1' & E' & I & R). rewrite E in E'. injection E' as <-.
  assert (Bp := ready_pos p w Hr).
  destruct (turns_ok n d (dir_unit p q ltac:(lia)) k p 1000 _ p_start w1 p' a I R W) as (w' & T & I' & R' & _ & N');
    try assumption; try lia; [left; reflexivity|discriminate|apply between; try assumption; lia|].
  exists w'. split; [exact T|]. split; [|apply I'].
  replace ((ix + d * (if at_last p' then Z.of_nat k else Z.of_nat k + 1)) mod 4)
    with (match k with O => (ix + d) mod 4 | _ => index_after d ((ix + d) mod 4) k p' end).
  - exact (stepping_of _ _ _ _ _ _ _ I' R' N').
  - destruct k as [|k].
    + cbn [walk] in W. injection W as <- <-. cbn [at_last p_start ph]. f_equal. lia.
    + unfold index_after, at_last. destruct (ph p'); rewrite Zplus_mod_idemp_l; f_equal; lia.
Qed.

Lemma lands_phase : forall n t k p a, lands n t -> Z.of_nat k <= n -> walk n k p_start 1000 = Some (p, a) ->
  (if at_last p then Z.of_nat k else Z.of_nat k + 1) = Z.min (Z.of_nat k + 1) n /\ a <= t.
Proof.
  intros n t k p a (p1 & a1 & W1 & L1 & Ok & <- & _) B W. pose proof (ok_cc _ _ Ok) as Bc.
  replace (Z.to_nat n) with (k + (Z.to_nat n - k))%nat in W1 by lia. rewrite walk_app, W in W1.
  pose proof (walk_grows _ _ _ _ _ _ W1) as G. split; [|lia].
  destruct (Z.to_nat n - k)%nat as [|j] eqn:E.
  - cbn [walk] in W1. injection W1 as <- <-. unfold at_last. rewrite L1. lia.
  - cbn [walk] in W1. destruct (ok_turn n p && active p) eqn:A; [|discriminate]. apply andb_true_iff in A. destruct A as [_ A].
    unfold active in A. unfold at_last. destruct (ph p); try discriminate; lia.
Qed.
Lemma lands_prefix : forall n t k, lands n t -> Z.of_nat k <= n -> exists p a, walk n k p_start 1000 = Some (p, a).
Proof.
  intros n t k (p1 & a1 & W1 & _) B. replace (Z.to_nat n) with (k + (Z.to_nat n - k))%nat in W1 by lia.
  exact (walk_prefix _ _ _ _ _ _ W1).
Qed.

Lemma good_lands : forall n, good_distance n -> 1 <= n <= 32767 /\ exists t, lands n t /\ t <= end_timer n /\ t <= 4294967295.
Proof.
  intros n H. unfold good_distance in H. split; [lia|].
  destruct (Z_le_dec 439 n) as [L|L].
  - exists (558250349 + (n - 437) * 640000). split; [apply long_lands; lia|unfold end_timer; lia].
  - destruct (short_lands n) as (t & L1 & L2); [lia|]. exists t. split; [exact L1|unfold end_timer; lia].
Qed.

Lemma arrives : forall w p q ix, ready p w -> mem w phase_ix = Some ix -> in16 q -> good_distance (Z.abs (q - p)) ->
  let n := Z.abs (q - p) in let d := Z.sgn (q - p) in
  exists w1, tell q w = (w1, RDone)
  /\ (forall k, Z.of_nat k <= n -> exists w' a, turns k w1 = (w', RDone)
        /\ stepping (p + d * Z.of_nat k) ((ix + d * Z.min (Z.of_nat k + 1) n) mod 4) a w')
  /\ exists w2, (forall f, n < Z.of_nat f -> go f q w = Some (w2, RDone))
     /\ ready q w2 /\ ramp_sts w2 = ramp_idle /\ mem w2 run_flg = Some 0
     /\ mem w2 phase_ix = Some ((ix + d * n) mod 4)
     /\ exists t z, mem w2 ccpr = Some t /\ t <= end_timer n /\ mem w2 c = Some z /\ 1 <= z <= first_delay.
Proof.
  intros w p q ix Hr Hi Hq G n d. destruct (good_lands n G) as (Bn & t & L & Et & Bt).
  destruct (tell_ok w p q ix Hr Hi Hq Bn) as (w1 & E & I & R).
  assert (Bp := ready_pos p w Hr).
  exists w1. split; [exact E|]. split.
  - intros k Bk. destruct (lands_prefix n t k L Bk) as (p' & a & W).
    destruct (lands_phase n t k p' a L Bk W) as (X & Ba).
    destruct (move_turns w p q ix Hr Hi Hq Bn w1 E k p' a Bk W ltac:(lia)) as (w' & T & S & _).
    exists w', a. split; [exact T|]. rewrite <- X. exact S.
  - destruct (loop_lands n d (dir_unit p q ltac:(lia)) p _ w1 t I R L Bt ltac:(lia) Bp) as (w2 & F & R2 & Id & P2 & F2 & A2 & z & C2 & Bz).
    { unfold n, d. rewrite dir_abs. assumption. }
    exists w2. split; [intros f Bf; unfold go; rewrite E; apply F; exact Bf|].
    split; [unfold n, d in R2; rewrite dir_abs in R2; exact R2|]. split; [exact Id|]. split; [exact F2|].
    split; [|exists t, z; auto].
    rewrite P2. rewrite Zplus_mod_idemp_l. do 2 f_equal. fold d. lia.
Qed.

Lemma turns_snoc : forall k w w1, turns k w = (w1, RDone) -> turns (S k) w = turn w1.
Proof.
  induction k as [|k IH]; intros w w1 H.
  - cbn [turns] in *. unfold skip in H. injection H as <-. unfold andthen, skip. destruct (turn w) as [w2 [| |]]; reflexivity.
  - change (turns (S (S k)) w) with (andthen turn (turns (S k)) w).
    change (turns (S k) w) with (andthen turn (turns k) w) in H. unfold andthen in *.
    destruct (turn w) as [w2 [| |]]; try discriminate. apply IH. exact H.
Qed.
Lemma last_pause : forall w p q ix, ready p w -> mem w phase_ix = Some ix -> in16 q -> 1 <= Z.abs (q - p) <= 32767 ->
  let n := Z.abs (q - p) in
  forall w1, tell q w = (w1, RDone) ->
  forall k p0 a0 p' a w', Z.of_nat (S k) <= n -> walk n k p_start 1000 = Some (p0, a0) ->
  walk n (S k) p_start 1000 = Some (p', a) -> a <= 4294967295 -> turns (S k) w1 = (w', RDone) ->
  mem w' delay = Some ((cc p0 + 128) / 256).
Proof.
  intros w p q ix Hr Hi Hq B n w1 E k p0 a0 p' a w' Bk W0 W Ba T.
  destruct (tell_ok w p q ix Hr Hi Hq B) as (w1' & E' & I & R). rewrite E in E'. injection E' as <-.
  assert (Bp := ready_pos p w Hr). set (d := Z.sgn (q - p)) in *.
  assert (Hd : unit_dir d) by (apply dir_unit; lia).
  replace (S k) with (k + 1)%nat in W by lia. rewrite walk_app, W0 in W. cbn [walk] in W.
  destruct (ok_turn n p0 && active p0) eqn:A; [|discriminate]. apply andb_true_iff in A. destruct A as [A1 A2].
  injection W as <- <-. pose proof (ok_cc _ _ A1) as Bc. pose proof (walk_grows _ _ _ _ _ _ W0) as G.
  assert (Bx : in16 (p + d * Z.of_nat k)) by (apply between; try assumption; lia).
  assert (Bx1 : in16 (p + d * (Z.of_nat k + 1))) by (apply between; try assumption; lia).
  destruct (turns_ok n d Hd k p 1000 _ p_start w1 p0 a0 I R W0) as (w0 & T0 & I0 & R0 & _ & N0);
    try assumption; try lia; [left; reflexivity|discriminate|].
  rewrite (turns_snoc k w1 w0 T0) in T.
  destruct (turn_ok n d _ a0 _ p0 w0 I0 A1 N0) as (w2 & T2 & _ & _ & D2); try assumption; try lia.
  - intros _. replace (p + d * Z.of_nat k + d) with (p + d * (Z.of_nat k + 1)) by lia. exact Bx1.
  - rewrite T in T2. injection T2 as ->. exact D2.
Qed.

Lemma profiled : forall w p q ix, ready p w -> mem w phase_ix = Some ix -> in16 q -> 439 <= Z.abs (q - p) <= 6275 ->
  let n := Z.abs (q - p) in let d := Z.sgn (q - p) in
  exists w1, tell q w = (w1, RDone)
  /\ forall k, Z.of_nat k <= n -> exists w', turns k w1 = (w', RDone)
     /\ stepping (p + d * Z.of_nat k) ((ix + d * Z.min (Z.of_nat k + 1) n) mod 4) (timer_after n k) w'
     /\ mem w' c = Some (delay_after n k)
     /\ (k <> 0%nat -> mem w' delay = Some ((delay_after n (pred k) + 128) / 256)).
Proof.
  intros w p q ix Hr Hi Hq B n d. assert (Bn : 1 <= n <= 32767) by lia.
  destruct (tell_ok w p q ix Hr Hi Hq Bn) as (w1 & E & _). exists w1. split; [exact E|].
  intros k Bk. destruct (profile n ltac:(lia) k Bk) as (p' & W & C).
  assert (L := long_lands n ltac:(lia)).
  destruct (lands_phase n _ k p' _ L Bk W) as (X & Ba).
  destruct (move_turns w p q ix Hr Hi Hq Bn w1 E k p' _ Bk W ltac:(lia)) as (w' & T & S & D).
  exists w'. split; [exact T|]. split; [rewrite <- X; exact S|]. split; [rewrite D, C; reflexivity|].
  intros Nk. destruct k as [|k]; [congruence|]. cbn [pred].
  destruct (profile n ltac:(lia) k ltac:(lia)) as (p0 & W0 & C0).
  destruct (lands_phase n _ k p0 _ L ltac:(lia) W0) as (_ & Ba0).
  rewrite <- C0. exact (last_pause w p q ix Hr Hi Hq Bn w1 E k p0 _ p' _ w' ltac:(lia) W0 W ltac:(lia) T).
Qed.


Lemma never_slows : forall w p q ix, ready p w -> mem w phase_ix = Some ix -> in16 q ->
  1 <= Z.abs (q - p) <= 220 \/ Z.abs (q - p) = 222 ->
  exists w1, tell q w = (w1, RDone)
  /\ forall k, Z.of_nat k < Z.abs (q - p) -> exists w' w'' z z', turns k w1 = (w', RDone) /\ turns (S k) w1 = (w'', RDone)
     /\ mem w' c = Some z /\ mem w'' c = Some z' /\ z' <= z.
Proof.
  intros w p q ix Hr Hi Hq H. set (n := Z.abs (q - p)) in *. assert (Bn : 1 <= n <= 32767) by lia.
  destruct (short_lands n ltac:(lia)) as (t & L & Bt). assert (Bt' : t <= 4294967295) by lia.
  destruct (tell_ok w p q ix Hr Hi Hq Bn) as (w1 & E & _). exists w1. split; [exact E|].
  intros k Bk. destruct (lands_prefix n t k L ltac:(lia)) as (p1 & a1 & W1).
  destruct (lands_prefix n t (S k) L ltac:(lia)) as (p2 & a2 & W2).
  destruct (lands_phase n t k p1 a1 L ltac:(lia) W1) as (_ & Ba1).
  destruct (lands_phase n t (S k) p2 a2 L ltac:(lia) W2) as (_ & Ba2).
  destruct (move_turns w p q ix Hr Hi Hq Bn w1 E k p1 a1 ltac:(lia) W1 ltac:(lia)) as (u1 & T1 & _ & C1).
  destruct (move_turns w p q ix Hr Hi Hq Bn w1 E (S k) p2 a2 ltac:(lia) W2 ltac:(lia)) as (u2 & T2 & _ & C2).
  exists u1, u2, (cc p1), (cc p2). repeat split; auto. exact (short_falls n k p1 a1 p2 a2 ltac:(lia) Bk W1 W2).
Qed.

Lemma runs_away : forall w p q, ready p w -> in16 q -> runaway_distance (Z.abs (q - p)) ->
  let n := Z.abs (q - p) in let d := Z.sgn (q - p) in
  exists w1, tell q w = (w1, RDone)
  /\ (exists w', turns (Z.to_nat n) w1 = (w', RDone) /\ mem w' motor_pos = Some q /\ mem w' run_flg = Some 1)
  /\ exists w2 e k, n <= k /\ (forall f, 7200 <= Z.of_nat f -> go f q w = Some (w2, RRaised e))
     /\ mem w2 motor_pos = Some (p + d * k) /\ mem w2 run_flg = Some 1.
Proof.
  intros w p q Hr Hq Rn n d. destruct (runaway_escapes n Rn) as (dn' & s' & a & W & Bs & Ba).
  assert (Bn : 1 <= n <= 438) by (unfold runaway_distance in Rn; fold n in Rn; lia).
  destruct Hr as (H0 & H1 & H2 & H3 & V). destruct (V phase_ix) as (ix & Hi & _).
  assert (Hr : ready p w) by (repeat split; assumption).
  destruct (tell_ok w p q ix Hr Hi Hq ltac:(fold n; lia)) as (w1 & E & I & R). fold n d in I, R.
  assert (Bp := ready_pos p w Hr). exists w1. split; [exact E|].
  assert (En : Z.of_nat (Z.to_nat n) = n) by lia.
  destruct (turns_ok n d (dir_unit p q ltac:(lia)) (Z.to_nat n) p 1000 _ p_start w1 _ a I R W) as (w' & T & I' & R' & F' & N');
    try assumption; try lia; [left; reflexivity|discriminate|rewrite En; unfold n, d; rewrite dir_abs; assumption|].
  rewrite En in I'. replace (p + d * n) with q in I' by (unfold n, d; symmetry; apply dir_abs).
  split; [exists w'; split; [exact T|]; split; [exact (inv_pos _ _ _ _ _ _ _ I')|exact (inv_flag _ _ _ _ _ _ _ I' N')]|].
  pose proof (escaped_walk n (Z.to_nat 6711) n dn' s' a ltac:(lia) ltac:(lia) ltac:(lia)) as W2.
  destruct (loop_raises n d (dir_unit p q ltac:(lia)) (Z.to_nat 6711) q a _ _ w' _ _ I' R' W2 N' ltac:(lia) Hq) as (k & w2 & e & Bk & L & P & Fl).
  { left. unfold least_delay. lia. }
  { lia. }
  exists w2, e, (n + Z.of_nat k). split; [lia|]. split; [|split; [|exact Fl]].
  - intros f Bf. unfold go. rewrite E. replace f with (Z.to_nat n + (f - Z.to_nat n))%nat by lia. rewrite F'. apply L. lia.
  - rewrite P. f_equal. pose proof (dir_abs p q) as Q. fold n d in Q. lia.
Qed.

Lemma too_long : forall w p q, ready p w -> in16 q -> 6276 <= Z.abs (q - p) <= 32767 ->
  let n := Z.abs (q - p) in let d := Z.sgn (q - p) in
  exists w2 e k, 0 <= k <= n /\ (forall f, n < Z.of_nat f -> go f q w = Some (w2, RRaised e))
     /\ mem w2 motor_pos = Some (p + d * k) /\ mem w2 run_flg = Some 1.
Proof.
  intros w p q Hr Hq B n d. fold n in B. destruct (long_lands n ltac:(lia)) as (p' & a & W & L & Ok & Et & _).
  destruct Hr as (H0 & H1 & H2 & H3 & V). destruct (V phase_ix) as (ix & Hi & _).
  assert (Hr : ready p w) by (repeat split; assumption).
  destruct (tell_ok w p q ix Hr Hi Hq ltac:(fold n; lia)) as (w1 & E & I & R). fold n d in I, R.
  assert (Bp := ready_pos p w Hr).
  destruct (loop_raises n d (dir_unit p q ltac:(lia)) (Z.to_nat n) p 1000 _ p_start w1 _ _ I R W) as (k & w2 & e & Bk & F & P & Fl);
    [discriminate|lia|assumption| |lia|].
  { right. right. split; [assumption|]. lia. }
  exists w2, e, (Z.of_nat k). split; [lia|]. split; [|auto].
  intros f Bf. unfold go. rewrite E. apply F. lia.
Qed.

Lemma last_default : forall (l : list Z) x a b, last (x :: l) a = last (x :: l) b.
Proof. induction l as [|y l IH]; intros x a b; [reflexivity|]. exact (IH y a b). Qed.
(** ------------------------------------------------------------------ *)
(** calls that do not move the motor *)
Lemma wf_types : forall v z, holds LP64 (types v) z -> wf_operand LP64 (types v).
Proof.
  intros v0 z. rewrite types_safe. intros B. destruct (safe_of_wf v0) as [W1 W2].
  split; [exact W1|split; [exact W2|]]. unfold holds in B. cbn [lim_lo lim_hi] in *. lia.
Qed.
Lemma sub_raises : forall r s v u u' sr x y, op_type (BA Sub) (types u) (types u') = Some sr -> throws_arithmetic (sE sr) ->
  s u = Some x -> s u' = Some y -> holds LP64 (types u) x -> holds LP64 (types u') y ->
  ~ (smin sr <= x - y <= smax sr) ->
  exists e, do (CAssign v (sub (V u) (V u'))) (mkW r s) = (mkW r s, RRaised e).
Proof.
  intros r s v u u' sr x y Ho HE Hx Hy Rx Ry N. unfold do. cbn [mem exec].
  assert (T : type_of LP64 types (sub (V u) (V u')) = Some (OSafe sr)).
  { unfold sub, V. cbn [type_of]. unfold op_type in Ho. destruct (eval_binop LP64 (BA Sub) (types u) (types u') 0 0); [|discriminate].
    cbn [option_map] in *. congruence. }
  rewrite T.
  assert (E : exists e, eval LP64 types s (sub (V u) (V u')) = ([(arithmetic_error, e)], Throw e)).
  { unfold sub, V. cbn [eval type_of]. unfold read. rewrite Hx, Hy. cbn [both]. rewrite !mbind_ret. cbn [fst snd].
    destruct (op_type_some (BA Sub) _ _ _ x y Ho) as (k & K). rewrite K. cbn [run_snd].
    destruct (arith_exact Sub Z.sub LP64 (types u) (types u') x y sr k (or_intror (or_introl (conj eq_refl eq_refl)))
      (wf_types u x Rx) (wf_types u' y Ry) Rx Ry K HE) as (_ & [[_ B]|(e & _ & ->)]); [contradiction|]. exists e. reflexivity. }
  destruct E as (e & E). rewrite E. exists e. reflexivity.
Qed.

Lemma too_far : forall w p q, ready p w -> in16 q -> 32767 < Z.abs (q - p) ->
  exists w2 e, tell q w = (w2, RRaised e) /\ (forall f, go f q w = Some (w2, RRaised e))
    /\ ramp_sts w2 = ramp_sts w /\ forall v, v <> m -> v <> pos_new -> mem w2 v = mem w v.
Proof.
  intros [r s] p q (H & _ & _ & _ & V) Bq B. cbn [mem] in *. unfold in16 in Bq.
  assert (Bp : -32768 <= p <= 32767) by exact (holds_of s motor_pos p V H).
  set (s1 := upd (upd s m (Some q)) pos_new (Some q)).
  assert (V1 : valid s1) by (apply valid_upd; [apply valid_upd; [exact V|hold]|hold]).
  assert (E1 : s1 motor_pos = Some p) by (unfold s1; look). assert (E2 : s1 pos_new = Some q) by (unfold s1; look).
  assert (T : exists e, tell q (mkW r s) = (mkW r s1, RRaised e)).
  { unfold tell. cbn [ramp_sts mem].
    erewrite andthen_done by (apply (set_pos_new r _ q); [look|lia]). fold s1. unfold motor_run.
    erewrite branch_val by (apply (cond_back s1 p q); auto; lia).
    let sr := eval vm_compute in (op_type (BA Sub) (types motor_pos) (types pos_new)) in
    match sr with Some ?sr' => pose (tr := sr') end.
    destruct (Z.ltb_spec q p).
    - destruct (sub_raises r s1 move motor_pos pos_new tr p q) as (e & E); try assumption;
        [vm_compute; reflexivity|reflexivity|unfold tr; cbn [smin smax]; lia|].
      exists e. apply andthen_raise. exact E.
    - erewrite branch_val by (apply (cond_differ s1 p q); auto; lia).
      replace (q =? p) with false by (symmetry; apply Z.eqb_neq; lia). cbn [negb].
      destruct (sub_raises r s1 move pos_new motor_pos tr q p) as (e & E); try assumption;
        [vm_compute; reflexivity|reflexivity|unfold tr; cbn [smin smax]; lia|].
      exists e. apply andthen_raise. exact E. }
  destruct T as (e & T). exists (mkW r s1), e. split; [exact T|].
  split; [intros f; unfold go; rewrite T; reflexivity|]. split; [reflexivity|].
  intros v N1 N2. unfold s1. cbn [mem]. rewrite !upd_other by assumption. reflexivity.
Qed.

(** a target that is not a position *)
Lemma no_position : forall w q, -2147483648 <= q <= 2147483647 -> ~ in16 q ->
  exists w2 e, tell q w = (w2, RRaised e) /\ (forall f, go f q w = Some (w2, RRaised e))
    /\ ramp_sts w2 = ramp_sts w /\ forall v, v <> m -> mem w2 v = mem w v.
Proof.
  intros [r s] q Bq N. set (s1 := upd s m (Some q)).
  assert (T : exists e, tell q (mkW r s) = (mkW r s1, RRaised e)).
  { unfold tell. cbn [ramp_sts mem]. fold s1.
    assert (D : exists e, do (CAssign pos_new (V m)) (mkW r s1) = (mkW r s1, RRaised e)).
    { unfold do. cbn [mem exec type_of V eval]. unfold read. replace (s1 m) with (Some q) by (unfold s1; look). rewrite mbind_ret.
      rewrite (types_safe pos_new). cbn [convert].
      assert (Hm : holds LP64 (types m) q) by hold.
      assert (C : exists k, construct LP64 (safe_of pos_new) (types m) q = Some k).
      { destruct (construct LP64 (safe_of pos_new) (types m) 0) as [k0|] eqn:K0; [exact (construct_compiles _ _ _ 0 q k0 K0)|].
        vm_compute in K0. discriminate. }
      destruct C as (k & K). rewrite K. cbn [run].
      destruct (construct_char LP64 (safe_of pos_new) (types m) q k (wf_types pos_new 0 ltac:(hold)) (wf_types m q Hm) eq_refl Hm K)
        as [[B _]|[_ (e & _ & ->)]].
      - exfalso. apply N. exact B.
      - exists e. reflexivity. }
    destruct D as (e & D). exists e. apply andthen_raise. exact D. }
  destruct T as (e & T). exists (mkW r s1), e. split; [exact T|].
  split; [intros f; unfold go; rewrite T; reflexivity|]. split; [reflexivity|].
  intros v N1. unfold s1. cbn [mem]. apply upd_other. assumption.
Qed.

(** the present position: one interrupt of the idle motor *)
Lemma stay_turn : forall s a z, valid s -> s ccpr = Some a -> s c = Some z -> z <= 500000000 ->
  (a + z <= 4294967295 -> exists s', turn (mkW ramp_idle s) = (mkW ramp_idle s', RDone) /\ valid s'
     /\ s' run_flg = Some 0 /\ s' ccpr = Some (a + z)
     /\ forall v, v <> t -> v <> delay -> v <> ccpr -> v <> CCP1IE -> v <> run_flg -> s' v = s v)
  /\ (4294967295 < a + z -> exists s' e, turn (mkW ramp_idle s) = (mkW ramp_idle s', RRaised e)
     /\ valid s' /\ forall v, v <> t -> v <> delay -> s' v = s v).
Proof.
  intros s a z V Ha Hz Bz.
  assert (Ba : 0 <= a <= 4294967295) by exact (holds_of s ccpr a V Ha).
  assert (Bz0 : 0 <= z <= 4294967295) by exact (holds_of s c z V Hz).
  assert (D2 : 0 <= (z + 128) / 256 <= 2147483647) by (split; [apply Z.div_pos; lia|apply Z.div_le_upper_bound; lia]).
  assert (M : to_microseconds (mkW ramp_idle s) = (mkW ramp_idle (upd (upd s t (Some z)) delay (Some ((z + 128) / 256))), RDone)).
  { unfold to_microseconds. erewrite andthen_done by (apply (set_t ramp_idle s z); auto; lia).
    apply (set_delay ramp_idle _ z); [look|lia]. }
  set (s0 := upd (upd s t (Some z)) delay (Some ((z + 128) / 256))) in *.
  assert (V0 : valid s0) by (apply valid_upd; [apply valid_upd; [assumption|hold]|hold]).
  unfold turn. rewrite (andthen_done _ _ _ _ M). unfold isr_motor_step. split; intros B.
  - erewrite andthen_done by (apply (add_ccpr ramp_idle s0 a z); [unfold s0; look|unfold s0; look|lia|lia|lia]).
    unfold andthen at 1. cbn [ramp_sts]. unfold case_default, andthen at 1, become. cbn [mem].
    erewrite andthen_done by setk. rewrite do_bool. cbn [Z.b2z]. unfold after_switch, skip. cbn [ramp_sts].
    eexists. split; [reflexivity|]. split; [repeat (apply valid_upd; [|hold]); assumption|]. split; [look|]. split; [look|].
    intros v N1 N2 N3 N4 N5. unfold s0. rewrite !upd_other by assumption. reflexivity.
  - let sr := eval vm_compute in (op_type (BA Add) (types ccpr) (types c)) in
    match sr with Some ?sr' => destruct (add_raises ramp_idle s0 ccpr c sr' a z) as (e & E) end.
    + vm_compute. reflexivity.
    + reflexivity.
    + vm_compute. reflexivity.
    + unfold s0. look.
    + unfold s0. look.
    + exact (holds_of s ccpr a V Ha).
    + exact (holds_of s c z V Hz).
    + cbn [smin smax]. lia.
    + exists s0, e. split; [apply andthen_raise; exact E|]. split; [exact V0|]. intros v N1 N2. unfold s0. rewrite !upd_other by assumption. reflexivity.
Qed.

Lemma stay_tell : forall w p, ready p w -> tell p w = (mkW (ramp_sts w) (upd (upd (mem w) m (Some p)) pos_new (Some p)), RDone).
Proof.
  intros [r s] p (H & _ & _ & _ & V). cbn [mem ramp_sts] in *.
  assert (Bp : -32768 <= p <= 32767) by exact (holds_of s motor_pos p V H).
  unfold tell. cbn [mem ramp_sts]. erewrite andthen_done by (apply (set_pos_new r _ p); [look|lia]). unfold motor_run.
  erewrite branch_val by (apply (cond_back _ p p); [look|look|lia|lia]). rewrite Z.ltb_irrefl.
  erewrite branch_val by (apply (cond_differ _ p p); [look|look|lia|lia]). rewrite Z.eqb_refl. reflexivity.
Qed.

Lemma stays : forall w p a z, ready p w -> ramp_sts w = ramp_idle -> mem w ccpr = Some a -> mem w c = Some z -> z <= 500000000 ->
  (a + z <= 4294967295 -> exists w', (forall f, go (S f) p w = Some (w', RDone)) /\ ready p w' /\ ramp_sts w' = ramp_idle
     /\ mem w' run_flg = Some 0 /\ mem w' ccpr = Some (a + z) /\ mem w' c = Some z /\ mem w' phase_ix = mem w phase_ix)
  /\ (4294967295 < a + z -> exists w' e, (forall f, go (S f) p w = Some (w', RRaised e)) /\ ready p w').
Proof.
  intros w p a z Hr Hi Ha Hz Bz. pose proof (stay_tell w p Hr) as T. rewrite Hi in T.
  destruct Hr as (H0 & H1 & H2 & H3 & V). assert (Bp : -32768 <= p <= 32767) by exact (holds_of (mem w) motor_pos p V H0).
  set (s1 := upd (upd (mem w) m (Some p)) pos_new (Some p)) in *.
  assert (V1 : valid s1) by (apply valid_upd; [apply valid_upd; [exact V|hold]|hold]).
  destruct (stay_turn s1 a z V1) as (A & B); [unfold s1; look|unfold s1; look|assumption|].
  split; intros L.
  - destruct (A L) as (s' & E & V' & F & C & Fr). exists (mkW ramp_idle s').
    split; [intros f; unfold go; rewrite T; apply loop_stop; assumption|].
    cbn [mem ramp_sts].
    split; [|split; [reflexivity|split; [assumption|split; [assumption|split]]]].
    + unfold ready. cbn [mem]. repeat split; try exact V'; rewrite Fr by discriminate; unfold s1; look.
    + rewrite Fr by discriminate. unfold s1. look.
    + rewrite Fr by discriminate. unfold s1. look.
  - destruct (B L) as (s' & e & E & V' & Fr). exists (mkW ramp_idle s'), e.
    split; [intros f; unfold go; rewrite T; apply loop_raise; assumption|].
    unfold ready. cbn [mem]. repeat split; try exact V'; rewrite Fr by discriminate; unfold s1; look.
Qed.

(** histories of calls *)
Lemma tour_ok : forall qs f p w a z a0 z0, 6275 < Z.of_nat f -> ready p w -> ramp_sts w = ramp_idle ->
  mem w ccpr = Some a -> a <= a0 -> mem w c = Some z -> z <= z0 -> z0 <= 500000000 -> good_calls p a0 z0 qs ->
  exists w', tour f qs w = Some (w', RDone) /\ ready (last qs p) w' /\ ramp_sts w' = ramp_idle.
Proof.
  induction qs as [|q qs IH]; intros f p w a z a0 z0 Bf Hr Id Ha Ba Hz Bz B0 H.
  - exists w. auto.
  - assert (K : exists w2 a2 z2 a1 z1, go f q w = Some (w2, RDone) /\ ready q w2 /\ ramp_sts w2 = ramp_idle /\ mem w2 ccpr = Some a2
      /\ a2 <= a1 /\ mem w2 c = Some z2 /\ z2 <= z1 /\ z1 <= 500000000 /\ good_calls q a1 z1 qs).
    { destruct H as [(-> & B & H)|(Hq & G & H)].
      - destruct (stays w p a z Hr Id Ha Hz ltac:(lia)) as (A & _).
        destruct (A ltac:(lia)) as (w2 & F & R2 & I2 & _ & A2 & C2 & _).
        destruct f as [|f]; [lia|].
        exists w2, (a + z), z, (a0 + z0), z0. repeat (split; [first [exact (F f)|assumption|lia]|]). exact H.
      - destruct Hr as (H0 & H1 & H2 & H3 & V). destruct (V phase_ix) as (ix & Hi & _).
        assert (Hr : ready p w) by (repeat split; assumption).
        destruct (arrives w p q ix Hr Hi Hq G) as (_ & _ & _ & w2 & F & R2 & I2 & _ & _ & a2 & z2 & A2 & Ba2 & C2 & Bz2).
        exists w2, a2, z2, (end_timer (Z.abs (q - p))), first_delay.
        split; [apply F; unfold good_distance in G; lia|]. unfold first_delay in *.
        repeat (split; [first [assumption|lia]|]). exact H. }
    destruct K as (w2 & a2 & z2 & a1 & z1 & F & R2 & I2 & A2 & Ba2 & C2 & Bz2 & B1 & H').
    destruct (IH f q w2 a2 z2 a1 z1 Bf R2 I2 A2 Ba2 C2 Bz2 B1 H') as (w' & T & R' & I').
    exists w'. cbn [tour]. rewrite F. split; [exact T|]. split; [|exact I'].
    destruct qs as [|x qs]; [exact R'|]. change (last (q :: x :: qs) p) with (last (x :: qs) p).
    rewrite (last_default qs x p q). exact R'.
Qed.

Lemma stays_often : forall j f w p a z, ready p w -> ramp_sts w = ramp_idle -> mem w ccpr = Some a -> mem w c = Some z ->
  z <= 500000000 -> a <= 4294967295 ->
  exists w', ready p w' /\ if a + Z.of_nat j * z <=? 4294967295
             then tour (S f) (repeat p j) w = Some (w', RDone)
             else exists e, tour (S f) (repeat p j) w = Some (w', RRaised e).
Proof.
  induction j as [|j IH]; intros f w p a z Hr Id Ha Hz Bz Ba.
  - exists w. split; [exact Hr|]. replace (a + Z.of_nat 0 * z <=? 4294967295) with true by (symmetry; apply Z.leb_le; lia). reflexivity.
  - destruct (stays w p a z Hr Id Ha Hz Bz) as (A & B). cbn [repeat tour].
    assert (Bz0 : 0 <= z) by (destruct Hr as (_ & _ & _ & _ & V); assert (X := holds_of (mem w) c z V Hz); change (0 <= z <= 4294967295) in X; lia).
    destruct (Z_le_dec (a + z) 4294967295) as [L|L].
    + destruct (A L) as (w2 & F & R2 & I2 & _ & A2 & C2 & _). rewrite F.
      destruct (IH f w2 p (a + z) z R2 I2 A2 C2 Bz L) as (w' & R' & T). exists w'. split; [exact R'|].
      replace (a + Z.of_nat (S j) * z) with (a + z + Z.of_nat j * z) by lia. exact T.
    + destruct (B ltac:(lia)) as (w2 & e & F & R2). rewrite F. exists w2. split; [exact R2|].
      replace (a + Z.of_nat (S j) * z <=? 4294967295) with false by (symmetry; apply Z.leb_gt; nia). exists e. reflexivity.
Qed.

(** the beginning *)
Lemma boot_ready : exists w, initialize boot = (w, RDone) /\ ready 0 w /\ ramp_sts w = ramp_idle
  /\ mem w CCP1IE = Some 0 /\ mem w CCP2IE = Some 0 /\ mem w phase_ix = Some 0 /\ mem w ccpr = Some 0 /\ mem w c = Some 0.
Proof.
  unfold initialize.
  assert (V : valid (mem boot)).
  { intros v. exists 0. split; [reflexivity|]. do 14 (destruct v as [|v]; [hold|]). rewrite types_safe.
    vm_compute. split; discriminate. }
  unfold boot in *. cbn [mem] in V.
  do 6 (erewrite andthen_done by setk).
  match goal with |- context [andthen (set_bit INTCON 5) _ (mkW ?r ?s)] => set (s1 := s) end.
  assert (V1 : valid s1) by (unfold s1; repeat (apply valid_upd; [|hold]); assumption).
  assert (E1 : set_bit INTCON 5 (mkW ramp_idle s1) = (mkW ramp_idle (upd s1 INTCON (Some 32)), RDone)).
  { unfold set_bit, do. cbn [mem exec type_of K eval]. rewrite mbind_ret. unfold read.
    replace (s1 INTCON) with (Some 0) by (unfold s1; look). rewrite mbind_ret. reflexivity. }
  assert (E2 : clear_bit INTCON 0 (mkW ramp_idle (upd s1 INTCON (Some 32))) = (mkW ramp_idle (upd (upd s1 INTCON (Some 32)) INTCON (Some 32)), RDone)).
  { unfold clear_bit, do. cbn [mem exec type_of K eval]. rewrite mbind_ret. unfold read.
    rewrite upd_same, mbind_ret. reflexivity. }
  rewrite (andthen_done _ _ _ _ E1), E2. eexists. split; [reflexivity|]. unfold ready. cbn [mem ramp_sts].
  assert (V2 : valid (upd (upd s1 INTCON (Some 32)) INTCON (Some 32))) by (apply valid_upd; [apply valid_upd; [assumption|hold]|hold]).
  repeat split; try exact V2; unfold s1; look.
Qed.

Lemma register_truncates : forall r s a, s ccpr = Some a -> 0 <= a <= 4294967295 ->
  do (CAssign CCPR1H (shr (V ccpr) (K 8))) (mkW r s) = (mkW r (upd s CCPR1H (Some (a / 256 mod 256))), RDone)
  /\ (a / 256 mod 256 = a / 256 <-> a <= 65535).
Proof.
  intros r s a Ha B. split; [exact (set_high r s a Ha B)|].
  assert (0 <= a / 256) by (apply Z.div_pos; lia). pose proof (Z.div_mod a 256 ltac:(lia)). pose proof (Z.mod_pos_bound a 256 ltac:(lia)).
  split; intros Hx.
  - pose proof (Z.mod_pos_bound (a / 256) 256 ltac:(lia)). lia.
  - apply Z.mod_small. lia.
Qed.

Lemma cases : forall p q, in16 p -> in16 q ->
  q = p \/ good_distance (Z.abs (q - p)) \/ runaway_distance (Z.abs (q - p))
  \/ 6276 <= Z.abs (q - p) <= 32767 \/ 32767 < Z.abs (q - p).
Proof. unfold in16, good_distance, runaway_distance. lia. Qed.

Lemma whole_program : exists w0 w1 w2 e, initialize boot = (w0, RDone)
  /\ tour (Z.to_nat 6276) (1000 :: 200 :: 200 :: 0 :: 0 :: nil) w0 = Some (w1, RDone) /\ ready 0 w1
  /\ tell 50000 w1 = (w2, RRaised e).
Proof.
  destruct boot_ready as (w0 & E & R & I & _ & _ & _ & A & C).
  destruct (tour_ok (1000 :: 200 :: 200 :: 0 :: 0 :: nil) (Z.to_nat 6276) 0 w0 0 0 0 0) as (w1 & T & R1 & _);
    try assumption; try lia.
  - unfold good_calls, in16, good_distance, end_timer, first_delay. lia.
  - destruct (no_position w1 50000) as (w2 & e & T2 & _); [lia|unfold in16; lia|].
    exists w0, w1, w2, e. auto.
Qed.
