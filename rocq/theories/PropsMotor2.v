(** PropsMotor2.v -- property C94: the second version of the stepper motor program of the
    examples (motor2.c compiled by example92.cpp). *)
From Coq Require Import ZArith Bool List Lia.
From Verif Require Import Base CType ExceptionPolicy Promotion SafeBase SafeSpec Program Motor2 Motor2Spec Motor2MoveFacts.
Import ListNotations.
Local Open Scope Z_scope.

(** The claim of the program is: told to go to q, the motor arrives at q, from any position p.
    Every target of type int32 is in exactly one of the cases that follow; in only the first two
    the claim is true. *)

(** C94 for the distances 1..220, 222, 437 and 439..6275: motor_run returns; after every k-th
    interrupt, up to the distance, the handler has returned normally, the motor is k steps
    nearer, the timer's registers contain its next value modulo 2^16 and the windings the phase,
    one further at each step but the last; the loop ends after the next interrupt, with the
    motor at q, not running. *)
Theorem C94_arrives_partial : forall w p q ix, ready p w -> mem w phase_ix = Some ix -> in16 q ->
  good_distance (Z.abs (q - p)) ->
  let n := Z.abs (q - p) in let d := Z.sgn (q - p) in
  exists w1, tell q w = (w1, RDone)
  /\ (forall k, Z.of_nat k <= n -> exists w' a, turns k w1 = (w', RDone)
        /\ stepping (p + d * Z.of_nat k) ((ix + d * Z.min (Z.of_nat k + 1) n) mod 4) a w')
  /\ exists w2, (forall f, n < Z.of_nat f -> go f q w = Some (w2, RDone))
     /\ ready q w2 /\ ramp_sts w2 = ramp_idle /\ mem w2 run_flg = Some 0
     /\ mem w2 phase_ix = Some ((ix + d * n) mod 4)
     /\ exists t z, mem w2 ccpr = Some t /\ t <= end_timer n /\ mem w2 c = Some z /\ 1 <= z <= first_delay.
Proof. exact arrives. Qed.
Print Assumptions C94_arrives_partial.

(** The present position: the handler is called once in the idle state and adds the last delay
    to the timer value. Either nothing moves, or the sum is too large and raises. *)
Theorem C94_stay : forall w p a z, ready p w -> ramp_sts w = ramp_idle -> mem w ccpr = Some a -> mem w c = Some z ->
  z <= 500000000 ->
  (a + z <= 4294967295 -> exists w', (forall f, go (S f) p w = Some (w', RDone)) /\ ready p w' /\ ramp_sts w' = ramp_idle
     /\ mem w' run_flg = Some 0 /\ mem w' ccpr = Some (a + z) /\ mem w' c = Some z /\ mem w' phase_ix = mem w phase_ix)
  /\ (4294967295 < a + z -> exists w' e, (forall f, go (S f) p w = Some (w', RRaised e)) /\ ready p w').
Proof. exact stays. Qed.
Print Assumptions C94_stay.

(** distances 221, 223..436 and 438: the motor passes its target and goes on until the
    position or the timer value overflows *)
Theorem C94_runs_away : forall w p q, ready p w -> in16 q -> runaway_distance (Z.abs (q - p)) ->
  let n := Z.abs (q - p) in let d := Z.sgn (q - p) in
  exists w1, tell q w = (w1, RDone)
  /\ (exists w', turns (Z.to_nat n) w1 = (w', RDone) /\ mem w' motor_pos = Some q /\ mem w' run_flg = Some 1)
  /\ exists w2 e k, n <= k /\ (forall f, 7200 <= Z.of_nat f -> go f q w = Some (w2, RRaised e))
     /\ mem w2 motor_pos = Some (p + d * k) /\ mem w2 run_flg = Some 1.
Proof. exact runs_away. Qed.
Print Assumptions C94_runs_away.

(** distances 6276..32767: the timer value, which is never reduced, overflows on the way *)
Theorem C94_too_long : forall w p q, ready p w -> in16 q -> 6276 <= Z.abs (q - p) <= 32767 ->
  let n := Z.abs (q - p) in let d := Z.sgn (q - p) in
  exists w2 e k, 0 <= k <= n /\ (forall f, n < Z.of_nat f -> go f q w = Some (w2, RRaised e))
     /\ mem w2 motor_pos = Some (p + d * k) /\ mem w2 run_flg = Some 1.
Proof. exact too_long. Qed.
Print Assumptions C94_too_long.

(** greater distances: motor_run raises before anything but its parameters is changed *)
Theorem C94_too_far : forall w p q, ready p w -> in16 q -> 32767 < Z.abs (q - p) ->
  exists w2 e, tell q w = (w2, RRaised e) /\ (forall f, go f q w = Some (w2, RRaised e))
    /\ ramp_sts w2 = ramp_sts w /\ forall v, v <> m -> v <> pos_new -> mem w2 v = mem w v.
Proof. exact too_far. Qed.
Print Assumptions C94_too_far.

(** targets that are not positions: the conversion of the argument raises, in any state *)
Theorem C94_no_position : forall w q, -2147483648 <= q <= 2147483647 -> ~ in16 q ->
  exists w2 e, tell q w = (w2, RRaised e) /\ (forall f, go f q w = Some (w2, RRaised e))
    /\ ramp_sts w2 = ramp_sts w /\ forall v, v <> m -> mem w2 v = mem w v.
Proof. exact no_position. Qed.
Print Assumptions C94_no_position.

(** the cases are all *)
Theorem C94_cases : forall p q, in16 p -> in16 q ->
  q = p \/ good_distance (Z.abs (q - p)) \/ runaway_distance (Z.abs (q - p))
  \/ 6276 <= Z.abs (q - p) <= 32767 \/ 32767 < Z.abs (q - p).
Proof. exact cases. Qed.
Print Assumptions C94_cases.

(** the whole profile of a move of 439..6275 steps: delays as in D. Austin's algorithm, 218
    steps up and 216 down, and the pauses before the interrupts *)
Theorem C94_profile : forall w p q ix, ready p w -> mem w phase_ix = Some ix -> in16 q -> 439 <= Z.abs (q - p) <= 6275 ->
  let n := Z.abs (q - p) in let d := Z.sgn (q - p) in
  exists w1, tell q w = (w1, RDone)
  /\ forall k, Z.of_nat k <= n -> exists w', turns k w1 = (w', RDone)
     /\ stepping (p + d * Z.of_nat k) ((ix + d * Z.min (Z.of_nat k + 1) n) mod 4) (timer_after n k) w'
     /\ mem w' c = Some (delay_after n k)
     /\ (k <> 0%nat -> mem w' delay = Some ((delay_after n (pred k) + 128) / 256)).
Proof. exact profiled. Qed.
Print Assumptions C94_profile.

(** moves of at most 220 steps and of 222 are not decelerated: the delay never grows *)
Theorem C94_never_slows : forall w p q ix, ready p w -> mem w phase_ix = Some ix -> in16 q ->
  1 <= Z.abs (q - p) <= 220 \/ Z.abs (q - p) = 222 ->
  exists w1, tell q w = (w1, RDone)
  /\ forall k, Z.of_nat k < Z.abs (q - p) -> exists w' w'' z z', turns k w1 = (w', RDone) /\ turns (S k) w1 = (w'', RDone)
     /\ mem w' c = Some z /\ mem w'' c = Some z' /\ z' <= z.
Proof. exact never_slows. Qed.
Print Assumptions C94_never_slows.

(** initialize(), called first, leaves a motor that is ready *)
Theorem C94_initialize : exists w, initialize boot = (w, RDone) /\ ready 0 w /\ ramp_sts w = ramp_idle
  /\ mem w CCP1IE = Some 0 /\ mem w CCP2IE = Some 0 /\ mem w phase_ix = Some 0 /\ mem w ccpr = Some 0 /\ mem w c = Some 0.
Proof. exact boot_ready. Qed.
Print Assumptions C94_initialize.

(** histories of calls of test, of any length: if every target is at a good distance from the
    one before or is the same, and the latter not so often that the timer value overflows, all
    return and the motor is at the last *)
Theorem C94_histories_partial : forall qs f p w a z a0 z0, 6275 < Z.of_nat f -> ready p w -> ramp_sts w = ramp_idle ->
  mem w ccpr = Some a -> a <= a0 -> mem w c = Some z -> z <= z0 -> z0 <= 500000000 -> good_calls p a0 z0 qs ->
  exists w', tour f qs w = Some (w', RDone) /\ ready (last qs p) w' /\ ramp_sts w' = ramp_idle.
Proof. exact tour_ok. Qed.
Print Assumptions C94_histories_partial.

(** calls for the present position, again and again: exactly (2^32 - 1 - a) / z of them return *)
Theorem C94_stays_run_out : forall j f w p a z, ready p w -> ramp_sts w = ramp_idle -> mem w ccpr = Some a -> mem w c = Some z ->
  z <= 500000000 -> a <= 4294967295 ->
  exists w', ready p w' /\ if a + Z.of_nat j * z <=? 4294967295
             then tour (S f) (repeat p j) w = Some (w', RDone)
             else exists e, tour (S f) (repeat p j) w = Some (w', RRaised e).
Proof. exact stays_often. Qed.
Print Assumptions C94_stays_run_out.

(** main of example92.cpp, from the start of the program: the four moves and the one that was
    suppressed, of 50000, which raises *)
Theorem C94_main : exists w0 w1 w2 e, initialize boot = (w0, RDone)
  /\ tour (Z.to_nat 6276) [1000; 200; 200; 0; 0] w0 = Some (w1, RDone) /\ ready 0 w1
  /\ tell 50000 w1 = (w2, RRaised e).
Proof. exact whole_program. Qed.
Print Assumptions C94_main.

(** The library converts ccpr >> 8, a value of up to 2^24 - 1, to a register of 8 bits without
    a check and without an exception, whatever the memory contains: the register receives the
    low bits. (The declared range of a value shifted right by a constant is too small, C27; it
    is in the range of the register, so that no check is made.) *)
Theorem C94_register_truncates : forall r s a, s ccpr = Some a -> 0 <= a <= 4294967295 ->
  do (CAssign CCPR1H (shr (V ccpr) (K 8))) (mkW r s) = (mkW r (upd s CCPR1H (Some (a / 256 mod 256))), RDone)
  /\ (a / 256 mod 256 = a / 256 <-> a <= 65535).
Proof. exact register_truncates. Qed.
Print Assumptions C94_register_truncates.

(** make16(l, r) is meant to be 256 * l + r; l << 8 + r is l << (8 + r) *)
Theorem C94_make16_refuted : exists s, s TMR1H = Some 1 /\ s TMR1L = Some 1
  /\ snd (eval LP64 types s (make16 (V TMR1H) (V TMR1L))) = Ret 512.
Proof. exists (fun _ => Some 1). vm_compute. repeat split. Qed.
Print Assumptions C94_make16_refuted.

(** ------------------------------------------------------------------ *)
(** cases that meet the hypotheses *)
Definition begun : world := fst (initialize boot).
Example C94_begun : ready 0 begun /\ ramp_sts begun = ramp_idle /\ mem begun phase_ix = Some 0.
Proof.
  destruct C94_initialize as (w & E & R & I & _ & _ & P & _). unfold begun. rewrite E. auto.
Qed.
Example C94_distances : good_distance 5 /\ good_distance 1000 /\ runaway_distance 300 /\ in16 (-3) /\ ~ in16 50000.
Proof. unfold good_distance, runaway_distance, in16. lia. Qed.

(** a move of 3 steps back: the motor's position, the delay, the phase and the coils *)
Example C94_arrives_nonvacuous :
  match tell (-3) begun with
  | (w1, RDone) =>
      map (fun k => match turns k w1 with
                    | (w', RDone) => map (mem w') [motor_pos; c; phase_ix; CCPR1H; CCPR1L; CCP1CON; CCP2CON; run_flg]
                    | _ => [] end) [0%nat; 1%nat; 2%nat; 3%nat; 4%nat]
  | _ => [] end
  = [ [Some 0; Some 12800000; Some 3; Some 3; Some 232; Some 9; Some 8; Some 1];
      [Some (-1); Some 7680000; Some 2; Some 83; Some 232; Some 8; Some 8; Some 1];
      [Some (-2); Some 6283637; Some 1; Some 131; Some 232; Some 8; Some 9; Some 1];
      [Some (-3); Some 6283637; Some 1; Some 101; Some 93; Some 8; Some 9; Some 1];
      [Some (-3); Some 6283637; Some 1; Some 101; Some 93; Some 8; Some 9; Some 0] ].
Proof. vm_compute. reflexivity. Qed.
Definition shown (vs : list nat) (r : option (world * result)) : list (option Z) :=
  match r with Some (w, RDone) => map (mem w) vs | _ => [] end.
(** to -3, there again and back by 5: with the bounds of the histories' theorem *)
Example C94_histories_nonvacuous : good_calls 0 0 0 [0; 0; -3; -3; 2]
  /\ shown [motor_pos; run_flg; phase_ix] (tour 10 [0; 0; -3; -3; 2] begun) = [Some 2; Some 0; Some 2].
Proof. split; [cbn; unfold in16, good_distance, end_timer, first_delay; lia|]. vm_compute. reflexivity. Qed.
(** too far: from 1 to 32768 - 1 is possible, to -32767 is not *)
Example C94_too_far_nonvacuous :
  match go 10 1 begun with
  | Some (w, RDone) => match go 10 (-32767) w with
                       | Some (w', RRaised e) => map (mem w') [motor_pos; run_flg; pos_new] = [Some 1; Some 0; Some (-32767)]
                       | _ => False end
  | _ => False end.
Proof. vm_compute. reflexivity. Qed.
Example C94_no_position_nonvacuous :
  match go 10 50000 begun with Some (w', RRaised e) => mem w' motor_pos = Some 0 | _ => False end.
Proof. vm_compute. reflexivity. Qed.
(** the register of a timer value of 12801000 *)
Example C94_register_nonvacuous :
  match do (CAssign CCPR1H (shr (V ccpr) (K 8))) (mkW ramp_idle (fun _ => Some 12801000)) with
  | (w, RDone) => mem w CCPR1H = Some 83 /\ 12801000 / 256 = 50003
  | _ => False end.
Proof. vm_compute. auto. Qed.
(** the delays of a move of 1000 steps: at its beginning, at full speed and at its end *)
Example C94_profile_nonvacuous :
  map (delay_after 1000) [0%nat; 1%nat; 2%nat; 218%nat; 219%nat; 783%nat; 784%nat; 999%nat; 1000%nat]
  = [12800000; 7680000; 5973334; 640575; 640000; 640000; 641483; 12729843; 12729843].
Proof. vm_compute. reflexivity. Qed.
