(** PropsMotor.v -- property C80: the stepper motor program of the examples. *)
From Coq Require Import ZArith Bool List.
From Verif Require Import Base CType ExceptionPolicy Promotion SafeBase Program Motor MotorSpec MotorRunFacts MotorStayFacts.
Import ListNotations.
Local Open Scope Z_scope.

(** C80 (missing: moves of exactly one step, see below). From any position p, told to go
    to any position q at least two steps away, whatever the rest of the memory
    contains: motor_run returns; after every k-th interrupt, up to the distance, the
    handler has returned normally, the motor is k steps nearer, the delay is that of the
    ramp, the compare registers contain the next timer value, the windings the phase, and
    the pause before the interrupt was the delay rounded to microseconds; the motor is
    busy until it arrives, after exactly |q - p| interrupts. *)
Theorem C80_move_partial : forall w p q h l, mem w motor_position = Some p ->
  0 <= p <= 50000 -> 0 <= q <= 50000 -> 0 <= h <= 255 -> 0 <= l <= 255 -> 2 <= Z.abs (q - p) ->
  let n := Z.abs (q - p) in let dir := Z.sgn (q - p) in
  exists w1, motor_run (call q h l w) = (w1, RDone)
  /\ forall k, Z.of_nat k <= n -> exists w', turns k w1 = (w', RDone)
     /\ mem w' motor_position = Some (p + dir * Z.of_nat k)
     /\ mem w' c = Some (delay_after n k)
     /\ mem w' CCPR1H = Some (timer_after h l n k / 256 mod 256)
     /\ mem w' CCPR1L = Some (timer_after h l n k mod 256)
     /\ mem w' CCP1CON = Some (fst (windings (phase_after dir n k)))
     /\ mem w' CCP2CON = Some (snd (windings (phase_after dir n k)))
     /\ mem w' CCP1IE = Some (if Z.of_nat k <? n then 1 else 0)
     /\ (k <> 0%nat -> mem w' delay = Some ((delay_after n (pred k) + 128) / 256))
     /\ busy w' = (Z.of_nat k <? n).
Proof. exact good_run. Qed.
Print Assumptions C80_move_partial.

(** a move of 5 steps: the delays in 1/256 microseconds, the positions and the windings *)
Example C80_move_nonvacuous :
  let w := mkW ramp_idle (fun _ => Some 7) in
  mem w motor_position = Some 7
  /\ match motor_run (call 12 17 200 w) with
     | (w1, RDone) =>
         map (fun k => match turns k w1 with
                       | (w', RDone) => map (mem w') [motor_position; c; CCPR1H; CCPR1L; CCP1CON; CCP2CON; delay]
                       | _ => [] end) [1%nat; 2%nat; 3%nat; 4%nat; 5%nat]
     | _ => [] end
     = [ [Some 8; Some 768000; Some 85; Some 176; Some 8; Some 8; Some 5000];
         [Some 9; Some 907636; Some 47; Some 36; Some 9; Some 8; Some 3000];
         [Some 10; Some 1166960; Some 253; Some 148; Some 9; Some 9; Some 3545];
         [Some 11; Some 1280000; Some 133; Some 148; Some 8; Some 9; Some 4558];
         [Some 12; Some 1280000; Some 133; Some 148; Some 8; Some 9; Some 5000] ].
Proof. vm_compute. split; reflexivity. Qed.

(** initialize() leaves the motor at position 0 with both interrupts disabled, and touches
    nothing else, whatever the memory contains *)
Theorem C80_initialize : forall w, exists w', initialize w = (w', RDone)
  /\ mem w' motor_position = Some 0 /\ mem w' CCP1IE = Some 0 /\ mem w' CCP2IE = Some 0 /\ ramp_sts w' = ramp_sts w
  /\ forall v, v <> motor_position -> v <> CCP1IE -> v <> CCP2IE -> mem w' v = mem w v.
Proof. exact initialized. Qed.
Print Assumptions C80_initialize.
Example C80_initialize_nonvacuous :
  match initialize (mkW ramp_idle (fun _ => Some 1)) with
  | (w', RDone) => (mem w' motor_position, mem w' CCP2IE, mem w' c) = (Some 0, Some 0, Some 1)
  | _ => False end.
Proof. vm_compute. reflexivity. Qed.

(** A call that asks for the present position: the motor is idle at once, no step is to be
    made in any direction, and apart from the argument and the timer's own registers
    nothing else has changed. *)
Theorem C80_stay : forall w h l p, mem w motor_position = Some p -> 0 <= p <= 50000 ->
  exists w1, motor_run (call p h l w) = (w1, RDone) /\ busy w1 = false
    /\ mem w1 d = Some 0 /\ mem w1 m = Some 0
    /\ (forall v, v <> d -> v <> m -> v <> new_position -> v <> TMR1H -> v <> TMR1L -> mem w1 v = mem w v)
    /\ forall k, move k p h l w = Some (w1, RDone).
Proof. exact stayed. Qed.
Print Assumptions C80_stay.
Example C80_stay_nonvacuous :
  match move 0 7 1 2 (mkW ramp_down (fun _ => Some 7)) with
  | Some (w', RDone) => (mem w' motor_position, mem w' d, mem w' c, busy w') = (Some 7, Some 0, Some 7, false)
  | _ => False end.
Proof. vm_compute. reflexivity. Qed.

(** the delay never leaves [25, 5000] microseconds (motor3.c:143-144) *)
Theorem C80_delays : forall n k, shortest_delay <= delay_after n k <= first_delay.
Proof. exact delay_range. Qed.
Print Assumptions C80_delays.
Example C80_delays_nonvacuous : (delay_after 1000 100, delay_after 1000 400, delay_after 1000 1000)
  = (94475, 47436, 1280000).
Proof. vm_compute. reflexivity. Qed.

(** Every history of calls of test, from initialize() on: each returns, nothing undefined
    is executed, and main fails exactly if some call asked for a single step. The position
    in the end is the last one asked for, or, after a single step, the end of the range. *)
Theorem C80_histories_partial : forall f ms, 50000 < Z.of_nat f -> Forall good_move ms ->
  exists w' r, main f ms = Some (w', r) /\ mem w' motor_position = Some (journey 0 (targets ms))
    /\ (if some_single_step 0 (targets ms) then exists e, r = RRaised e else r = RDone).
Proof. exact main_ok. Qed.
Print Assumptions C80_histories_partial.
(** the five moves of example93.cpp:287-299 *)
Example C80_histories_nonvacuous :
  let ms := [(9000, 0, 0); (200, 12, 34); (200, 255, 255); (50000, 1, 2); (0, 3, 4)] in
  Forall good_move ms /\ some_single_step 0 (targets ms) = false /\ journey 0 (targets ms) = 0
  /\ journey 0 (targets (firstn 4 ms)) = 50000.
Proof. cbv zeta. split; [repeat constructor; discriminate|]. vm_compute. auto. Qed.

(** C80 is false of a move of one step: it never stops. The motor goes on, busy, in the
    same direction, to the end of its range, and the next interrupt raises an exception
    while the motor is still busy. *)
Theorem C80_single_step_runs_away : forall w p q h l, mem w motor_position = Some p ->
  0 <= p <= 50000 -> 0 <= q <= 50000 -> 0 <= h <= 255 -> 0 <= l <= 255 -> Z.abs (q - p) = 1 ->
  let dir := q - p in
  exists w1, motor_run (call q h l w) = (w1, RDone)
  /\ forall k, 0 <= p + dir * Z.of_nat k <= 50000 -> exists w', turns k w1 = (w', RDone)
     /\ mem w' motor_position = Some (p + dir * Z.of_nat k) /\ busy w' = true
     /\ (~ 0 <= p + dir * Z.of_nat (S k) <= 50000 -> exists w2 e, turn w' = (w2, RRaised e)
          /\ mem w2 motor_position = Some (p + dir * Z.of_nat k) /\ busy w2 = true).
Proof. exact single_run. Qed.
Print Assumptions C80_single_step_runs_away.

Theorem C80_single_step_refuted : exists w q w', mem w motor_position = Some 3 /\ q = 2
  /\ move 10 q 0 0 w = Some (w', RRaised domain_error) /\ mem w' motor_position = Some 0 /\ busy w' = true.
Proof.
  exists (mkW ramp_idle (fun _ => Some 3)), 2.
  eexists. vm_compute. intuition reflexivity.
Qed.
Print Assumptions C80_single_step_refuted.

(** every statement and condition of the program compiles: under the trap policies of
    the registers and indices this means that none of those can fail *)
Example C80_compiles :
  forallb (compiles LP64 types)
    [ CAssign CCP1CON (band (V phase) (literal 255)); CAssign CCP2CON (shr (V phase) (literal 8));
      CAssign CCPR1H (band (literal 255) (shr (V ccpr) (literal 8))); CAssign CCPR1L (band (literal 255) (V ccpr));
      CAssign ccpr (band (literal 16777215) (add (V ccpr) (V c)));
      CAssign phase_ix (band (add (V phase_ix) (V d)) (literal 3)); CAssign CCP1IE (literal 0);
      CAssign x (add (V c) (div (mul (literal 2) (V c)) (sub (mul (literal 4) (sub (V m) (V i))) (literal 1))));
      CAssign c (ECast (OSafe temp_t) C0); CAssign c (V x);
      CCompound (BA Sub) c (div (mul (literal 2) (V c)) (add (mul (literal 4) (V i)) (literal 1)));
      CAssign c C_MIN; CAssign m2 (sub (V m) (V i)); CDec motor_position; CInc motor_position; CInc i;
      CAssign i (literal 0); CAssign m2 (div (V m) (literal 2)); CAssign c C0;
      CAssign ccpr (add (add (bor (shl (V TMR1H) (literal 8)) (V TMR1L)) C0) (literal 1000));
      CAssign phase_ix (band (V d) (literal 3)); CAssign CCP1IE (literal 1); CAssign d (literal 1);
      CAssign d (literal (-1)); CAssign d (literal 0); CAssign m (literal 0);
      CAssign m (sub (V new_position) (V motor_position)); CAssign m (sub (V motor_position) (V new_position));
      CAssign t (V c); CAssign delay (div (add (V t) (literal 128)) (literal 256));
      CAssign motor_position (literal 0); CAssign CCP2IE (literal 0) ] = true
  /\ forallb (cond_compiles LP64 types)
    [ Cond RLe true (V c) C0; Cond RGe true (V c) C_MIN; Cond REq true (V i) (V m); Cond REq true (V i) (V m2);
      Cond RGt true (V x) C0; Cond RGt true (V i) (V m2); Cond RLt true (V d) zero; Cond RLt true (V c) C_MIN;
      Cond RGt true (V new_position) (V motor_position); Cond RGt true (V motor_position) (V new_position) ] = true.
Proof. vm_compute. split; reflexivity. Qed.
