(** MotorSpec.v -- what the stepper motor program is meant to do, in integers: the
    algorithm of "Generate stepper-motor speed profiles in real time", equations 13 and
    14 (/repo/example/stepper-motor.pdf), as described in the comments of motor3.c.
    Nothing of the model is used. *)
From Coq Require Import ZArith List Bool.
Import ListNotations.
Local Open Scope Z_scope.

(** first and shortest delay, in 1/256 microseconds *)
Definition first_delay : Z := 5000 * 256.
Definition shortest_delay : Z := 25 * 256.

(** the delay after k steps of a move of n steps: equation 13 in the first half,
    equation 14, limited to the first delay, in the second half; the last interrupt
    changes nothing *)
Fixpoint delay_after (n : Z) (k : nat) : Z :=
  match k with
  | O => first_delay
  | S k' =>
      let c := delay_after n k' in
      let j := Z.of_nat k in
      if j <? n / 2 then c - 2 * c / (4 * j + 1)
      else if j <? n then Z.min first_delay (c + 2 * c / (4 * (n - j) - 1))
      else c
  end.

(** the 24-bit timer value at which the next step is made; the timer's registers contain
    h and l when the move begins *)
Fixpoint timer_after (h l n : Z) (k : nat) : Z :=
  match k with
  | O => h * 256 + l + first_delay + 1000
  | S k' =>
      if Z.of_nat k <? n then (timer_after h l n k' + delay_after n k) mod 2 ^ 24
      else timer_after h l n k'
  end.

(** the phase of the windings, which has a period of four steps; it follows the motor
    except for the last interrupt of a move *)
Definition phase_after (dir n : Z) (k : nat) : Z :=
  (dir * (1 + Z.min (Z.of_nat k) (n - 1))) mod 4.

(** the contents of the two compare registers that drive the windings, for each phase *)
Definition windings (ph : Z) : Z * Z :=
  if ph =? 0 then (9, 9) else if ph =? 1 then (8, 9) else if ph =? 2 then (8, 8) else (9, 8).

(** Where the motor is after it was told to go from p to q, in fact: a move of a single
    step does not stop before the end of the range (positions 0 and 50000) *)
Definition single_step (p q : Z) : bool := Z.abs (q - p) =? 1.
Definition reached (p q : Z) : Z :=
  if single_step p q then (if p <? q then 50000 else 0) else q.
(** ... and after a list of moves, and whether some of them were of a single step *)
Fixpoint journey (p : Z) (qs : list Z) : Z :=
  match qs with nil => p | q :: qs' => journey (reached p q) qs' end.
Fixpoint some_single_step (p : Z) (qs : list Z) : bool :=
  match qs with nil => false | q :: qs' => single_step p q || some_single_step (reached p q) qs' end.

(** a call test(p) while the timer's registers contain h and l *)
Definition good_move (mv : Z * Z * Z) : Prop :=
  let '(p, h, l) := mv in 0 <= p <= 50000 /\ 0 <= h <= 255 /\ 0 <= l <= 255.
Definition targets (ms : list (Z * Z * Z)) : list Z := map (fun mv => fst (fst mv)) ms.
