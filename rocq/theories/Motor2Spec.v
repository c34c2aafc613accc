(** Motor2Spec.v -- vocabulary for the statements about the second stepper motor program. *)
From Coq Require Import ZArith Bool List.
From Verif Require Import Base CType SafeBase SafeSpec Program Motor2.
Local Open Scope Z_scope.

(** the memory of the program when no move is being made and the motor is at p: every variable
    has a value of its type; the timer's registers have never been written, T1CON is as
    initialize() and motor_run leave it *)
Definition ready (p : Z) (w : world) : Prop :=
  mem w motor_pos = Some p /\ mem w TMR1H = Some 0 /\ mem w TMR1L = Some 0 /\ mem w T1CON = Some 53
  /\ forall v, exists z, mem w v = Some z /\ holds LP64 (types v) z.

(** positions that a motor can have, the values of the type int16 *)
Definition in16 (x : Z) : Prop := -32768 <= x <= 32767.

(** the distances of which a move ends as it should *)
Definition good_distance (n : Z) : Prop :=
  1 <= n <= 220 \/ n = 222 \/ n = 437 \/ 439 <= n <= 6275.
(** the distances of which it does not stop *)
Definition runaway_distance (n : Z) : Prop :=
  n = 221 \/ 223 <= n <= 436 \/ n = 438.

(** the two registers that control the windings, for the four phases of a full step *)
Definition coils (ix : Z) : Z * Z :=
  if ix =? 0 then (9, 9) else if ix =? 1 then (8, 9) else if ix =? 2 then (8, 8) else (9, 8).

(** The delays of a move of at least 439 steps, in 1/256 microseconds: D. Austin's recurrence
    for a constant acceleration, from 50000 microseconds down to 2500, and back up. *)
Fixpoint speed_up (k : nat) : Z :=
  match k with
  | O => 50000 * 256
  | S k' => let c := speed_up k' in c - 2 * c / (4 * Z.of_nat k + 1)
  end.
Fixpoint slow_down (j : nat) : Z :=
  match j with
  | O => 2500 * 256
  | S j' => let c := slow_down j' in c + 2 * c / (4 * (217 - Z.of_nat j') - 5)
  end.
(** after k steps of a move of n *)
Definition delay_after (n : Z) (k : nat) : Z :=
  if Z.of_nat k <=? 218 then speed_up k
  else if Z.of_nat k <=? n - 217 then 2500 * 256
  else slow_down (Z.to_nat (Z.min (Z.of_nat k) (n - 1) - (n - 217))).
(** the timer value set after k steps: the sum of the delays *)
Fixpoint timer_after (n : Z) (k : nat) : Z :=
  match k with O => 1000 | S k' => timer_after n k' + delay_after n k' end.

(** the observable state during a move: the motor is at x, the timer will next interrupt at a
    and the windings are in phase ix *)
Definition stepping (x ix a : Z) (w : world) : Prop :=
  mem w motor_pos = Some x /\ mem w run_flg = Some 1 /\ mem w ccpr = Some a
  /\ mem w CCPR1H = Some (a / 256 mod 256) /\ mem w CCPR1L = Some (a mod 256)
  /\ mem w phase_ix = Some ix /\ mem w CCP1CON = Some (fst (coils ix)) /\ mem w CCP2CON = Some (snd (coils ix)).

(** an upper bound of the timer value at the end of a move of n steps *)
Definition end_timer (n : Z) : Z := 558250349 + 640000 * Z.max 0 (n - 437).

(** a history of calls of test: the targets in turn *)
Fixpoint tour (f : nat) (qs : list Z) (w : world) : option (world * result) :=
  match qs with
  | nil => Some (w, RDone)
  | cons q qs' => match go f q w with Some (w', RDone) => tour f qs' w' | r => r end
  end.
(** targets that can be reached one after the other by a motor at p whose timer value is at most
    a and whose last delay is at most z *)
Fixpoint good_calls (p a z : Z) (qs : list Z) : Prop :=
  match qs with
  | nil => True
  | cons q qs' =>
      q = p /\ a + z <= 4294967295 /\ good_calls p (a + z) z qs'
      \/ in16 q /\ good_distance (Z.abs (q - p)) /\ good_calls q (end_timer (Z.abs (q - p))) first_delay qs'
  end.
