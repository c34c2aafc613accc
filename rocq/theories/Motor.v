(** Motor.v -- model of the stepper motor program of /repo/example: motor3.c compiled
    by example93.cpp with the library's types. Every arithmetic operation, comparison
    and assignment is one of the library's (Program.v); the control flow is modelled
    directly. Definitions only. *)
From Coq Require Import ZArith List Bool Arith.
From Verif Require Import Base CType Utility CheckedInteger CheckedResultOps Interval
  ExceptionPolicy Promotion SafeBase Program.
Import ListNotations.
Local Open Scope Z_scope.

(** example93.cpp:21-27, pic16_promotion *)
Definition pic16 : pp := Cpp 8 16 16 16 32.
(** example93.cpp:35 and 38 *)
Definition exc : ep := default_exception_policy.
Definition trap : ep := loose_trap_policy.

(** example93.cpp:43, literal(n) for an int constant n: make_safe_literal
    (safe_integer_literal.hpp:195-228) gives a safe_signed_literal. The stored type is
    the one signed_stored_type computes (checked by [literal_types] in MotorFacts.v). *)
Definition lit_type (n : Z) : ctype :=
  if (-128 <=? n) && (n <=? 127) then SChar
  else if (-32768 <=? n) && (n <=? 32767) then Short else Int.
Definition literal (n : Z) : expr := EConst (OLit (lit_type n) n (Some pic16) None) n.

(** example93.cpp:47 and 51 *)
Definition c0 : Z := 1280000.
Definition c_min : Z := 6400.
Definition C0 : expr := literal c0.
Definition C_MIN : expr := literal c_min.

(** the types of example93.cpp:67-165; uint8_t, uint16_t and uint32_t are unsigned
    char, unsigned short and unsigned int; the stored types of the ranges are those of
    safe_signed_range and safe_unsigned_range (checked by [range_types]) *)
Definition pic_register_t : safe_t := safe LP64 UChar pic16 trap.
Definition step_t : safe_t := mkSafe UInt 0 200000 pic16 exc.
Definition position_t : safe_t := mkSafe UShort 0 50000 pic16 exc.
Definition ccpr_t : safe_t := safe LP64 UInt pic16 exc.
Definition c_t : safe_t := mkSafe UInt c_min c0 pic16 exc.
Definition temp_t : safe_t := mkSafe UInt 0 4294967295 pic16 exc.
Definition phase_ix_t : safe_t := mkSafe SChar 0 3 pic16 trap.
Definition phase_t : safe_t := safe LP64 UShort pic16 trap.
Definition direction_t : safe_t := mkSafe SChar (-1) 1 pic16 trap.
Definition microseconds : safe_t := safe LP64 UInt pic16 trap.

(** The variables: motor3.c:30-41, the registers of example93.cpp:179-196 that are used,
    the parameters and local variables of the functions *)
Definition motor_position : nat := 0.
Definition m : nat := 1.
Definition m2 : nat := 2.
Definition d : nat := 3.
Definition i : nat := 4.
Definition c : nat := 5.
Definition ccpr : nat := 6.
Definition phase_ix : nat := 7.
Definition new_position : nat := 8.   (* parameter of motor_run *)
Definition x : nat := 9.              (* motor3.c:132 *)
Definition phase : nat := 10.         (* motor3.c:68 *)
Definition t : nat := 11.             (* parameter of to_microseconds *)
Definition delay : nat := 12.         (* result of to_microseconds *)
Definition CCP1IE : nat := 13.
Definition CCPR1H : nat := 14.
Definition CCPR1L : nat := 15.
Definition CCP1CON : nat := 16.
Definition CCP2CON : nat := 17.
Definition TMR1H : nat := 18.
Definition TMR1L : nat := 19.
Definition CCP2IE : nat := 20.

Definition types : tenv := fun v =>
  OSafe
  match v with
  | 0%nat | 1%nat | 2%nat | 8%nat => position_t
  | 3%nat => direction_t
  | 4%nat => step_t
  | 5%nat => c_t
  | 6%nat | 11%nat => ccpr_t
  | 7%nat => phase_ix_t
  | 9%nat => temp_t
  | 10%nat => phase_t
  | 12%nat => microseconds
  | _ => pic_register_t
  end.

(** motor3.c:19-24 *)
Inductive ramp_state : Type := ramp_idle | ramp_up | ramp_const | ramp_down.

(** the memory: ramp_sts and the variables of safe types *)
Record world : Type := mkW { ramp_sts : ramp_state; mem : store }.

(** A piece of program: it returns or raises an exception (or is undefined, for
    instance after a failed assert) *)
Definition action : Type := world -> world * result.
Definition do (k : cmd) : action := fun w =>
  match exec 0 LP64 types (mem w) k with
  | Some (s, r) => (mkW (ramp_sts w) s, r)
  | None => (w, RUndef)
  end.
Definition andthen (a b : action) : action := fun w =>
  match a w with (w1, RDone) => b w1 | r => r end.
Definition branch (k : cond) (a b : action) : action := fun w =>
  match snd (eval_cond LP64 types (mem w) k) with
  | Ret true => a w
  | Ret false => b w
  | Throw e => (w, RRaised e)
  | Undef | Trapped => (w, RUndef)
  end.
Definition skip : action := fun w => (w, RDone).
Definition failed : action := fun w => (w, RUndef).
Definition become (r : ramp_state) : action := fun w => (mkW r (mem w), RDone).
Declare Scope motor_scope.
Notation "a ;; b" := (andthen a b) (at level 61, right associativity) : motor_scope.
Local Open Scope motor_scope.

Definition V (v : nat) : expr := EVar v.
Definition add := EBin (BA Add) true.
Definition sub := EBin (BA Sub) true.
Definition mul := EBin (BA Mul) true.
Definition div := EBin (BA Div) true.
Definition shl := EBin (BA Shl) true.
Definition shr := EBin (BA Shr) true.
Definition band := EBin (BB And) true.
Definition bor := EBin (BB Or) true.
Definition zero : expr := EConst (ORaw Int) 0.

(** motor3.c:48-53, ccpPhase; a subscript outside the table is undefined *)
Definition ccpPhase (k : Z) : option Z :=
  if k =? 0 then Some 2313       (* 0x909 *)
  else if k =? 1 then Some 2312  (* 0x908 *)
  else if k =? 2 then Some 2056  (* 0x808 *)
  else if k =? 3 then Some 2057  (* 0x809 *)
  else None.

(** motor3.c:68: the index is converted to std::ptrdiff_t (long) *)
Definition lookup : action := fun w =>
  match mem w phase_ix with
  | Some k =>
      match snd (run (to_builtin LP64 Long phase_ix_t k)) with
      | Ret n =>
          match ccpPhase n with
          | Some p => (mkW (ramp_sts w) (upd (mem w) phase (Some p)), RDone)
          | None => (w, RUndef)
          end
      | Throw e => (w, RRaised e)
      | Undef | Trapped => (w, RUndef)
      end
  | None => (w, RUndef)
  end.

(** motor3.c:66-74, called with ccpr and phase_ix *)
Definition update : action :=
  lookup ;;
  do (CAssign CCP1CON (band (V phase) (literal 255))) ;;
  do (CAssign CCP2CON (shr (V phase) (literal 8))) ;;
  do (CAssign CCPR1H (band (literal 255) (shr (V ccpr) (literal 8)))) ;;
  do (CAssign CCPR1L (band (literal 255) (V ccpr))).

(** motor3.c:143-147: the end of isr_motor_step, after the switch; a failed assert is
    modelled as undefined *)
Definition finish_step : action :=
  branch (Cond RLe true (V c) C0) (branch (Cond RGe true (V c) C_MIN) skip failed) failed ;;
  do (CAssign ccpr (band (literal 16777215) (add (V ccpr) (V c)))) ;;
  do (CAssign phase_ix (band (add (V phase_ix) (V d)) (literal 3))) ;;
  update.

(** motor3.c:118-137, case ramp_down. The interrupt handler returns after current_off()
    (which does nothing in the example, motor3.c:55-56). *)
Definition case_down : action :=
  branch (Cond REq true (V i) (V m))
    (become ramp_idle ;; do (CAssign CCP1IE (literal 0)))
    (do (CAssign x (add (V c) (div (mul (literal 2) (V c))
                                   (sub (mul (literal 4) (sub (V m) (V i))) (literal 1))))) ;;
     branch (Cond RGt true (V x) C0)
       (do (CAssign c (ECast (OSafe temp_t) C0)))
       (do (CAssign c (V x))) ;;
     finish_step).

(** motor3.c:112-117, case ramp_const; continue goes round the loop to case ramp_down *)
Definition case_const : action :=
  branch (Cond RGt true (V i) (V m2)) (become ramp_down ;; case_down) finish_step.

(** motor3.c:94-111, case ramp_up *)
Definition case_up : action :=
  branch (Cond REq true (V i) (V m2))
    (become ramp_down ;; case_down)
    (do (CCompound (BA Sub) c (div (mul (literal 2) (V c)) (add (mul (literal 4) (V i)) (literal 1)))) ;;
     branch (Cond RLt true (V c) C_MIN)
       (do (CAssign c C_MIN) ;; become ramp_const ;; do (CAssign m2 (sub (V m) (V i))) ;; case_const)
       finish_step).

(** motor3.c:81-148, isr_motor_step; motor3.c:138-140 is assert(false) *)
Definition isr_motor_step : action :=
  branch (Cond RLt true (V d) zero) (do (CDec motor_position)) (do (CInc motor_position)) ;;
  do (CInc i) ;;
  fun w =>
    match ramp_sts w with
    | ramp_up => case_up w
    | ramp_const => case_const w
    | ramp_down => case_down w
    | ramp_idle => failed w
    end.

(** motor3.c:151-183, motor_run. T1CONbits.TMR1ON is not modelled: the emulation
    (example93.cpp:211-231) changes a copy of the register that nothing reads. *)
Definition start : action :=
  do (CAssign i (literal 0)) ;;
  do (CAssign m2 (div (V m) (literal 2))) ;;
  become ramp_up ;;
  do (CAssign c C0) ;;
  do (CAssign ccpr (add (add (bor (shl (V TMR1H) (literal 8)) (V TMR1L)) C0) (literal 1000))) ;;
  do (CAssign phase_ix (band (V d) (literal 3))) ;;
  update ;;
  do (CAssign CCP1IE (literal 1)).
Definition motor_run : action :=
  branch (Cond RGt true (V new_position) (V motor_position))
    (do (CAssign d (literal 1)) ;;
     do (CAssign m (sub (V new_position) (V motor_position))) ;;
     start)
    (branch (Cond RGt true (V motor_position) (V new_position))
       (do (CAssign d (literal (-1))) ;;
        do (CAssign m (sub (V motor_position) (V new_position))) ;;
        start)
       (do (CAssign d (literal 0)) ;; do (CAssign m (literal 0)) ;; become ramp_idle)).

(** motor3.c:61-63 *)
Definition busy (w : world) : bool :=
  match ramp_sts w with ramp_idle => false | _ => true end.

(** motor3.c:185-197, the registers that are modelled *)
Definition initialize : action :=
  do (CAssign motor_position (literal 0)) ;;
  do (CAssign CCP1IE (literal 0)) ;;
  do (CAssign CCP2IE (literal 0)).

(** example93.cpp:244-246, to_microseconds(c) *)
Definition to_microseconds : action :=
  do (CAssign t (V c)) ;;
  do (CAssign delay (div (add (V t) (literal 128)) (literal 256))).

(** one turn of the loop of example93.cpp:263-273; the pause itself, the output and the
    copies made for the output are not modelled *)
Definition turn : action := to_microseconds ;; isr_motor_step.

(** n turns, whether or not the motor is busy *)
Fixpoint turns (n : nat) : action :=
  match n with O => skip | S n' => turn ;; turns n' end.

(** the loop; [None] = more than n turns *)
Fixpoint while_busy (n : nat) (w : world) : option (world * result) :=
  if busy w then
    match n with
    | O => None
    | S n' =>
        match turn w with
        | (w1, RDone) => while_busy n' w1
        | r => Some r
        end
    end
  else Some (w, RDone).

(** example93.cpp:252-280, test(new_position), when the timer's registers contain h and
    l; the parameter is passed by value *)
Definition call (p h l : Z) (w : world) : world :=
  mkW (ramp_sts w)
    (upd (upd (upd (mem w) new_position (Some p)) TMR1H (Some h)) TMR1L (Some l)).
Definition move (n : nat) (p h l : Z) (w : world) : option (world * result) :=
  match motor_run (call p h l w) with
  | (w1, RDone) => while_busy n w1
  | r => Some r
  end.

(** objects of static storage are zero before anything else happens; the constructors
    of the safe types leave them so (safe_base_operations.hpp:160-170) *)
Definition boot : world := mkW ramp_idle (fun _ => Some 0).

(** example93.cpp:282-307, main: initialize() and any number of calls of test. An
    exception ends the call (lines 275-278); the next one is made all the same, and main
    succeeds if all of them did. *)
Definition and_result (r r' : result) : result :=
  match r, r' with
  | _, RUndef => RUndef
  | RDone, _ => r'
  | _, _ => r
  end.
Fixpoint moves (n : nat) (ms : list (Z * Z * Z)) (w : world) : option (world * result) :=
  match ms with
  | [] => Some (w, RDone)
  | (p, h, l) :: ms' =>
      match move n p h l w with
      | Some (w1, RUndef) => Some (w1, RUndef)
      | Some (w1, r) =>
          match moves n ms' w1 with
          | Some (w2, r') => Some (w2, and_result r r')
          | None => None
          end
      | None => None
      end
  end.
Definition main (n : nat) (ms : list (Z * Z * Z)) : option (world * result) :=
  match initialize boot with
  | (w, RDone) => moves n ms w
  | r => Some r
  end.
