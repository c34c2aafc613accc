(** Motor2.v -- model of the second version of the stepper motor program of /repo/example:
    motor2.c compiled by example92.cpp with the library's types. Every arithmetic operation,
    comparison, test and assignment is one of the library's (Program.v, BoolConv.v); the
    control flow is modelled directly. Definitions only. *)
From Coq Require Import ZArith List Bool Arith.
From Verif Require Import Base CType Utility CheckedInteger CheckedResultOps Interval
  ExceptionPolicy Promotion SafeBase Program BoolConv.
Import ListNotations.
Local Open Scope Z_scope.

(** example92.cpp:21-27, pic16_promotion, and the default exception policy *)
Definition pic16 : pp := Cpp 8 16 16 16 32.
Definition exc : ep := default_exception_policy.

(** example92.cpp:30-31, C0 and C_MIN, constants of type int *)
Definition first_delay : Z := 12800000.
Definition least_delay : Z := 640000.

(** example92.cpp:51-56: int16_t, uint8_t, uint16_t, int32_t and uint32_t are short, unsigned
    char, unsigned short, int and unsigned int *)
Definition int16 : safe_t := safe LP64 Short pic16 exc.
Definition int32 : safe_t := safe LP64 Int pic16 exc.
Definition uint8 : safe_t := safe LP64 UChar pic16 exc.
Definition uint16 : safe_t := safe LP64 UShort pic16 exc.
Definition uint32 : safe_t := safe LP64 UInt pic16 exc.

(** The variables: motor2.c:26-40, the registers of example92.cpp:69-87, the parameters of the
    functions and the result of to_microseconds *)
Definition motor_pos : nat := 0.
Definition pos_inc : nat := 1.
Definition denom : nat := 2.
Definition pos_new : nat := 3.        (* parameter of motor_run *)
Definition phase : nat := 4.
Definition step_no : nat := 5.
Definition step_down : nat := 6.
Definition move : nat := 7.
Definition midpt : nat := 8.
Definition ccpr : nat := 9.
Definition c : nat := 10.
Definition t : nat := 11.             (* parameter of to_microseconds *)
Definition delay : nat := 12.         (* result of to_microseconds *)
Definition m : nat := 13.             (* parameter of test *)
Definition phase_ix : nat := 14.
Definition phase_inc : nat := 15.
Definition run_flg : nat := 16.
Definition CCP1IE : nat := 17.
Definition CCP2IE : nat := 18.
Definition PORTC : nat := 19.
Definition TRISC : nat := 20.
Definition T3CON : nat := 21.
Definition T1CON : nat := 22.
Definition INTCON : nat := 23.
Definition CCPR2H : nat := 24.
Definition CCPR2L : nat := 25.
Definition CCPR1H : nat := 26.
Definition CCPR1L : nat := 27.
Definition CCP1CON : nat := 28.
Definition CCP2CON : nat := 29.
Definition TMR1H : nat := 30.
Definition TMR1L : nat := 31.

Definition types : tenv := fun v =>
  OSafe
  match v with
  | 0%nat | 1%nat | 2%nat | 3%nat => int16
  | 4%nat | 5%nat | 6%nat | 7%nat | 8%nat => uint16
  | 9%nat | 10%nat | 11%nat => uint32
  | 12%nat | 13%nat => int32
  | _ => uint8
  end.

(** motor2.c:17-23 *)
Inductive ramp_state : Type := ramp_idle | ramp_up | ramp_max | ramp_down | ramp_last.

(** the memory: ramp_sts and the variables of safe types *)
Record world : Type := mkW { ramp_sts : ramp_state; mem : store }.

(** A piece of program: it returns, raises an exception or is undefined *)
Definition action : Type := world -> world * result.
Definition do (k : cmd) : action := fun w =>
  match exec 0 LP64 types (mem w) k with
  | Some (s, r) => (mkW (ramp_sts w) s, r)
  | None => (w, RUndef)
  end.
Definition andthen (a b : action) : action := fun w =>
  match a w with (w1, RDone) => b w1 | r => r end.
Definition choose (k : M bool) (a b : action) : action := fun w =>
  match snd k with
  | Ret true => a w
  | Ret false => b w
  | Throw e => (w, RRaised e)
  | Undef | Trapped => (w, RUndef)
  end.
Definition branch (k : cond) (a b : action) : action := fun w =>
  choose (eval_cond LP64 types (mem w) k) a b w.
(** if (k) for conditions with tests of integers *)
Definition branch_test (k : test) (a b : action) : action := fun w =>
  choose (eval_test LP64 types (mem w) k) a b w.
Definition skip : action := fun w => (w, RDone).
Definition become (r : ramp_state) : action := fun w => (mkW r (mem w), RDone).
(** assignment of a bool constant *)
Definition assign_bool (v : nat) (b : bool) : action := fun w =>
  match types v with
  | OSafe s =>
      match snd (run (construct_bool LP64 s b)) with
      | Ret z => (mkW (ramp_sts w) (upd (mem w) v (Some z)), RDone)
      | Throw e => (w, RRaised e)
      | Undef | Trapped => (w, RUndef)
      end
  | _ => (w, RUndef)
  end.
Declare Scope motor2_scope.
Notation "a ;; b" := (andthen a b) (at level 61, right associativity) : motor2_scope.
Local Open Scope motor2_scope.

Definition V (v : nat) : expr := EVar v.
(** constants of type int *)
Definition K (z : Z) : expr := EConst (ORaw Int) z.
Definition add := EBin (BA Add) true.
Definition sub := EBin (BA Sub) true.
Definition mul := EBin (BA Mul) true.
Definition div := EBin (BA Div) true.
Definition shl := EBin (BA Shl) true.
Definition shr := EBin (BA Shr) true.
Definition band := EBin (BB And) true.

(** motor2.c:44, ccpPhase; a subscript outside the table is undefined *)
Definition ccpPhase (k : Z) : option Z :=
  if k =? 0 then Some 2313       (* 0x909 *)
  else if k =? 1 then Some 2312  (* 0x908 *)
  else if k =? 2 then Some 2056  (* 0x808 *)
  else if k =? 3 then Some 2057  (* 0x809 *)
  else None.

(** motor2.c:120 and 149: the index is converted to std::ptrdiff_t (long) *)
Definition lookup : action := fun w =>
  match mem w phase_ix with
  | Some k =>
      match snd (run (to_builtin LP64 Long uint8 k)) with
      | Ret n =>
          match ccpPhase n with
          | Some p => (mkW (ramp_sts w) (upd (mem w) phase (Some p)), RDone)
          | None => (w, RUndef)
          end
      | Throw e => (w, RRaised e)
      | Undef | Trapped => (w, RUndef)
      end
  | None => (w, RUndef)
  end.

(** motor2.c:120-122 and 149-151 *)
Definition windings : action :=
  lookup ;;
  do (CAssign CCP1CON (band (V phase) (K 255))) ;;
  do (CAssign CCP2CON (shr (V phase) (K 8))).
Definition turn_phase : action := do (CAssign phase_ix (band (add (V phase_ix) (V phase_inc)) (K 3))).
(** motor2.c:116-117 and 146-147 *)
Definition set_timer : action :=
  do (CAssign CCPR1H (shr (V ccpr) (K 8))) ;;
  do (CAssign CCPR2H (V CCPR1H)) ;;
  do (CAssign CCPR1L (band (V ccpr) (K 255))) ;;
  do (CAssign CCPR2L (V CCPR1L)).

(** motor2.c:77-99, case ramp_down *)
Definition case_down : action :=
  branch (Cond REq true (V step_no) (sub (V move) (K 1)))
    (become ramp_last)
    (do (CCompound (BA Add) denom (K 4)) ;;
     branch (Cond RGt true (V denom) (K 0))
       (do (CCompound (BA Sub) c (div (shl (V c) (K 1)) (V denom))))
       (do (CCompound (BA Add) c (div (shl (V c) (K 1)) (ENeg (V denom))))) ;;
     branch (Cond RLe true (V c) (K least_delay))
       (become ramp_max ;;
        do (CAssign step_down (sub (V move) (V step_no))) ;;
        do (CAssign c (K least_delay)))
       skip).

(** motor2.c:59-76, case ramp_up, which may fall through into case ramp_down *)
Definition case_up : action :=
  branch (Cond REq true (V step_no) (V midpt))
    (become ramp_down ;;
     branch (Cond RGt true (V step_no) (V move))
       (do (CAssign denom (add (mul (sub (V step_no) (V move)) (K 4)) (K 1))))
       (do (CAssign denom (sub (mul (sub (V move) (V step_no)) (K 4)) (K 1)))) ;;
     branch_test (TNot (TExpr (band (V move) (K 1))))
       (do (CCompound (BA Add) denom (K 4)))
       case_down)
    case_down.

(** motor2.c:100-108, case ramp_max *)
Definition case_max : action :=
  branch (Cond REq true (V step_no) (V step_down))
    (become ramp_down ;;
     do (CAssign denom (sub (K 5) (mul (sub (V move) (V step_no)) (K 4)))))
    skip.

(** motor2.c:109-113, default; current_off() does nothing (motor2.c:47) *)
Definition case_default : action :=
  become ramp_idle ;; do (CAssign CCP1IE (K 0)) ;; assign_bool run_flg false.

(** motor2.c:115-123 *)
Definition after_switch : action := fun w =>
  match ramp_sts w with
  | ramp_idle => skip w
  | r =>
      (do (CCompound (BA Add) motor_pos (V pos_inc)) ;;
       do (CInc step_no) ;;
       set_timer ;;
       match r with ramp_last => skip | _ => turn_phase end ;;
       windings) w
  end.

(** motor2.c:55-124, isr_motor_step *)
Definition isr_motor_step : action :=
  do (CCompound (BA Add) ccpr (V c)) ;;
  (fun w =>
     match ramp_sts w with
     | ramp_up => case_up w
     | ramp_down => case_down w
     | ramp_max => case_max w
     | ramp_last | ramp_idle => case_default w
     end) ;;
  after_switch.

(** motor2.c:49-51, make16(l, r), called with TMR1H and TMR1L; the operator + binds closer
    than << *)
Definition make16 (l r : expr) : expr :=
  ECast (OSafe uint16) (shl (ECast (OSafe uint16) l) (add (K 8) r)).

(** example92.cpp:98-104, bit::operator= with N = n: the built-in expressions 1 << N and
    ~(1 << N) are constants *)
Definition set_bit (v : nat) (n : Z) : action := do (CCompound (BB Or) v (K (2 ^ n))).
Definition clear_bit (v : nat) (n : Z) : action := do (CCompound (BB And) v (K (- 2 ^ n - 1))).

(** motor2.c:137-154, the end of motor_run *)
Definition start : action :=
  do (CAssign midpt (shr (sub (V move) (K 1)) (K 1))) ;;
  do (CAssign c (K first_delay)) ;;
  do (CAssign step_no (K 0)) ;;
  do (CAssign denom (K 1)) ;;
  become ramp_up ;;
  assign_bool run_flg true ;;
  clear_bit T1CON 0 ;;
  do (CAssign ccpr (make16 (V TMR1H) (V TMR1L))) ;;
  do (CCompound (BA Add) ccpr (K 1000)) ;;
  set_timer ;;
  turn_phase ;;
  windings ;;
  do (CAssign CCP1IE (K 1)) ;;
  set_bit T1CON 0.

(** motor2.c:126-154, motor_run *)
Definition motor_run : action :=
  branch (Cond RLt true (V pos_new) (V motor_pos))
    (do (CAssign move (sub (V motor_pos) (V pos_new))) ;;
     do (CAssign pos_inc (K (-1))) ;;
     do (CAssign phase_inc (K 255)) ;;
     start)
    (branch (Cond RNe true (V pos_new) (V motor_pos))
       (do (CAssign move (sub (V pos_new) (V motor_pos))) ;;
        do (CAssign pos_inc (K 1)) ;;
        do (CAssign phase_inc (K 1)) ;;
        start)
       skip).

(** motor2.c:156-167 *)
Definition initialize : action :=
  do (CAssign CCP1IE (K 0)) ;;
  do (CAssign CCP2IE (K 0)) ;;
  do (CAssign PORTC (K 0)) ;;
  do (CAssign TRISC (K 0)) ;;
  do (CAssign T3CON (K 0)) ;;
  do (CAssign T1CON (K 53)) ;;
  set_bit INTCON 5 ;;
  clear_bit INTCON 0.

(** example92.cpp:137-139, to_microseconds(c) *)
Definition to_microseconds : action :=
  do (CAssign t (V c)) ;;
  do (CAssign delay (div (add (V t) (K 128)) (K 256))).

(** one turn of the loop of example92.cpp:157-168; the pause itself, the output and the copies
    made for the output are not modelled *)
Definition turn : action := to_microseconds ;; isr_motor_step.

(** n turns *)
Fixpoint turns (n : nat) : action :=
  match n with O => skip | S n' => turn ;; turns n' end.

(** do { turn } while (run_flg); [None] = more than n turns *)
Fixpoint loop (n : nat) (w : world) : option (world * result) :=
  match n with
  | O => None
  | S n' =>
      match turn w with
      | (w1, RDone) =>
          match mem w1 run_flg with
          | Some f =>
              match snd (run (to_bool LP64 (OSafe uint8) f)) with
              | Ret true => loop n' w1
              | Ret false => Some (w1, RDone)
              | Throw e => Some (w1, RRaised e)
              | Undef | Trapped => Some (w1, RUndef)
              end
          | None => Some (w1, RUndef)
          end
      | r => Some r
      end
  end.

(** example92.cpp:145-155, the beginning of test(q), the call motor_run(q): the parameter m of
    type int32 is passed on to the parameter of motor_run, of type int16 *)
Definition tell (q : Z) (w : world) : world * result :=
  (do (CAssign pos_new (V m)) ;; motor_run) (mkW (ramp_sts w) (upd (mem w) m (Some q))).
(** example92.cpp:145-175, test(q) *)
Definition go (n : nat) (q : Z) (w : world) : option (world * result) :=
  match tell q w with
  | (w1, RDone) => loop n w1
  | r => Some r
  end.

(** objects of static storage are zero before anything else happens; the constructors of the
    safe types leave them so (safe_base_operations.hpp:160-170) *)
Definition boot : world := mkW ramp_idle (fun _ => Some 0).
