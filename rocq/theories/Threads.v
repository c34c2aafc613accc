(** Threads.v -- client programs one step at a time, and several of them as the threads of
    one program. A step is a statement or the evaluation of a condition of Program.v; the
    threads share the variables and take their steps one after the other in any order (a
    program whose threads access a safe variable without such exclusion has a data race: the
    library adds no synchronisation, safe_base.hpp:127, the value is a plain member).
    The library itself keeps no state between calls: its only objects at namespace scope or
    static storage are constants (exception.hpp:67-70, 84-121, utility.hpp:83, and the
    constexpr members of the result classes), so a configuration is the store and the state
    of each thread. Definitions only. *)
From Coq Require Import ZArith List Bool Arith.
From Verif Require Import Base CType ExceptionPolicy Promotion SafeBase Program.
Import ListNotations.
Local Open Scope Z_scope.

(** what is left to do after the current statement: the language rules for sequences and
    handlers *)
Inductive frame : Type :=
| FSeq (b : cmd)                (* then b *)
| FTry (b : cmd).               (* leave try { } catch(...) { b } *)

Inductive thread : Type :=
| TRun (c : cmd) (k : list frame)      (* about to execute c *)
| TNext (k : list frame)               (* completed a statement *)
| TRaise (e : err) (k : list frame)    (* an exception is on its way up *)
| TUndef.                              (* executed undefined behaviour *)

(** the thread takes no further step *)
Definition ended (t : thread) : Prop :=
  match t with TNext [] | TRaise _ [] | TUndef => True | _ => False end.

Definition after (r : result) (k : list frame) : thread :=
  match r with RDone => TNext k | RRaised e => TRaise e k | RUndef => TUndef end.

(** one step; statements that are not composed of others run as in Program.v *)
Definition step1 (D : dmodel) (G : tenv) (s : store) (t : thread) : option (store * thread) :=
  match t with
  | TRun (CSeq a b) k => Some (s, TRun a (FSeq b :: k))
  | TRun (CTry a b) k => Some (s, TRun a (FTry b :: k))
  | TRun (CIf c a b) k =>
      match snd (eval_cond D G s c) with
      | Ret true => Some (s, TRun a k)
      | Ret false => Some (s, TRun b k)
      | Throw e => Some (s, TRaise e k)
      | Undef | Trapped => Some (s, TUndef)
      end
  | TRun (CWhile c a) k =>
      match snd (eval_cond D G s c) with
      | Ret true => Some (s, TRun a (FSeq (CWhile c a) :: k))
      | Ret false => Some (s, TNext k)
      | Throw e => Some (s, TRaise e k)
      | Undef | Trapped => Some (s, TUndef)
      end
  | TRun c k =>
      match exec 0 D G s c with
      | Some (s', r) => Some (s', after r k)
      | None => None
      end
  | TNext (FSeq b :: k) => Some (s, TRun b k)
  | TNext (FTry _ :: k) => Some (s, TNext k)
  | TRaise e (FSeq _ :: k) => Some (s, TRaise e k)
  | TRaise e (FTry b :: k) => Some (s, TRun b k)
  | TNext [] | TRaise _ [] | TUndef => None
  end.

(** a program with threads: the shared store and the threads *)
Definition pool : Type := (store * list thread)%type.

Fixpoint replace (ts : list thread) (n : nat) (t : thread) : list thread :=
  match ts, n with
  | [], _ => []
  | _ :: r, O => t :: r
  | u :: r, S n' => u :: replace r n' t
  end.

(** some thread, chosen by the scheduler, takes a step *)
Inductive pstep (D : dmodel) (G : tenv) : pool -> pool -> Prop :=
| PStep : forall s ts n t s' t', nth_error ts n = Some t -> step1 D G s t = Some (s', t') ->
    pstep D G (s, ts) (s', replace ts n t').

(** the states a program can reach, under all schedules *)
Inductive reaches (D : dmodel) (G : tenv) (p : pool) : pool -> Prop :=
| RHere : reaches D G p p
| RStep : forall q r, reaches D G p q -> pstep D G q r -> reaches D G p r.

Definition start (c : cmd) : thread := TRun c [].
