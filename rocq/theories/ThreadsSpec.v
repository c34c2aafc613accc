(** ThreadsSpec.v -- the specification of programs with threads: in exact integer arithmetic
    under the same kind of schedules, where every statement may also raise an exception; the
    variables a program uses. *)
From Coq Require Import ZArith List Bool Arith.
From Verif Require Import Base CType Spec ExceptionPolicy Promotion SafeBase SafeSpec Program ProgramSpec Threads.
Import ListNotations.
Local Open Scope Z_scope.

(** statements that are not composed of others *)
Definition simple (c : cmd) : Prop :=
  match c with CSeq _ _ | CTry _ _ | CIf _ _ _ | CWhile _ _ => False | _ => True end.

(** One step of a thread in exact arithmetic. Simple statements are those of [ideal]
    (ProgramSpec.v); a condition has its mathematical truth value, or raises. Threads that
    raise are the same whatever the error. *)
Inductive istep : (nat -> Z) -> thread -> (nat -> Z) -> thread -> Prop :=
| IS_simple : forall i c k i', simple c -> ideal i c i' true -> istep i (TRun c k) i' (TNext k)
| IS_simple_raise : forall i c k i' e, simple c -> ideal i c i' false -> istep i (TRun c k) i' (TRaise e k)
| IS_seq : forall i a b k, istep i (TRun (CSeq a b) k) i (TRun a (FSeq b :: k))
| IS_try : forall i a b k, istep i (TRun (CTry a b) k) i (TRun a (FTry b :: k))
| IS_if : forall i c a b k t, truth i c = Some t -> istep i (TRun (CIf c a b) k) i (TRun (if t then a else b) k)
| IS_if_raise : forall i c a b k e, istep i (TRun (CIf c a b) k) i (TRaise e k)
| IS_while : forall i c a k, truth i c = Some true ->
    istep i (TRun (CWhile c a) k) i (TRun a (FSeq (CWhile c a) :: k))
| IS_while_end : forall i c a k, truth i c = Some false -> istep i (TRun (CWhile c a) k) i (TNext k)
| IS_while_raise : forall i c a k e, istep i (TRun (CWhile c a) k) i (TRaise e k)
| IS_next : forall i b k, istep i (TNext (FSeq b :: k)) i (TRun b k)
| IS_leave : forall i b k, istep i (TNext (FTry b :: k)) i (TNext k)
| IS_unwind : forall i e b k, istep i (TRaise e (FSeq b :: k)) i (TRaise e k)
| IS_catch : forall i e b k, istep i (TRaise e (FTry b :: k)) i (TRun b k).

Inductive ireaches : (nat -> Z) * list thread -> (nat -> Z) * list thread -> Prop :=
| IR_here : forall p, ireaches p p
| IR_step : forall p i ts n t i' t', ireaches p (i, ts) ->
    nth_error ts n = Some t -> istep i t i' t' -> ireaches p (i', replace ts n t').

(** ------------------------------------------------------------------ *)
(** the variables an expression reads, and those a command reads or writes *)
Fixpoint reads_expr (e : expr) (v : nat) : Prop :=
  match e with
  | EConst _ _ => False
  | EVar w => w = v
  | EBin _ _ a b => reads_expr a v \/ reads_expr b v
  | ENeg a | EPos a | ECast _ a => reads_expr a v
  end.
Definition reads_cond (c : cond) (v : nat) : Prop :=
  let 'Cond _ _ a b := c in reads_expr a v \/ reads_expr b v.

Fixpoint writes (c : cmd) (v : nat) : Prop :=
  match c with
  | CSkip => False
  | CDefault w | CAssign w _ | CCompound _ w _ | CInc w | CDec w => w = v
  | CPost _ w u => w = v \/ u = v
  | CSeq a b | CIf _ a b | CTry a b => writes a v \/ writes b v
  | CWhile _ a => writes a v
  end.
Fixpoint uses (c : cmd) (v : nat) : Prop :=
  match c with
  | CSkip => False
  | CDefault w | CInc w | CDec w => w = v
  | CAssign w e | CCompound _ w e => w = v \/ reads_expr e v
  | CPost _ w u => w = v \/ u = v
  | CSeq a b | CTry a b => uses a v \/ uses b v
  | CIf c a b => reads_cond c v \/ uses a v \/ uses b v
  | CWhile c a => reads_cond c v \/ uses a v
  end.

(** no thread writes a variable that another one uses *)
Definition independent (cs : list cmd) : Prop :=
  forall n m c d v, n <> m -> nth_error cs n = Some c -> nth_error cs m = Some d -> writes c v -> uses d v -> False.

(** n steps of a single thread *)
Fixpoint alone (n : nat) (D : dmodel) (G : tenv) (s : store) (t : thread) : option (store * thread) :=
  match n with
  | O => Some (s, t)
  | S n' => match step1 D G s t with Some (s', t') => alone n' D G s' t' | None => None end
  end.

(** how a thread that has ended did so *)
Definition thread_result (t : thread) : result :=
  match t with TRaise e _ => RRaised e | TUndef => RUndef | _ => RDone end.
