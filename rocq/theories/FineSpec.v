(** FineSpec.v -- the specification of threads that may be interrupted anywhere: the same steps
    in exact integer arithmetic, where every step of an expression, a conversion or a condition
    may also raise an exception. Of the model it uses the syntax only. *)
From Coq Require Import ZArith List Bool Arith.
From Verif Require Import Base CType Spec ExceptionPolicy Promotion SafeBase SafeSpec Program ProgramSpec
  Threads ThreadsSpec Interleave Fine.
Import ListNotations.
Local Open Scope Z_scope.

(** One call in exact arithmetic: the variables have the values i now. The types of values that
    have been computed are immaterial. *)
Inductive iestep (i : nat -> Z) : expr -> expr -> Prop :=
| IE_var : forall v t, iestep i (EVar v) (EConst t (i v))
| IE_op : forall op f t x u y r z, math_op op x y = Some z ->
    iestep i (EBin op f (EConst t x) (EConst u y)) (EConst r z)
| IE_neg : forall t x r, iestep i (ENeg (EConst t x)) (EConst r (- x))
| IE_pos : forall t x r, iestep i (EPos (EConst t x)) (EConst r x)
| IE_cast : forall o t x r, iestep i (ECast o (EConst t x)) (EConst r x)
| IE_in_left : forall op f a a' b, iestep i a a' -> iestep i (EBin op f a b) (EBin op f a' b)
| IE_in_right : forall op f a b b', iestep i b b' -> iestep i (EBin op f a b) (EBin op f a b')
| IE_in_neg : forall a a', iestep i a a' -> iestep i (ENeg a) (ENeg a')
| IE_in_pos : forall a a', iestep i a a' -> iestep i (EPos a) (EPos a')
| IE_in_cast : forall o a a', iestep i a a' -> iestep i (ECast o a) (ECast o a').

Definition plus_one (v : nat) : expr := EBin (BA Add) true (EVar v) (EConst (ORaw Int) 1).
Definition minus_one (v : nat) : expr := EBin (BA Sub) true (EVar v) (EConst (ORaw Int) 1).

Inductive ifstep : (nat -> Z) -> fthread -> (nat -> Z) -> fthread -> Prop :=
| IF_skip : forall i k, ifstep i (FRun CSkip k) i (FNext k)
| IF_default_raise : forall i v k e, ifstep i (FRun (CDefault v) k) i (FRaise e k)
| IF_assign : forall i v e k, ifstep i (FRun (CAssign v e) k) i (FEval v e k)
| IF_compound : forall i op v e k, ifstep i (FRun (CCompound op v e) k) i (FEval v (EBin op true (EVar v) e) k)
| IF_inc : forall i v k, ifstep i (FRun (CInc v) k) i (FEval v (plus_one v) k)
| IF_dec : forall i v k, ifstep i (FRun (CDec v) k) i (FEval v (minus_one v) k)
| IF_post : forall i (inc : bool) w v t k, ifstep i (FRun (CPost inc w v) k)
    i (FRun (if inc then CInc v else CDec v) (FSeq (CAssign w (EConst t (i v))) :: k))
| IF_seq : forall i a b k, ifstep i (FRun (CSeq a b) k) i (FRun a (FSeq b :: k))
| IF_try : forall i a b k, ifstep i (FRun (CTry a b) k) i (FRun a (FTry b :: k))
| IF_if : forall i c a b k, ifstep i (FRun (CIf c a b) k) i (FTest c a b k)
| IF_while : forall i c a k, ifstep i (FRun (CWhile c a) k) i (FTest c (CSeq a (CWhile c a)) CSkip k)
| IF_eval : forall i v e e' k, iestep i e e' -> ifstep i (FEval v e k) i (FEval v e' k)
| IF_eval_raise : forall i v e k er, ifstep i (FEval v e k) i (FRaise er k)
| IF_convert : forall i v t x k, ifstep i (FEval v (EConst t x) k) i (FWrite v x k)
| IF_write : forall i v z k, ifstep i (FWrite v z k) (upd i v z) (FNext k)
| IF_left : forall i r f a a' b c d k, iestep i a a' ->
    ifstep i (FTest (Cond r f a b) c d k) i (FTest (Cond r f a' b) c d k)
| IF_right : forall i r f a b b' c d k, iestep i b b' ->
    ifstep i (FTest (Cond r f a b) c d k) i (FTest (Cond r f a b') c d k)
| IF_test_raise : forall i q c d k er, ifstep i (FTest q c d k) i (FRaise er k)
| IF_compare : forall i r f t x u y c d k,
    ifstep i (FTest (Cond r f (EConst t x) (EConst u y)) c d k) i (FRun (if math_rel r x y then c else d) k)
| IF_next : forall i b k, ifstep i (FNext (FSeq b :: k)) i (FRun b k)
| IF_leave : forall i b k, ifstep i (FNext (FTry b :: k)) i (FNext k)
| IF_unwind : forall i e b k, ifstep i (FRaise e (FSeq b :: k)) i (FRaise e k)
| IF_catch : forall i e b k, ifstep i (FRaise e (FTry b :: k)) i (FRun b k).

Inductive ifreaches : (nat -> Z) * list fthread -> (nat -> Z) * list fthread -> Prop :=
| IFR_here : forall p, ifreaches p p
| IFR_step : forall p i ts n t i' t', ifreaches p (i, ts) ->
    nth_error ts n = Some t -> ifstep i t i' t' -> ifreaches p (i', replace_nth ts n t').

(** steps of a single thread *)
Inductive falone (D : dmodel) (G : tenv) (s : store) (t : fthread) : store -> fthread -> Prop :=
| FA_here : falone D G s t s t
| FA_step : forall s1 t1 s2 t2, falone D G s t s1 t1 -> fstep D G s1 t1 s2 t2 -> falone D G s t s2 t2.

(** a thread between two statements, as a thread of Threads.v *)
Definition between (t : thread) : fthread :=
  match t with TRun c k => FRun c k | TNext k => FNext k | TRaise e k => FRaise e k | TUndef => FUndef end.

(** the variables a thread may still use or write *)
Definition frame_uses (f : frame) (v : nat) : Prop := match f with FSeq b | FTry b => uses b v end.
Definition frame_writes (f : frame) (v : nat) : Prop := match f with FSeq b | FTry b => writes b v end.
Definition fuses (t : fthread) (v : nat) : Prop :=
  match t with
  | FRun c k => uses c v \/ Exists (fun f => frame_uses f v) k
  | FEval w e k => (w = v \/ reads_expr e v) \/ Exists (fun f => frame_uses f v) k
  | FWrite w _ k => w = v \/ Exists (fun f => frame_uses f v) k
  | FTest c a b k => (reads_cond c v \/ uses a v \/ uses b v) \/ Exists (fun f => frame_uses f v) k
  | FNext k | FRaise _ k => Exists (fun f => frame_uses f v) k
  | FUndef => False
  end.
Definition fwrites (t : fthread) (v : nat) : Prop :=
  match t with
  | FRun c k => writes c v \/ Exists (fun f => frame_writes f v) k
  | FEval w e k => w = v \/ Exists (fun f => frame_writes f v) k
  | FWrite w _ k => w = v \/ Exists (fun f => frame_writes f v) k
  | FTest c a b k => (writes a v \/ writes b v) \/ Exists (fun f => frame_writes f v) k
  | FNext k | FRaise _ k => Exists (fun f => frame_writes f v) k
  | FUndef => False
  end.
