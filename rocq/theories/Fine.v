(** Fine.v -- threads that may be interrupted anywhere: a step is one access to a variable, one
    call of an operator of the library, one conversion or one comparison, so that the threads
    of a program (or a program and its interrupt handlers) interleave inside statements and
    expressions. An access to a variable is one step: programs whose accesses are not atomic
    have a data race, as with built-in types (safe_base.hpp:127, the value is a plain member).
    Definitions only. *)
From Coq Require Import ZArith List Bool Arith.
From Verif Require Import Base CType ExceptionPolicy Promotion SafeBase Program Threads Interleave.
Import ListNotations.
Local Open Scope Z_scope.

Inductive fthread : Type :=
| FRun (c : cmd) (k : list frame)               (* about to execute c *)
| FEval (v : nat) (e : expr) (k : list frame)   (* in the middle of v = e: what is left of e *)
| FWrite (v : nat) (z : Z) (k : list frame)     (* about to write the converted value *)
| FTest (c : cond) (a b : cmd) (k : list frame) (* in the middle of c, then a or b *)
| FNext (k : list frame)
| FRaise (e : err) (k : list frame)
| FUndef.

Definition fended (t : fthread) : Prop :=
  match t with FNext [] | FRaise _ [] | FUndef => True | _ => False end.

Definition fafter (r : result) (k : list frame) : fthread :=
  match r with RDone => FNext k | RRaised e => FRaise e k | RUndef => FUndef end.

(** a call that did not return *)
Definition stopped {A : Type} (o : outcome A) (k : list frame) : fthread :=
  match o with Throw e => FRaise e k | _ => FUndef end.

(** v op= e is v = static_cast<T>(v op e) (safe_base_operations.hpp:486-494, 609-617, 734-742,
    894-902, 1055-1063, 1391-1401, 1547-1557, 1634-1642, 1698-1706, 1761-1769) *)
Definition compound_expr (op : binop) (v : nat) (e : expr) : expr := EBin op true (EVar v) e.

Inductive fstep (D : dmodel) (G : tenv) : store -> fthread -> store -> fthread -> Prop :=
| FS_skip : forall s k, fstep D G s (FRun CSkip k) s (FNext k)
| FS_default : forall s v k s' r, exec 0 D G s (CDefault v) = Some (s', r) -> fstep D G s (FRun (CDefault v) k) s' (fafter r k)
| FS_assign : forall s v e k, fstep D G s (FRun (CAssign v e) k) s (FEval v e k)
| FS_compound : forall s op v e k, fstep D G s (FRun (CCompound op v e) k) s (FEval v (compound_expr op v e) k)
(* safe_base.hpp:229-234: *this = *this + 1 *)
| FS_inc : forall s v k, fstep D G s (FRun (CInc v) k) s (FEval v (compound_expr (BA Add) v (EConst (ORaw Int) 1)) k)
| FS_dec : forall s v k, fstep D G s (FRun (CDec v) k) s (FEval v (compound_expr (BA Sub) v (EConst (ORaw Int) 1)) k)
(* safe_base.hpp:235-244: the old value is copied, *this is changed, and the copy is returned *)
| FS_post : forall s (inc : bool) w v z k, s v = Some z ->
    fstep D G s (FRun (CPost inc w v) k)
          s (FRun (if inc then CInc v else CDec v) (FSeq (CAssign w (EConst (G v) z)) :: k))
| FS_post_undef : forall s inc w v k, s v = None -> fstep D G s (FRun (CPost inc w v) k) s FUndef
| FS_seq : forall s a b k, fstep D G s (FRun (CSeq a b) k) s (FRun a (FSeq b :: k))
| FS_try : forall s a b k, fstep D G s (FRun (CTry a b) k) s (FRun a (FTry b :: k))
| FS_if : forall s c a b k, fstep D G s (FRun (CIf c a b) k) s (FTest c a b k)
| FS_while : forall s c a k, fstep D G s (FRun (CWhile c a) k) s (FTest c (CSeq a (CWhile c a)) CSkip k)
(* expressions *)
| FS_eval : forall s v e e' k, estep D G s e (On e') -> fstep D G s (FEval v e k) s (FEval v e' k)
| FS_eval_stop : forall s v e o k, estep D G s e (Stop o) -> fstep D G s (FEval v e k) s (stopped o k)
| FS_convert : forall s v t x m z k, convert D (G v) t x = Some m -> snd m = Ret z ->
    fstep D G s (FEval v (EConst t x) k) s (FWrite v z k)
| FS_convert_stop : forall s v t x m k, convert D (G v) t x = Some m -> (forall z, snd m <> Ret z) ->
    fstep D G s (FEval v (EConst t x) k) s (stopped (snd m) k)
| FS_write : forall s v z k, fstep D G s (FWrite v z k) (upd s v (Some z)) (FNext k)
(* conditions *)
| FS_left : forall s r f a a' b c d k, estep D G s a (On a') ->
    fstep D G s (FTest (Cond r f a b) c d k) s (FTest (Cond r f a' b) c d k)
| FS_left_stop : forall s r f a o b c d k, estep D G s a (Stop o) ->
    fstep D G s (FTest (Cond r f a b) c d k) s (stopped o k)
| FS_right : forall s r f a b b' c d k, estep D G s b (On b') ->
    fstep D G s (FTest (Cond r f a b) c d k) s (FTest (Cond r f a b') c d k)
| FS_right_stop : forall s r f a b o c d k, estep D G s b (Stop o) ->
    fstep D G s (FTest (Cond r f a b) c d k) s (stopped o k)
| FS_compare : forall s r f t x u y m w c d k, eval_relop D r t u x y = Some m -> snd m = Ret w ->
    fstep D G s (FTest (Cond r f (EConst t x) (EConst u y)) c d k) s (FRun (if w then c else d) k)
| FS_compare_stop : forall s r f t x u y m c d k, eval_relop D r t u x y = Some m -> (forall w, snd m <> Ret w) ->
    fstep D G s (FTest (Cond r f (EConst t x) (EConst u y)) c d k) s (stopped (snd m) k)
(* sequences and handlers *)
| FS_next : forall s b k, fstep D G s (FNext (FSeq b :: k)) s (FRun b k)
| FS_leave : forall s b k, fstep D G s (FNext (FTry b :: k)) s (FNext k)
| FS_unwind : forall s e b k, fstep D G s (FRaise e (FSeq b :: k)) s (FRaise e k)
| FS_catch : forall s e b k, fstep D G s (FRaise e (FTry b :: k)) s (FRun b k).

Fixpoint replace_nth {A : Type} (ts : list A) (n : nat) (t : A) : list A :=
  match ts, n with
  | [], _ => []
  | _ :: r, O => t :: r
  | u :: r, S n' => u :: replace_nth r n' t
  end.

Definition fpool : Type := (store * list fthread)%type.

(** some thread, chosen by the scheduler, takes a step *)
Inductive fpstep (D : dmodel) (G : tenv) : fpool -> fpool -> Prop :=
| FPStep : forall s ts n t s' t', nth_error ts n = Some t -> fstep D G s t s' t' ->
    fpstep D G (s, ts) (s', replace_nth ts n t').

Inductive freaches (D : dmodel) (G : tenv) (p : fpool) : fpool -> Prop :=
| FRHere : freaches D G p p
| FRStep : forall q r, freaches D G p q -> fpstep D G q r -> freaches D G p r.

Definition fstart (c : cmd) : fthread := FRun c [].
