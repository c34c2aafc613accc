(** ArraySpec.v -- programs with arrays in exact integer arithmetic. Of the model it uses the
    syntax of programs only. *)
From Coq Require Import ZArith List Bool Arith.
From Verif Require Import Base CType Spec ExceptionPolicy Promotion SafeBase SafeSpec Program ProgramSpec ArrayProgram.
Import ListNotations.
Local Open Scope Z_scope.

Inductive aending : Type := Done | Raised | OutOfBounds.
(** the values of the variables and the contents of the arrays *)
Definition astate : Type := ((nat -> Z) * (nat -> nat -> Z))%type.

Definition upd2 (m : nat -> nat -> Z) (a n : nat) (z : Z) : nat -> nat -> Z :=
  fun b k => if Nat.eqb b a && Nat.eqb k n then z else m b k.

(** k is a valid position of array a *)
Definition inside (A : aenv) (a : nat) (k : Z) : Prop := 0 <= k < Z.of_nat (snd (A a)).

Inductive a_ideal (A : aenv) : astate -> acmd -> astate -> aending -> Prop :=
| AI_do : forall i m c i' (r : bool), ideal i c i' r -> a_ideal A (i, m) (ADo c) (i', m) (if r then Done else Raised)
| AI_get : forall i m v a e n, value i e = Some (Z.of_nat n) -> inside A a (Z.of_nat n) ->
    a_ideal A (i, m) (AGet v a e) (upd i v (m a n), m) Done
| AI_get_out : forall p v a e k, value (fst p) e = Some k -> ~ inside A a k -> a_ideal A p (AGet v a e) p OutOfBounds
| AI_get_raise : forall p v a e, a_ideal A p (AGet v a e) p Raised
| AI_set : forall i m a f e d n z, value i e = Some (Z.of_nat n) -> inside A a (Z.of_nat n) -> value i d = Some z ->
    a_ideal A (i, m) (ASet a f e d) (i, upd2 m a n z) Done
| AI_set_out : forall p a f e d k, value (fst p) e = Some k -> ~ inside A a k -> a_ideal A p (ASet a f e d) p OutOfBounds
| AI_set_raise : forall p a f e d, a_ideal A p (ASet a f e d) p Raised
| AI_seq : forall p x p1 y p2 r, a_ideal A p x p1 Done -> a_ideal A p1 y p2 r -> a_ideal A p (ASeq x y) p2 r
| AI_seq_stop : forall p x p1 y r, a_ideal A p x p1 r -> r <> Done -> a_ideal A p (ASeq x y) p1 r
| AI_if : forall p c (w : bool) x y p1 r, truth (fst p) c = Some w ->
    a_ideal A p (if w then x else y) p1 r -> a_ideal A p (AIf c x y) p1 r
| AI_if_raise : forall p c x y, a_ideal A p (AIf c x y) p Raised
| AI_while_end : forall p c x, truth (fst p) c = Some false -> a_ideal A p (AWhile c x) p Done
| AI_while : forall p c x p1 p2 r, truth (fst p) c = Some true -> a_ideal A p x p1 Done ->
    a_ideal A p1 (AWhile c x) p2 r -> a_ideal A p (AWhile c x) p2 r
| AI_while_stop : forall p c x p1 r, truth (fst p) c = Some true -> a_ideal A p x p1 r -> r <> Done ->
    a_ideal A p (AWhile c x) p1 r
| AI_while_raise : forall p c x, a_ideal A p (AWhile c x) p Raised
| AI_try : forall p x y p1 r, a_ideal A p x p1 r -> r <> Raised -> a_ideal A p (ATry x y) p1 r
| AI_try_catch : forall p x y p1 p2 r, a_ideal A p x p1 Raised -> a_ideal A p1 y p2 r -> a_ideal A p (ATry x y) p2 r.

(** every part of the program meets the conditions okc, okx and okd on statements,
    expressions and conditions *)
Fixpoint a_ok (okc : cmd -> Prop) (okx : expr -> Prop) (okd : cond -> Prop) (c : acmd) : Prop :=
  match c with
  | ADo c => okc c
  | AGet _ _ e => okx e
  | ASet _ _ e d => okx e /\ okx d
  | ASeq x y | ATry x y => a_ok okc okx okd x /\ a_ok okc okx okd y
  | AIf c x y => okd c /\ a_ok okc okx okd x /\ a_ok okc okx okd y
  | AWhile c x => okd c /\ a_ok okc okx okd x
  end.

(** the declared range of every subscript is inside the array *)
Fixpoint in_bounds (D : dmodel) (G : tenv) (A : aenv) (c : acmd) : Prop :=
  match c with
  | ADo _ => True
  | AGet _ a e | ASet a _ e _ =>
      forall t, type_of D G e = Some t -> 0 <= lim_lo D t /\ lim_hi D t < Z.of_nat (snd (A a))
  | ASeq x y | ATry x y | AIf _ x y => in_bounds D G A x /\ in_bounds D G A y
  | AWhile _ x => in_bounds D G A x
  end.

(** the arrays have their declared lengths; the elements have the values m gives them, inside
    the declared range of the element type *)
Definition arrays_ok (D : dmodel) (A : aenv) (mem : nat -> list Z) (m : nat -> nat -> Z) : Prop :=
  forall a, length (mem a) = snd (A a)
  /\ forall n, (n < snd (A a))%nat -> nth_error (mem a) n = Some (m a n) /\ holds D (fst (A a)) (m a n).

(** the width of pointers: the elements of an array can be counted with one bit less *)
Definition pointer_bits (D : dmodel) : Z :=
  match D with LP64 | LP64u | LLP64 => 64 | ILP32 => 32 | IP16 => 16 end.
