(** IOProgramSpec.v -- programs with input and output in exact integer arithmetic. Reading takes
    an integer in the declared range of the variable from the text, or raises if the text does
    not begin with one; writing writes the decimal representation. Of the model it uses the
    syntax of programs only. *)
From Coq Require Import ZArith List Bool Arith.
From Verif Require Import Base CType Spec ExceptionPolicy Promotion SafeBase SafeSpec Program ProgramSpec
  Stream StreamSpec IOProgram.
Import ListNotations.
Local Open Scope Z_scope.

(** the input begins with an integer z that variable v may have; rest follows it *)
Definition offers (D : dmodel) (G : tenv) (i : istream) (v : nat) (z : Z) (rest : list Z) : Prop :=
  exists sg, good i = true /\ numeral (chars i) sg z rest /\ accepted D (base_ty (G v)) sg /\ holds D (G v) z.

(** the decimal representation of z: a minus sign if it is negative, and the digits without
    leading zeros *)
Definition decimal (cs : list Z) (z : Z) : Prop :=
  exists sg ds n, cs = sign_text sg ++ ds /\ denotes ds n /\ z = signed sg n
  /\ (sg = Minus <-> z < 0) /\ sg <> Plus /\ (forall c ds', ds <> 48 :: c :: ds').

Definition istate : Type := ((nat -> Z) * istream * list Z)%type.

(** the last argument: true = completed, false = raised an exception *)
Inductive io_ideal (D : dmodel) (G : tenv) : istate -> iocmd -> istate -> bool -> Prop :=
| II_do : forall i t o c i' r, ideal i c i' r -> io_ideal D G (i, t, o) (IODo c) (i', t, o) r
| II_read : forall i t o v z t', offers D G t v z (chars t') -> failbit t' = false ->
    io_ideal D G (i, t, o) (IORead v) (upd i v z, t', o) true
| II_read_raise : forall i t o v z t', (forall z rest, ~ offers D G t v z rest) ->
    io_ideal D G (i, t, o) (IORead v) (upd i v z, t', o) false     (* v may have been changed *)
| II_write : forall i t o v cs, decimal cs (i v) -> io_ideal D G (i, t, o) (IOWrite v) (i, t, o ++ cs) true
| II_seq : forall p a p1 b p2 r, io_ideal D G p a p1 true -> io_ideal D G p1 b p2 r -> io_ideal D G p (IOSeq a b) p2 r
| II_seq_raise : forall p a p1 b, io_ideal D G p a p1 false -> io_ideal D G p (IOSeq a b) p1 false
| II_if : forall i t o c w a b p1 r, truth i c = Some w ->
    io_ideal D G (i, t, o) (if w then a else b) p1 r -> io_ideal D G (i, t, o) (IOIf c a b) p1 r
| II_if_raise : forall p c a b, io_ideal D G p (IOIf c a b) p false
| II_while_end : forall i t o c a, truth i c = Some false -> io_ideal D G (i, t, o) (IOWhile c a) (i, t, o) true
| II_while : forall i t o c a p1 p2 r, truth i c = Some true -> io_ideal D G (i, t, o) a p1 true ->
    io_ideal D G p1 (IOWhile c a) p2 r -> io_ideal D G (i, t, o) (IOWhile c a) p2 r
| II_while_body_raise : forall i t o c a p1, truth i c = Some true -> io_ideal D G (i, t, o) a p1 false ->
    io_ideal D G (i, t, o) (IOWhile c a) p1 false
| II_while_raise : forall p c a, io_ideal D G p (IOWhile c a) p false
| II_try : forall p a b p1, io_ideal D G p a p1 true -> io_ideal D G p (IOTry a b) p1 true
| II_try_catch : forall p a b p1 p2 r, io_ideal D G p a p1 false -> io_ideal D G p1 b p2 r ->
    io_ideal D G p (IOTry a b) p2 r.

(** The conditions: statements and conditions as [okc] and [okd] demand; variables that are
    read have an underlying type other than the character types; where an exception may be
    caught, that is inside a try block, only variables with the whole range of the underlying
    type are read. *)
Fixpoint io_ok (okc : cmd -> Prop) (okd : cond -> Prop) (D : dmodel) (G : tenv) (caught : bool) (c : iocmd) : Prop :=
  match c with
  | IODo c => okc c
  | IORead v =>
      wide_type (base_ty (G v))
      /\ (caught = true -> lim_lo D (G v) = lo D (base_ty (G v)) /\ lim_hi D (G v) = hi D (base_ty (G v)))
  | IOWrite _ => True
  | IOSeq a b => io_ok okc okd D G caught a /\ io_ok okc okd D G caught b
  | IOIf c a b => okd c /\ io_ok okc okd D G caught a /\ io_ok okc okd D G caught b
  | IOWhile c a => okd c /\ io_ok okc okd D G caught a
  | IOTry a b => io_ok okc okd D G true a /\ io_ok okc okd D G caught b
  end.

(** every variable has the value i gives it, maybe outside its declared range *)
Definition store_is (s : store) (i : nat -> Z) : Prop := forall v, s v = Some (i v).
