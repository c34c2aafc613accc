(** BaseProgramSpec.v -- programs with input and output in several bases in exact integer
    arithmetic. Reading takes an integer, written in the base of the input stream, that is in
    the declared range of the variable; it raises if the text does not begin with one. Writing
    writes the representation in the base of the output stream. Of the model it uses the
    syntax of programs only. *)
From Coq Require Import ZArith List Bool Arith.
From Verif Require Import Base CType Spec ExceptionPolicy Promotion SafeBase SafeSpec Program ProgramSpec
  Stream StreamSpec BaseStream BaseStreamSpec IOProgramSpec BaseProgram.
Import ListNotations.
Local Open Scope Z_scope.

(** the input begins with an integer z in base b that variable v may have; rest follows it *)
Definition offers_in (b : basefield) (D : dmodel) (G : tenv) (i : istream) (v : nat) (z : Z) (rest : list Z) : Prop :=
  exists sg, good i = true /\ numeral_in b (chars i) sg z rest /\ accepted D (base_ty (G v)) sg /\ holds D (G v) z.

(** digits without leading zeros, letters in lower case *)
Definition plain (cs : list Z) : Prop :=
  (forall c cs', cs <> 48 :: c :: cs') /\ Forall (fun c => 48 <= c <= 57 \/ 97 <= c <= 102) cs.

(** what is written for the value z of a variable of type T: in base 10 the decimal
    representation. In the other bases there is no sign: the digits denote z if it is not
    negative, and otherwise z + 2^w, where w is the width of T or, if that is narrower than
    int, of int *)
Definition written (b : basefield) (D : dmodel) (T : ctype) (cs : list Z) (z : Z) : Prop :=
  match b with
  | BDec => decimal cs z
  | _ => plain cs
         /\ (0 <= z -> denotes_in b cs z)
         /\ (z < 0 -> denotes_in b cs (z + 2 ^ Z.max (width D T) (width D Int)))
  end.

Definition bistate : Type := ((nat -> Z) * (basefield * istream) * (basefield * list Z))%type.

(** the last argument: true = completed, false = raised an exception *)
Inductive bp_ideal (D : dmodel) (G : tenv) : bistate -> bcmd -> bistate -> bool -> Prop :=
| BI_do : forall i t o c i' r, ideal i c i' r -> bp_ideal D G (i, t, o) (BPDo c) (i', t, o) r
| BI_read : forall i b t o v z t', offers_in b D G t v z (chars t') -> failbit t' = false ->
    bp_ideal D G (i, (b, t), o) (BPRead v) (upd i v z, (b, t'), o) true
| BI_read_raise : forall i b t o v z t', (forall z rest, ~ offers_in b D G t v z rest) ->
    bp_ideal D G (i, (b, t), o) (BPRead v) (upd i v z, (b, t'), o) false     (* v may have been changed *)
| BI_write : forall i t b o v cs, written b D (base_ty (G v)) cs (i v) ->
    bp_ideal D G (i, t, (b, o)) (BPWrite v) (i, t, (b, o ++ cs)) true
| BI_in : forall i b t o b', bp_ideal D G (i, (b, t), o) (BPIn b') (i, (b', t), o) true
| BI_out : forall i t b o b', bp_ideal D G (i, t, (b, o)) (BPOut b') (i, t, (b', o)) true
| BI_seq : forall p a p1 b p2 r, bp_ideal D G p a p1 true -> bp_ideal D G p1 b p2 r -> bp_ideal D G p (BPSeq a b) p2 r
| BI_seq_raise : forall p a p1 b, bp_ideal D G p a p1 false -> bp_ideal D G p (BPSeq a b) p1 false
| BI_if : forall i t o c w a b p1 r, truth i c = Some w ->
    bp_ideal D G (i, t, o) (if w then a else b) p1 r -> bp_ideal D G (i, t, o) (BPIf c a b) p1 r
| BI_if_raise : forall p c a b, bp_ideal D G p (BPIf c a b) p false
| BI_while_end : forall i t o c a, truth i c = Some false -> bp_ideal D G (i, t, o) (BPWhile c a) (i, t, o) true
| BI_while : forall i t o c a p1 p2 r, truth i c = Some true -> bp_ideal D G (i, t, o) a p1 true ->
    bp_ideal D G p1 (BPWhile c a) p2 r -> bp_ideal D G (i, t, o) (BPWhile c a) p2 r
| BI_while_body_raise : forall i t o c a p1, truth i c = Some true -> bp_ideal D G (i, t, o) a p1 false ->
    bp_ideal D G (i, t, o) (BPWhile c a) p1 false
| BI_while_raise : forall p c a, bp_ideal D G p (BPWhile c a) p false
| BI_try : forall p a b p1, bp_ideal D G p a p1 true -> bp_ideal D G p (BPTry a b) p1 true
| BI_try_catch : forall p a b p1 p2 r, bp_ideal D G p a p1 false -> bp_ideal D G p1 b p2 r ->
    bp_ideal D G p (BPTry a b) p2 r.

(** The conditions: statements and conditions as [okc] and [okd] demand; variables that are
    read have an underlying type other than the character types; where an exception may be
    caught, that is inside a try block, only variables with the whole range of the underlying
    type are read. *)
Fixpoint bp_ok (okc : cmd -> Prop) (okd : cond -> Prop) (D : dmodel) (G : tenv) (caught : bool) (c : bcmd) : Prop :=
  match c with
  | BPDo c => okc c
  | BPRead v =>
      wide_type (base_ty (G v))
      /\ (caught = true -> lim_lo D (G v) = lo D (base_ty (G v)) /\ lim_hi D (G v) = hi D (base_ty (G v)))
  | BPWrite _ | BPIn _ | BPOut _ => True
  | BPSeq a b => bp_ok okc okd D G caught a /\ bp_ok okc okd D G caught b
  | BPIf c a b => okd c /\ bp_ok okc okd D G caught a /\ bp_ok okc okd D G caught b
  | BPWhile c a => okd c /\ bp_ok okc okd D G caught a
  | BPTry a b => bp_ok okc okd D G true a /\ bp_ok okc okd D G caught b
  end.
