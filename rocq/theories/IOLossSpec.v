(** IOLossSpec.v -- specification: executions of programs with input and output in which the
    input offers what is read and the program over the built-in types would lose nothing.
    Of the model it uses the syntax. *)
From Coq Require Import ZArith List Bool Arith.
From Verif Require Import Base CType Spec ExceptionPolicy Promotion SafeBase SafeSpec Program ProgramSpec
  BuiltinSpec Stream StreamSpec IOProgram IOProgramSpec.
Import ListNotations.
Local Open Scope Z_scope.

(** after a number the input is what follows it; the end of the input has been seen if nothing does *)
Definition remaining (rest : list Z) : istream := mkIs rest false (at_end rest).

Inductive io_lossless (D : dmodel) (G : tenv) : istate -> iocmd -> istate -> Prop :=
| IL_do : forall n i t o c i', lossless_exec n D G i c = Some i' -> io_lossless D G (i, t, o) (IODo c) (i', t, o)
| IL_read : forall i t o v z rest, offers D G t v z rest ->
    io_lossless D G (i, t, o) (IORead v) (upd i v z, remaining rest, o)
| IL_write : forall i t o v cs, decimal cs (i v) -> io_lossless D G (i, t, o) (IOWrite v) (i, t, o ++ cs)
| IL_seq : forall p a p1 b p2, io_lossless D G p a p1 -> io_lossless D G p1 b p2 -> io_lossless D G p (IOSeq a b) p2
| IL_if : forall i t o c (w : bool) a b p1, lossless_cond D G i c = Some w ->
    io_lossless D G (i, t, o) (if w then a else b) p1 -> io_lossless D G (i, t, o) (IOIf c a b) p1
| IL_while_end : forall i t o c a, lossless_cond D G i c = Some false -> io_lossless D G (i, t, o) (IOWhile c a) (i, t, o)
| IL_while : forall i t o c a p1 p2, lossless_cond D G i c = Some true -> io_lossless D G (i, t, o) a p1 ->
    io_lossless D G p1 (IOWhile c a) p2 -> io_lossless D G (i, t, o) (IOWhile c a) p2
| IL_try : forall p a b p1, io_lossless D G p a p1 -> io_lossless D G p (IOTry a b) p1.

(** The program of PropsIO.v: reads n, then n numbers, and writes their sum.
    Variables 0 and 1 are safe<int>, 2 is safe<long> *)
Definition sum_G : tenv := fun v =>
  match v with 2%nat => OSafe (safe LP64 Long Native default_exception_policy)
  | _ => OSafe (safe LP64 Int Native default_exception_policy) end.
Definition sum_loop : iocmd :=
  IOWhile (Cond RGt true (EVar 0%nat) (EConst (ORaw Int) 0))
    (IOSeq (IOTry (IOSeq (IORead 1%nat) (IODo (CCompound (BA Add) 2%nat (EVar 1%nat)))) (IODo CSkip)) (IODo (CDec 0%nat))).
Definition sum_c : iocmd := IOSeq (IORead 0%nat) (IOSeq sum_loop (IOWrite 2%nat)).

(** the text cs begins with the numbers l *)
Inductive lists : list Z -> list Z -> Prop :=
| lists_nil : forall cs, lists cs []
| lists_cons : forall cs sg z rest l, numeral cs sg z rest -> lists rest l -> lists cs (z :: l).
Definition total (l : list Z) : Z := fold_right Z.add 0 l.
