(** BaseLossSpec.v -- specification: executions of programs with input and output in several
    bases in which the input offers what is read and the program over the built-in types would
    lose nothing. Of the model it uses the syntax. *)
From Coq Require Import ZArith List Bool Arith.
From Verif Require Import Base CType Spec ExceptionPolicy Promotion SafeBase SafeSpec Program ProgramSpec
  BuiltinSpec Stream StreamSpec BaseStream BaseStreamSpec IOLossSpec BaseProgram BaseProgramSpec.
Import ListNotations.
Local Open Scope Z_scope.

Inductive bp_lossless (D : dmodel) (G : tenv) : bistate -> bcmd -> bistate -> Prop :=
| BL_do : forall n i t o c i', lossless_exec n D G i c = Some i' -> bp_lossless D G (i, t, o) (BPDo c) (i', t, o)
| BL_read : forall i b t o v z rest, offers_in b D G t v z rest ->
    bp_lossless D G (i, (b, t), o) (BPRead v) (upd i v z, (b, remaining rest), o)
| BL_write : forall i t b o v cs, written b D (base_ty (G v)) cs (i v) ->
    bp_lossless D G (i, t, (b, o)) (BPWrite v) (i, t, (b, o ++ cs))
| BL_in : forall i b t o b', bp_lossless D G (i, (b, t), o) (BPIn b') (i, (b', t), o)
| BL_out : forall i t b o b', bp_lossless D G (i, t, (b, o)) (BPOut b') (i, t, (b', o))
| BL_seq : forall p a p1 b p2, bp_lossless D G p a p1 -> bp_lossless D G p1 b p2 -> bp_lossless D G p (BPSeq a b) p2
| BL_if : forall i t o c (w : bool) a b p1, lossless_cond D G i c = Some w ->
    bp_lossless D G (i, t, o) (if w then a else b) p1 -> bp_lossless D G (i, t, o) (BPIf c a b) p1
| BL_while_end : forall i t o c a, lossless_cond D G i c = Some false -> bp_lossless D G (i, t, o) (BPWhile c a) (i, t, o)
| BL_while : forall i t o c a p1 p2, lossless_cond D G i c = Some true -> bp_lossless D G (i, t, o) a p1 ->
    bp_lossless D G p1 (BPWhile c a) p2 -> bp_lossless D G (i, t, o) (BPWhile c a) p2
| BL_try : forall p a b p1, bp_lossless D G p a p1 -> bp_lossless D G p (BPTry a b) p1.
