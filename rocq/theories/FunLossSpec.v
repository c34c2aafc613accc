(** FunLossSpec.v -- specification: executions of programs with functions in which the
    program over the built-in types would lose nothing. Of the model it uses the syntax. *)
From Coq Require Import ZArith List Bool Arith.
From Verif Require Import Base CType Spec ExceptionPolicy Promotion SafeBase SafeSpec Program ProgramSpec ComposeSpec
  BuiltinSpec BuiltinAllSpec FunProgram FunSpec.
Import ListNotations.
Local Open Scope Z_scope.

Section Lossless.
  Variable D : dmodel.
  Variable glob : nat -> bool.
  Variable F : list fundef.

  (** the value of a condition whose evaluated comparisons lose nothing *)
  Fixpoint lossless_fcond (G : tenv) (i : nat -> Z) (c : fcond) : option bool :=
    match c with
    | FRel c => lossless_cond D G i c
    | FNot a => option_map negb (lossless_fcond G i a)
    | FAnd a b => match lossless_fcond G i a with Some true => lossless_fcond G i b | r => r end
    | FOr a b => match lossless_fcond G i a with Some false => lossless_fcond G i b | r => r end
    end.

  (** the parameters, if every argument is computed without loss and is in the range of
      its parameter *)
  Fixpoint lossless_pass (G : tenv) (i : nat -> Z) (E : tenv) (ps : list nat) (args : list expr) (fr : nat -> Z)
    : option (nat -> Z) :=
    match ps, args with
    | [], [] => Some fr
    | p :: ps', e :: es =>
        obind (lossless D G i e) (fun z =>
        obind (fits_type D (E p) z) (fun z => lossless_pass G i E ps' es (upd fr p z)))
    | _, _ => None
    end.

  (** [f_lossless G i c i']: execution of c in a frame with the types G from the values i
      to the values i' loses nothing *)
  Inductive f_lossless : tenv -> (nat -> Z) -> fcmd -> (nat -> Z) -> Prop :=
  | FL_do : forall G i c i' n, lossless_exec n D G i c = Some i' -> f_lossless G i (FDo c) i'
  | FL_call : forall G i v f args d fr j z, nth_error F f = Some d ->
      lossless_pass G i (f_env d) (f_params d) args (fun v => if glob v then i v else f_init d v) = Some fr ->
      f_lossless (f_env d) fr (f_body d) j ->
      lossless D (f_env d) j (f_result d) = Some z -> holds D (f_type d) z -> holds D (G v) z ->
      f_lossless G i (FCall v f args) (upd (after_call glob i j) v z)
  | FL_seq : forall G i a i1 b i2, f_lossless G i a i1 -> f_lossless G i1 b i2 -> f_lossless G i (FSeq a b) i2
  | FL_if : forall G i c (t : bool) a b i1, lossless_fcond G i c = Some t ->
      f_lossless G i (if t then a else b) i1 -> f_lossless G i (FIf c a b) i1
  | FL_while_end : forall G i c a, lossless_fcond G i c = Some false -> f_lossless G i (FWhile c a) i
  | FL_while : forall G i c a i1 i2, lossless_fcond G i c = Some true -> f_lossless G i a i1 ->
      f_lossless G i1 (FWhile c a) i2 -> f_lossless G i (FWhile c a) i2
  | FL_try : forall G i a b i1, f_lossless G i a i1 -> f_lossless G i (FTry a b) i1.
End Lossless.

(** the conditions of C74: those of C73, and bounded shifts *)
Definition bounded_program (D : dmodel) (glob : nat -> bool) (F : list fundef) (G : tenv) (c : fcmd) : Prop :=
  let okc G c := cmd_fine true D G c /\ every_op_cmd (shift_bounded D) D G c in
  let okd G c := cond_fine true D G c /\ every_op_cond (shift_bounded D) D G c in
  let okx G t e := expr_fine true D G (Some t) e /\ every_op (shift_bounded D) D G e in
  (forall v, type_fine true D (G v))
  /\ functions_ok okc okd okx F D glob G (type_fine true D)
  /\ fcmd_ok okc okd okx F G c.
