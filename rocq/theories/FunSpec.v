(** FunSpec.v -- the specification of programs with functions: their meaning in exact
    integer arithmetic, where arguments, results and variables are unbounded integers and
    every step may also raise an exception. Of the model it uses the syntax only. *)
From Coq Require Import ZArith List Bool Arith.
From Verif Require Import Base CType Spec ExceptionPolicy Promotion SafeBase SafeSpec Program ProgramSpec ComposeSpec
  FunProgram.
Import ListNotations.
Local Open Scope Z_scope.

(** the truth value of a condition *)
Fixpoint ftruth (i : nat -> Z) (c : fcond) : option bool :=
  match c with
  | FRel c => truth i c
  | FNot a => option_map negb (ftruth i a)
  | FAnd a b => match ftruth i a with Some true => ftruth i b | r => r end
  | FOr a b => match ftruth i a with Some false => ftruth i b | r => r end
  end.

Section Ideal.
  Variable glob : nat -> bool.
  Variable F : list fundef.

  (** the frame of a call of d by a caller with the variables i: global variables keep
      their values, parameters have the exact values of the arguments, other local
      variables their initial values *)
  Fixpoint ideal_pass (i : nat -> Z) (ps : list nat) (args : list expr) (fr : nat -> Z) : option (nat -> Z) :=
    match ps, args with
    | [], [] => Some fr
    | p :: ps', e :: es =>
        match value i e with Some z => ideal_pass i ps' es (upd fr p z) | None => None end
    | _, _ => None
    end.
  Definition ideal_frame (i : nat -> Z) (d : fundef) (args : list expr) : option (nat -> Z) :=
    ideal_pass i (f_params d) args (fun v => if glob v then i v else f_init d v).
  (** the caller's variables after the call: the global ones are those of the callee *)
  Definition after_call (i j : nat -> Z) : nat -> Z := fun v => if glob v then j v else i v.

  (** [f_ideal i c i' r]: true = completed, false = raised an exception *)
  Inductive f_ideal : (nat -> Z) -> fcmd -> (nat -> Z) -> bool -> Prop :=
  | FI_do : forall i c i' r, ideal i c i' r -> f_ideal i (FDo c) i' r
  | FI_call : forall i v f args d fr j z, nth_error F f = Some d -> ideal_frame i d args = Some fr ->
      f_ideal fr (f_body d) j true -> value j (f_result d) = Some z ->
      f_ideal i (FCall v f args) (upd (after_call i j) v z) true
  | FI_call_argument_raise : forall i v f args, f_ideal i (FCall v f args) i false
  | FI_call_body_raise : forall i v f args d fr j, nth_error F f = Some d -> ideal_frame i d args = Some fr ->
      f_ideal fr (f_body d) j false -> f_ideal i (FCall v f args) (after_call i j) false
  | FI_call_result_raise : forall i v f args d fr j, nth_error F f = Some d -> ideal_frame i d args = Some fr ->
      f_ideal fr (f_body d) j true -> f_ideal i (FCall v f args) (after_call i j) false
  | FI_seq : forall i a i1 b i2 r, f_ideal i a i1 true -> f_ideal i1 b i2 r -> f_ideal i (FSeq a b) i2 r
  | FI_seq_raise : forall i a i1 b, f_ideal i a i1 false -> f_ideal i (FSeq a b) i1 false
  | FI_if : forall i c (t : bool) a b i1 r, ftruth i c = Some t ->
      f_ideal i (if t then a else b) i1 r -> f_ideal i (FIf c a b) i1 r
  | FI_if_raise : forall i c a b, f_ideal i (FIf c a b) i false
  | FI_while_end : forall i c a, ftruth i c = Some false -> f_ideal i (FWhile c a) i true
  | FI_while : forall i c a i1 i2 r, ftruth i c = Some true -> f_ideal i a i1 true ->
      f_ideal i1 (FWhile c a) i2 r -> f_ideal i (FWhile c a) i2 r
  | FI_while_body_raise : forall i c a i1, ftruth i c = Some true -> f_ideal i a i1 false ->
      f_ideal i (FWhile c a) i1 false
  | FI_while_raise : forall i c a, f_ideal i (FWhile c a) i false
  | FI_try : forall i a b i1, f_ideal i a i1 true -> f_ideal i (FTry a b) i1 true
  | FI_try_catch : forall i a b i1 i2 r, f_ideal i a i1 false -> f_ideal i1 b i2 r -> f_ideal i (FTry a b) i2 r.
End Ideal.

(** Conditions on programs, from those on commands, conditions and expressions without calls:
    [okx tgt e] = the expression e may be used where its value is converted to tgt *)
Section Conditions.
  Variable okc : tenv -> cmd -> Prop.
  Variable okd : tenv -> cond -> Prop.
  Variable okx : tenv -> otype -> expr -> Prop.
  Variable F : list fundef.

  Fixpoint fcond_ok (G : tenv) (c : fcond) : Prop :=
    match c with
    | FRel c => okd G c
    | FNot a => fcond_ok G a
    | FAnd a b | FOr a b => fcond_ok G a /\ fcond_ok G b
    end.
  Definition args_ok (G E : tenv) (ps : list nat) (args : list expr) : Prop :=
    Forall2 (fun p e => okx G (E p) e) ps args.
  Fixpoint fcmd_ok (G : tenv) (c : fcmd) : Prop :=
    match c with
    | FDo c => okc G c
    | FCall _ f args => forall d, nth_error F f = Some d -> args_ok G (f_env d) (f_params d) args
    | FSeq a b | FTry a b => fcmd_ok G a /\ fcmd_ok G b
    | FIf c a b => fcond_ok G c /\ fcmd_ok G a /\ fcmd_ok G b
    | FWhile c a => fcond_ok G c /\ fcmd_ok G a
    end.
  (** every function meets them: [ty] is the condition on types; the initial values of its
      local variables are in their ranges; global variables have the same types everywhere *)
  Definition functions_ok (D : dmodel) (glob : nat -> bool) (G : tenv) (ty : otype -> Prop) : Prop :=
    forall d, In d F -> fcmd_ok (f_env d) (f_body d) /\ okx (f_env d) (f_type d) (f_result d)
      /\ ty (f_type d) /\ (forall v, ty (f_env d v))
      /\ (forall v, glob v = false -> holds D (f_env d v) (f_init d v))
      /\ (forall v, glob v = true -> f_env d v = G v).
End Conditions.

(** the conditions of C33 and of C73 *)
Definition simple_program (n : bool) (D : dmodel) (glob : nat -> bool) (F : list fundef) (G : tenv) (c : fcmd) : Prop :=
  (forall v, type_ok n D (G v))
  /\ functions_ok (cmd_ok n D) (fun _ => cond_ok n D) (fun _ _ => expr_ok n D) F D glob G (type_ok n D)
  /\ fcmd_ok (cmd_ok n D) (fun _ => cond_ok n D) (fun _ _ => expr_ok n D) F G c.
Definition fine_program (n : bool) (D : dmodel) (glob : nat -> bool) (F : list fundef) (G : tenv) (c : fcmd) : Prop :=
  (forall v, type_fine n D (G v))
  /\ functions_ok (cmd_fine n D) (cond_fine n D) (fun G t => expr_fine n D G (Some t)) F D glob G (type_fine n D)
  /\ fcmd_ok (cmd_fine n D) (cond_fine n D) (fun G t => expr_fine n D G (Some t)) F G c.
