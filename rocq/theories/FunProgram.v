(** FunProgram.v -- model of client programs with functions: parameters and results of
    safe and built-in types, recursion, local and global variables, and conditions with
    && || and !. An argument is converted to the type of its parameter, the operand of
    return to the result type, and the result to the type of the variable it is assigned
    to: these are the library's conversions ([convert], safe_base_operations.hpp:150-243).
    The C++ rules on calls (a frame for each call, an exception leaves all frames up to
    the handler) are modelled directly. Simplified: a function has one return
    statement, at its end; arguments are passed by value and evaluated from left to
    right; the local variables of a function are declared at its beginning, with
    constant initial values. Definitions only. *)
From Coq Require Import ZArith List Bool Arith.
From Verif Require Import Base CType ExceptionPolicy Promotion SafeBase Program.
Import ListNotations.
Local Open Scope Z_scope.
Local Open Scope m_scope.

(** Conditions: comparisons (safe_base_operations.hpp:1027-1244) joined by the
    operators && || ! of bool, of the language *)
Inductive fcond : Type :=
| FRel (c : cond)
| FNot (a : fcond)
| FAnd (a b : fcond)
| FOr (a b : fcond).

Fixpoint fcond_compiles (D : dmodel) (G : tenv) (c : fcond) : bool :=
  match c with
  | FRel c => cond_compiles D G c
  | FNot a => fcond_compiles D G a
  | FAnd a b | FOr a b => fcond_compiles D G a && fcond_compiles D G b
  end.

(** the second operand is evaluated if the first one does not decide *)
Fixpoint eval_fcond (D : dmodel) (G : tenv) (s : store) (c : fcond) : M bool :=
  match c with
  | FRel c => eval_cond D G s c
  | FNot a => x <- eval_fcond D G s a ;; mret (negb x)
  | FAnd a b => x <- eval_fcond D G s a ;; if x then eval_fcond D G s b else mret false
  | FOr a b => x <- eval_fcond D G s a ;; if x then mret true else eval_fcond D G s b
  end.

(** Commands. [FCall v f args] is v = f(args). *)
Inductive fcmd : Type :=
| FDo (c : cmd)
| FCall (v : nat) (f : nat) (args : list expr)
| FSeq (a b : fcmd)
| FIf (c : fcond) (a b : fcmd)
| FWhile (c : fcond) (a : fcmd)
| FTry (a b : fcmd).

(** Functions: the parameters, the types of the variables in the body, the initial
    values of the local variables, the body, the result type and the operand of return *)
Record fundef : Type := mkFun {
  f_params : list nat;
  f_env : tenv;
  f_init : nat -> Z;
  f_body : fcmd;
  f_type : otype;
  f_result : expr
}.

Section Functions.
  Variable D : dmodel.
  (** which variables are global; the others are local to a function *)
  Variable glob : nat -> bool.
  (** the functions of the program *)
  Variable F : list fundef.

  (** the arguments fit the parameters *)
  Fixpoint args_compile (G : tenv) (E : tenv) (ps : list nat) (args : list expr) : bool :=
    match ps, args with
    | [], [] => true
    | p :: ps', e :: es =>
        negb (glob p)
        && match type_of D G e with
           | Some t => match convert D (E p) t 0 with Some _ => true | None => false end
           | None => false
           end
        && args_compile G E ps' es
    | _, _ => false
    end.

  Fixpoint f_compiles (G : tenv) (c : fcmd) : bool :=
    match c with
    | FDo c => compiles D G c
    | FCall v f args =>
        match nth_error F f with
        | Some d =>
            args_compile G (f_env d) (f_params d) args
            && match type_of D (f_env d) (f_result d) with
               | Some t => match convert D (f_type d) t 0 with Some _ => true | None => false end
               | None => false
               end
            && match convert D (G v) (f_type d) 0 with Some _ => true | None => false end
        | None => false
        end
    | FSeq a b | FTry a b => f_compiles G a && f_compiles G b
    | FIf c a b => fcond_compiles D G c && f_compiles G a && f_compiles G b
    | FWhile c a => fcond_compiles D G c && f_compiles G a
    end.

  (** every function compiles *)
  Definition program_compiles : bool := forallb (fun d => f_compiles (f_env d) (f_body d)) F.

  (** evaluation of the arguments and initialisation of the parameters (safe_base.hpp:
      173-219, constructors) in the new frame [fr] *)
  Fixpoint pass (G : tenv) (s : store) (E : tenv) (ps : list nat) (args : list expr) (fr : store) : M store :=
    match ps, args with
    | [], [] => mret fr
    | p :: ps', e :: es =>
        match type_of D G e with
        | Some t =>
            x <- eval D G s e ;;
            y <- run (convert D (E p) t x) ;;
            pass G s E ps' es (upd fr p (Some y))
        | None => mundef
        end
    | _, _ => mundef
    end.

  (** the frame of a call before its parameters are initialised, and the caller's
      variables afterwards *)
  Definition enter (s : store) (d : fundef) : store :=
    fun v => if glob v then s v else Some (f_init d v).
  Definition leave {A : Type} (s s' : nat -> A) : nat -> A :=
    fun v => if glob v then s' v else s v.

  (** execution; [None] = calls nested deeper than [n], or a loop of more than [n] iterations *)
  Fixpoint f_exec (n : nat) : tenv -> store -> fcmd -> option (store * result) :=
    match n with
    | O => fun _ _ _ => None
    | S n' =>
        fix go (G : tenv) (s : store) (c : fcmd) {struct c} : option (store * result) :=
        match c with
        | FDo c => exec (S n') D G s c
        | FCall v f args =>
            match nth_error F f with
            | Some d =>
                match snd (pass G s (f_env d) (f_params d) args (enter s d)) with
                | Ret fr =>
                    match f_exec n' (f_env d) fr (f_body d) with
                    | Some (s1, RDone) =>
                        let s2 := leave s s1 in
                        match type_of D (f_env d) (f_result d) with
                        | Some t =>
                            Some (finish s2
                                    (x <- eval D (f_env d) s1 (f_result d) ;;
                                     y <- run (convert D (f_type d) t x) ;;
                                     run (convert D (G v) (f_type d) y))
                                    (fun z => upd s2 v (Some z)))
                        | None => Some (s2, RUndef)
                        end
                    | Some (s1, r) => Some (leave s s1, r)
                    | None => None
                    end
                | Throw e => Some (s, RRaised e)
                | Undef | Trapped => Some (s, RUndef)
                end
            | None => Some (s, RUndef)
            end
        | FSeq a b =>
            match go G s a with
            | Some (s1, RDone) => go G s1 b
            | r => r
            end
        | FIf c a b =>
            match snd (eval_fcond D G s c) with
            | Ret true => go G s a
            | Ret false => go G s b
            | Throw e => Some (s, RRaised e)
            | Undef | Trapped => Some (s, RUndef)
            end
        | FWhile c a => loop (fun s => eval_fcond D G s c) (fun s => go G s a) (S n') s
        | FTry a b =>
            match go G s a with
            | Some (s1, RRaised _) => go G s1 b
            | r => r
            end
        end
    end.
End Functions.
