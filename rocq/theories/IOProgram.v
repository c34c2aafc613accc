(** IOProgram.v -- client programs that read safe variables from a stream and write them to a
    stream, as /repo/example/example84.cpp:42-62 does: the statements of Program.v, is >> v and
    os << v (safe_base.hpp:133-164, the friends operator<< and operator>>, which call output
    and input). There is one input and one output stream, and nobody else uses them.
    Model file: definitions only. *)
From Coq Require Import ZArith List Bool.
From Verif Require Import Base CType ExceptionPolicy Promotion SafeBase Program Stream.
Import ListNotations.
Local Open Scope Z_scope.

Inductive iocmd : Type :=
| IODo (c : cmd)
| IORead (v : nat)                        (* is >> v *)
| IOWrite (v : nat)                       (* os << v *)
| IOSeq (a b : iocmd)
| IOIf (c : cond) (a b : iocmd)
| IOWhile (c : cond) (a : iocmd)
| IOTry (a b : iocmd).                    (* try { a } catch(...) { b } *)

(** the variables, the input that is left, the characters written *)
Definition iostate : Type := (store * istream * list Z)%type.

(** static checks. Only variables of safe types are read and written: what >> and << do to
    built-in types is not part of the library *)
Fixpoint io_compiles (D : dmodel) (G : tenv) (c : iocmd) : bool :=
  match c with
  | IODo c => compiles D G c
  | IORead v => match G v with OSafe t => input_compiles D t | _ => false end
  | IOWrite v => match G v with OSafe _ => true | _ => false end
  | IOSeq a b | IOTry a b => io_compiles D G a && io_compiles D G b
  | IOIf c a b => cond_compiles D G c && io_compiles D G a && io_compiles D G b
  | IOWhile c a => cond_compiles D G c && io_compiles D G a
  end.

(** how a call that returns nothing ends *)
Definition ending (m : M unit) : result :=
  match snd m with Ret _ => RDone | Throw e => RRaised e | Undef | Trapped => RUndef end.

Fixpoint io_loop (cnd : store -> M bool) (body : iostate -> option (iostate * result))
  (n : nat) (p : iostate) : option (iostate * result) :=
  match n with
  | O => None
  | S n' =>
      match snd (cnd (fst (fst p))) with
      | Ret true =>
          match body p with
          | Some (p1, RDone) => io_loop cnd body n' p1
          | r => r
          end
      | Ret false => Some (p, RDone)
      | Throw e => Some (p, RRaised e)
      | Undef | Trapped => Some (p, RUndef)
      end
  end.

(** execution; [None] = some loop made more than [fuel] iterations *)
Fixpoint io_exec (fuel : nat) (D : dmodel) (G : tenv) (p : iostate) (c : iocmd) {struct c}
  : option (iostate * result) :=
  let '(s, i, o) := p in
  match c with
  | IODo c =>
      match exec fuel D G s c with
      | Some (s1, r) => Some ((s1, i, o), r)
      | None => None
      end
  | IORead v =>
      (* safe_base_operations.hpp:1795-1845 *)
      match G v with
      | OSafe t =>
          match input D t i (s v) with
          | Some (i1, x, m) => Some ((upd s v x, i1, o), ending m)
          | None => Some (p, RUndef)
          end
      | _ => Some (p, RUndef)
      end
  | IOWrite v =>
      (* safe_base_operations.hpp:1773-1793 *)
      match G v, s v with
      | OSafe t, Some x => Some ((s, i, o ++ output D t x), RDone)
      | _, _ => Some (p, RUndef)
      end
  | IOSeq a b =>
      match io_exec fuel D G p a with
      | Some (p1, RDone) => io_exec fuel D G p1 b
      | r => r
      end
  | IOIf c a b =>
      match snd (eval_cond D G s c) with
      | Ret true => io_exec fuel D G p a
      | Ret false => io_exec fuel D G p b
      | Throw e => Some (p, RRaised e)
      | Undef | Trapped => Some (p, RUndef)
      end
  | IOWhile c a => io_loop (fun s => eval_cond D G s c) (fun p => io_exec fuel D G p a) fuel p
  | IOTry a b =>
      match io_exec fuel D G p a with
      | Some (p1, RRaised _) => io_exec fuel D G p1 b
      | r => r
      end
  end.
