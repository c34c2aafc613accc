(** BaseProgram.v -- client programs that read and write safe variables on streams and
    switch between std::dec, std::oct and std::hex, as /repo/example/example92.cpp:160-165 does
    on output: the statements of IOProgram.v (see
    /repo/example/example84.cpp:42-62), is >> std::hex and os << std::hex. The calls of >> and
    << are the friends of safe_base.hpp:133-164, which call output and input. There is one input
    and one output stream, and nobody else uses them.
    Model file: definitions only. *)
From Coq Require Import ZArith List Bool.
From Verif Require Import Base CType ExceptionPolicy Promotion SafeBase Program Stream BaseStream IOProgram.
Import ListNotations.
Local Open Scope Z_scope.

Inductive bcmd : Type :=
| BPDo (c : cmd)
| BPRead (v : nat)                        (* is >> v *)
| BPWrite (v : nat)                       (* os << v *)
| BPIn (b : basefield)                    (* is >> std::dec, std::oct, std::hex *)
| BPOut (b : basefield)                   (* os << std::dec, std::oct, std::hex *)
| BPSeq (a b : bcmd)
| BPIf (c : cond) (a b : bcmd)
| BPWhile (c : cond) (a : bcmd)
| BPTry (a b : bcmd).                    (* try { a } catch(...) { b } *)

(** the variables; the base of the input stream and the input that is left; the base of the
    output stream and the characters written *)
Definition bstate : Type := (store * (basefield * istream) * (basefield * list Z))%type.

(** static checks. Only variables of safe types are read and written: what >> and << do to
    built-in types is not part of the library *)
Fixpoint bp_compiles (D : dmodel) (G : tenv) (c : bcmd) : bool :=
  match c with
  | BPDo c => compiles D G c
  | BPRead v => match G v with OSafe t => input_compiles D t | _ => false end
  | BPWrite v => match G v with OSafe _ => true | _ => false end
  | BPIn _ | BPOut _ => true
  | BPSeq a b | BPTry a b => bp_compiles D G a && bp_compiles D G b
  | BPIf c a b => cond_compiles D G c && bp_compiles D G a && bp_compiles D G b
  | BPWhile c a => cond_compiles D G c && bp_compiles D G a
  end.

Fixpoint bp_loop (cnd : store -> M bool) (body : bstate -> option (bstate * result))
  (n : nat) (p : bstate) : option (bstate * result) :=
  match n with
  | O => None
  | S n' =>
      match snd (cnd (fst (fst p))) with
      | Ret true =>
          match body p with
          | Some (p1, RDone) => bp_loop cnd body n' p1
          | r => r
          end
      | Ret false => Some (p, RDone)
      | Throw e => Some (p, RRaised e)
      | Undef | Trapped => Some (p, RUndef)
      end
  end.

(** execution; [None] = some loop made more than [fuel] iterations *)
Fixpoint bp_exec (fuel : nat) (D : dmodel) (G : tenv) (p : bstate) (c : bcmd) {struct c}
  : option (bstate * result) :=
  let '(s, i, o) := p in
  match c with
  | BPDo c =>
      match exec fuel D G s c with
      | Some (s1, r) => Some ((s1, i, o), r)
      | None => None
      end
  | BPRead v =>
      (* safe_base_operations.hpp:1795-1845 *)
      match G v with
      | OSafe t =>
          match input_b (fst i) D t (snd i) (s v) with
          | Some (i1, x, m) => Some ((upd s v x, (fst i, i1), o), ending m)
          | None => Some (p, RUndef)
          end
      | _ => Some (p, RUndef)
      end
  | BPWrite v =>
      (* safe_base_operations.hpp:1773-1793 *)
      match G v, s v with
      | OSafe t, Some x => Some ((s, i, (fst o, snd o ++ output_b (fst o) D t x)), RDone)
      | _, _ => Some (p, RUndef)
      end
  | BPIn b => Some ((s, (b, snd i), o), RDone)
  | BPOut b => Some ((s, i, (b, snd o)), RDone)
  | BPSeq a b =>
      match bp_exec fuel D G p a with
      | Some (p1, RDone) => bp_exec fuel D G p1 b
      | r => r
      end
  | BPIf c a b =>
      match snd (eval_cond D G s c) with
      | Ret true => bp_exec fuel D G p a
      | Ret false => bp_exec fuel D G p b
      | Throw e => Some (p, RRaised e)
      | Undef | Trapped => Some (p, RUndef)
      end
  | BPWhile c a => bp_loop (fun s => eval_cond D G s c) (fun p => bp_exec fuel D G p a) fuel p
  | BPTry a b =>
      match bp_exec fuel D G p a with
      | Some (p1, RRaised _) => bp_exec fuel D G p1 b
      | r => r
      end
  end.

(** a program of IOProgram.v as a program of this file, with streams that are in std::dec *)
Fixpoint in_decimal (c : iocmd) : bcmd :=
  match c with
  | IODo c => BPDo c
  | IORead v => BPRead v
  | IOWrite v => BPWrite v
  | IOSeq a b => BPSeq (in_decimal a) (in_decimal b)
  | IOIf c a b => BPIf c (in_decimal a) (in_decimal b)
  | IOWhile c a => BPWhile c (in_decimal a)
  | IOTry a b => BPTry (in_decimal a) (in_decimal b)
  end.
Definition state_in_decimal (p : iostate) : bstate :=
  let '(s, i, o) := p in (s, (BDec, i), (BDec, o)).
