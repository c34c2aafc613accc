(** ChainProgram.v -- assignments used as operands of other assignments: a = b = c, (a = b) += c,
    ++(a = b), ++(a += b), (a += b) = c. What an assignment denotes afterwards: operator= of
    safe_base returns a reference to the object (safe_base.hpp:198, 202, 219-226), ++ and -- as
    prefixes too (safe_base.hpp:229-234), but a compound assignment returns a copy
    (safe_base_operations.hpp:486-494, 609-617, 734-742, 894-902, 1055-1063, 1391-1401, 1547-1557,
    1634-1642, 1698-1706, 1761-1769: the return type is T, not T &). Member functions may be
    called on such a copy, which is a temporary object. Model file: definitions only. *)
From Coq Require Import ZArith List Bool.
From Verif Require Import Base CType ExceptionPolicy Promotion SafeBase Program.
Import ListNotations.
Local Open Scope Z_scope.
Local Open Scope m_scope.

(** [LPure e] is an expression e without side effects other than a single variable, which is
    [LVar]. [first]: the left operand is evaluated first *)
Inductive asg : Type :=
| LVar (v : nat)
| LPure (e : expr)
| LSet (first : bool) (l r : asg)             (* l = r *)
| LOp (op : binop) (first : bool) (l r : asg) (* l op= r *)
| LStep (inc : bool) (l : asg).               (* ++l, --l *)

(** the expression is an lvalue: T & t (safe_base_operations.hpp:491) binds only to those *)
Definition lvalue (l : asg) : bool :=
  match l with LVar _ | LSet _ _ _ | LStep _ _ => true | LPure _ | LOp _ _ _ _ => false end.

Definition step_of (D : dmodel) (inc : bool) (s : safe_t) (x : Z) : option (M Z) :=
  if inc then increment D s x else decrement D s x.

(** the type, [None] if it does not compile. A temporary object of a built-in type cannot be
    assigned to, one of a safe type can: operator= has no reference qualifier. ++ and -- of
    built-in types do not involve the library and are not modelled. *)
Fixpoint asg_type (D : dmodel) (G : tenv) (l : asg) : option otype :=
  match l with
  | LVar v => Some (G v)
  | LPure e => type_of D G e
  | LSet _ l r =>
      match asg_type D G l, asg_type D G r with
      | Some t, Some u =>
          if lvalue l || is_safe t then
            match convert D t u 0 with Some _ => Some t | None => None end
          else None
      | _, _ => None
      end
  | LOp op _ l r =>
      match asg_type D G l, asg_type D G r with
      | Some t, Some u =>
          if lvalue l then match compound D op t u 0 0 with Some _ => Some t | None => None end
          else None
      | _, _ => None
      end
  | LStep inc l =>
      match asg_type D G l with
      | Some (OSafe s) => match step_of D inc s 0 with Some _ => Some (OSafe s) | None => None end
      | _ => None
      end
  end.

(** what an expression denotes: a variable, or a temporary object with a value *)
Inductive place : Type := PVar (v : nat) | PTemp (z : Z).

Definition content (s : store) (p : place) : M Z :=
  match p with PVar v => read s v | PTemp z => mret z end.
Definition put (s : store) (p : place) (z : Z) : store * place :=
  match p with PVar v => (upd s v (Some z), p) | PTemp _ => (s, PTemp z) end.

Inductive aout : Type := APlace (p : place) | AStop (r : result).

(** the operands in the chosen order *)
Definition operands (first : bool) (evl evr : store -> store * aout) (s : store)
  (k : store -> place -> place -> store * aout) : store * aout :=
  let '(s1, o1) := (if first then evl else evr) s in
  match o1 with
  | AStop r => (s1, AStop r)
  | APlace p1 =>
      let '(s2, o2) := (if first then evr else evl) s1 in
      match o2 with
      | AStop r => (s2, AStop r)
      | APlace p2 => if first then k s2 p1 p2 else k s2 p2 p1
      end
  end.

(** m computes the value, which is then written to p. [copy]: a copy is returned *)
Definition write_to (s : store) (p : place) (m : M Z) (copy : bool) : store * aout :=
  match snd m with
  | Ret z => let '(s', p') := put s p z in (s', APlace (if copy then PTemp z else p'))
  | Throw e => (s, AStop (RRaised e))
  | Undef | Trapped => (s, AStop RUndef)
  end.

Fixpoint asg_eval (D : dmodel) (G : tenv) (l : asg) (s : store) : store * aout :=
  match l with
  | LVar v => (s, APlace (PVar v))
  | LPure e =>
      match snd (eval D G s e) with
      | Ret z => (s, APlace (PTemp z))
      | Throw e => (s, AStop (RRaised e))
      | Undef | Trapped => (s, AStop RUndef)
      end
  | LSet first l r =>
      match asg_type D G l, asg_type D G r with
      | Some t, Some u =>
          operands first (asg_eval D G l) (asg_eval D G r) s (fun s p q =>
            write_to s p (y <- content s q ;; run (convert D t u y)) false)
      | _, _ => (s, AStop RUndef)
      end
  | LOp op first l r =>
      match asg_type D G l, asg_type D G r with
      | Some t, Some u =>
          operands first (asg_eval D G l) (asg_eval D G r) s (fun s p q =>
            write_to s p (y <- content s q ;; x <- content s p ;; run (compound D op t u x y)) true)
      | _, _ => (s, AStop RUndef)
      end
  | LStep inc l =>
      match asg_type D G l with
      | Some (OSafe t) =>
          let '(s1, o) := asg_eval D G l s in
          match o with
          | APlace p => write_to s1 p (x <- content s1 p ;; run (step_of D inc t x)) false
          | AStop r => (s1, AStop r)
          end
      | _ => (s, AStop RUndef)
      end
  end.
