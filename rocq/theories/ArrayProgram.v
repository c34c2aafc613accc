(** ArrayProgram.v -- client programs with arrays whose subscripts are safe expressions: the
    statements of Program.v, v = a[e] and a[e] = d. The built-in subscript operator converts a
    safe subscript to std::ptrdiff_t with the conversion operator of safe_base
    (safe_base.hpp:204-218, safe_base_operations.hpp:217-243) or of literals
    (safe_integer_literal.hpp:99-122). Subscripting outside the array is undefined behaviour.
    Elements are always initialised here. Model file: definitions only. *)
From Coq Require Import ZArith List Bool.
From Verif Require Import Base CType ExceptionPolicy Promotion SafeBase Program.
Import ListNotations.
Local Open Scope Z_scope.
Local Open Scope m_scope.

(** std::ptrdiff_t *)
Definition ptrdiff (D : dmodel) : ctype :=
  match D with LP64 | LP64u => Long | LLP64 => LLong | ILP32 | IP16 => Int end.

Inductive acmd : Type :=
| ADo (c : cmd)
| AGet (v a : nat) (e : expr)                   (* v = a[e] *)
| ASet (a : nat) (first : bool) (e d : expr)    (* a[e] = d; [first]: e is evaluated first *)
| ASeq (x y : acmd)
| AIf (c : cond) (x y : acmd)
| AWhile (c : cond) (x : acmd)
| ATry (x y : acmd).

(** the arrays: the type of the elements and their number *)
Definition aenv : Type := nat -> otype * nat.
Definition amem : Type := (store * (nat -> list Z))%type.

(** the value used for the subscript. A built-in subscript does not involve the library *)
Definition subscript (D : dmodel) (t : otype) (x : Z) : option (M Z) :=
  match t with
  | ORaw _ => Some (mret x)
  | _ => convert D (ORaw (ptrdiff D)) t x
  end.

Fixpoint a_compiles (D : dmodel) (G : tenv) (A : aenv) (c : acmd) : bool :=
  match c with
  | ADo c => compiles D G c
  | AGet v a e =>
      match type_of D G e with
      | Some t =>
          match subscript D t 0, convert D (G v) (fst (A a)) 0 with Some _, Some _ => true | _, _ => false end
      | None => false
      end
  | ASet a _ e d =>
      match type_of D G e, type_of D G d with
      | Some t, Some u =>
          match subscript D t 0, convert D (fst (A a)) u 0 with Some _, Some _ => true | _, _ => false end
      | _, _ => false
      end
  | ASeq x y | ATry x y => a_compiles D G A x && a_compiles D G A y
  | AIf c x y => cond_compiles D G c && a_compiles D G A x && a_compiles D G A y
  | AWhile c x => cond_compiles D G c && a_compiles D G A x
  end.

Definition in_array (l : list Z) (k : Z) : bool := (0 <=? k) && (k <? Z.of_nat (length l)).

(** the position a[e] designates *)
Definition position (D : dmodel) (G : tenv) (s : store) (l : list Z) (t : otype) (e : expr) : M Z :=
  x <- eval D G s e ;;
  k <- run (subscript D t x) ;;
  if in_array l k then mret k else mundef.

Definition put (l : list Z) (n : nat) (z : Z) : list Z := firstn n l ++ z :: skipn (S n) l.

Definition a_finish {B : Type} (p : amem) (m : M B) (write : B -> amem) : amem * result :=
  match snd m with
  | Ret b => (write b, RDone)
  | Throw e => (p, RRaised e)
  | Undef | Trapped => (p, RUndef)
  end.

Fixpoint a_loop (cnd : store -> M bool) (body : amem -> option (amem * result))
  (n : nat) (p : amem) : option (amem * result) :=
  match n with
  | O => None
  | S n' =>
      match snd (cnd (fst p)) with
      | Ret true =>
          match body p with
          | Some (p1, RDone) => a_loop cnd body n' p1
          | r => r
          end
      | Ret false => Some (p, RDone)
      | Throw e => Some (p, RRaised e)
      | Undef | Trapped => Some (p, RUndef)
      end
  end.

(** execution; [None] = some loop made more than [fuel] iterations *)
Fixpoint a_exec (fuel : nat) (D : dmodel) (G : tenv) (A : aenv) (p : amem) (c : acmd) {struct c}
  : option (amem * result) :=
  let (s, m) := p in
  match c with
  | ADo c =>
      match exec fuel D G s c with
      | Some (s1, r) => Some ((s1, m), r)
      | None => None
      end
  | AGet v a e =>
      match type_of D G e with
      | Some t =>
          Some (a_finish p
                  (k <- position D G s (m a) t e ;;
                   run (convert D (G v) (fst (A a)) (nth (Z.to_nat k) (m a) 0)))
                  (fun z => (upd s v (Some z), m)))
      | None => Some (p, RUndef)
      end
  | ASet a first e d =>
      match type_of D G e, type_of D G d with
      | Some t, Some u =>
          Some (a_finish p
                  (q <- both first (position D G s (m a) t e) (eval D G s d) ;;
                   z <- run (convert D (fst (A a)) u (snd q)) ;;
                   mret (fst q, z))
                  (fun q => (s, upd m a (put (m a) (Z.to_nat (fst q)) (snd q)))))
      | _, _ => Some (p, RUndef)
      end
  | ASeq x y =>
      match a_exec fuel D G A p x with
      | Some (p1, RDone) => a_exec fuel D G A p1 y
      | r => r
      end
  | AIf c x y =>
      match snd (eval_cond D G s c) with
      | Ret true => a_exec fuel D G A p x
      | Ret false => a_exec fuel D G A p y
      | Throw e => Some (p, RRaised e)
      | Undef | Trapped => Some (p, RUndef)
      end
  | AWhile c x => a_loop (fun s => eval_cond D G s c) (fun p => a_exec fuel D G A p x) fuel p
  | ATry x y =>
      match a_exec fuel D G A p x with
      | Some (p1, RRaised _) => a_exec fuel D G A p1 y
      | r => r
      end
  end.
