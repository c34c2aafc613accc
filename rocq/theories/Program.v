(** Program.v -- model of client programs: expressions over safe, literal and
    built-in operands, and commands that declare, assign and update variables.
    The effects of the library's operators are those of SafeBase.v; the C++
    language rules used here (an exception leaves the store as it is, operands
    may be evaluated in either order) are modelled directly. Definitions only. *)
From Coq Require Import ZArith List Bool Arith.
From Verif Require Import Base CType Utility CheckedInteger CheckedResultOps Interval
  ExceptionPolicy Promotion SafeBase.
Import ListNotations.
Local Open Scope Z_scope.
Local Open Scope m_scope.

(** Expressions. [first] says which operand of a binary operator is evaluated
    first (unspecified in C++): all choices are different trees. *)
Inductive expr : Type :=
| EConst (o : otype) (z : Z)            (* a constant of a built-in, safe or literal type *)
| EVar (v : nat)
| EBin (op : binop) (first : bool) (a b : expr)
| ENeg (a : expr)                       (* safe_base.hpp:261-268 *)
| EPos (a : expr)                       (* safe_base.hpp:246-248 *)
| ECast (o : otype) (a : expr).         (* static_cast<o>(a) *)

(** the types of the variables *)
Definition tenv : Type := nat -> otype.
(** the values of the variables; [None] = indeterminate *)
Definition store : Type := nat -> option Z.
Definition upd {A : Type} (f : nat -> A) (v : nat) (z : A) : nat -> A :=
  fun w => if Nat.eqb w v then z else f w.

(** Conversion of a value x of type [src] to the type [tgt]: the constructors and
    operator= of safe types (safe_base_operations.hpp:150-214, safe_base.hpp:
    221-226), operator R of safe types and literals (safe_base_operations.hpp:
    219-243, safe_integer_literal.hpp:99-122). A conversion between two different
    built-in types does not involve the library and is not modelled. *)
Definition convert (D : dmodel) (tgt src : otype) (x : Z) : option (M Z) :=
  match tgt with
  | OSafe s => construct D s src x
  | ORaw T =>
      match src with
      | ORaw U => if ctype_eqb T U then Some (mret x) else None
      | OSafe s => to_builtin D T s x
      | OLit U N _ E => lit_to_builtin D T U N E
      end
  | OLit _ _ _ _ => None
  end.

(** run a computation whose compilation was checked with other operand values *)
Definition run {A : Type} (o : option (M A)) : M A :=
  match o with Some m => m | None => mundef end.
Definition run_snd {A B : Type} (o : option (B * M A)) : M A :=
  match o with Some (_, m) => m | None => mundef end.

Definition read (s : store) (v : nat) : M Z :=
  match s v with Some z => mret z | None => mundef end.

(** the operands of a binary operator in the chosen order *)
Definition both (first : bool) (a b : M Z) : M (Z * Z) :=
  if first then x <- a ;; y <- b ;; mret (x, y)
  else y <- b ;; x <- a ;; mret (x, y).

(** static type (compilation) of an expression *)
Fixpoint type_of (D : dmodel) (G : tenv) (e : expr) : option otype :=
  match e with
  | EConst o _ => Some o
  | EVar v => Some (G v)
  | EBin op _ a b =>
      match type_of D G a, type_of D G b with
      | Some t, Some u => option_map (fun p => OSafe (fst p)) (eval_binop D op t u 0 0)
      | _, _ => None
      end
  | ENeg a =>
      match type_of D G a with
      | Some (OSafe s) => option_map (fun p => OSafe (fst p)) (unary_minus D s 0)
      | _ => None
      end
  | EPos a =>
      match type_of D G a with
      | Some (OSafe s) => option_map (fun p => OSafe (fst p)) (unary_plus s 0)
      | _ => None
      end
  | ECast o a =>
      match type_of D G a with
      | Some t => option_map (fun _ => o) (convert D o t 0)
      | None => None
      end
  end.

(** evaluation *)
Fixpoint eval (D : dmodel) (G : tenv) (s : store) (e : expr) : M Z :=
  match e with
  | EConst _ z => mret z
  | EVar v => read s v
  | EBin op first a b =>
      match type_of D G a, type_of D G b with
      | Some t, Some u =>
          p <- both first (eval D G s a) (eval D G s b) ;;
          run_snd (eval_binop D op t u (fst p) (snd p))
      | _, _ => mundef
      end
  | ENeg a =>
      match type_of D G a with
      | Some (OSafe ts) => x <- eval D G s a ;; run_snd (unary_minus D ts x)
      | _ => mundef
      end
  | EPos a =>
      match type_of D G a with
      | Some (OSafe ts) => x <- eval D G s a ;; run_snd (unary_plus ts x)
      | _ => mundef
      end
  | ECast o a =>
      match type_of D G a with
      | Some t => x <- eval D G s a ;; run (convert D o t x)
      | None => mundef
      end
  end.

(** Conditions: the six comparison operators *)
Inductive relop : Type := RLt | RGt | RLe | RGe | REq | RNe.
Inductive cond : Type := Cond (r : relop) (first : bool) (a b : expr).

Definition eval_relop (D : dmodel) (r : relop) (t u : otype) (x y : Z) : option (M bool) :=
  match r with
  | RLt => s_lt D t u x y
  | RGt => s_gt D t u x y
  | RLe => s_le D t u x y
  | RGe => s_ge D t u x y
  | REq => s_eq D t u x y
  | RNe => s_ne D t u x y
  end.

Definition cond_compiles (D : dmodel) (G : tenv) (c : cond) : bool :=
  let 'Cond r _ a b := c in
  match type_of D G a, type_of D G b with
  | Some t, Some u => match eval_relop D r t u 0 0 with Some _ => true | None => false end
  | _, _ => false
  end.

Definition eval_cond (D : dmodel) (G : tenv) (s : store) (c : cond) : M bool :=
  let 'Cond r first a b := c in
  match type_of D G a, type_of D G b with
  | Some t, Some u =>
      p <- both first (eval D G s a) (eval D G s b) ;;
      run (eval_relop D r t u (fst p) (snd p))
  | _, _ => mundef
  end.

(** Commands. [CPost inc w v] is w = v++ (or v--) for variables of the same type. *)
Inductive cmd : Type :=
| CSkip
| CDefault (v : nat)                     (* default construction of v *)
| CAssign (v : nat) (e : expr)           (* v = e *)
| CCompound (op : binop) (v : nat) (e : expr)  (* v op= e *)
| CInc (v : nat)
| CDec (v : nat)
| CPost (inc : bool) (w v : nat)
| CSeq (a b : cmd)
| CIf (c : cond) (a b : cmd)
| CWhile (c : cond) (a : cmd)
| CTry (a b : cmd).                      (* try { a } catch(...) { b } *)

Fixpoint compiles (D : dmodel) (G : tenv) (c : cmd) : bool :=
  match c with
  | CSkip => true
  | CDefault v =>
      match G v with
      | OSafe s => match default_ctor s with Some _ => true | None => false end
      | _ => false
      end
  | CAssign v e =>
      match type_of D G e with
      | Some t => match convert D (G v) t 0 with Some _ => true | None => false end
      | None => false
      end
  | CCompound op v e =>
      match type_of D G e with
      | Some t => match compound D op (G v) t 0 0 with Some _ => true | None => false end
      | None => false
      end
  | CInc v =>
      match G v with
      | OSafe s => match increment D s 0 with Some _ => true | None => false end
      | _ => false
      end
  | CDec v =>
      match G v with
      | OSafe s => match decrement D s 0 with Some _ => true | None => false end
      | _ => false
      end
  | CPost inc w v =>
      match G v, G w with
      | OSafe s, OSafe s' =>
          match (if inc then post_increment D s 0 else post_decrement D s 0), construct D s' (OSafe s) 0 with
          | Some _, Some _ => true
          | _, _ => false
          end
      | _, _ => false
      end
  | CSeq a b => compiles D G a && compiles D G b
  | CIf c a b => cond_compiles D G c && compiles D G a && compiles D G b
  | CWhile c a => cond_compiles D G c && compiles D G a
  | CTry a b => compiles D G a && compiles D G b
  end.

(** How a command ends *)
Inductive result : Type := RDone | RRaised (e : err) | RUndef.

(** A command that ends by writing the value computed by [m]: the write comes
    after the computation (m_t = validated_cast(rhs), safe_base.hpp:221-226;
    t = static_cast<T>(t + u), safe_base_operations.hpp:486-494) *)
Definition finish {A : Type} (s : store) (m : M A) (write : A -> store) : store * result :=
  match snd m with
  | Ret a => (write a, RDone)
  | Throw e => (s, RRaised e)
  | Undef | Trapped => (s, RUndef)
  end.

(** a loop of at most n iterations with the given condition and body; [None] = more
    than n iterations *)
Fixpoint loop (cnd : store -> M bool) (body : store -> option (store * result))
  (n : nat) (s : store) : option (store * result) :=
  match n with
  | O => None
  | S n' =>
      match snd (cnd s) with
      | Ret true =>
          match body s with
          | Some (s1, RDone) => loop cnd body n' s1
          | r => r
          end
      | Ret false => Some (s, RDone)
      | Throw e => Some (s, RRaised e)
      | Undef | Trapped => Some (s, RUndef)
      end
  end.

(** execution; [None] = some loop made more than [fuel] iterations *)
Fixpoint exec (fuel : nat) (D : dmodel) (G : tenv) (s : store) (c : cmd) {struct c}
  : option (store * result) :=
  match c with
  | CSkip => Some (s, RDone)
  | CDefault v =>
      (* safe_base_operations.hpp:160-170: the value is left indeterminate *)
      match G v with
      | OSafe t => Some (finish s (run (default_ctor t)) (fun _ => upd s v None))
      | _ => Some (s, RUndef)
      end
  | CAssign v e =>
      match type_of D G e with
      | Some t => Some (finish s (x <- eval D G s e ;; run (convert D (G v) t x)) (fun z => upd s v (Some z)))
      | None => Some (s, RUndef)
      end
  | CCompound op v e =>
      match type_of D G e with
      | Some t =>
          Some (finish s (y <- eval D G s e ;; x <- read s v ;; run (compound D op (G v) t x y))
                  (fun z => upd s v (Some z)))
      | None => Some (s, RUndef)
      end
  | CInc v =>
      match G v with
      | OSafe t => Some (finish s (x <- read s v ;; run (increment D t x)) (fun z => upd s v (Some z)))
      | _ => Some (s, RUndef)
      end
  | CDec v =>
      match G v with
      | OSafe t => Some (finish s (x <- read s v ;; run (decrement D t x)) (fun z => upd s v (Some z)))
      | _ => Some (s, RUndef)
      end
  | CPost inc w v =>
      (* v is updated first, then the old value is assigned to w *)
      match G v, G w with
      | OSafe t, OSafe t' =>
          match finish s (x <- read s v ;; run (if inc then post_increment D t x else post_decrement D t x))
                  (fun p => upd s v (Some (snd p))),
                snd (read s v) with
          | (s1, RDone), Ret old =>
              Some (finish s1 (run (construct D t' (OSafe t) old)) (fun z => upd s1 w (Some z)))
          | (s1, RDone), _ => Some (s1, RUndef)
          | (s1, r), _ => Some (s1, r)
          end
      | _, _ => Some (s, RUndef)
      end
  | CSeq a b =>
      match exec fuel D G s a with
      | Some (s1, RDone) => exec fuel D G s1 b
      | r => r
      end
  | CIf c a b =>
      match snd (eval_cond D G s c) with
      | Ret true => exec fuel D G s a
      | Ret false => exec fuel D G s b
      | Throw e => Some (s, RRaised e)
      | Undef | Trapped => Some (s, RUndef)
      end
  | CWhile c a => loop (fun s => eval_cond D G s c) (fun s => exec fuel D G s a) fuel s
  | CTry a b =>
      match exec fuel D G s a with
      | Some (s1, RRaised _) => exec fuel D G s1 b
      | r => r
      end
  end.

(** Implicit conversion of x of type [src] through the types [ts] in turn *)
Fixpoint convert_chain (D : dmodel) (src : otype) (ts : list otype) (x : Z) : M Z :=
  match ts with
  | [] => mret x
  | t :: ts' => y <- run (convert D t src x) ;; convert_chain D t ts' y
  end.
Fixpoint chain_compiles (D : dmodel) (src : otype) (ts : list otype) : bool :=
  match ts with
  | [] => true
  | t :: ts' =>
      match convert D t src 0 with Some _ => chain_compiles D t ts' | None => false end
  end.
