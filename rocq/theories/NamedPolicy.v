(** NamedPolicy.v -- exception policies as types with an identity. In C++ two exception policies
    are the same if they are the same class, not if their handlers do the same. Here a policy is
    a name (a number), and [pol] tells what the handlers of the class of that name do. The rest
    of the model (SafeBase.v, Program.v) knows the handlers only. Promotion policies need no
    names: native, automatic and cpp<...> with equal arguments are the same class. Definitions
    only. *)
From Coq Require Import ZArith List Bool Arith.
From Verif Require Import Base CType ExceptionPolicy Promotion SafeBase Program.
Import ListNotations.

(** types of operands: safe_base.hpp:116-123 (class safe_base), safe_integer_literal.hpp:65-66
    (class safe_literal_impl) *)
Inductive ntype : Type :=
| NRaw (T : ctype)
| NSafe (T : ctype) (mn mx : Z) (P : pp) (n : nat)
| NLit (T : ctype) (N : Z) (P : option pp) (n : option nat).

(** the type as the rest of the model sees it *)
Definition forget (pol : nat -> ep) (t : ntype) : otype :=
  match t with
  | NRaw T => ORaw T
  | NSafe T mn mx P n => OSafe (mkSafe T mn mx P (pol n))
  | NLit T N P n => OLit T N P (option_map pol n)
  end.

(** safe_common.hpp:36-39, safe_base.hpp:58-67, safe_integer_literal.hpp:34-37, get_exception_policy;
    [None] = void *)
Definition policy_name (t : ntype) : option nat :=
  match t with NRaw _ => None | NSafe _ _ _ _ n => Some n | NLit _ _ _ n => n end.

(** safe_base_operations.hpp:248-285, common_exception_policy, with std::is_same on classes; the
    test that one operand is safe is made by [common_ep] as well *)
Definition common_name (t u : ntype) : option nat :=
  match policy_name t, policy_name u with
  | Some a, Some b => if Nat.eqb a b then Some b else None
  | None, Some b => Some b
  | Some a, None => Some a
  | None, None => None
  end.

(** the expressions of Program.v with named policies *)
Inductive nexpr : Type :=
| NConst (o : ntype) (z : Z)
| NVar (v : nat)
| NBin (op : binop) (first : bool) (a b : nexpr)
| NNeg (a : nexpr)
| NPos (a : nexpr)
| NCast (o : ntype) (a : nexpr).
Fixpoint forget_e (pol : nat -> ep) (e : nexpr) : expr :=
  match e with
  | NConst o z => EConst (forget pol o) z
  | NVar v => EVar v
  | NBin op f a b => EBin op f (forget_e pol a) (forget_e pol b)
  | NNeg a => ENeg (forget_e pol a)
  | NPos a => EPos (forget_e pol a)
  | NCast o a => ECast (forget pol o) (forget_e pol a)
  end.

(** compilation: safe_base_operations.hpp:377-1769 (result types of the operators),
    safe_base.hpp:246-268 (unary operators); conversions accept values of every policy
    (safe_base_operations.hpp:185-214) *)
Fixpoint n_type_of (pol : nat -> ep) (D : dmodel) (G : nat -> ntype) (e : nexpr) : option ntype :=
  match e with
  | NConst o _ => Some o
  | NVar v => Some (G v)
  | NBin op _ a b =>
      match n_type_of pol D G a, n_type_of pol D G b with
      | Some t, Some u =>
          match common_name t u, eval_binop D op (forget pol t) (forget pol u) 0 0 with
          | Some n, Some (s, _) => Some (NSafe (st s) (smin s) (smax s) (sP s) n)
          | _, _ => None
          end
      | _, _ => None
      end
  | NNeg a =>
      match n_type_of pol D G a with
      | Some (NSafe T mn mx P n) =>
          match unary_minus D (mkSafe T mn mx P (pol n)) 0 with
          | Some (s, _) => Some (NSafe (st s) (smin s) (smax s) (sP s) n)
          | None => None
          end
      | _ => None
      end
  | NPos a =>
      match n_type_of pol D G a with
      | Some (NSafe T mn mx P n) => Some (NSafe T mn mx P n)
      | _ => None
      end
  | NCast o a =>
      match n_type_of pol D G a with
      | Some t => match convert D (forget pol o) (forget pol t) 0 with Some _ => Some o | None => None end
      | None => None
      end
  end.

(** comparisons: safe_base_operations.hpp:1070-1267; compound assignment: v op= e is
    v = static_cast<T>(v op e), safe_base_operations.hpp:486-1769 *)
Definition n_cond_compiles (pol : nat -> ep) (D : dmodel) (G : nat -> ntype) (r : relop) (a b : nexpr) : bool :=
  match n_type_of pol D G a, n_type_of pol D G b with
  | Some t, Some u =>
      match common_name t u, eval_relop D r (forget pol t) (forget pol u) 0 0 with
      | Some _, Some _ => true
      | _, _ => false
      end
  | _, _ => false
  end.
Definition n_compound_compiles (pol : nat -> ep) (D : dmodel) (G : nat -> ntype) (op : binop) (v : nat) (e : nexpr) : bool :=
  match n_type_of pol D G e with
  | Some u =>
      match common_name (G v) u, compound D op (forget pol (G v)) (forget pol u) 0 0 with
      | Some _, Some _ => true
      | _, _ => false
      end
  | None => false
  end.
