(** BoolSpec.v -- the specification for conditions on safe integers: the meaning
    the same condition has for built-in integers, over exact values. Of the model
    it uses the syntax of conditions only. *)
From Coq Require Import ZArith List Bool.
From Verif Require Import Base CType Spec Promotion SafeBase SafeSpec Program ProgramSpec BoolConv.
Local Open Scope Z_scope.

(** an integer is a flag when it is 0 or 1 *)
Definition flag (z : Z) : Prop := z = 0 \/ z = 1.

(** an integer counts as true when it is not zero; && and || look at the right
    operand only when they must *)
Fixpoint test_value (i : nat -> Z) (t : test) : option bool :=
  match t with
  | TExpr e => option_map (fun z => negb (z =? 0)) (value i e)
  | TCond c => truth i c
  | TNot a => option_map negb (test_value i a)
  | TAnd a b =>
      match test_value i a with
      | Some true => test_value i b
      | r => r
      end
  | TOr a b =>
      match test_value i a with
      | Some false => test_value i b
      | r => r
      end
  end.

Fixpoint test_ok (nat : bool) (D : dmodel) (t : test) : Prop :=
  match t with
  | TExpr e => expr_ok nat D e
  | TCond c => cond_ok nat D c
  | TNot a => test_ok nat D a
  | TAnd a b | TOr a b => test_ok nat D a /\ test_ok nat D b
  end.

(** the condition is built from tests of variables with value 0 or 1 *)
Fixpoint tests_flags (i : nat -> Z) (t : test) : Prop :=
  match t with
  | TExpr e => exists v, e = EVar v /\ flag (i v)
  | TCond _ => False
  | TNot a => tests_flags i a
  | TAnd a b | TOr a b => tests_flags i a /\ tests_flags i b
  end.
