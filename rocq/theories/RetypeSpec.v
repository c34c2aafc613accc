(** RetypeSpec.v -- when two programs are the same up to the types they use. Of the
    model it uses the syntax of programs only. *)
From Coq Require Import ZArith List Bool Arith.
From Verif Require Import Base CType Spec ExceptionPolicy Promotion SafeBase SafeSpec Program ProgramSpec.
Local Open Scope Z_scope.

(** the same expression up to the types of constants and casts, and to the order in
    which operands are evaluated *)
Inductive same_expr : expr -> expr -> Prop :=
| SE_const : forall o o' z, same_expr (EConst o z) (EConst o' z)
| SE_var : forall v, same_expr (EVar v) (EVar v)
| SE_bin : forall op f f' a a' b b', same_expr a a' -> same_expr b b' ->
    same_expr (EBin op f a b) (EBin op f' a' b')
| SE_neg : forall a a', same_expr a a' -> same_expr (ENeg a) (ENeg a')
| SE_pos : forall a a', same_expr a a' -> same_expr (EPos a) (EPos a')
| SE_cast : forall o o' a a', same_expr a a' -> same_expr (ECast o a) (ECast o' a').

Inductive same_cond : cond -> cond -> Prop :=
| SC : forall r f f' a a' b b', same_expr a a' -> same_expr b b' ->
    same_cond (Cond r f a b) (Cond r f' a' b').

(** the same program up to types; there is no try, whose handler would observe that
    an exception was raised *)
Inductive same_cmd : cmd -> cmd -> Prop :=
| S_skip : same_cmd CSkip CSkip
| S_assign : forall v e e', same_expr e e' -> same_cmd (CAssign v e) (CAssign v e')
| S_compound : forall op v e e', same_expr e e' -> same_cmd (CCompound op v e) (CCompound op v e')
| S_inc : forall v, same_cmd (CInc v) (CInc v)
| S_dec : forall v, same_cmd (CDec v) (CDec v)
| S_post : forall inc w v, same_cmd (CPost inc w v) (CPost inc w v)
| S_seq : forall a a' b b', same_cmd a a' -> same_cmd b b' -> same_cmd (CSeq a b) (CSeq a' b')
| S_if : forall c c' a a' b b', same_cond c c' -> same_cmd a a' -> same_cmd b b' ->
    same_cmd (CIf c a b) (CIf c' a' b')
| S_while : forall c c' a a', same_cond c c' -> same_cmd a a' -> same_cmd (CWhile c a) (CWhile c' a').
