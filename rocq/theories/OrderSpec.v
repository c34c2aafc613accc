(** OrderSpec.v -- programs that differ only in which operand of each binary operator and
    comparison is evaluated first. *)
From Coq Require Import ZArith List Bool.
From Verif Require Import Base CType Spec ExceptionPolicy Promotion SafeBase SafeSpec Program.
Local Open Scope Z_scope.

Inductive same_expr : expr -> expr -> Prop :=
| SE_const : forall o z, same_expr (EConst o z) (EConst o z)
| SE_var : forall v, same_expr (EVar v) (EVar v)
| SE_bin : forall op f f' a a' b b', same_expr a a' -> same_expr b b' -> same_expr (EBin op f a b) (EBin op f' a' b')
| SE_neg : forall a a', same_expr a a' -> same_expr (ENeg a) (ENeg a')
| SE_pos : forall a a', same_expr a a' -> same_expr (EPos a) (EPos a')
| SE_cast : forall o a a', same_expr a a' -> same_expr (ECast o a) (ECast o a').

Inductive same_cond : cond -> cond -> Prop :=
| SC_cond : forall r f f' a a' b b', same_expr a a' -> same_expr b b' -> same_cond (Cond r f a b) (Cond r f' a' b').

Inductive same_cmd : cmd -> cmd -> Prop :=
| SM_skip : same_cmd CSkip CSkip
| SM_default : forall v, same_cmd (CDefault v) (CDefault v)
| SM_assign : forall v e e', same_expr e e' -> same_cmd (CAssign v e) (CAssign v e')
| SM_compound : forall op v e e', same_expr e e' -> same_cmd (CCompound op v e) (CCompound op v e')
| SM_inc : forall v, same_cmd (CInc v) (CInc v)
| SM_dec : forall v, same_cmd (CDec v) (CDec v)
| SM_post : forall i w v, same_cmd (CPost i w v) (CPost i w v)
| SM_seq : forall a a' b b', same_cmd a a' -> same_cmd b b' -> same_cmd (CSeq a b) (CSeq a' b')
| SM_if : forall c c' a a' b b', same_cond c c' -> same_cmd a a' -> same_cmd b b' -> same_cmd (CIf c a b) (CIf c' a' b')
| SM_while : forall c c' a a', same_cond c c' -> same_cmd a a' -> same_cmd (CWhile c a) (CWhile c' a')
| SM_try : forall a a' b b', same_cmd a a' -> same_cmd b b' -> same_cmd (CTry a b) (CTry a' b').

(** both complete, or both end with an exception; which error is reported may differ *)
Definition same_end (r r' : result) : Prop :=
  (r = RDone /\ r' = RDone) \/ (exists e e', r = RRaised e /\ r' = RRaised e').
