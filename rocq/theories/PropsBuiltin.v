(** PropsBuiltin.v -- properties C53 and C54: safe types with native promotion as
    a replacement for built-in types, for expressions of any depth and programs
    of any length. *)
From Coq Require Import ZArith Bool List.
From Verif Require Import Base CType Spec CheckedInteger CheckedResultOps Interval ExceptionPolicy
  Promotion SafeBase SafeSpec IntervalFacts Program ProgramSpec BuiltinSpec BuiltinFacts PropsProgram.
Import ListNotations.
Local Open Scope Z_scope.

(** C53: whatever an expression over native safe types returns is what the
    expression over the built-in types returns, without undefined behaviour *)
Theorem C53_expressions : forall D G s i,
  (forall v, type_ok true D (G v)) -> store_ok D G s i ->
  forall e t z, expr_ok true D e -> type_of D G e = Some t -> returns (eval D G s e) z ->
  beval D G i e = Ok z.
Proof. exact beval_char. Qed.
Print Assumptions C53_expressions.

(** and so for a program that completes *)
Theorem C53_programs : forall D G fuel, (forall v, type_ok true D (G v)) ->
  forall c s i s', cmd_ok true D G c -> compiles D G c = true ->
  no_try c -> conds_lossless D G c -> store_ok D G s i ->
  exec fuel D G s c = Some (s', RDone) ->
  exists i', bexec fuel D G i c = Some (Ok i') /\ store_ok D G s' i'.
Proof. exact bexec_char. Qed.
Print Assumptions C53_programs.

(** without [conds_lossless] it is false, because the comparison of safe values
    is the mathematical one: -1 < 15u *)
Theorem C53_comparison_refuted : exists D G fuel c s i s' i',
  (forall v, type_ok true D (G v)) /\ cmd_ok true D G c /\ compiles D G c = true
  /\ no_try c /\ store_ok D G s i
  /\ exec fuel D G s c = Some (s', RDone) /\ bexec fuel D G i c = Some (Ok i')
  /\ s' 0%nat <> Some (i' 0%nat).
Proof.
  exists LP64, (fun v => match v with
                | O => OSafe (mkSafe Int (-5) 3 Native ex_ep)
                | _ => OSafe (mkSafe UInt 10 20 Native ex_ep) end), 1%nat,
    (CIf (Cond RLt true (EVar 0%nat) (EVar 1%nat)) (CInc 0%nat) (CDec 0%nat)),
    (fun v => match v with O => Some (-1) | _ => Some 15 end),
    (fun v => match v with O => -1 | _ => 15 end).
  do 2 eexists. splits.
  - intros [|v]; unfold type_ok; cbn; (split; [vm_compute; intuition congruence|]);
    (split; [intros E [= <-]; vm_compute; auto|intros _ P [= <-]; reflexivity]).
  - cbn. auto.
  - vm_compute. reflexivity.
  - cbn. auto.
  - intros [|v]; split; try reflexivity; unfold holds; cbn; vm_compute; intuition congruence.
  - vm_compute. reflexivity.
  - vm_compute. reflexivity.
  - vm_compute. congruence.
Qed.
Print Assumptions C53_comparison_refuted.

(** while (v0 < 10) { v0++; v5 = v5 * 2 - v0; v1 = -(v5 / 3) + 60; v4 = v0--; v0 += 1 } *)
Definition ex_p : cmd :=
  CWhile (Cond RLt true (EVar 0%nat) (EConst (ORaw Int) 10))
    (CSeq (CInc 0%nat)
    (CSeq (CAssign 5%nat (EBin (BA Sub) true (EBin (BA Mul) true (EVar 5%nat) (EConst (ORaw Int) 2)) (EVar 0%nat)))
    (CSeq (CAssign 1%nat (EBin (BA Add) false (ENeg (EBin (BA Div) true (EVar 5%nat) (EConst (ORaw Int) 3))) (EConst (ORaw Int) 60)))
    (CSeq (CPost false 4%nat 0%nat)
          (CCompound (BA Add) 0%nat (EConst (OLit SChar 1 None None) 1)))))).
Example C53_nonvacuous :
  cmd_ok true LP64 ex_G ex_p /\ compiles LP64 ex_G ex_p = true /\ no_try ex_p /\ conds_lossless LP64 ex_G ex_p
  /\ exists s' i', exec 20 LP64 ex_G ex_s ex_p = Some (s', RDone) /\ bexec 20 LP64 ex_G ex_i ex_p = Some (Ok i')
     /\ s' 0%nat = Some 10 /\ i' 0%nat = 10 /\ s' 5%nat = Some 12 /\ i' 5%nat = 12.
Proof.
  splits.
  - cbn. unfold type_ok, op_ok. cbn. unfold in_type, holds.
    repeat split; try (intros; discriminate); auto; vm_compute; congruence.
  - vm_compute. reflexivity.
  - cbn. auto 10.
  - cbn. vm_compute. intuition congruence.
  - do 2 eexists. split; [vm_compute; reflexivity|]. split; [vm_compute; reflexivity|].
    vm_compute. intuition congruence.
Qed.

(** C54: if no operation on the built-in types would lose anything, the safe
    program does not throw *)
Theorem C54_expressions : forall D G s i,
  (forall v, type_ok true D (G v)) -> store_ok D G s i ->
  forall e t z, expr_ok true D e -> type_of D G e = Some t -> lossless D G i e = Some z ->
  returns (eval D G s e) z.
Proof. exact lossless_char. Qed.
Print Assumptions C54_expressions.

Theorem C54_programs : forall D G fuel, (forall v, type_ok true D (G v)) ->
  forall c s i i', cmd_ok true D G c -> compiles D G c = true -> store_ok D G s i ->
  lossless_exec fuel D G i c = Some i' ->
  exists s', exec fuel D G s c = Some (s', RDone) /\ store_ok D G s' i'.
Proof. exact lossless_exec_char. Qed.
Print Assumptions C54_programs.

Example C54_nonvacuous :
  exists i', lossless_exec 20 LP64 ex_G ex_i ex_p = Some i' /\ i' 0%nat = 10 /\ i' 5%nat = 12.
Proof. eexists. split; [vm_compute; reflexivity|]. vm_compute. split; reflexivity. Qed.
