(** PropsBuiltinAll.v -- property C74: native safe programs that use all ten
    operators. *)
From Coq Require Import ZArith Bool List.
From Verif Require Import Base CType Spec CheckedInteger CheckedResultOps Interval IntervalFacts ExceptionPolicy
  Promotion SafeBase SafeSpec Program ProgramSpec ComposeSpec BuiltinSpec BuiltinAllSpec BuiltinAllFacts PropsCompose.
Import ListNotations.
Local Open Scope Z_scope.

(** C74: where the conditions of C73 hold and no left operand of << can be negative,
    what a native safe expression returns is what the built-in expression returns,
    without undefined behaviour *)
Theorem C74_builtin_expressions_partial : forall D G s i,
  (forall v, type_fine true D (G v)) -> store_ok D G s i ->
  forall e tgt t z, expr_fine true D G tgt e -> every_op (shl_defined D) D G e ->
  type_of D G e = Some t -> returns (eval D G s e) z ->
  beval D G i e = Ok z.
Proof. exact beval_char2. Qed.
Print Assumptions C74_builtin_expressions_partial.

Theorem C74_builtin_programs_partial : forall D G fuel, (forall v, type_fine true D (G v)) ->
  forall c s i s', cmd_fine true D G c -> every_op_cmd (shl_defined D) D G c -> compiles D G c = true ->
  no_try c -> conds_lossless D G c -> store_ok D G s i ->
  exec fuel D G s c = Some (s', RDone) ->
  exists i', bexec fuel D G i c = Some (Ok i') /\ store_ok D G s' i'.
Proof. exact bexec_char2. Qed.
Print Assumptions C74_builtin_programs_partial.

(** the condition on << is needed: safe<int>(-20) << 0 is -20, and -20 << 0 is
    undefined *)
Theorem C74_shift_undefined_refuted : exists D G i e t z,
  (forall v, type_fine true D (G v)) /\ store_ok D G (store_of i) i /\ expr_fine true D G None e
  /\ e = EBin (BA Shl) true (EVar 0%nat) (EVar 1%nat)
  /\ type_of D G e = Some t /\ returns (eval D G (store_of i) e) z /\ beval D G i e = UB.
Proof.
  exists LP64, ex_G, (fun v => match v with 0%nat => -20 | _ => 0 end).
  exists (EBin (BA Shl) true (EVar 0%nat) (EVar 1%nat)).
  exists (OSafe (mkSafe Int (-2147483648) 2147483647 Native ex_ep)), (-20).
  splits.
  - apply ex_G_fine.
  - apply store_of_ok. intros v. destruct v as [|[|[|[|[|v]]]]]; vm_compute; intuition congruence.
  - cbn [expr_fine]. fine_types; fine_operator.
  - reflexivity.
  - vm_compute. reflexivity.
  - vm_compute. reflexivity.
  - vm_compute. reflexivity.
Qed.
Print Assumptions C74_shift_undefined_refuted.

(** while (v2 > 0u) { v0 = int(v0 + int(v2 % 10) ^ 5) - v0; v2 >>= 3; v0 *= 3;
      v3 = (v1 << v4) | (v1 & 6); }  v0 %= 7; v5 = v3 / 9; *)
Definition ex_all : cmd :=
  CSeq
    (CWhile (Cond RGt true (EVar 2%nat) (EConst (ORaw UInt) 0))
       (CSeq (CAssign 0%nat (EBin (BA Sub) true
                (ECast (ORaw Int) (EBin (BB Xor) true
                  (EBin (BA Add) true (EVar 0%nat) (ECast (ORaw Int) (EBin (BA Mod) true (EVar 2%nat) (ex_lit 10))))
                  (ex_lit 5))) (EVar 0%nat)))
       (CSeq (CCompound (BA Shr) 2%nat (ex_lit 3))
       (CSeq (CCompound (BA Mul) 0%nat (ex_lit 3))
             (CAssign 3%nat (EBin (BB Or) true (EBin (BA Shl) true (EVar 1%nat) (EVar 4%nat))
                               (EBin (BB And) true (EVar 1%nat) (ex_lit 6))))))))
    (CSeq (CCompound (BA Mod) 0%nat (ex_lit 7))
          (CAssign 5%nat (EBin (BA Div) true (EBin (BA Add) true (EVar 3%nat) (EVar 1%nat)) (ex_lit 9)))).
Ltac every :=
  repeat match goal with
  | |- _ /\ _ => split
  | |- True => exact I
  | |- forall t u, _ = Some t -> _ = Some u -> _ =>
      let t := fresh in let u := fresh in let E := fresh in let F := fresh in
      intros t u E F; vm_compute in E, F; injection E as <-; injection F as <-;
      unfold shl_defined, shift_bounded; (intros [=]; vm_compute; intuition congruence) || (vm_compute; intuition congruence)
  | |- forall u, _ = Some u -> _ =>
      let u := fresh in let E := fresh in
      intros u E; vm_compute in E; injection E as <-;
      unfold shl_defined, shift_bounded; (intros [=]; vm_compute; intuition congruence) || (vm_compute; intuition congruence)
  end.
Lemma ex_all_fine : cmd_fine true LP64 ex_G ex_all.
Proof.
  assert (H3 : type_fine true LP64 (ORaw Int)) by exact (ex_G_fine true 3%nat).
  assert (HU : type_fine true LP64 (ORaw UInt)).
  { split; [|intros E [=]]. split; [vm_compute; intuition congruence|]. split; intros; discriminate. }
  cbn [cmd_fine cond_fine expr_fine ex_all ex_lit]. fine_types; try fine_operator; try assumption;
  intros t Et; vm_compute in Et; injection Et as <-;
  intros rs m E; vm_compute in E; injection E as <- <-; vm_compute; intuition congruence.
Qed.
Lemma ex_i_holds : forall v, holds LP64 (ex_G v) (ex_i v).
Proof. intros v. destruct v as [|[|[|[|[|v]]]]]; vm_compute; intuition congruence. Qed.
Example C74_builtin_nonvacuous :
  cmd_fine true LP64 ex_G ex_all /\ every_op_cmd (shl_defined LP64) LP64 ex_G ex_all
  /\ compiles LP64 ex_G ex_all = true
  /\ no_try ex_all /\ conds_lossless LP64 ex_G ex_all /\ store_ok LP64 ex_G (store_of ex_i) ex_i
  /\ exists s' i', exec 20 LP64 ex_G (store_of ex_i) ex_all = Some (s', RDone)
     /\ bexec 20 LP64 ex_G ex_i ex_all = Some (Ok i')
     /\ s' 0%nat = Some 5 /\ i' 0%nat = 5 /\ s' 5%nat = Some 146 /\ i' 5%nat = 146.
Proof.
  splits.
  - exact ex_all_fine.
  - cbn [every_op_cmd every_op_cond every_op ex_all ex_lit]. every.
  - vm_compute. reflexivity.
  - cbn. auto 10.
  - vm_compute. intuition congruence.
  - apply store_of_ok, ex_i_holds.
  - do 2 eexists. split; [vm_compute; reflexivity|]. split; [vm_compute; reflexivity|].
    vm_compute. intuition congruence.
Qed.

(** C74: where the conditions of C73 hold, no operand of a shift can be negative and
    no count too large, a program over built-in types that loses nothing does not
    throw when its types are replaced by safe ones *)
Theorem C74_lossless_expressions_partial : forall D G s i,
  (forall v, type_fine true D (G v)) -> store_ok D G s i ->
  forall e tgt t z, expr_fine true D G tgt e -> every_op (shift_bounded D) D G e ->
  type_of D G e = Some t -> lossless D G i e = Some z ->
  returns (eval D G s e) z.
Proof. exact lossless_char2. Qed.
Print Assumptions C74_lossless_expressions_partial.

Theorem C74_lossless_programs_partial : forall D G fuel, (forall v, type_fine true D (G v)) ->
  forall c s i i', cmd_fine true D G c -> every_op_cmd (shift_bounded D) D G c -> compiles D G c = true ->
  store_ok D G s i ->
  lossless_exec fuel D G i c = Some i' ->
  exists s', exec fuel D G s c = Some (s', RDone) /\ store_ok D G s' i'.
Proof. exact lossless_exec_char2. Qed.
Print Assumptions C74_lossless_programs_partial.

Example C74_lossless_nonvacuous :
  every_op_cmd (shift_bounded LP64) LP64 ex_G ex_all
  /\ exists i', lossless_exec 20 LP64 ex_G ex_i ex_all = Some i' /\ i' 0%nat = 5 /\ i' 5%nat = 146.
Proof.
  split; [cbn [every_op_cmd every_op_cond every_op ex_all ex_lit]; every|].
  eexists. split; [vm_compute; reflexivity|]. vm_compute. split; reflexivity.
Qed.

(** the condition on shifts is needed: safe<int>(0) << 31 throws *)
Theorem C74_shift_throws_refuted : exists D G i e t,
  (forall v, type_fine true D (G v)) /\ store_ok D G (store_of i) i /\ expr_fine true D G None e
  /\ e = EBin (BA Shl) true (EVar 0%nat) (EVar 1%nat)
  /\ type_of D G e = Some t /\ lossless D G i e = Some 0 /\ throws_impl (eval D G (store_of i) e).
Proof.
  exists LP64, ex_G, (fun v => match v with 1%nat => 31 | _ => 0 end).
  exists (EBin (BA Shl) true (EVar 0%nat) (EVar 1%nat)).
  exists (OSafe (mkSafe Int (-2147483648) 2147483647 Native ex_ep)).
  splits.
  - apply ex_G_fine.
  - apply store_of_ok. intros v. destruct v as [|[|[|[|[|v]]]]]; vm_compute; intuition congruence.
  - cbn [expr_fine]. fine_types; fine_operator.
  - reflexivity.
  - vm_compute. reflexivity.
  - vm_compute. reflexivity.
  - exists shift_too_large. vm_compute. auto.
Qed.
Print Assumptions C74_shift_throws_refuted.
