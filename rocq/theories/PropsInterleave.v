(** PropsInterleave.v -- C83, continued: the calls in the operands of an operator may also be
    interleaved. *)
From Coq Require Import ZArith List Bool.
From Verif Require Import Base CType Spec ExceptionPolicy Promotion SafeBase SafeSpec Program ProgramSpec
  OrderSpec Interleave InterleaveFacts.
Import ListNotations.
Local Open Scope Z_scope.

(** An expression returns z when evaluated as a whole in either order if and only if it does so
    under every interleaving, if and only if it does so under one. All operators, all policies. *)
Theorem C83_interleaved_values : forall D G s e t z, type_of D G e = Some t ->
  (snd (eval D G s e) = Ret z <-> (forall o, erun D G s e o -> o = Ret z))
  /\ (snd (eval D G s e) = Ret z <-> erun D G s e (Ret z)).
Proof. exact interleave_expr. Qed.
Print Assumptions C83_interleaved_values.

(** the orders of Program.v are interleavings *)
Theorem C83_orders_are_interleavings : forall D G s e t, type_of D G e = Some t -> erun D G s e (snd (eval D G s e)).
Proof. exact order_is_interleaving. Qed.
Print Assumptions C83_orders_are_interleavings.

(** evaluation is never stuck before the expression has been computed, and ends whatever the
    interleaving *)
Theorem C83_interleaved_progress : forall D G s e t, type_of D G e = Some t ->
  (exists z, e = EConst t z) \/ exists p, estep D G s e p.
Proof. exact estep_progress. Qed.
Print Assumptions C83_interleaved_progress.
Theorem C83_interleaved_ends : forall D G s, well_founded (fun e' e => estep D G s e (On e')).
Proof. exact estep_ends. Qed.
Print Assumptions C83_interleaved_ends.

(** with + - *, and / if promotion is native: under every interleaving the exact value, or an
    exception for an arithmetic error *)
Theorem C83_interleaved_exact : forall nat D G s i e t o, (forall v, type_ok nat D (G v)) -> store_ok D G s i ->
  expr_ok nat D e -> type_of D G e = Some t -> erun D G s e o ->
  (exists z, value i e = Some z /\ o = Ret z /\ holds D t z) \/ (exists x, arithmetic_err x /\ o = Throw x).
Proof. exact interleave_exact. Qed.
Print Assumptions C83_interleaved_exact.

(** Programs: unless one of them is undefined, an interleaved execution leaves the same values
    and ends in the same way as the one in a fixed order. All operators, all policies. *)
Theorem C83_interleaved_programs : forall D G fuel c s s1 r s2 r2,
  exec fuel D G s c = Some (s1, r) -> irun D G s c s2 r2 ->
  r = RUndef \/ r2 = RUndef \/ (s2 = s1 /\ same_end r r2).
Proof. exact interleave_cmd. Qed.
Print Assumptions C83_interleaved_programs.

(** every execution in a fixed order is one of the interleaved ones *)
Theorem C83_orders_of_programs : forall D G fuel c s s1 r, compiles D G c = true ->
  exec fuel D G s c = Some (s1, r) -> irun D G s c s1 r.
Proof. exact exec_irun. Qed.
Print Assumptions C83_orders_of_programs.

(** with + - *, and / if promotion is native, none is undefined, and the execution in a fixed
    order ends if an interleaved one does *)
Theorem C83_interleaved_exact_programs : forall nat D G c s i s2 r2,
  (forall v, type_ok nat D (G v)) -> store_ok D G s i -> cmd_ok nat D G c -> compiles D G c = true ->
  irun D G s c s2 r2 -> exists fuel r, exec fuel D G s c = Some (s2, r) /\ same_end r r2.
Proof. exact interleave_programs. Qed.
Print Assumptions C83_interleaved_exact_programs.

(** ((v0 - 1) / v2) + (v0 + 2147483640), v0 = 9 and v2 = 0. The difference is computed first,
    then the variable v0 on the right is read, then v2, and then either side throws *)
Definition il_G : tenv := fun v => OSafe (safe LP64 Int Native default_exception_policy).
Definition il_i (v : nat) : Z := match v with O => 9 | _ => 0 end.
Definition il_s : store := fun v => Some (il_i v).
Definition il_k (z : Z) : expr := EConst (ORaw Int) z.
Definition il_e : expr :=
  EBin (BA Add) true
    (EBin (BA Div) true (EBin (BA Sub) true (EVar 0) (il_k 1)) (EVar 2))
    (EBin (BA Add) true (EVar 0) (il_k 2147483640)).
Definition il_e4 : expr :=
  EBin (BA Add) true
    (EBin (BA Div) true (EConst (il_G 0%nat) 8) (EConst (il_G 2%nat) 0))
    (EBin (BA Add) true (EConst (il_G 0%nat) 9) (il_k 2147483640)).
Lemma il_steps : forall o, erun LP64 il_G il_s il_e4 o -> erun LP64 il_G il_s il_e o.
Proof.
  intros o H. unfold il_e.
  eapply ER_step; [apply ES_left, ES_left, ES_left; eapply ES_call; vm_compute; reflexivity|].
  eapply ER_step; [apply ES_left, ES_left; eapply ES_call; vm_compute; reflexivity|].
  eapply ER_step; [apply ES_right, ES_left; eapply ES_call; vm_compute; reflexivity|].
  eapply ER_step; [apply ES_left, ES_right; eapply ES_call; vm_compute; reflexivity|].
  exact H.
Qed.
Example C83_interleaved_nonvacuous :
  expr_ok true LP64 il_e /\ type_of LP64 il_G il_e = Some (il_G 0%nat) /\ store_ok LP64 il_G il_s il_i
  /\ (forall v, type_ok true LP64 (il_G v))
  /\ erun LP64 il_G il_s il_e (Throw domain_error) /\ erun LP64 il_G il_s il_e (Throw positive_overflow_error)
  /\ irun LP64 il_G il_s (CTry (CAssign 1 il_e) (CAssign 1 (EVar 0))) (upd il_s 1 (Some 9)) RDone.
Proof.
  assert (A : erun LP64 il_G il_s il_e (Throw domain_error)).
  { apply il_steps, ER_stop, ES_left_stop. eapply ES_call_stop; [vm_compute; reflexivity|discriminate]. }
  repeat match goal with |- _ /\ _ => split end.
  - cbn. unfold op_ok, type_ok. repeat split; auto; try (intros; discriminate); vm_compute; congruence.
  - vm_compute. reflexivity.
  - intros [|[|v]]; vm_compute; intuition congruence.
  - intros v. unfold type_ok. cbn. unfold in_type. split; [vm_compute; intuition congruence|]. split; intros.
    + injection H as <-. vm_compute. auto.
    + injection H0 as <-. reflexivity.
  - exact A.
  - apply il_steps, ER_stop, ES_right_stop. eapply ES_call_stop; [vm_compute; reflexivity|discriminate].
  - eapply IX_try_catch.
    + eapply IX_assign; [vm_compute; reflexivity|exact A|reflexivity].
    + eapply IX_assign; [reflexivity| |].
      * eapply ER_step; [eapply ES_call; reflexivity|apply ER_value].
      * reflexivity.
Qed.
