(** PropsTrap.v -- properties C64 and C65: programs all of whose safe types have a
    policy that turns arithmetic errors into compile-time errors (strict_trap_policy,
    loose_trap_policy). *)
From Coq Require Import ZArith Bool List.
From Verif Require Import Base CType Spec CheckedInteger CheckedResultOps Interval ExceptionPolicy
  Promotion SafeBase SafeSpec Program ProgramSpec TrapSpec TrapPolicyFacts PropsTrapProofs.
Import ListNotations.
Local Open Scope Z_scope.

(** Variables of the examples, all with strict_trap_policy: 0 is
    safe_signed_range<0, 1000>, the others are safe_signed_range<0, 2000000> *)
Definition ex_trap : ep := strict_trap_policy.
Definition ex_G : tenv := fun v =>
  match v with
  | 0%nat => OSafe (mkSafe Short 0 1000 Native ex_trap)
  | _ => OSafe (mkSafe Int 0 2000000 Native ex_trap)
  end.
Definition ex_i : nat -> Z := fun v => match v with 0%nat => 900 | _ => 5 end.
Definition ex_s : store := fun v => Some (ex_i v).
Lemma ex_G_ok : forall nat v, type_trap nat LP64 (ex_G v).
Proof.
  intros nat v. destruct v as [|v]; unfold type_trap; cbn; unfold in_type;
  (split; [vm_compute; intuition congruence|]; split; [intros E [= <-]; reflexivity|]);
  intros _ P [= <-]; reflexivity.
Qed.
Lemma ex_s_ok : store_ok LP64 ex_G ex_s ex_i.
Proof.
  intros v. destruct v as [|v]; (split; [reflexivity|]); unfold holds; cbn; vm_compute; intuition congruence.
Qed.

(** C64: an expression that compiles always has its exact value *)
Theorem C64_expressions : forall nat D G s i e t,
  (forall v, type_trap nat D (G v)) -> store_ok D G s i -> expr_trap nat D e -> type_of D G e = Some t ->
  exists z, value i e = Some z /\ returns (eval D G s e) z /\ holds D t z.
Proof. exact C64_expr_lemma. Qed.
Print Assumptions C64_expressions.

(** C64: a program that compiles never raises an exception, never divides by zero
    and does nothing undefined: for every number of loop iterations allowed it ends
    exactly when the program over the mathematical integers ends, and with the same
    values *)
Theorem C64_programs : forall nat D G fuel c s i,
  (forall v, type_trap nat D (G v)) -> store_ok D G s i ->
  cmd_trap nat D G c -> compiles D G c = true ->
  (exists s' i', exec fuel D G s c = Some (s', RDone) /\ store_ok D G s' i' /\ math_exec fuel i c = Finished i')
  \/ (exec fuel D G s c = None /\ math_exec fuel i c = Unfinished).
Proof. exact C64_lemma. Qed.
Print Assumptions C64_programs.

(** while (v0 > 1) { v1 = v0 * v0 + v0; v0 = v0 / 2; }, where 1 and 2 are literals
    of the library; [ex_bad] would have to check: v1 *= v0 *)
Definition ex_lit (n : Z) : expr := EConst (OLit SChar n None None) n.
Definition ex_c : cmd :=
  CWhile (Cond RGt true (EVar 0%nat) (ex_lit 1))
    (CSeq (CAssign 1%nat (EBin (BA Add) true (EBin (BA Mul) false (EVar 0%nat) (EVar 0%nat)) (EVar 0%nat)))
          (CAssign 0%nat (EBin (BA Div) true (EVar 0%nat) (ex_lit 2)))).
Definition ex_bad : cmd := CCompound (BA Mul) 1%nat (EVar 0%nat).
Example C64_nonvacuous :
  cmd_trap true LP64 ex_G ex_c /\ compiles LP64 ex_G ex_c = true
  /\ compiles LP64 ex_G ex_bad = false
  /\ exec 3 LP64 ex_G ex_s ex_c = None /\ math_exec 3 ex_i ex_c = Unfinished
  /\ (exists s', exec 20 LP64 ex_G ex_s ex_c = Some (s', RDone) /\ s' 0%nat = Some 1 /\ s' 1%nat = Some 12)
  /\ (exists i', math_exec 20 ex_i ex_c = Finished i' /\ i' 0%nat = 1 /\ i' 1%nat = 12).
Proof.
  split.
  - cbn. unfold type_trap, op_ok. cbn. unfold in_type, holds.
    repeat split; try (intros; discriminate); auto; vm_compute; congruence.
  - split; [vm_compute; reflexivity|]. split; [vm_compute; reflexivity|].
    split; [vm_compute; reflexivity|]. split; [vm_compute; reflexivity|].
    split; eexists; (split; [vm_compute; reflexivity|]); vm_compute; intuition congruence.
Qed.

(** C65: changing the policies of a program that compiles under trap policies, to
    any policy F, leaves a program that compiles and executes identically; all
    operators, all data models, all promotion policies *)
Theorem C65_any_policy : forall F D G, (forall v, type_traps (G v)) ->
  forall c, cmd_traps c -> compiles D G c = true ->
  compiles D (fun v => with_policy F (G v)) (cmd_with F c) = true
  /\ forall fuel s, exec fuel D (fun v => with_policy F (G v)) s (cmd_with F c) = exec fuel D G s c.
Proof. exact exec_same. Qed.
Print Assumptions C65_any_policy.

(** [ex_c] under the default policy; and a program the default policy accepts and
    that throws there, which trap policies reject *)
Example C65_nonvacuous :
  (forall v, type_traps (ex_G v)) /\ cmd_traps ex_c
  /\ (fun v => with_policy default_exception_policy (ex_G v)) 0%nat
     = OSafe (mkSafe Short 0 1000 Native default_exception_policy)
  /\ compiles LP64 (fun v => with_policy default_exception_policy (ex_G v)) ex_bad = true
  /\ compiles LP64 ex_G ex_bad = false.
Proof.
  split; [intros v; destruct v as [|v]; intros E [= <-]; reflexivity|].
  split; [cbn; repeat split; intros E H; discriminate|].
  vm_compute. intuition congruence.
Qed.
