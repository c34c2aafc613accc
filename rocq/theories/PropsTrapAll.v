(** PropsTrapAll.v -- property C79: programs with all ten operators under policies that
    turn arithmetic errors into compile-time errors. *)
From Coq Require Import ZArith Bool List.
From Verif Require Import Base CType Spec CheckedInteger CheckedResultOps Interval ExceptionPolicy
  Promotion SafeBase SafeSpec Program ProgramSpec ComposeSpec TrapSpec TrapAllSpec TrapAllFacts.
Import ListNotations.
Local Open Scope Z_scope.

(** Variables of the examples, all with strict_trap_policy: 0 is
    safe_unsigned_range<0, 100>, 1 is safe_unsigned_range<0, 1023>, 2 is
    safe_signed_range<-5, 100>, 3 is safe_unsigned_range<0, 2>, the others are
    safe<int>. *)
Definition ex_trap : ep := strict_trap_policy.
Definition ex_G : tenv := fun v =>
  match v with
  | 0%nat => OSafe (mkSafe UChar 0 100 Native ex_trap)
  | 1%nat => OSafe (mkSafe UShort 0 1023 Native ex_trap)
  | 2%nat => OSafe (mkSafe SChar (-5) 100 Native ex_trap)
  | 3%nat => OSafe (mkSafe UChar 0 2 Native ex_trap)
  | _ => OSafe (safe LP64 Int Native ex_trap)
  end.
Definition ex_lit (n : Z) : expr := EConst (OLit SChar n None None) n.
Definition store_of (i : nat -> Z) : store := fun v => Some (i v).
Lemma ex_G_ok : forall nat v, type_trap nat LP64 (ex_G v).
Proof.
  intros nat v. destruct v as [|[|[|[|v]]]]; unfold type_trap; cbn; unfold in_type;
  (split; [vm_compute; intuition congruence|]; split; [intros E [= <-]; reflexivity|]);
  intros _ P [= <-]; reflexivity.
Qed.
Lemma ex_lit_ok : forall nat n, in_type LP64 SChar n -> type_trap nat LP64 (OLit SChar n None None).
Proof.
  intros nat n H. split; [|split; intros; discriminate].
  split; [exact H|split; [exact H|apply Z.le_refl]].
Qed.

(** C79: an expression that compiles always has its exact value, inside the declared
    range of its type, when each operator is exact for its operand types *)
Theorem C79_expressions_partial : forall nat D G s i e t,
  (forall v, type_trap nat D (G v)) -> store_ok D G s i ->
  expr_quiet nat D G None e -> type_of D G e = Some t ->
  exists z, value i e = Some z /\ returns (eval D G s e) z /\ holds D t z.
Proof. exact C79_expr_lemma. Qed.
Print Assumptions C79_expressions_partial.

(** C79: such a program ends exactly when the program over the mathematical integers
    ends, and with the same values *)
Theorem C79_programs_partial : forall nat D G fuel c s i,
  (forall v, type_trap nat D (G v)) -> store_ok D G s i ->
  cmd_quiet nat D G c -> compiles D G c = true ->
  (exists s' i', exec fuel D G s c = Some (s', RDone) /\ store_ok D G s' i' /\ math_exec fuel i c = Finished i')
  \/ (exec fuel D G s c = None /\ math_exec fuel i c = Unfinished).
Proof. exact C79_lemma. Qed.
Print Assumptions C79_programs_partial.

(** C79, without conditions: no handler is ever called, nothing is ever thrown *)
Theorem C79_no_handler_called : forall D G s e,
  (forall v, type_traps (G v)) -> expr_traps e -> silent (eval D G s e).
Proof. intros D G s e HG He. exact (proj1 (expr_silent D G s e HG He)). Qed.
Print Assumptions C79_no_handler_called.

Theorem C79_never_raises : forall D G fuel c s s' e,
  (forall v, type_traps (G v)) -> cmd_traps c -> exec fuel D G s c <> Some (s', RRaised e).
Proof. intros D G fuel c s s' e HG Hc. exact (exec_never D G fuel HG c Hc s s' e). Qed.
Print Assumptions C79_never_raises.

(** v4 = v0 % 7;  while (v0 > 1) { v1 = (v0 << 3) | (v0 & 7); v0 >>= 1; } *)
Definition ex_c : cmd :=
  CSeq (CAssign 4%nat (EBin (BA Mod) true (EVar 0%nat) (ex_lit 7)))
  (CWhile (Cond RGt true (EVar 0%nat) (ex_lit 1))
    (CSeq (CAssign 1%nat (EBin (BB Or) true (EBin (BA Shl) false (EVar 0%nat) (ex_lit 3))
                                            (EBin (BB And) true (EVar 0%nat) (ex_lit 7))))
          (CCompound (BA Shr) 0%nat (ex_lit 1)))).
Definition ex_i : nat -> Z := fun v => match v with 0%nat => 90 | 1%nat => 5 | 3%nat => 1 | _ => 7 end.
Ltac quiet_types :=
  repeat match goal with
  | |- _ /\ _ => split
  | |- type_trap _ _ (OLit _ _ _ _) => apply ex_lit_ok; vm_compute; intuition congruence
  | |- holds _ _ _ => vm_compute; intuition congruence
  | |- True => exact I
  end.
Ltac quiet_operator :=
  intros t u Et Eu; vm_compute in Et, Eu; injection Et as <-; injection Eu as <-;
  intros rs m E; vm_compute in E; injection E as <- <-; vm_compute; intuition congruence.
Example C79_nonvacuous :
  cmd_quiet true LP64 ex_G ex_c /\ compiles LP64 ex_G ex_c = true /\ cmd_traps ex_c
  /\ (forall v, type_traps (ex_G v))
  /\ store_ok LP64 ex_G (store_of ex_i) ex_i
  /\ exec 3 LP64 ex_G (store_of ex_i) ex_c = None /\ math_exec 3 ex_i ex_c = Unfinished
  /\ (exists s', exec 20 LP64 ex_G (store_of ex_i) ex_c = Some (s', RDone)
      /\ s' 0%nat = Some 1 /\ s' 1%nat = Some 18 /\ s' 4%nat = Some 6)
  /\ (exists i', math_exec 20 ex_i ex_c = Finished i' /\ i' 0%nat = 1 /\ i' 1%nat = 18 /\ i' 4%nat = 6).
Proof.
  split; [|split; [vm_compute; reflexivity|split; [|split; [|split; [|split; [vm_compute; reflexivity|split; [vm_compute; reflexivity|]]]]]]].
  - cbn [cmd_quiet cond_quiet expr_quiet ex_c ex_lit]. quiet_types; try quiet_operator.
    intros t Et; vm_compute in Et; injection Et as <-.
    intros rs m E; vm_compute in E; injection E as <- <-; vm_compute; intuition congruence.
  - cbn. repeat split; intros E H; discriminate.
  - intros v. destruct v as [|[|[|[|v]]]]; intros E [= <-]; reflexivity.
  - intros v. split; [reflexivity|]. destruct v as [|[|[|[|v]]]]; vm_compute; intuition congruence.
  - split; eexists; (split; [vm_compute; reflexivity|]); vm_compute; intuition congruence.
Qed.

(** Without the conditions a program that compiles under strict_trap_policy can go
    wrong. r << 3, r a safe_signed_range<-5, 100> and 3 a literal, assigned to a
    safe<int>, is undefined for negative r. *)
Theorem C79_undefined_refuted : exists D G i c s',
  (forall v, type_trap true D (G v)) /\ (forall v, holds D (G v) (i v))
  /\ c = CAssign 4%nat (EBin (BA Shl) true (EVar 2%nat) (ex_lit 3))
  /\ cmd_traps c /\ compiles D G c = true
  /\ exec 1 D G (store_of i) c = Some (s', RUndef).
Proof.
  exists LP64, ex_G, (fun v => match v with 2%nat => -5 | _ => 1 end).
  exists (CAssign 4%nat (EBin (BA Shl) true (EVar 2%nat) (ex_lit 3))). eexists.
  split; [apply ex_G_ok|].
  split; [intros v; destruct v as [|[|[|[|v]]]]; vm_compute; intuition congruence|].
  split; [reflexivity|]. split; [cbn; repeat split; intros E H; discriminate|].
  split; vm_compute; reflexivity.
Qed.
Print Assumptions C79_undefined_refuted.

(** safe_unsigned_range<0, 2> w = r % 7, r a safe_unsigned_range<0, 100> and 7 a
    literal, compiles under strict_trap_policy and stores 6 in w when r is 20: 100 % 7
    is 2, so r % 7 is declared [0, 2] *)
Theorem C79_range_refuted : exists D G i c s' z,
  (forall v, type_trap true D (G v)) /\ (forall v, holds D (G v) (i v))
  /\ c = CAssign 3%nat (EBin (BA Mod) true (EVar 0%nat) (ex_lit 7))
  /\ cmd_traps c /\ compiles D G c = true
  /\ exec 1 D G (store_of i) c = Some (s', RDone) /\ s' 3%nat = Some z /\ ~ holds D (G 3%nat) z.
Proof.
  exists LP64, ex_G, (fun v => match v with 0%nat => 20 | _ => 1 end).
  exists (CAssign 3%nat (EBin (BA Mod) true (EVar 0%nat) (ex_lit 7))). eexists. exists 6.
  split; [apply ex_G_ok|].
  split; [intros v; destruct v as [|[|[|[|v]]]]; vm_compute; intuition congruence|].
  split; [reflexivity|]. split; [cbn; repeat split; intros E H; discriminate|].
  split; [vm_compute; reflexivity|]. split; [vm_compute; reflexivity|].
  split; [vm_compute; reflexivity|]. vm_compute. intuition congruence.
Qed.
Print Assumptions C79_range_refuted.
