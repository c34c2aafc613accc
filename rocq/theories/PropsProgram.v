(** PropsProgram.v -- properties C33-C35, C50 and C52: expressions of any depth,
    programs of any length, chains of conversions. *)
From Coq Require Import ZArith Bool List.
From Verif Require Import Base CType Spec CheckedInteger CheckedResultOps Interval ExceptionPolicy
  Promotion SafeBase SafeSpec Program ProgramSpec PropsProgramProofs.
Import ListNotations.
Local Open Scope Z_scope.

(** Variables of the examples: 0 is safe<int>, 1 is safe_signed_range<0, 100>, 2 is
    safe<unsigned>, 3 a built-in int, the others safe<short>. *)
Definition ex_ep : ep := default_exception_policy.
Definition ex_G : tenv := fun v =>
  match v with
  | 0%nat => OSafe (safe LP64 Int Native ex_ep)
  | 1%nat => OSafe (mkSafe SChar 0 100 Native ex_ep)
  | 2%nat => OSafe (safe LP64 UInt Native ex_ep)
  | 3%nat => ORaw Int
  | _ => OSafe (safe LP64 Short Native ex_ep)
  end.
Definition ex_i : nat -> Z := fun v => match v with 0%nat => 3 | 1%nat => 40 | 2%nat => 7 | _ => 5 end.
Definition ex_s : store := fun v => Some (ex_i v).
Lemma ex_G_ok : forall nat v, type_ok nat LP64 (ex_G v).
Proof.
  intros nat v. destruct v as [|[|[|[|v]]]]; unfold type_ok; cbn; unfold in_type;
  (split; [vm_compute; intuition congruence|]; split; [intros E [= <-] || intros E [=]; vm_compute; auto|]);
  intros _ P; (intros [= <-]; reflexivity) || intros [=].
Qed.
Lemma ex_s_ok : store_ok LP64 ex_G ex_s ex_i.
Proof.
  intros v. destruct v as [|[|[|[|v]]]]; (split; [reflexivity|]); unfold holds; cbn; vm_compute; intuition congruence.
Qed.

(** C35 *)
Theorem C35_expressions : forall nat D G s i e t,
  (forall v, type_ok nat D (G v)) -> store_ok D G s i ->
  expr_ok nat D e -> type_of D G e = Some t ->
  (exists z, value i e = Some z /\ returns (eval D G s e) z /\ holds D t z)
  \/ throws_arith (eval D G s e).
Proof. exact C35_lemma. Qed.
Print Assumptions C35_expressions.

(** (v0 - 10) * v1 / -v0 + 5, and v2 - 8 *)
Definition ex_e : expr :=
  EBin (BA Add) true
    (EBin (BA Div) false
       (EBin (BA Mul) true (EBin (BA Sub) true (EVar 0%nat) (EConst (ORaw Int) 10)) (EVar 1%nat))
       (ENeg (EVar 0%nat)))
    (EConst (OLit SChar 5 None None) 5).
Definition ex_e2 : expr := EBin (BA Sub) true (EVar 2%nat) (EConst (ORaw Int) 8).
Example C35_nonvacuous :
  expr_ok true LP64 ex_e /\ expr_ok true LP64 ex_e2
  /\ type_of LP64 ex_G ex_e = Some (OSafe (mkSafe Int (-2147483643) 2147483647 Native ex_ep))
  /\ value ex_i ex_e = Some 98 /\ eval LP64 ex_G ex_s ex_e = ([], Ret 98)
  /\ type_of LP64 ex_G ex_e2 = Some (ex_G 2%nat)
  /\ eval LP64 ex_G ex_s ex_e2
     = ([(arithmetic_error, negative_overflow_error)], Throw negative_overflow_error).
Proof.
  split; [|split].
  - cbn. unfold type_ok, op_ok. cbn. unfold in_type, holds.
    repeat split; try (intros; discriminate); auto; vm_compute; congruence.
  - cbn. unfold type_ok, op_ok. cbn. unfold in_type, holds.
    repeat split; try (intros; discriminate); auto; vm_compute; congruence.
  - vm_compute. intuition congruence.
Qed.

(** C33: whatever a program does, with any fuel, the variables stay in their
    declared ranges and have the values exact arithmetic gives them, the
    steps that raised excepted; in particular nothing undefined happens *)
Theorem C33_programs : forall nat D G fuel c s i s' r,
  (forall v, type_ok nat D (G v)) -> store_ok D G s i ->
  cmd_ok nat D G c -> compiles D G c = true ->
  exec fuel D G s c = Some (s', r) ->
  exists i', store_ok D G s' i'
  /\ ((r = RDone /\ ideal i c i' true) \/ (exists e, r = RRaised e /\ ideal i c i' false)).
Proof. exact C33_lemma. Qed.
Print Assumptions C33_programs.

(** the amount of fuel does not matter *)
Theorem C33_fuel : forall D G n n' c s r, (n <= n')%nat ->
  exec n D G s c = Some r -> exec n' D G s c = Some r.
Proof. exact exec_mono. Qed.
Print Assumptions C33_fuel.

(** try { while (v0 < 10) { v1 += 25; v0++; } } catch (...) { v2 = v1 * v0; } *)
Definition ex_c : cmd :=
  CTry
    (CWhile (Cond RLt true (EVar 0%nat) (EConst (ORaw Int) 10))
       (CSeq (CCompound (BA Add) 1%nat (EConst (ORaw Int) 25)) (CInc 0%nat)))
    (CAssign 2%nat (EBin (BA Mul) true (EVar 1%nat) (EVar 0%nat))).
Example C33_nonvacuous :
  cmd_ok true LP64 ex_G ex_c /\ compiles LP64 ex_G ex_c = true
  /\ exists s', exec 10 LP64 ex_G ex_s ex_c = Some (s', RDone)
     /\ s' 0%nat = Some 5 /\ s' 1%nat = Some 90 /\ s' 2%nat = Some 450.
Proof.
  split.
  - cbn. unfold type_ok, op_ok. cbn. unfold in_type, holds.
    repeat split; try (intros; discriminate); auto; vm_compute; congruence.
  - split; [vm_compute; reflexivity|]. eexists. split; [vm_compute; reflexivity|].
    vm_compute. intuition congruence.
Qed.

(** C34: all operators, all policies *)
Theorem C34_strong_guarantee : forall D G fuel c s s' e, updates c ->
  exec fuel D G s c = Some (s', RRaised e) -> s' = s.
Proof. exact C34_lemma. Qed.
Print Assumptions C34_strong_guarantee.

Example C34_nonvacuous :
  updates (CCompound (BA Mul) 1%nat (EVar 0%nat))
  /\ exec 1 LP64 ex_G ex_s (CCompound (BA Mul) 1%nat (EVar 0%nat))
     = Some (ex_s, RRaised positive_overflow_error)
  /\ exec 1 LP64 ex_G ex_s (CAssign 1%nat (ENeg (EVar 0%nat))) = Some (ex_s, RRaised negative_overflow_error).
Proof.
  split; [right; left; eauto|]. vm_compute. split; reflexivity.
Qed.

(** C50 *)
Theorem C50_conversion_chain : forall nat D src ts x,
  type_ok nat D src -> (forall t, In t ts -> type_ok nat D t) -> holds D src x ->
  chain_compiles D src ts = true ->
  (returns (convert_chain D src ts x) x /\ forall t, In t ts -> holds D t x)
  \/ throws_arith (convert_chain D src ts x).
Proof. exact C50_lemma. Qed.
Print Assumptions C50_conversion_chain.

Example C50_nonvacuous :
  let ts := [ex_G 0%nat; ORaw Short; ex_G 1%nat; ORaw Long; ex_G 2%nat; ex_G 0%nat] in
  chain_compiles LP64 (ORaw Int) ts = true
  /\ convert_chain LP64 (ORaw Int) ts 77 = ([], Ret 77)
  /\ convert_chain LP64 (ORaw Int) ts 770
     = ([(arithmetic_error, positive_overflow_error)], Throw positive_overflow_error).
Proof. vm_compute. intuition congruence. Qed.

(** C52: all operators, all policies *)
Theorem C52_always_initialized : forall D G fuel c s s' r,
  no_silent_default G c -> initialized s ->
  exec fuel D G s c = Some (s', r) -> initialized s'.
Proof. exact C52_lemma. Qed.
Print Assumptions C52_always_initialized.

(** The default policy ignores uninitialized values: safe<int> x; x + 1 is
    undefined behaviour *)
Theorem C52_default_policy_refuted : exists D G fuel c s s',
  compiles D G c = true /\ initialized s
  /\ (forall v, get_ep (G v) = Some default_exception_policy)
  /\ exec fuel D G s c = Some (s', RUndef).
Proof.
  exists LP64, (fun _ => ex_G 0%nat), 1%nat, (CSeq (CDefault 0%nat) (CCompound (BA Add) 1%nat (EVar 0%nat))), ex_s.
  eexists. split; [vm_compute; reflexivity|]. split; [intros v; discriminate|]. split; [reflexivity|].
  vm_compute. reflexivity.
Qed.
Print Assumptions C52_default_policy_refuted.

Definition ex_strict : otype := OSafe (safe LP64 Int Native (mkEP HThrow HThrow HThrow HThrow)).
Example C52_nonvacuous :
  no_silent_default (fun _ => ex_strict) (CTry (CDefault 0%nat) (CInc 0%nat)) /\ initialized ex_s
  /\ exists s', exec 1 LP64 (fun _ => ex_strict) ex_s (CTry (CDefault 0%nat) (CInc 0%nat)) = Some (s', RDone)
  /\ s' 0%nat = Some 4.
Proof.
  split; [|split].
  - cbn. split; [|exact I]. intros E [= <-]. discriminate.
  - intros v. discriminate.
  - eexists. vm_compute. split; reflexivity.
Qed.
