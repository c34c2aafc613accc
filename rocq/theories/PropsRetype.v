(** PropsRetype.v -- property C66: changing the types, the policies, the evaluation
    order or the platform of a program can make it raise an exception, but cannot
    change its results. *)
From Coq Require Import ZArith Bool List Lia.
From Verif Require Import Base CType Spec CheckedInteger CheckedResultOps Interval ExceptionPolicy
  Promotion SafeBase SafeSpec Program ProgramSpec RetypeSpec PropsRetypeProofs.
Import ListNotations.
Local Open Scope Z_scope.

(** expressions with the same exact value, however they are written and typed *)
Theorem C66_expressions : forall n n' D D' G G' s s' i e e' t t' z z',
  (forall v, type_ok n D (G v)) -> (forall v, type_ok n' D' (G' v)) ->
  store_ok D G s i -> store_ok D' G' s' i ->
  expr_ok n D e -> expr_ok n' D' e' -> type_of D G e = Some t -> type_of D' G' e' = Some t' ->
  value i e = value i e' -> returns (eval D G s e) z -> returns (eval D' G' s' e') z' -> z = z'.
Proof. exact C66_expr_lemma. Qed.
Print Assumptions C66_expressions.

(** programs without try that are the same up to types and evaluation order *)
Theorem C66_programs : forall n n' D D' G G' fuel fuel' c c' s s' i s1 s1',
  (forall v, type_ok n D (G v)) -> (forall v, type_ok n' D' (G' v)) ->
  store_ok D G s i -> store_ok D' G' s' i ->
  cmd_ok n D G c -> cmd_ok n' D' G' c' -> compiles D G c = true -> compiles D' G' c' = true ->
  same_cmd c c' ->
  exec fuel D G s c = Some (s1, RDone) -> exec fuel' D' G' s' c' = Some (s1', RDone) ->
  forall v, s1 v = s1' v.
Proof. exact C66_lemma. Qed.
Print Assumptions C66_programs.

(** Three typings: safe<int> where int has 32 bits; safe<long> with automatic
    promotion, and safe<int>, where int has 16 bits *)
Definition G1 : tenv := fun _ => OSafe (safe LP64 Int Native default_exception_policy).
Definition G2 : tenv := fun _ => OSafe (safe IP16 Long Automatic loose_exception_policy).
Definition G3 : tenv := fun _ => OSafe (safe IP16 Int Native default_exception_policy).
Definition ex_i : nat -> Z := fun v => match v with 0%nat => 300 | _ => 7 end.
Definition ex_s : store := fun v => Some (ex_i v).
(** v1 = v0 * (v0 - 1) *)
Definition ex_c : cmd :=
  CAssign 1%nat (EBin (BA Mul) true (EVar 0%nat) (EBin (BA Sub) true (EVar 0%nat) (EConst (ORaw Int) 1))).
Definition ex_c' : cmd :=
  CAssign 1%nat (EBin (BA Mul) false (EVar 0%nat) (EBin (BA Sub) true (EVar 0%nat) (EConst (OLit SChar 1 None None) 1))).
Lemma ex_ok : (forall v, type_ok false LP64 (G1 v)) /\ (forall v, type_ok false IP16 (G2 v))
  /\ (forall v, type_ok false IP16 (G3 v))
  /\ store_ok LP64 G1 ex_s ex_i /\ store_ok IP16 G2 ex_s ex_i /\ store_ok IP16 G3 ex_s ex_i.
Proof.
  assert (K : forall D T P E, on_arithmetic_error E = HThrow -> in_type D T 0 -> type_ok false D (OSafe (safe D T P E))).
  { intros D T P E HE H0. unfold type_ok, wf_operand. cbn. unfold in_type in *. split; [lia|].
    split; [intros E0 [= <-]; exact HE|intros H; discriminate]. }
  split; [intros v; apply K; [reflexivity|vm_compute; intuition congruence]|].
  split; [intros v; apply K; [reflexivity|vm_compute; intuition congruence]|].
  split; [intros v; apply K; [reflexivity|vm_compute; intuition congruence]|].
  split; [|split]; intros v; destruct v as [|v]; (split; [reflexivity|]); unfold holds; cbn; vm_compute; intuition congruence.
Qed.
Example C66_nonvacuous :
  cmd_ok false LP64 G1 ex_c /\ cmd_ok false IP16 G2 ex_c' /\ same_cmd ex_c ex_c'
  /\ compiles LP64 G1 ex_c = true /\ compiles IP16 G2 ex_c' = true
  /\ (exists s1, exec 1 LP64 G1 ex_s ex_c = Some (s1, RDone) /\ s1 1%nat = Some 89700)
  /\ (exists s1, exec 1 IP16 G2 ex_s ex_c' = Some (s1, RDone) /\ s1 1%nat = Some 89700)
  /\ exec 1 IP16 G3 ex_s ex_c = Some (ex_s, RRaised positive_overflow_error).
Proof.
  split; [cbn; unfold type_ok, op_ok; cbn; unfold in_type, holds;
          repeat split; try (intros; discriminate); auto; vm_compute; congruence|].
  split; [cbn; unfold type_ok, op_ok; cbn; unfold in_type, holds;
          repeat split; try (intros; discriminate); auto; vm_compute; congruence|].
  split; [repeat constructor|]. split; [vm_compute; reflexivity|]. split; [vm_compute; reflexivity|].
  split; [eexists; split; vm_compute; reflexivity|]. split; [eexists; split; vm_compute; reflexivity|].
  vm_compute. reflexivity.
Qed.

(** rearranged expressions: (v0 + v1) - v1 and v0, (v0 * v1) and (v1 * v0): the
    first may raise where v0 does not, but has no other value *)
Example C66_rearranged : forall i,
  value i (EBin (BA Sub) true (EBin (BA Add) true (EVar 0%nat) (EVar 1%nat)) (EVar 1%nat)) = value i (EVar 0%nat)
  /\ value i (EBin (BA Mul) true (EVar 0%nat) (EVar 1%nat)) = value i (EBin (BA Mul) true (EVar 1%nat) (EVar 0%nat)).
Proof. intros i. cbn. split; f_equal; lia. Qed.
