(** PropsTrapProofs.v -- the lemmas behind PropsTrap.v. *)
From Coq Require Import ZArith Bool List.
From Verif Require Import Base CType Spec CheckedInteger CheckedResultOps Interval ExceptionPolicy
  Promotion SafeBase SafeSpec Program ProgramSpec TrapSpec TrapFacts TrapPolicyFacts.
Import ListNotations.
Local Open Scope Z_scope.

Lemma C64_expr_lemma : forall nat D G s i e t,
  (forall v, type_trap nat D (G v)) -> store_ok D G s i -> expr_trap nat D e -> type_of D G e = Some t ->
  exists z, value i e = Some z /\ returns (eval D G s e) z /\ holds D t z.
Proof. intros. eapply trap_expr; eassumption. Qed.

Lemma C64_lemma : forall nat D G fuel c s i,
  (forall v, type_trap nat D (G v)) -> store_ok D G s i ->
  cmd_trap nat D G c -> compiles D G c = true ->
  (exists s' i', exec fuel D G s c = Some (s', RDone) /\ store_ok D G s' i' /\ math_exec fuel i c = Finished i')
  \/ (exec fuel D G s c = None /\ math_exec fuel i c = Unfinished).
Proof.
  intros nat D G fuel c s i HG Hs Hc Hcc.
  pose proof (trap_exec nat D G fuel HG c s i Hc Hcc Hs) as A. unfold agrees in A.
  destruct (math_exec fuel i c) as [i'| |]; [left|right|contradiction].
  - destruct A as (s' & A & B). exists s', i'. auto.
  - auto.
Qed.
