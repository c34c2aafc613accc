(** PropsNamed.v -- property C57 for exception policies with an identity: in C++ two policies are
    the same if they are the same class. The number of a policy stands for its class, and [pol]
    tells what its handlers do. *)
From Coq Require Import ZArith List Bool.
From Verif Require Import Base CType ExceptionPolicy Promotion SafeBase Program NamedPolicy NamedSpec NamedFacts.
Import ListNotations.
Local Open Scope Z_scope.

(** C57: an expression compiles if and only if no operator in it has operands of two different
    policies and it compiles when policies are compared by their handlers *)
Theorem C57_identity : forall pol D G e,
  (exists t, n_type_of pol D G e = Some t)
  <-> (exists o, type_of D (fun v => forget pol (G v)) (forget_e pol e) = Some o) /\ unmixed G e.
Proof. exact named_exact. Qed.
Print Assumptions C57_identity.

(** and then it has the same type, and the policy of its operands *)
Theorem C57_identity_type : forall pol D G e t, n_type_of pol D G e = Some t ->
  type_of D (fun v => forget pol (G v)) (forget_e pol e) = Some (forget pol t)
  /\ (forall n, named_outside G e n -> policy_name t = Some n) /\ unmixed G e.
Proof. exact named_sound. Qed.
Print Assumptions C57_identity_type.

(** comparisons and compound assignments *)
Theorem C57_identity_conditions : forall pol D G r first a b, n_cond_compiles pol D G r a b = true <->
  cond_compiles D (fun v => forget pol (G v)) (Cond r first (forget_e pol a) (forget_e pol b)) = true
  /\ unmixed G a /\ unmixed G b
  /\ (forall n m, named_outside G a n \/ named_outside G b n -> named_outside G a m \/ named_outside G b m -> n = m).
Proof. exact named_cond_exact. Qed.
Print Assumptions C57_identity_conditions.

Theorem C57_identity_compound : forall pol D G op v e, n_compound_compiles pol D G op v e = true <->
  compiles D (fun v => forget pol (G v)) (CCompound op v (forget_e pol e)) = true /\ unmixed G e
  /\ (forall n m, policy_name (G v) = Some n \/ named_outside G e n -> policy_name (G v) = Some m \/ named_outside G e m -> n = m).
Proof. exact named_compound_exact. Qed.
Print Assumptions C57_identity_compound.

(** two policies with equal handlers: x + 1 - y does not compile, with a cast it does *)
Example C57_identity_nonvacuous :
  let pol := fun _ : nat => strict_exception_policy in
  let ty n := NSafe Int (-2147483648) 2147483647 Native n in
  let G := fun v : nat => ty v in
  let e b := NBin (BA Sub) true (NBin (BA Add) true (NVar 0) (NConst (NRaw Int) 1)) b in
  n_type_of pol LP64 G (e (NVar 1)) = None
  /\ type_of LP64 (fun v => forget pol (G v)) (forget_e pol (e (NVar 1))) = Some (forget pol (ty 0%nat))
  /\ n_type_of pol LP64 G (e (NCast (ty 0%nat) (NVar 1))) = Some (ty 0%nat)
  /\ n_cond_compiles pol LP64 G RLt (NVar 0) (NVar 1) = false
  /\ n_cond_compiles pol LP64 G RLt (NVar 0) (NCast (ty 0%nat) (NVar 1)) = true
  /\ n_compound_compiles pol LP64 G (BA Mul) 1 (NVar 1) = true
  /\ n_compound_compiles pol LP64 G (BA Mul) 1 (NVar 0) = false.
Proof. vm_compute. auto 10. Qed.
