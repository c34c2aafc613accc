(** PropsTold.v -- properties C57 (whole expressions) and C100: which policy is told about an
    error, and what becomes of it. *)
From Coq Require Import ZArith List Bool.
From Verif Require Import Base CType ExceptionPolicy Promotion SafeBase SafeSpec Program ToldSpec ToldFacts.
Import ListNotations.
Local Open Scope Z_scope.

(** C57: all operands of an expression, however deep, that are not inside an explicit cast have
    the exception policy and the promotion policy of its result, if they have any *)
Theorem C57_expressions : forall D G e t, type_of D G e = Some t ->
  (forall E, occurs_outside G e E -> get_ep t = Some E) /\ (forall P, promotes G e P -> get_pp t = Some P).
Proof. exact expr_policies. Qed.
Print Assumptions C57_expressions.

(** likewise for the two sides of a comparison *)
Theorem C57_conditions : forall D G r first a b, cond_compiles D G (Cond r first a b) = true ->
  (forall E F, (occurs_outside G a E \/ occurs_outside G b E) -> (occurs_outside G a F \/ occurs_outside G b F) -> E = F)
  /\ (forall P Q, (promotes G a P \/ promotes G b P) -> (promotes G a Q \/ promotes G b Q) -> P = Q).
Proof. exact cond_policies. Qed.
Print Assumptions C57_conditions.

(** x and y have different exception policies: x + 1 - y does not compile, with a cast it does *)
Example C57_expressions_nonvacuous :
  let x := OSafe (safe LP64 Int Native loose_exception_policy) in
  let y := OSafe (safe LP64 Int Native strict_exception_policy) in
  let G := fun v : nat => match v with O => x | _ => y end in
  let e b := EBin (BA Sub) true (EBin (BA Add) true (EVar 0) (EConst (ORaw Int) 1)) b in
  type_of LP64 G (e (EVar 1)) = None
  /\ type_of LP64 G (e (ECast x (EVar 1))) = Some x
  /\ occurs_outside G (e (ECast x (EVar 1))) loose_exception_policy
  /\ cond_compiles LP64 G (Cond RLt true (EVar 0) (EVar 1)) = false
  /\ cond_compiles LP64 G (Cond RLt true (EVar 0) (ECast x (EVar 1))) = true.
Proof. vm_compute. auto 10. Qed.

(** C100: evaluating an expression calls handlers of policies that occur in it only; the
    evaluation goes on after a call that returns and ends with the first that throws, and
    nothing else throws *)
Theorem C100_expressions : forall D G s e, told (occurs G e) (eval D G s e).
Proof. exact eval_told. Qed.
Print Assumptions C100_expressions.

(** without explicit casts there is one policy: that of the type of the expression *)
Theorem C100_one_policy : forall D G s e t, cast_free e -> type_of D G e = Some t ->
  told (fun E => get_ep t = Some E) (eval D G s e).
Proof. exact one_policy. Qed.
Print Assumptions C100_one_policy.

Theorem C100_conditions : forall D G s c, told (occurs_cond G c) (eval_cond D G s c).
Proof. exact cond_told. Qed.
Print Assumptions C100_conditions.

(** a conversion (initialisation, assignment, cast) is reported to the policy of the object that
    takes the value, whatever policy the value comes with; if that is a built-in type, to the
    policy of the value *)
Theorem C100_conversions : forall D tgt src x m, convert D tgt src x = Some m -> told (checker tgt src) m.
Proof. exact convert_told. Qed.
Print Assumptions C100_conversions.

(** a program raises only what a policy that occurs in it throws *)
Theorem C100_programs : forall n D G c s s' e, exec n D G s c = Some (s', RRaised e) ->
  exists E, occurs_cmd G c E /\ answers E e HThrow.
Proof. exact exec_raised. Qed.
Print Assumptions C100_programs.

(** so errors that no policy in it throws are never raised *)
Theorem C100_never_raised : forall n D G c s s' e, (forall E, occurs_cmd G c E -> ~ answers E e HThrow) ->
  exec n D G s c <> Some (s', RRaised e).
Proof. exact never_raised. Qed.
Print Assumptions C100_never_raised.

(** u, of a type that ignores arithmetic errors, is 4294967295: u + 1 + u + 2 reports two
    overflows and returns 1; assigned to a range type of the default policy, u + 1 + u + 2 raises
    nothing while u raises *)
Example C100_nonvacuous :
  let lax := mkEP HIgnore HIgnore HIgnore HIgnore in
  let u := OSafe (safe LP64 UInt Native lax) in
  let r := OSafe (mkSafe UInt 0 100 Native default_exception_policy) in
  let G := fun v : nat => match v with O => u | _ => r end in
  let s := fun v : nat => match v with O => Some 4294967295 | _ => Some 7 end in
  let e := EBin (BA Add) true (EBin (BA Add) true (EBin (BA Add) true (EVar 0) (EConst (ORaw Int) 1)) (EVar 0))
             (EConst (ORaw Int) 2) in
  type_of LP64 G e = Some u /\ cast_free e /\ occurs G e lax
  /\ eval LP64 G s e
     = ([(arithmetic_error, positive_overflow_error); (arithmetic_error, positive_overflow_error)], Ret 1)
  /\ (exists s', exec 5 LP64 G s (CAssign 1 e) = Some (s', RDone) /\ s' 1%nat = Some 1)
  /\ (exists s', exec 5 LP64 G s (CAssign 1 (EVar 0)) = Some (s', RRaised positive_overflow_error) /\ s' 1%nat = Some 7)
  /\ answers default_exception_policy positive_overflow_error HThrow
  /\ (forall E, occurs_cmd G (CAssign 0 e) E -> ~ answers E positive_overflow_error HThrow).
Proof.
  cbv zeta. repeat split; try (vm_compute; auto 10; fail).
  - eexists. split; vm_compute; reflexivity.
  - eexists. split; vm_compute; reflexivity.
  - intros E H Ha. unfold answers in Ha. cbn in H, Ha.
    repeat match goal with H : _ \/ _ |- _ => destruct H as [H|H] end; try discriminate; injection H as <-; discriminate Ha.
Qed.
