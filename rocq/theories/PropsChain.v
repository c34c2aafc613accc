(** PropsChain.v -- property C99: assignments used as operands of other assignments. *)
From Coq Require Import ZArith Bool List.
From Verif Require Import Base CType Spec ExceptionPolicy Promotion SafeBase SafeSpec
  Program ProgramSpec ComposeSpec BuiltinSpec ChainProgram ChainSpec ChainFacts.
Import ListNotations.
Local Open Scope Z_scope.

(** C99: if the result of a compound assignment is used as a value only, and no operand that is
    evaluated before another is changed by it, all the variables get the values of exact
    arithmetic and the whole denotes the variable assigned to, or an exception reports an
    arithmetic error and exactly the assignments made before it have happened *)
Theorem C99_assignments_partial : forall nat D G l t s i s' o,
  (forall v, type_ok nat D (G v)) -> store_ok D G s i -> asg_ok nat D l ->
  asg_type D G l = Some t -> keeps_targets l -> calm l -> asg_eval D G l s = (s', o) ->
  (exists p i' z, o = APlace p /\ chain l i = Some (i', z) /\ store_ok D G s' i' /\ returns (content s' p) z /\ holds D t z
      /\ (still_object l = true -> exists v, denotes_var l = Some v /\ p = PVar v))
  \/ (exists e i', o = AStop (RRaised e) /\ arithmetic_err e /\ chain_stops l i i' /\ store_ok D G s' i').
Proof. exact C99_chain. Qed.
Print Assumptions C99_assignments_partial.

(** the same with all ten operators, where their declared result ranges are right *)
Theorem C99_all_operators_partial : forall nat D G l t s i s' o,
  (forall v, type_fine nat D (G v)) -> store_ok D G s i -> asg_fine nat D G l ->
  asg_type D G l = Some t -> keeps_targets l -> calm l -> asg_eval D G l s = (s', o) ->
  (exists p i' z, o = APlace p /\ chain l i = Some (i', z) /\ store_ok D G s' i' /\ returns (content s' p) z /\ holds D t z
      /\ (still_object l = true -> exists v, denotes_var l = Some v /\ p = PVar v))
  \/ (exists e i', o = AStop (RRaised e) /\ (arithmetic_err e \/ shift_err e) /\ chain_stops l i i' /\ store_ok D G s' i').
Proof. exact C99_chain2. Qed.
Print Assumptions C99_all_operators_partial.

(** every nesting, without those two conditions: what happens in exact arithmetic if a compound
    assignment denotes a copy of the new value and operands are read when the operator is applied
    ([actual] of ChainSpec.v), or an exception and exactly the assignments made before it *)
Theorem C99_every_nesting : forall nat D G l t s i s' o,
  (forall v, type_ok nat D (G v)) -> store_ok D G s i -> asg_ok nat D l ->
  asg_type D G l = Some t -> asg_eval D G l s = (s', o) ->
  (exists p i', o = APlace p /\ actual l i = Some (i', p) /\ store_ok D G s' i' /\ holds D t (place_value i' p))
  \/ (exists e i', o = AStop (RRaised e) /\ arithmetic_err e /\ actual_stops l i i' /\ store_ok D G s' i').
Proof. exact C99_actual. Qed.
Print Assumptions C99_every_nesting.
Theorem C99_every_nesting_all_operators_partial : forall nat D G l t s i s' o,
  (forall v, type_fine nat D (G v)) -> store_ok D G s i -> asg_fine nat D G l ->
  asg_type D G l = Some t -> asg_eval D G l s = (s', o) ->
  (exists p i', o = APlace p /\ actual l i = Some (i', p) /\ store_ok D G s' i' /\ holds D t (place_value i' p))
  \/ (exists e i', o = AStop (RRaised e) /\ (arithmetic_err e \/ shift_err e) /\ actual_stops l i i' /\ store_ok D G s' i').
Proof. exact C99_actual2. Qed.
Print Assumptions C99_every_nesting_all_operators_partial.

(** native promotion: if every converted operand, every result and every assigned value is
    represented exactly, nothing is raised *)
Theorem C99_no_false_alarm : forall D G l t s i i' p,
  (forall v, type_ok true D (G v)) -> store_ok D G s i -> asg_ok true D l ->
  asg_type D G l = Some t -> actual_lossless D G l i = Some (i', p) ->
  exists s', asg_eval D G l s = (s', APlace p) /\ store_ok D G s' i' /\ actual l i = Some (i', p).
Proof. exact C99_silent. Qed.
Print Assumptions C99_no_false_alarm.

(** an increment or an assignment of the result of a compound assignment is lost: no variable
    changes any more *)
Theorem C99_lost_increments : forall D G inc l s s' o, still_object l = false -> asg_type D G (LStep inc l) <> None ->
  asg_eval D G (LStep inc l) s = (s', o) -> s' = fst (asg_eval D G l s).
Proof. exact C99_lost_step. Qed.
Print Assumptions C99_lost_increments.
Theorem C99_lost_assignments : forall D G first l e s s' p, still_object l = false ->
  asg_type D G (LSet first l (LPure e)) <> None ->
  asg_eval D G (LSet first l (LPure e)) s = (s', APlace p) -> s' = fst (asg_eval D G l s).
Proof. exact C99_lost_set. Qed.
Print Assumptions C99_lost_assignments.

(** variables of the examples: 0 is safe<int>, 1 is safe_signed_range<0, 100>, 2 a built-in int,
    the others safe<unsigned> *)
Definition ch_ep : ep := default_exception_policy.
Definition ch_G : tenv := fun v =>
  match v with
  | 0%nat => OSafe (safe LP64 Int Native ch_ep)
  | 1%nat => OSafe (mkSafe SChar 0 100 Native ch_ep)
  | 2%nat => ORaw Int
  | _ => OSafe (safe LP64 UInt Native ch_ep)
  end.
Definition ch_s : store := fun v => Some (Z.of_nat v + 1).
Definition ch_s2 : store := fun _ => Some 2.
Definition ch_int (n : Z) : asg := LPure (EConst (ORaw Int) n).

(** v0 = v1 = v2 *= v3 *)
Definition ch_1 (first : bool) : asg :=
  LSet first (LVar 0%nat) (LSet first (LVar 1%nat) (LOp (BA Mul) first (LVar 2%nat) (LVar 3%nat))).
(** ++(v0 = v1) += 5 *)
Definition ch_2 : asg := LOp (BA Add) true (LStep true (LSet false (LVar 0%nat) (LVar 1%nat))) (ch_int 5).
(** v1 = v0 += 200 *)
Definition ch_3 : asg := LSet false (LVar 1%nat) (LOp (BA Add) false (LVar 0%nat) (ch_int 200)).

Lemma ch_G_fine : forall nat v, type_fine nat LP64 (ch_G v).
Proof.
  intros nat v. destruct v as [|[|[|v]]]; unfold type_fine, type_ok; cbn; unfold in_type;
  (split; [split; [vm_compute; intuition congruence|]; split; [intros E [= <-] || intros E [=]; vm_compute; auto|];
           intros _ P; (intros [= <-]; reflexivity) || intros [=]
          |intros E [= <-] || intros E [=]; vm_compute; auto]).
Qed.
Lemma ch_G_ok : forall nat v, type_ok nat LP64 (ch_G v).
Proof. intros nat v. exact (proj1 (ch_G_fine nat v)). Qed.
Lemma ch_int_ok : forall nat n, in_type LP64 Int n -> asg_ok nat LP64 (ch_int n).
Proof.
  intros nat n H. cbn. split; [|exact H]. split; [|split; intros; discriminate].
  vm_compute. intuition congruence.
Qed.
Lemma ch_int5 : in_type LP64 Int 5.
Proof. vm_compute. intuition congruence. Qed.
Lemma ch_int200 : in_type LP64 Int 200.
Proof. vm_compute. intuition congruence. Qed.
Lemma ch_s2_ok : store_ok LP64 ch_G ch_s2 (fun _ => 2).
Proof. intros v. split; [reflexivity|]. destruct v as [|[|[|v]]]; vm_compute; intuition congruence. Qed.

(** v0 = v1 = v2 *= v3 compiles and, starting with 1, 2, 3, 4, sets all of them to 12;
    ++(v0 = v1) += 5 sets v0 to 2 + 1 + 5; v1 = v0 += 200 sets v0 to 201 and then raises *)
Example C99_example :
  asg_type LP64 ch_G (ch_1 true) = Some (ch_G 0%nat) /\ asg_type LP64 ch_G ch_2 = Some (ch_G 0%nat)
  /\ asg_type LP64 ch_G ch_3 = Some (ch_G 1%nat)
  /\ (forall first, keeps_targets (ch_1 first) /\ calm (ch_1 first) /\ asg_ok true LP64 (ch_1 first))
  /\ (keeps_targets ch_2 /\ calm ch_2 /\ asg_ok true LP64 ch_2)
  /\ (keeps_targets ch_3 /\ calm ch_3 /\ asg_ok true LP64 ch_3)
  /\ (let '(s, o) := asg_eval LP64 ch_G (ch_1 false) ch_s in
      (s 0%nat, s 1%nat, s 2%nat, s 3%nat, o) = (Some 12, Some 12, Some 12, Some 4, APlace (PVar 0%nat)))
  /\ (let '(s, o) := asg_eval LP64 ch_G ch_2 ch_s in (s 0%nat, s 1%nat, o) = (Some 8, Some 2, APlace (PTemp 8)))
  /\ (let '(s, o) := asg_eval LP64 ch_G ch_3 ch_s in
      (s 0%nat, s 1%nat, o) = (Some 201, Some 2, AStop (RRaised positive_overflow_error))).
Proof.
  split; [vm_compute; reflexivity|]. split; [vm_compute; reflexivity|]. split; [vm_compute; reflexivity|].
  split; [|split; [|split; [|vm_compute; auto]]].
  - intros first. cbn. unfold op_ok. intuition (discriminate || congruence).
  - split; [cbn; intuition reflexivity|]. split; [cbn; intuition discriminate|].
    exact (conj (or_introl eq_refl) (conj (conj I I) (ch_int_ok true 5 ch_int5))).
  - split; [cbn; intuition reflexivity|]. split; [cbn; intuition discriminate|].
    exact (conj I (conj (or_introl eq_refl) (conj I (ch_int_ok true 200 ch_int200)))).
Qed.

(** an operator of the second theorem: v3 <<= v1 *)
Example C99_all_operators_example : asg_fine true LP64 ch_G (LSet true (LVar 0%nat) (LOp (BA Shl) true (LVar 3%nat) (LVar 1%nat)))
  /\ asg_type LP64 ch_G (LSet true (LVar 0%nat) (LOp (BA Shl) true (LVar 3%nat) (LVar 1%nat))) = Some (ch_G 0%nat)
  /\ fst (asg_eval LP64 ch_G (LSet true (LVar 0%nat) (LOp (BA Shl) true (LVar 3%nat) (LVar 1%nat))) ch_s) 0%nat = Some 16.
Proof.
  split; [|split; vm_compute; reflexivity]. cbn [asg_fine]. split; [exact I|]. split; [|split; exact I].
  intros t u Et Eu s m H. vm_compute in Et, Eu. injection Et as <-. injection Eu as <-. left.
  vm_compute in H. injection H as <- _. vm_compute. intuition congruence.
Qed.

(** ++(v0 += 5), of a variable that is 2, leaves 7; (v0 += 5) = 100 too, and the whole has the
    value 100 *)
Definition ch_inc : asg := LStep true (LOp (BA Add) true (LVar 0%nat) (ch_int 5)).
Definition ch_set : asg := LSet true (LOp (BA Add) true (LVar 0%nat) (ch_int 5)) (ch_int 100).
Example C99_lost_example :
  still_object (LOp (BA Add) true (LVar 0%nat) (ch_int 5)) = false
  /\ asg_type LP64 ch_G ch_inc = Some (ch_G 0%nat) /\ asg_type LP64 ch_G ch_set = Some (ch_G 0%nat)
  /\ (let '(s, o) := asg_eval LP64 ch_G ch_inc ch_s2 in (s 0%nat, o) = (Some 7, APlace (PTemp 8)))
  /\ (let '(s, o) := asg_eval LP64 ch_G ch_set ch_s2 in (s 0%nat, o) = (Some 7, APlace (PTemp 100)))
  /\ asg_type LP64 ch_G (LOp (BA Add) true (LOp (BA Add) true (LVar 0%nat) (ch_int 5)) (ch_int 5)) = None.
Proof. vm_compute. intuition congruence. Qed.

(** (++(v0 += 5) = 100) -= 1 is covered by the theorem on every nesting: v0 is 7, the value 99 *)
Example C99_every_nesting_example :
  asg_ok true LP64 ch_inc /\ asg_type LP64 ch_G (LOp (BA Sub) true (LSet true ch_inc (ch_int 100)) (ch_int 1)) = Some (ch_G 0%nat)
  /\ option_map (fun r => (fst r 0%nat, snd r)) (actual (LOp (BA Sub) true (LSet true ch_inc (ch_int 100)) (ch_int 1)) (fun _ => 2))
     = Some (7, PTemp 99).
Proof.
  split; [exact (conj (or_introl eq_refl) (conj I (ch_int_ok true 5 ch_int5)))|]. split; vm_compute; reflexivity.
Qed.

Example C99_no_false_alarm_example :
  option_map (fun r => (fst r 0%nat, fst r 1%nat, snd r)) (actual_lossless LP64 ch_G ch_2 (fun v => Z.of_nat v + 1)) = Some (8, 2, PTemp 8)
  /\ actual_lossless LP64 ch_G ch_3 (fun v => Z.of_nat v + 1) = None.
Proof. vm_compute. auto. Qed.

(** so without either condition the theorem is false: ++(v0 += 5), and (v0 = 5) = v0 with the
    right operand first, raise nothing and leave another value than they would with built-in
    integers, 8 and 2 *)
Theorem C99_assignments_refuted :
  exists l1 l2 s i, store_ok LP64 ch_G s i /\ (forall v, type_ok true LP64 (ch_G v))
  /\ asg_type LP64 ch_G l1 = Some (ch_G 0%nat) /\ asg_type LP64 ch_G l2 = Some (ch_G 0%nat)
  /\ asg_ok true LP64 l1 /\ asg_ok true LP64 l2 /\ calm l1 /\ keeps_targets l2
  /\ (exists p1 p2, snd (asg_eval LP64 ch_G l1 s) = APlace p1 /\ snd (asg_eval LP64 ch_G l2 s) = APlace p2)
  /\ fst (asg_eval LP64 ch_G l1 s) 0%nat = Some 7 /\ option_map (fun r => fst r 0%nat) (chain l1 i) = Some 8
  /\ fst (asg_eval LP64 ch_G l2 s) 0%nat = Some 5 /\ option_map (fun r => fst r 0%nat) (chain l2 i) = Some 2.
Proof.
  exists ch_inc, (LSet false (LSet true (LVar 0%nat) (ch_int 5)) (LVar 0%nat)), ch_s2, (fun _ => 2).
  split; [exact ch_s2_ok|]. split; [exact (ch_G_ok true)|].
  split; [vm_compute; reflexivity|]. split; [vm_compute; reflexivity|].
  split; [exact (conj (or_introl eq_refl) (conj I (ch_int_ok true 5 ch_int5)))|].
  split; [exact (conj (conj I (ch_int_ok true 5 ch_int5)) I)|].
  split; [cbn; intuition discriminate|]. split; [cbn; auto|].
  split; [exists (PTemp 8), (PVar 0%nat); vm_compute; auto|]. vm_compute. auto.
Qed.
Print Assumptions C99_assignments_refuted.
