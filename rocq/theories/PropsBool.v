(** PropsBool.v -- property C93: safe integers and bool. A safe integer used as a condition
    is taken as a bool that must be exact: 0 and 1 give false and true, and every other value
    raises an exception, where a built-in integer would count as true. A bool stored in a safe
    integer is kept exactly. *)
From Coq Require Import ZArith Bool List.
From Verif Require Import Base CType Spec ExceptionPolicy Promotion SafeBase SafeSpec Program ProgramSpec
  BoolConv BoolSpec BoolFacts.
Import ListNotations.
Local Open Scope Z_scope.

(** The conversion to bool of a safe integer or literal: all types, ranges and values *)
Theorem C93_test : forall D o x m, wf_operand D o -> holds D o x ->
  (forall E, get_ep o = Some E -> throws_arithmetic E) -> (forall T, o <> ORaw T) ->
  to_bool D o x = Some m ->
  (flag x /\ returns m (x =? 1))
  \/ (x < 0 /\ m = ([(arithmetic_error, domain_error)], Throw domain_error))
  \/ (1 < x /\ m = ([(arithmetic_error, positive_overflow_error)], Throw positive_overflow_error)).
Proof. exact C93_test_lemma. Qed.
Print Assumptions C93_test.

(** It compiles for every safe type whose policy does not trap arithmetic errors, also when the
    declared range has neither 0 nor 1, and for none whose policy traps them. *)
Theorem C93_compiles : forall D s x,
  to_bool D (OSafe s) x <> None <-> on_arithmetic_error (sE s) <> HTrap.
Proof. exact C93_compiles_lemma. Qed.
Print Assumptions C93_compiles.

(** A literal is decided by the compiler, except that a negative one with a policy is not. *)
Theorem C93_literal : forall D T N P E x, in_type D T N ->
  (1 < N -> to_bool D (OLit T N P E) x = None)
  /\ (flag N -> to_bool D (OLit T N P E) x = Some (mret (N =? 1)))
  /\ (N < 0 -> to_bool D (OLit T N P None) x = None).
Proof. exact C93_literal_lemma. Qed.
Print Assumptions C93_literal.

Definition ex_ep : ep := strict_exception_policy.
Definition ex_r (T : ctype) (a b : Z) : otype := OSafe (mkSafe T a b Native ex_ep).
Definition ex_int : otype := OSafe (safe LP64 Int Native ex_ep).
Example C93_test_example :
  wf_operand LP64 ex_int /\ holds LP64 ex_int 1 /\ holds LP64 ex_int (-3)
  /\ wf_operand LP64 (ex_r Short 5 9) /\ holds LP64 (ex_r Short 5 9) 7
  /\ (forall E, get_ep ex_int = Some E -> throws_arithmetic E) /\ (forall T, ex_int <> ORaw T)
  /\ to_bool LP64 ex_int 0 = Some (mret false) /\ to_bool LP64 ex_int 1 = Some (mret true)
  /\ to_bool LP64 ex_int (-3) = Some ([(arithmetic_error, domain_error)], Throw domain_error)
  /\ to_bool LP64 (ex_r Short 5 9) 7 = Some ([(arithmetic_error, positive_overflow_error)], Throw positive_overflow_error)
  /\ to_bool LP64 (OSafe (safe LP64 Int Native strict_trap_policy)) 1 = None
  /\ to_bool LP64 (OLit Int 2 (Some Native) (Some ex_ep)) 2 = None
  /\ to_bool LP64 (OLit Int (-2) (Some Native) (Some ex_ep)) (-2)
     = Some ([(arithmetic_error, domain_error)], Throw domain_error).
Proof.
  split; [vm_compute; intuition congruence|]. split; [vm_compute; intuition congruence|].
  split; [vm_compute; intuition congruence|]. split; [vm_compute; intuition congruence|].
  split; [vm_compute; intuition congruence|].
  split; [intros E [= <-]; reflexivity|]. split; [discriminate|]. repeat split; vm_compute; reflexivity.
Qed.

(** A bool stored in a safe integer *)
Theorem C93_from_bool : forall D s b m, wf_operand D (OSafe s) -> throws_arithmetic (sE s) ->
  construct_bool D s b = Some m ->
  (smin s <= Z.b2z b <= smax s /\ returns m (Z.b2z b))
  \/ (~ (smin s <= Z.b2z b <= smax s) /\ throws_arith m).
Proof. exact C93_from_bool_lemma. Qed.
Print Assumptions C93_from_bool.

Theorem C93_from_bool_compiles : forall D s b, wf_operand D (OSafe s) -> on_arithmetic_error (sE s) <> HTrap ->
  (construct_bool D s b <> None <-> smin s <= 0 <= smax s \/ smin s <= 1 <= smax s).
Proof. exact C93_from_bool_compiles_lemma. Qed.
Print Assumptions C93_from_bool_compiles.

(** ... and read back *)
Theorem C93_round_trip : forall D s b, wf_operand D (OSafe s) -> smin s <= 0 -> 1 <= smax s ->
  on_arithmetic_error (sE s) <> HTrap ->
  construct_bool D s b = Some (mret (Z.b2z b)) /\ to_bool D (OSafe s) (Z.b2z b) = Some (mret b).
Proof. exact C93_flag_lemma. Qed.
Print Assumptions C93_round_trip.

Example C93_from_bool_example :
  wf_operand LP64 (ex_r UChar 0 1) /\ wf_operand LP64 (ex_r Int 1 12)
  /\ construct_bool LP64 (mkSafe UChar 0 1 Native ex_ep) true = Some (mret 1)
  /\ construct_bool LP64 (mkSafe Int 1 12 Native ex_ep) true = Some (mret 1)
  /\ construct_bool LP64 (mkSafe Int 1 12 Native ex_ep) false
     = Some ([(arithmetic_error, positive_overflow_error)], Throw positive_overflow_error)
  /\ construct_bool LP64 (mkSafe Int 2 12 Native ex_ep) true = None.
Proof. split; [vm_compute; intuition congruence|]. split; [vm_compute; intuition congruence|]. repeat split; vm_compute; reflexivity. Qed.

(** Conditions with !, && and || over tests and comparisons: the value is the one the same
    condition has over exact integers, or an exception is raised. *)
Theorem C93_conditions : forall n D G s i t, (forall v, type_ok n D (G v)) -> store_ok D G s i ->
  test_ok n D t -> test_compiles D G t = true ->
  (exists b, test_value i t = Some b /\ returns (eval_test D G s t) b) \/ throws_arith (eval_test D G s t).
Proof. exact C93_conditions_lemma. Qed.
Print Assumptions C93_conditions.

(** Conditions on flags never raise. *)
Theorem C93_flags : forall n D G s i t, (forall v, type_ok n D (G v)) -> store_ok D G s i ->
  test_compiles D G t = true -> tests_flags i t ->
  exists b, test_value i t = Some b /\ returns (eval_test D G s t) b.
Proof. exact C93_flags_lemma. Qed.
Print Assumptions C93_flags.

(** v0 = 1, v1 = 0, v2 = 7: !v1 && (v0 || v2) does not test v2; v0 && v2 raises although the
    built-in condition is true; v2 > 1 || v2 is true *)
Definition ex_G : tenv := fun _ => ex_int.
Definition ex_i : nat -> Z := fun v => match v with 0%nat => 1 | 1%nat => 0 | _ => 7 end.
Definition ex_v (v : nat) : test := TExpr (EVar v).
Definition ex_t1 : test := TAnd (TNot (ex_v 1)) (TOr (ex_v 0) (ex_v 2)).
Definition ex_t2 : test := TAnd (ex_v 0) (ex_v 2).
Definition ex_t3 : test := TOr (TCond (Cond RGt true (EVar 2) (EConst (ORaw Int) 1))) (ex_v 2).
Definition ex_t4 : test := TAnd (TNot (ex_v 1)) (ex_v 0).
Lemma ex_types : forall v, type_ok true LP64 (ex_G v).
Proof.
  intros v. split; [vm_compute; intuition congruence|]. split; [intros E [= <-]; reflexivity|intros _ P [= <-]; reflexivity].
Qed.
Lemma ex_store : store_ok LP64 ex_G (fun v => Some (ex_i v)) ex_i.
Proof. intros [|[|v]]; (split; [reflexivity|vm_compute; split; congruence]). Qed.
Example C93_conditions_example :
  (forall v, type_ok true LP64 (ex_G v)) /\ store_ok LP64 ex_G (fun v => Some (ex_i v)) ex_i
  /\ test_ok true LP64 ex_t1 /\ test_ok true LP64 ex_t2 /\ test_ok true LP64 ex_t3
  /\ tests_flags ex_i ex_t4
  /\ test_compiles LP64 ex_G ex_t1 = true /\ test_compiles LP64 ex_G ex_t2 = true
  /\ test_compiles LP64 ex_G ex_t3 = true /\ test_compiles LP64 ex_G ex_t4 = true
  /\ eval_test LP64 ex_G (fun v => Some (ex_i v)) ex_t1 = mret true
  /\ eval_test LP64 ex_G (fun v => Some (ex_i v)) ex_t2
     = ([(arithmetic_error, positive_overflow_error)], Throw positive_overflow_error)
  /\ eval_test LP64 ex_G (fun v => Some (ex_i v)) ex_t3 = mret true
  /\ eval_test LP64 ex_G (fun v => Some (ex_i v)) ex_t4 = mret true.
Proof.
  split; [exact ex_types|]. split; [exact ex_store|].
  split; [repeat split|]. split; [repeat split|]. split.
  { assert (type_ok true LP64 (ORaw Int)).
    { split; [vm_compute; intuition congruence|]. split; intros; discriminate. }
    cbn. repeat split; auto; vm_compute; congruence. }
  split; [split; [exists 1%nat|exists 0%nat]; (split; [reflexivity|unfold flag; cbn; auto])|].
  repeat split; vm_compute; reflexivity.
Qed.

(** A safe integer is not a replacement for a built-in one as a condition: wherever the
    built-in test of a value other than 0 and 1 is true, the safe test raises. *)
Theorem C93_nonzero_refuted : exists D G s i t,
  (forall v, type_ok true D (G v)) /\ store_ok D G s i /\ test_ok true D t
  /\ test_compiles D G t = true /\ test_value i t = Some true /\ throws_arith (eval_test D G s t).
Proof.
  exists LP64, ex_G, (fun v => Some (ex_i v)), ex_i, (ex_v 2).
  split; [exact ex_types|]. split; [exact ex_store|]. split; [exact I|]. split; [vm_compute; reflexivity|].
  split; [reflexivity|]. exists positive_overflow_error. split; [left; reflexivity|]. vm_compute. reflexivity.
Qed.
Print Assumptions C93_nonzero_refuted.
