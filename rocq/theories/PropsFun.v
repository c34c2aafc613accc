(** PropsFun.v -- property C91: programs with functions. Whatever the depth of the
    recursion, a program that passes safe values as arguments, returns them and converts
    them on the way has the results of exact integer arithmetic, or ends with an exception;
    every variable of every frame stays in its declared range, and nothing undefined
    happens. The operators && and || evaluate their second operand only if they need it. *)
From Coq Require Import ZArith Bool List.
From Verif Require Import Base CType Spec ExceptionPolicy Promotion SafeBase SafeSpec Program ProgramSpec ComposeSpec
  FunProgram FunSpec FunFacts FunExampleFacts.
Import ListNotations.
Local Open Scope Z_scope.

(** + - *, and / with native promotion *)
Theorem C91_programs : forall nat D glob F G fuel c s i s' r,
  simple_program nat D glob F G c -> program_compiles D glob F = true -> f_compiles D glob F G c = true ->
  store_ok D G s i -> f_exec D glob F fuel G s c = Some (s', r) ->
  exists i', store_ok D G s' i'
  /\ ((r = RDone /\ f_ideal glob F i c i' true) \/ (exists e, r = RRaised e /\ f_ideal glob F i c i' false)).
Proof. exact C91_simple. Qed.
Print Assumptions C91_programs.

(** all ten operators, under the conditions of C73 on the operand types *)
Theorem C91_all_operators_partial : forall nat D glob F G fuel c s i s' r,
  fine_program nat D glob F G c -> program_compiles D glob F = true -> f_compiles D glob F G c = true ->
  store_ok D G s i -> f_exec D glob F fuel G s c = Some (s', r) ->
  exists i', store_ok D G s' i'
  /\ ((r = RDone /\ f_ideal glob F i c i' true) \/ (exists e, r = RRaised e /\ f_ideal glob F i c i' false)).
Proof. exact C91_fine. Qed.
Print Assumptions C91_all_operators_partial.

(** the amount of fuel does not matter *)
Theorem C91_fuel : forall D glob F n n' G s c r, (n <= n')%nat ->
  f_exec D glob F n G s c = Some r -> f_exec D glob F n' G s c = Some r.
Proof. exact f_exec_mono. Qed.
Print Assumptions C91_fuel.

(** An application: the recursive factorial function over safe<int> and safe<long> (64 bits)
    returns n! and counts its calls, or ends with an exception; for n! > 2^63 - 1 always the
    latter. *)
Theorem C91_factorial : forall fuel k s i s' r, store_ok LP64 fe_G s i -> i 0%nat = Z.of_nat k ->
  f_exec LP64 fe_glob [fe_fact] fuel fe_G s fe_main = Some (s', r) ->
  (r = RDone /\ s' 3%nat = Some (factorial k) /\ s' 9%nat = Some (i 9%nat + Z.max 1 (Z.of_nat k))
   /\ (forall v, v <> 3%nat -> v <> 9%nat -> s' v = s v) /\ factorial k <= 9223372036854775807)
  \/ exists e, r = RRaised e.
Proof. exact C91_fact. Qed.
Print Assumptions C91_factorial.

(** Examples: 20! is returned by the 20th call, 21! raises an exception in the first. *)
Definition ex_i (k : Z) : nat -> Z := fun v => match v with 0%nat => k | 9%nat => 100 | _ => 5 end.
Lemma ex_store : forall k, -2147483648 <= k <= 2147483647 -> store_ok LP64 fe_G (fun v => Some (ex_i k v)) (ex_i k).
Proof.
  intros k Hk v. split; [reflexivity|]. unfold fe_G, ex_i. destruct v as [|[|[|[|[|[|[|[|[|[|v]]]]]]]]]]; try exact Hk; vm_compute; split; congruence.
Qed.
Example C91_example :
  simple_program true LP64 fe_glob [fe_fact] fe_G fe_main /\ program_compiles LP64 fe_glob [fe_fact] = true
  /\ f_compiles LP64 fe_glob [fe_fact] fe_G fe_main = true
  /\ (exists s', f_exec LP64 fe_glob [fe_fact] 30 fe_G (fun v => Some (ex_i 20 v)) fe_main = Some (s', RDone)
      /\ s' 3%nat = Some 2432902008176640000 /\ s' 9%nat = Some 120 /\ s' 2%nat = Some 5)
  /\ (exists s', f_exec LP64 fe_glob [fe_fact] 30 fe_G (fun v => Some (ex_i 21 v)) fe_main
        = Some (s', RRaised positive_overflow_error) /\ s' 3%nat = Some 5 /\ s' 9%nat = Some 121).
Proof.
  split; [apply fe_simple|]. split; [vm_compute; reflexivity|]. split; [vm_compute; reflexivity|].
  split; (eexists; split; [vm_compute; reflexivity|]; vm_compute; auto).
Qed.

(** if (v0 != 0 && 100 / v0 > 3) v3 = 1; else v3 = 2: no division by zero *)
Definition ex_and : fcmd :=
  FIf (FAnd (FRel (Cond RNe true (EVar 0%nat) (EConst (ORaw Int) 0)))
            (FRel (Cond RGt true (EBin (BA Div) true (EConst (ORaw Int) 100) (EVar 0%nat)) (EConst (ORaw Int) 3))))
    (FDo (CAssign 3%nat (EConst (ORaw Int) 1))) (FDo (CAssign 3%nat (EConst (ORaw Int) 2))).
Example C91_and : simple_program true LP64 fe_glob [fe_fact] fe_G ex_and /\ f_compiles LP64 fe_glob [fe_fact] fe_G ex_and = true
  /\ (exists s', f_exec LP64 fe_glob [fe_fact] 1 fe_G (fun v => Some (ex_i 0 v)) ex_and = Some (s', RDone) /\ s' 3%nat = Some 2)
  /\ (exists s', f_exec LP64 fe_glob [fe_fact] 1 fe_G (fun v => Some (ex_i 20 v)) ex_and = Some (s', RDone) /\ s' 3%nat = Some 1).
Proof.
  split.
  - destruct (fe_simple true) as (A & B & _). split; [exact A|]. split; [exact B|].
    assert (T : type_ok true LP64 (ORaw Int)) by apply (fe_lit true).
    assert (K : op_ok true (BA Div)) by (unfold op_ok; auto).
    cbn. repeat split; try exact T; try exact K; try (vm_compute; congruence).
  - split; [vm_compute; reflexivity|]. split; (eexists; split; [vm_compute; reflexivity|reflexivity]).
Qed.

(** Another application, with %: Euclid's algorithm over safe<unsigned> returns the greatest
    common divisor (or ends with an exception) *)
Theorem C91_gcd : forall fuel s i s' r, store_ok LP64 ge_G s i ->
  f_exec LP64 ge_glob [ge_gcd] fuel ge_G s ge_main = Some (s', r) ->
  (r = RDone /\ s' 0%nat = Some (Z.gcd (i 4%nat) (i 5%nat)) /\ forall v, v <> 0%nat -> s' v = s v) \/ exists e, r = RRaised e.
Proof. exact C91_greatest. Qed.
Print Assumptions C91_gcd.
Example C91_gcd_example : fine_program true LP64 ge_glob [ge_gcd] ge_G ge_main
  /\ program_compiles LP64 ge_glob [ge_gcd] = true /\ f_compiles LP64 ge_glob [ge_gcd] ge_G ge_main = true
  /\ exists s', f_exec LP64 ge_glob [ge_gcd] 30 ge_G (fun v => Some (match v with 4%nat => 4294967295 | _ => 3000000000 end)) ge_main
       = Some (s', RDone) /\ s' 0%nat = Some 15.
Proof.
  split; [apply ge_fine|]. split; [vm_compute; reflexivity|]. split; [vm_compute; reflexivity|].
  eexists. split; [vm_compute; reflexivity|reflexivity].
Qed.
