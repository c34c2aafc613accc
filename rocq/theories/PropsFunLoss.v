(** PropsFunLoss.v -- property C91, the other half: a program with functions does not
    raise an exception as long as the same program over the built-in types would lose
    nothing. *)
From Coq Require Import ZArith Bool List.
From Verif Require Import Base CType Spec ExceptionPolicy Promotion SafeBase SafeSpec Program ProgramSpec ComposeSpec
  BuiltinSpec BuiltinAllSpec FunProgram FunSpec FunFacts FunExampleFacts FunLossSpec FunLossFacts.
Import ListNotations.
Local Open Scope Z_scope.

(** + - * /: the program ends, with the values that exact arithmetic gives *)
Theorem C91_no_false_alarm : forall D glob F G c s i i',
  simple_program true D glob F G c -> program_compiles D glob F = true -> f_compiles D glob F G c = true ->
  store_ok D G s i -> f_lossless D glob F G i c i' ->
  exists fuel s', f_exec D glob F fuel G s c = Some (s', RDone) /\ store_ok D G s' i'.
Proof. exact C91_quiet. Qed.
Print Assumptions C91_no_false_alarm.

(** all ten operators, under the conditions of C74 *)
Theorem C91_no_false_alarm_all_operators_partial : forall D glob F G c s i i',
  bounded_program D glob F G c -> program_compiles D glob F = true -> f_compiles D glob F G c = true ->
  store_ok D G s i -> f_lossless D glob F G i c i' ->
  exists fuel s', f_exec D glob F fuel G s c = Some (s', RDone) /\ store_ok D G s' i'.
Proof. exact C91_quiet_all. Qed.
Print Assumptions C91_no_false_alarm_all_operators_partial.

(** The recursive factorial function over safe<int> and safe<long> returns n! for every n
    up to 20 (and by C91_factorial for no other: 21! > 2^63 - 1). *)
Theorem C91_factorial_returns : forall k s i, store_ok LP64 fe_G s i -> i 0%nat = Z.of_nat k -> (k <= 20)%nat ->
  i 9%nat + Z.max 1 (Z.of_nat k) <= 2147483647 ->
  exists fuel s', f_exec LP64 fe_glob [fe_fact] fuel fe_G s fe_main = Some (s', RDone)
  /\ s' 3%nat = Some (factorial k) /\ s' 9%nat = Some (i 9%nat + Z.max 1 (Z.of_nat k)).
Proof. exact C91_fact_total. Qed.
Print Assumptions C91_factorial_returns.

(** Euclid's algorithm over safe<unsigned> returns the greatest common divisor of every two
    values; it never raises. *)
Theorem C91_gcd_returns : forall s i, store_ok LP64 ge_G s i ->
  exists fuel s', f_exec LP64 ge_glob [ge_gcd] fuel ge_G s ge_main = Some (s', RDone)
  /\ s' 0%nat = Some (Z.gcd (i 4%nat) (i 5%nat)).
Proof. exact C91_gcd_quiet. Qed.
Print Assumptions C91_gcd_returns.

(** Examples: the hypotheses are met by the factorial of 20 and by Euclid's algorithm *)
Definition el_i (k c : Z) : nat -> Z := fun v => match v with 1%nat => k | 2%nat => 1 | 9%nat => c | _ => 5 end.
Example C91_lossless_example : exists j', f_lossless LP64 fe_glob [fe_fact] fe_G (el_i 20 100) fe_body j'
  /\ j' 2%nat = 2432902008176640000 /\ j' 9%nat = 120.
Proof.
  destruct (fe_lossless 20 (el_i 20 100) (le_n 20) eq_refl eq_refl) as (j' & A & B & C); try (vm_compute; congruence).
  exists j'. split; [exact A|]. split; [exact B|exact C].
Qed.
Example C91_bounded_example : bounded_program LP64 ge_glob [ge_gcd] ge_G ge_main
  /\ program_compiles LP64 ge_glob [ge_gcd] = true /\ f_compiles LP64 ge_glob [ge_gcd] ge_G ge_main = true.
Proof. split; [exact ge_bounded|]. split; vm_compute; reflexivity. Qed.
(** while (v0 < v4 && !(v4 == 3)) try { v0 += 1; } catch (...) {} *)
Definition el_loop : fcmd :=
  FWhile (FAnd (FRel (Cond RLt true (EVar 0%nat) (EVar 4%nat))) (FNot (FRel (Cond REq true (EVar 4%nat) (EConst (ORaw Int) 3)))))
    (FTry (FDo (CCompound (BA Add) 0%nat (EConst (ORaw Int) 1))) (FDo CSkip)).
Example C91_loop_example : simple_program true LP64 fe_glob [fe_fact] fe_G el_loop
  /\ f_compiles LP64 fe_glob [fe_fact] fe_G el_loop = true
  /\ exists i', f_lossless LP64 fe_glob [fe_fact] fe_G (fun v => match v with 0%nat => 3 | _ => 5 end) el_loop i' /\ i' 0%nat = 5.
Proof.
  split.
  - destruct (fe_simple true) as (A & B & _). split; [exact A|]. split; [exact B|].
    assert (T : type_ok true LP64 (ORaw Int)) by apply (fe_lit true).
    cbn. repeat split; try exact T; try (left; reflexivity); try (vm_compute; congruence).
  - split; [vm_compute; reflexivity|]. eexists. split.
    + eapply FL_while; [reflexivity|apply FL_try, (FL_do _ _ _ _ _ _ _ 1%nat); reflexivity|].
      eapply FL_while; [reflexivity|apply FL_try, (FL_do _ _ _ _ _ _ _ 1%nat); reflexivity|].
      apply FL_while_end. reflexivity.
    + reflexivity.
Qed.
