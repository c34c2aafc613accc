(** PropsBaseLoss.v -- property C102, the other half: a program that reads and writes safe
    variables in several bases raises nothing as long as the input offers the numbers that are
    read and the same program over the built-in types would lose nothing. *)
From Coq Require Import ZArith List Bool Lia.
From Verif Require Import Base CType Spec ExceptionPolicy Promotion SafeBase SafeSpec IntervalFacts Program ProgramSpec ComposeSpec
  BuiltinSpec BuiltinAllSpec Stream StreamSpec BaseStream BaseStreamSpec IOLossSpec BaseProgram BaseProgramSpec
  BaseLossSpec BaseLossFacts.
Import ListNotations.
Local Open Scope Z_scope.

(** + - * /: the program ends with the values, the rest of the input and the output that exact
    arithmetic gives. Missing: variables of character types. *)
Theorem C102_no_false_alarm_partial : forall D G c s i t o i' t' o',
  (forall v, type_ok true D (G v)) -> store_ok D G s i ->
  bp_ok (cmd_ok true D G) (cond_ok true D) D G false c -> bp_compiles D G c = true ->
  bp_lossless D G (i, t, o) c (i', t', o') ->
  exists fuel s', bp_exec fuel D G (s, t, o) c = Some ((s', t', o'), RDone) /\ store_ok D G s' i'.
Proof. exact C102_quiet. Qed.
Print Assumptions C102_no_false_alarm_partial.

(** all ten operators, under the conditions of C74 *)
Theorem C102_no_false_alarm_all_operators_partial : forall D G c s i t o i' t' o',
  (forall v, type_fine true D (G v)) -> store_ok D G s i ->
  bp_ok (fun c => cmd_fine true D G c /\ every_op_cmd (shift_bounded D) D G c)
    (fun c => cond_fine true D G c /\ every_op_cond (shift_bounded D) D G c) D G false c -> bp_compiles D G c = true ->
  bp_lossless D G (i, t, o) c (i', t', o') ->
  exists fuel s', bp_exec fuel D G (s, t, o) c = Some ((s', t', o'), RDone) /\ store_ok D G s' i'.
Proof. exact C102_quiet_all. Qed.
Print Assumptions C102_no_false_alarm_all_operators_partial.

(** cin >> hex >> v; v += v; cout << oct << v;  on "1f" writes "76" *)
Definition ex_G : tenv := fun _ => OSafe (safe LP64 Int Native default_exception_policy).
Definition ex_c : bcmd :=
  BPSeq (BPIn BHex) (BPSeq (BPRead 0%nat) (BPSeq (BPDo (CCompound (BA Add) 0%nat (EVar 0%nat)))
    (BPSeq (BPOut BOct) (BPWrite 0%nat)))).
Example C102_no_false_alarm_example :
  (forall v, type_ok true LP64 (ex_G v)) /\ store_ok LP64 ex_G (fun _ => Some 0) (fun _ => 0)
  /\ bp_ok (cmd_ok true LP64 ex_G) (cond_ok true LP64) LP64 ex_G false ex_c /\ bp_compiles LP64 ex_G ex_c = true
  /\ exists i', bp_lossless LP64 ex_G (fun _ => 0, (BDec, mkIs [49; 102] false false), (BDec, [])) ex_c
       (i', (BHex, remaining []), (BOct, [55; 54])).
Proof.
  split; [|split; [|split; [|split]]].
  - intros v. unfold type_ok, throws_arithmetic; cbn; unfold in_type; repeat split;
      try (intros; discriminate); try (intros E [= <-]; auto); auto; vm_compute; congruence.
  - intros v. split; [reflexivity|]. vm_compute. split; congruence.
  - cbn. unfold type_ok, op_ok, wide_type. cbn. unfold in_type, holds.
    repeat split; try (intros; discriminate); auto; try (vm_compute; congruence).
  - vm_compute. reflexivity.
  - eexists. eapply BL_seq; [apply BL_in|]. eapply BL_seq; [|eapply BL_seq; [|eapply BL_seq; [apply BL_out|]]].
    + apply (BL_read LP64 ex_G _ BHex _ _ 0%nat 31 []). exists NoSign. split; [reflexivity|]. split; [|split].
      * exists [], [], [49; 102], 31. splits; [constructor|left; reflexivity| |reflexivity|reflexivity|discriminate|discriminate].
        apply (denotes_in_more BHex [49] 1 102 15); [apply denotes_in_one|]; unfold digit_in; lia.
      * right. discriminate.
      * unfold holds. vm_compute. split; congruence.
    + apply BL_do with (n := 0%nat). vm_compute. reflexivity.
    + apply (BL_write LP64 ex_G _ _ BOct [] 0%nat [55; 54]). split; [|split].
      * split; [intros c cs' [= _ _ E]; discriminate|]. constructor; [lia|constructor; [lia|constructor]].
      * intros _. apply (denotes_in_more BOct [55] 7 54 6); [apply denotes_in_one|]; unfold digit_in; lia.
      * vm_compute. discriminate.
Qed.

(** more fuel does not change the result *)
Theorem C102_fuel : forall D G n n', (n <= n')%nat -> forall c p r, bp_exec n D G p c = Some r -> bp_exec n' D G p c = Some r.
Proof. exact bp_exec_mono. Qed.
Print Assumptions C102_fuel.

(** what is written is determined by the value, its type and the base *)
Theorem C102_written_unique : forall b D T cs cs' z, written b D T cs z -> written b D T cs' z -> cs = cs'.
Proof. exact written_unique. Qed.
Print Assumptions C102_written_unique.

(** An application: the program that reads a number in one base and writes it in another
    converts every number in the range of its variable, and leaves the rest of the input. *)
Theorem C102_convert : forall b b' D a sg z text rest,
  wide_type (st a) -> wf_operand D (OSafe a) -> throws_arithmetic (sE a) -> input_compiles D a = true ->
  numeral_in b text sg z rest -> accepted D (st a) sg -> smin a <= z <= smax a ->
  exists s' cs, bp_exec 0 D (fun _ => OSafe a) (fun _ => Some (smin a), (BDec, mkIs text false false), (BDec, []))
    (BPSeq (BPSeq (BPIn b) (BPOut b')) (BPSeq (BPRead 0%nat) (BPWrite 0%nat)))
    = Some ((s', (b, remaining rest), (b', cs)), RDone) /\ written b' D (st a) cs z.
Proof. exact C102_convert_lemma. Qed.
Print Assumptions C102_convert.

(** "-7f;" from base 16 to base 10 is "-127", and to base 8 "37777777601" *)
Example C102_convert_example :
  let a := mkSafe Int (-200) 200 Native strict_exception_policy in
  wide_type Int /\ wf_operand LP64 (OSafe a) /\ input_compiles LP64 a = true
  /\ numeral_in BHex [45; 55; 102; 59] Minus (-127) [59] /\ accepted LP64 Int Minus
  /\ (forall b cs, b = BDec /\ cs = [45; 49; 50; 55] \/ b = BOct /\ cs = [51; 55; 55; 55; 55; 55; 55; 55; 54; 48; 49] ->
      exists s', bp_exec 0 LP64 (fun _ => OSafe a) (fun _ => Some (-200), (BDec, mkIs [45; 55; 102; 59] false false), (BDec, []))
        (BPSeq (BPSeq (BPIn BHex) (BPOut b)) (BPSeq (BPRead 0%nat) (BPWrite 0%nat)))
        = Some ((s', (BHex, remaining [59]), (b, cs)), RDone)).
Proof.
  cbv zeta. splits.
  - vm_compute. intuition congruence.
  - vm_compute. intuition congruence.
  - vm_compute. reflexivity.
  - exists [], [], [55; 102], 127. splits; [constructor|left; reflexivity| |reflexivity|reflexivity| |discriminate].
    + apply (denotes_in_more BHex [55] 7 102 15); [apply denotes_in_one|]; unfold digit_in; lia.
    + intros c r d [= <- _]. unfold digit_in. lia.
  - left. reflexivity.
  - intros b cs [[-> ->]|[-> ->]]; eexists; vm_compute; reflexivity.
Qed.
