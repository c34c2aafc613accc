(** PropsIOLoss.v -- property C87, the other half: a program that reads and writes safe
    variables raises nothing as long as the input offers the numbers that are read and the same
    program over the built-in types would lose nothing. *)
From Coq Require Import ZArith List Bool Lia.
From Verif Require Import Base CType Spec ExceptionPolicy Promotion SafeBase SafeSpec Program ProgramSpec ComposeSpec
  BuiltinSpec BuiltinAllSpec Stream StreamSpec IOProgram IOProgramSpec IOLossSpec IOLossFacts.
Import ListNotations.
Local Open Scope Z_scope.

(** + - * /: the program ends with the values, the rest of the input and the output that exact
    arithmetic gives. Missing: variables of character types. *)
Theorem C87_no_false_alarm_partial : forall D G c s i t o i' t' o',
  (forall v, type_ok true D (G v)) -> store_ok D G s i ->
  io_ok (cmd_ok true D G) (cond_ok true D) D G false c -> io_compiles D G c = true ->
  io_lossless D G (i, t, o) c (i', t', o') ->
  exists fuel s', io_exec fuel D G (s, t, o) c = Some ((s', t', o'), RDone) /\ store_ok D G s' i'.
Proof. exact C87_quiet. Qed.
Print Assumptions C87_no_false_alarm_partial.

(** all ten operators, under the conditions of C74 *)
Theorem C87_no_false_alarm_all_operators_partial : forall D G c s i t o i' t' o',
  (forall v, type_fine true D (G v)) -> store_ok D G s i ->
  io_ok (fun c => cmd_fine true D G c /\ every_op_cmd (shift_bounded D) D G c)
    (fun c => cond_fine true D G c /\ every_op_cond (shift_bounded D) D G c) D G false c -> io_compiles D G c = true ->
  io_lossless D G (i, t, o) c (i', t', o') ->
  exists fuel s', io_exec fuel D G (s, t, o) c = Some ((s', t', o'), RDone) /\ store_ok D G s' i'.
Proof. exact C87_quiet_all. Qed.
Print Assumptions C87_no_false_alarm_all_operators_partial.

(** more fuel does not change the result *)
Theorem C87_fuel : forall D G n n', (n <= n')%nat -> forall c p r, io_exec n D G p c = Some r -> io_exec n' D G p c = Some r.
Proof. exact io_exec_mono. Qed.
Print Assumptions C87_fuel.

(** a number has one decimal representation, so what is written is determined *)
Theorem C87_decimal_unique : forall cs cs' z, decimal cs z -> decimal cs' z -> cs = cs'.
Proof. exact decimal_unique. Qed.
Print Assumptions C87_decimal_unique.

(** An application: the program that reads n and then n numbers of type int writes their sum,
    however many there are and whatever follows them in the input. *)
Theorem C87_sum : forall l t o s i, Forall (fun z => -2147483648 <= z <= 2147483647) l ->
  Z.of_nat (length l) <= 2147483647 -> good t = true -> lists (chars t) (Z.of_nat (length l) :: l) ->
  store_ok LP64 sum_G s i -> i 2%nat = 0 ->
  exists fuel s' t' cs, io_exec fuel LP64 sum_G (s, t, o) sum_c = Some ((s', t', o ++ cs), RDone) /\ decimal cs (total l).
Proof. exact C87_sum_lemma. Qed.
Print Assumptions C87_sum.

(** "2 +17 -2147483648!" *)
Definition ex_text : list Z := [50; 32; 43; 49; 55; 32; 45; 50; 49; 52; 55; 52; 56; 51; 54; 52; 56; 33].
Lemma ex_digits : forall c d, c = 48 + d -> 0 <= d <= 9 -> digit_char c d.
Proof. intros c d -> H. split; [exact H|reflexivity]. Qed.
Example C87_sum_example :
  Forall (fun z => -2147483648 <= z <= 2147483647) [17; -2147483648]
  /\ lists ex_text [2; 17; -2147483648] /\ total [17; -2147483648] = -2147483631
  /\ store_ok LP64 sum_G (fun _ => Some 0) (fun _ => 0)
  /\ exists s' t', io_exec 5 LP64 sum_G (fun _ => Some 0, mkIs ex_text false false, []) sum_c
       = Some ((s', t', [45; 50; 49; 52; 55; 52; 56; 51; 54; 51; 49]), RDone).
Proof.
  split; [repeat constructor; lia|]. split.
  - apply lists_cons with (sg := NoSign) (rest := tl ex_text).
    { exists [], [50], 2. split; [constructor|]. split; [constructor; apply ex_digits; lia|]. split; [reflexivity|]. split; [reflexivity|].
      intros c r d [= <- _] [H E]. lia. }
    apply lists_cons with (sg := Plus) (rest := skipn 5 ex_text).
    { exists [32], [49; 55], 17. split; [repeat constructor; cbn; tauto|]. split.
      { apply (denotes_more [49] 1 55 7); [constructor|]; apply ex_digits; lia. }
      split; [reflexivity|]. split; [reflexivity|]. intros c r d [= <- _] [H E]. lia. }
    apply lists_cons with (sg := Minus) (rest := [33]); [|constructor].
    exists [32], [50; 49; 52; 55; 52; 56; 51; 54; 52; 56], 2147483648. split; [repeat constructor; cbn; tauto|]. split.
    { apply (denotes_more [50; 49; 52; 55; 52; 56; 51; 54; 52] 214748364 56 8); [|apply ex_digits; lia].
      apply (denotes_more [50; 49; 52; 55; 52; 56; 51; 54] 21474836 52 4); [|apply ex_digits; lia].
      apply (denotes_more [50; 49; 52; 55; 52; 56; 51] 2147483 54 6); [|apply ex_digits; lia].
      apply (denotes_more [50; 49; 52; 55; 52; 56] 214748 51 3); [|apply ex_digits; lia].
      apply (denotes_more [50; 49; 52; 55; 52] 21474 56 8); [|apply ex_digits; lia].
      apply (denotes_more [50; 49; 52; 55] 2147 52 4); [|apply ex_digits; lia].
      apply (denotes_more [50; 49; 52] 214 55 7); [|apply ex_digits; lia].
      apply (denotes_more [50; 49] 21 52 4); [|apply ex_digits; lia].
      apply (denotes_more [50] 2 49 1); [|apply ex_digits; lia]. constructor. apply ex_digits; lia. }
    split; [reflexivity|]. split; [reflexivity|]. intros c r d [= <- _] [H E]. lia.
  - split; [reflexivity|]. split.
    + intros v. split; [reflexivity|]. destruct v as [|[|[|v]]]; vm_compute; split; congruence.
    + do 2 eexists. vm_compute. reflexivity.
Qed.
Example C87_no_false_alarm_example :
  (forall v, type_ok true LP64 (sum_G v)) /\ io_ok (cmd_ok true LP64 sum_G) (cond_ok true LP64) LP64 sum_G false sum_c
  /\ io_compiles LP64 sum_G sum_c = true.
Proof. split; [exact sum_types|]. split; [exact sum_ok|]. vm_compute. reflexivity. Qed.
