(** PropsStream.v -- properties C44 and C55, about reading and writing safe values
    on streams, and the stream part of C34. Text is a list of ASCII codes. *)
From Coq Require Import ZArith Bool List.
From Verif Require Import Base CType Spec CheckedInteger CheckedResultOps Interval ExceptionPolicy
  Promotion SafeBase SafeSpec IntervalFacts Stream StreamSpec StreamFacts PropsStreamProofs.
Import ListNotations.
Local Open Scope Z_scope.

(** C44, for every type that is not a character type. Reading succeeds, and stores
    exactly the value written in the text, when the text begins with an integer in
    [Min,Max] (after white space; without a minus sign for unsigned types), and it
    throws in every other case: malformed text, end of input, a stream that has
    failed before, numbers of any length that are out of range.
    Missing: "whether or not an exception is thrown, the variable holds a value in
    [Min,Max]", which is false, see below. *)
Theorem C44_wide_types_partial : forall D s i old i' v m,
  wide_type (st s) -> wf_operand D (OSafe s) -> throws_arithmetic (sE s) ->
  input D s i old = Some (i', v, m) ->
  (exists sg z rest, good i = true /\ numeral (chars i) sg z rest /\ accepted D (st s) sg
   /\ smin s <= z <= smax s
   /\ returns m tt /\ v = Some z /\ chars i' = rest /\ failbit i' = false)
  \/ (throws_arith m
      /\ forall sg z rest, good i = true -> numeral (chars i) sg z rest -> accepted D (st s) sg ->
         ~ (smin s <= z <= smax s)).
Proof. exact C44_wide_lemma. Qed.
Print Assumptions C44_wide_types_partial.

(** " -42,7" and "+3000000000" read into safe<int>; "-0" into safe<unsigned> *)
Example C44_wide_types_example :
  let s := mkSafe Int (-2147483648) 2147483647 Native strict_exception_policy in
  let u := mkSafe UInt 0 4294967295 Native strict_exception_policy in
  wide_type Int /\ wf_operand LP64 (OSafe s)
  /\ input LP64 s (mkIs [32; 45; 52; 50; 44; 55] false false) (Some 5)
     = Some (mkIs [44; 55] false false, Some (-42), mret tt)
  /\ numeral [32; 45; 52; 50; 44; 55] Minus (-42) [44; 55]
  /\ (exists i v m, input LP64 s (mkIs [43; 51; 48; 48; 48; 48; 48; 48; 48; 48; 48] false false) (Some 5)
      = Some (i, v, m) /\ throws_arith m)
  /\ (exists i v m, input LP64 u (mkIs [45; 48] false false) (Some 5) = Some (i, v, m) /\ throws_arith m).
Proof.
  cbv zeta. splits.
  - vm_compute. intuition congruence.
  - vm_compute. intuition congruence.
  - vm_compute. reflexivity.
  - exists [32], [52; 50], 42. splits.
    + constructor; [vm_compute; auto 8|constructor].
    + apply (denotes_more [52] 4 50 2); [apply denotes_one|]; vm_compute; intuition congruence.
    + reflexivity.
    + reflexivity.
    + intros c r d [= <- _]. apply not_digit. reflexivity.
  - eexists _, _, _. split; [vm_compute; reflexivity|]. exists domain_error. split; [vm_compute; auto|reflexivity].
  - eexists _, _, _. split; [vm_compute; reflexivity|]. exists domain_error. split; [vm_compute; auto|reflexivity].
Qed.

(** C44, when [Min,Max] is the whole range of the underlying type (safe<T>): after
    any call of input, even one that throws, the variable holds a value in range *)
Theorem C44_full_range_partial : forall D s i x i' v m,
  wide_type (st s) -> wf_operand D (OSafe s) -> throws_arithmetic (sE s) ->
  smin s = lo D (st s) -> smax s = hi D (st s) -> holds D (OSafe s) x ->
  input D s i (Some x) = Some (i', v, m) ->
  exists z, v = Some z /\ holds D (OSafe s) z.
Proof. exact C44_full_lemma. Qed.
Print Assumptions C44_full_range_partial.

(** it throws, and the variable holds 0 *)
Example C44_full_range_example :
  let s := mkSafe Int (-2147483648) 2147483647 Native strict_exception_policy in
  exists i m, input LP64 s (mkIs [97] false false) (Some 5) = Some (i, Some 0, m) /\ throws_arith m.
Proof.
  cbv zeta. eexists _, _. split; [vm_compute; reflexivity|].
  exists domain_error. split; [vm_compute; auto|reflexivity].
Qed.

(** C44, for safe types based on signed char and unsigned char: when the stream is
    good and holds something other than white space, the variable is unchanged and
    an exception is thrown, or it holds a value in [Min,Max], which is the value
    written in the text if the text begins with an integer (of the range of int).
    Missing: text that does not begin with an integer is accepted, see below. *)
Theorem C44_small_types_partial : forall D s i old i' v m,
  st s = SChar \/ st s = UChar -> wf_operand D (OSafe s) -> throws_arithmetic (sE s) ->
  good i = true -> ~ Forall blank (chars i) ->
  input D s i old = Some (i', v, m) ->
  (exists z, returns m tt /\ v = Some z /\ smin s <= z <= smax s
   /\ forall sg n rest, numeral (chars i) sg n rest -> in_type D Int n -> z = n /\ chars i' = rest)
  \/ (throws_arith m /\ v = old
      /\ forall sg n rest, numeral (chars i) sg n rest -> ~ (smin s <= n <= smax s)).
Proof. exact C44_small_lemma. Qed.
Print Assumptions C44_small_types_partial.

Example C44_small_types_example :
  let s := mkSafe UChar 0 255 Native strict_exception_policy in
  wf_operand LP64 (OSafe s)
  /\ input LP64 s (mkIs [50; 53; 53; 10] false false) (Some 5) = Some (mkIs [10] false false, Some 255, mret tt)
  /\ exists i m, input LP64 s (mkIs [50; 53; 54] false false) (Some 5) = Some (i, Some 5, m) /\ throws_arith m.
Proof.
  cbv zeta. splits.
  - vm_compute. intuition congruence.
  - vm_compute. reflexivity.
  - eexists _, _. split; [vm_compute; reflexivity|].
    exists positive_overflow_error. split; [vm_compute; auto|reflexivity].
Qed.

(** C44 is false for ranges: "500" read into safe_signed_range<1, 100> throws, but
    the variable then holds 500 *)
Theorem C44_range_refuted : exists D s i x i' v m,
  wf_operand D (OSafe s) /\ throws_arithmetic (sE s) /\ holds D (OSafe s) x
  /\ input D s i (Some x) = Some (i', Some v, m) /\ throws_arith m /\ ~ holds D (OSafe s) v.
Proof.
  exists LP64, (mkSafe Int 1 100 Native strict_exception_policy), (mkIs [53; 48; 48] false false), 7.
  do 3 eexists. splits; [vm_compute; intuition congruence|reflexivity|vm_compute; intuition congruence|
    vm_compute; reflexivity| |].
  - exists positive_overflow_error. split; [vm_compute; auto|reflexivity].
  - unfold holds. cbn. intros [_ K]. apply K. reflexivity.
Qed.
Print Assumptions C44_range_refuted.

(** and "x" read into that type throws but leaves the variable at 0 *)
Theorem C44_malformed_refuted : exists D s i x i' v m,
  wf_operand D (OSafe s) /\ throws_arithmetic (sE s) /\ holds D (OSafe s) x
  /\ (forall sg z rest, ~ numeral (chars i) sg z rest)
  /\ input D s i (Some x) = Some (i', Some v, m) /\ throws_arith m /\ ~ holds D (OSafe s) v.
Proof.
  exists LP64, (mkSafe Int 1 100 Native strict_exception_policy), (mkIs [120] false false), 7.
  do 3 eexists. splits; [vm_compute; intuition congruence|reflexivity|vm_compute; intuition congruence|
     |vm_compute; reflexivity| |].
  - intros sg z rest N. destruct (numeral_scan _ _ _ _ N) as (ds & Nd & A & _).
    vm_compute in A. injection A as _ A _. congruence.
  - exists domain_error. split; [vm_compute; auto|reflexivity].
  - unfold holds. cbn. intros [K _]. apply K. reflexivity.
Qed.
Print Assumptions C44_malformed_refuted.

(** "x" read into safe<signed char> is accepted: no exception, and 0 is stored *)
Theorem C44_signed_char_refuted : exists D s i x i' m,
  wf_operand D (OSafe s) /\ throws_arithmetic (sE s) /\ holds D (OSafe s) x
  /\ good i = true /\ (forall sg z rest, ~ numeral (chars i) sg z rest)
  /\ input D s i (Some x) = Some (i', Some 0, m) /\ returns m tt.
Proof.
  exists LP64, (mkSafe SChar (-128) 127 Native strict_exception_policy), (mkIs [120] false false), 7.
  do 2 eexists. splits; [vm_compute; intuition congruence|reflexivity|vm_compute; intuition congruence|
    reflexivity| |vm_compute; reflexivity|reflexivity].
  intros sg z rest N. destruct (numeral_scan _ _ _ _ N) as (ds & Nd & A & _).
  vm_compute in A. injection A as _ A _. congruence.
Qed.
Print Assumptions C44_signed_char_refuted.

(** at the end of the input, reading into safe<unsigned char> has undefined behaviour *)
Theorem C44_end_of_input_refuted : exists D s i x i' v m,
  wf_operand D (OSafe s) /\ throws_arithmetic (sE s) /\ holds D (OSafe s) x
  /\ good i = true /\ input D s i (Some x) = Some (i', v, m) /\ snd m = Undef.
Proof.
  exists LP64, (mkSafe UChar 0 255 Native strict_exception_policy), (mkIs [] false false), 7.
  do 3 eexists. splits; [vm_compute; intuition congruence|reflexivity|vm_compute; intuition congruence|
    reflexivity|vm_compute; reflexivity|reflexivity].
Qed.
Print Assumptions C44_end_of_input_refuted.

(** C34 does not extend to stream input: when it throws, the variable has changed *)
Theorem C34_input_refuted : exists D s i x i' v m,
  wf_operand D (OSafe s) /\ throws_arithmetic (sE s) /\ holds D (OSafe s) x
  /\ input D s i (Some x) = Some (i', v, m) /\ throws_arith m /\ v <> Some x.
Proof.
  exists LP64, (mkSafe Int (-2147483648) 2147483647 Native strict_exception_policy), (mkIs [120] false false), 7.
  do 3 eexists. splits; [vm_compute; intuition congruence|reflexivity|vm_compute; intuition congruence|
    vm_compute; reflexivity| |congruence].
  exists domain_error. split; [vm_compute; auto|reflexivity].
Qed.
Print Assumptions C34_input_refuted.

(** C55: what is written is the decimal representation of the value, also for the
    character types: an optional minus sign, for negative values, and digits *)
Theorem C55_output : forall D s x, wf_operand D (OSafe s) -> holds D (OSafe s) x ->
  exists sg ds n, output D s x = sign_text sg ++ ds /\ denotes ds n /\ x = signed sg n
  /\ (sg = Minus <-> x < 0) /\ sg <> Plus.
Proof. exact C55_output_lemma. Qed.
Print Assumptions C55_output.

(** reading back what was written gives the same value, wherever the text stands in
    the stream, and leaves what follows it *)
Theorem C55_round_trip : forall D s x bl rest old i' v m,
  number_type (st s) -> wf_operand D (OSafe s) -> throws_arithmetic (sE s) -> holds D (OSafe s) x ->
  Forall blank bl -> (forall c r d, rest = c :: r -> ~ digit_char c d) ->
  input D s (mkIs (bl ++ output D s x ++ rest) false false) old = Some (i', v, m) ->
  returns m tt /\ v = Some x /\ i' = mkIs rest false (at_end rest).
Proof. exact C55_round_trip_lemma. Qed.
Print Assumptions C55_round_trip.

(** and so for a sequence of any length of values of any types *)
Theorem C55_sequence : forall D l,
  (forall s x, In (s, x) l -> number_type (st s) /\ wf_operand D (OSafe s) /\ throws_arithmetic (sE s)
     /\ holds D (OSafe s) x /\ exists i old r, input D s i old = Some r) ->
  exists i', read_all D (map fst l) (mkIs (write_all (output D) l) false false) (map snd l) i'
  /\ failbit i' = false /\ Forall blank (chars i').
Proof. exact C55_sequence_lemma. Qed.
Print Assumptions C55_sequence.

Example C55_example :
  let s := mkSafe LLong (- 2 ^ 63) (2 ^ 63 - 1) Automatic strict_exception_policy in
  let u := mkSafe SChar (-100) 100 Native loose_exception_policy in
  write_all (output LP64) [(s, - 2 ^ 63); (u, 65)]
  = [45; 57; 50; 50; 51; 51; 55; 50; 48; 51; 54; 56; 53; 52; 55; 55; 53; 56; 48; 56; 32; 54; 53; 32]
  /\ (exists r, input LP64 s (mkIs [] false false) None = Some r)
  /\ (exists r, input LP64 u (mkIs [] false false) None = Some r)
  /\ wf_operand LP64 (OSafe s) /\ wf_operand LP64 (OSafe u).
Proof.
  cbv zeta. splits; try (vm_compute; intuition congruence).
  - eexists. vm_compute. reflexivity.
  - eexists. vm_compute. reflexivity.
Qed.

(** [number_type] is necessary: safe<char> is written as a number and read as a
    character. The value 65 is written as 65 and read back as 54. *)
Theorem C55_char_refuted : exists D s x i' v m,
  wf_operand D (OSafe s) /\ throws_arithmetic (sE s) /\ holds D (OSafe s) x
  /\ input D s (mkIs (output D s x) false false) None = Some (i', Some v, m) /\ returns m tt
  /\ v <> x.
Proof.
  exists LP64, (mkSafe Char (-128) 127 Native strict_exception_policy), 65. do 3 eexists.
  splits; [vm_compute; intuition congruence|reflexivity|vm_compute; intuition congruence|
    vm_compute; reflexivity|reflexivity|congruence].
Qed.
Print Assumptions C55_char_refuted.
