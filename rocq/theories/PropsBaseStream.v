(** PropsBaseStream.v -- property C101, about reading and writing safe values with
    std::dec, std::oct and std::hex. Text is a list of ASCII codes. *)
From Coq Require Import ZArith Bool List Lia.
From Verif Require Import Base CType Spec CheckedInteger CheckedResultOps Interval ExceptionPolicy
  Promotion SafeBase SafeSpec IntervalFacts Stream StreamSpec Limits BaseStream BaseStreamSpec BaseStreamFacts.
Import ListNotations.
Local Open Scope Z_scope.

(** reading in base 8, 10 or 16, for every type that is not a character type: the
    number in the text is stored if it is in [Min,Max], and an exception is thrown in
    every other case *)
Theorem C101_read : forall b D s i old i' v m,
  wide_type (st s) -> wf_operand D (OSafe s) -> throws_arithmetic (sE s) ->
  input_b b D s i old = Some (i', v, m) ->
  (exists sg z rest, good i = true /\ numeral_in b (chars i) sg z rest /\ accepted D (st s) sg
   /\ smin s <= z <= smax s
   /\ returns m tt /\ v = Some z /\ chars i' = rest /\ failbit i' = false)
  \/ (throws_arith m
      /\ forall sg z rest, good i = true -> numeral_in b (chars i) sg z rest -> accepted D (st s) sg ->
         ~ (smin s <= z <= smax s)).
Proof. exact input_exact_b. Qed.
Print Assumptions C101_read.

(** " -0xFfg" read into safe<int> with std::hex is -255; "19" with std::oct is 1;
    "80000000" with std::hex throws *)
Example C101_read_example :
  let s := mkSafe Int (-2147483648) 2147483647 Native strict_exception_policy in
  wide_type Int /\ wf_operand LP64 (OSafe s)
  /\ input_b BHex LP64 s (mkIs [32; 45; 48; 120; 70; 102; 103] false false) (Some 5)
     = Some (mkIs [103] false false, Some (-255), mret tt)
  /\ numeral_in BHex [32; 45; 48; 120; 70; 102; 103] Minus (-255) [103]
  /\ input_b BOct LP64 s (mkIs [49; 57] false false) (Some 5) = Some (mkIs [57] false false, Some 1, mret tt)
  /\ exists i v m, input_b BHex LP64 s (mkIs [56; 48; 48; 48; 48; 48; 48; 48] false false) (Some 5) = Some (i, v, m)
     /\ throws_arith m.
Proof.
  cbv zeta. splits.
  - vm_compute. intuition congruence.
  - vm_compute. intuition congruence.
  - vm_compute. reflexivity.
  - exists [32], [48; 120], [70; 102], 255. splits.
    + constructor; [vm_compute; auto 8|constructor].
    + right. auto.
    + apply (denotes_in_more BHex [70] 15 102 15); [apply denotes_in_one|]; unfold digit_in; lia.
    + reflexivity.
    + reflexivity.
    + intros c r d [= <- _]. unfold digit_in. lia.
    + discriminate.
  - vm_compute. reflexivity.
  - eexists _, _, _. split; [vm_compute; reflexivity|]. exists domain_error. split; [vm_compute; auto|reflexivity].
Qed.

(** the same for signed char and unsigned char, if the text begins with a number *)
Theorem C101_read_small : forall b D s i old i' v m,
  st s = SChar \/ st s = UChar -> wf_operand D (OSafe s) -> throws_arithmetic (sE s) ->
  good i = true -> ~ Forall blank (chars i) ->
  input_b b D s i old = Some (i', v, m) ->
  (exists z, returns m tt /\ v = Some z /\ smin s <= z <= smax s
   /\ forall sg n rest, numeral_in b (chars i) sg n rest -> in_type D Int n -> z = n /\ chars i' = rest)
  \/ (throws_arith m /\ v = old
      /\ forall sg n rest, numeral_in b (chars i) sg n rest -> ~ (smin s <= n <= smax s)).
Proof. exact C101_small_lemma. Qed.
Print Assumptions C101_read_small.

Example C101_read_small_example :
  let s := mkSafe UChar 0 255 Native strict_exception_policy in
  wf_operand LP64 (OSafe s)
  /\ input_b BHex LP64 s (mkIs [102; 102; 10] false false) (Some 5) = Some (mkIs [10] false false, Some 255, mret tt)
  /\ exists i m, input_b BHex LP64 s (mkIs [49; 48; 48] false false) (Some 5) = Some (i, Some 5, m) /\ throws_arith m.
Proof.
  cbv zeta. splits.
  - vm_compute. intuition congruence.
  - vm_compute. reflexivity.
  - eexists _, _. split; [vm_compute; reflexivity|].
    exists positive_overflow_error. split; [vm_compute; auto|reflexivity].
Qed.

(** what is written for a value that is not negative denotes it *)
Theorem C101_text : forall b D s x, wf_operand D (OSafe s) -> holds D (OSafe s) x -> 0 <= x ->
  denotes_in b (output_b b D s x) x.
Proof. exact text_b. Qed.
Print Assumptions C101_text.

Example C101_text_example :
  output_b BHex LP64 (mkSafe SChar (-128) 127 Native strict_exception_policy) 127 = [55; 102]
  /\ output_b BOct LP64 (mkSafe UChar 0 255 Native strict_exception_policy) 64 = [49; 48; 48].
Proof. vm_compute. auto. Qed.

(** what is written is read back in the same base as the same value, or an exception
    is thrown. It is thrown for the negative values, unless the base is 10. *)
Theorem C101_round_trip : forall b D s x bl rest old i' v m,
  number_type (st s) -> wf_operand D (OSafe s) -> throws_arithmetic (sE s) -> holds D (OSafe s) x ->
  Forall blank bl -> ends_in b rest -> no_x rest ->
  input_b b D s (mkIs (bl ++ output_b b D s x ++ rest) false false) old = Some (i', v, m) ->
  ((b = BDec \/ 0 <= x) -> returns m tt /\ v = Some x /\ i' = mkIs rest false (at_end rest))
  /\ (b <> BDec -> x < 0 -> throws_arith m).
Proof. exact round_trip_b. Qed.
Print Assumptions C101_round_trip.

(** 255 and -1 of safe<long> in hexadecimal *)
Example C101_round_trip_example :
  let s := mkSafe Long (-9223372036854775808) 9223372036854775807 Native strict_exception_policy in
  number_type Long /\ wf_operand LP64 (OSafe s) /\ holds LP64 (OSafe s) (-1)
  /\ input_b BHex LP64 s (mkIs ([32] ++ output_b BHex LP64 s 255 ++ [44]) false false) None
     = Some (mkIs [44] false false, Some 255, mret tt)
  /\ exists i v m, input_b BHex LP64 s (mkIs (output_b BHex LP64 s (-1)) false false) None = Some (i, v, m)
     /\ throws_arith m.
Proof.
  cbv zeta. splits.
  - discriminate.
  - vm_compute. intuition congruence.
  - vm_compute. intuition congruence.
  - vm_compute. reflexivity.
  - eexists _, _, _. split; [vm_compute; reflexivity|]. exists domain_error. split; [vm_compute; auto|reflexivity].
Qed.

(** a file of values that are not negative, separated by spaces, is read back *)
Theorem C101_sequence : forall b D l,
  (forall s x, In (s, x) l -> number_type (st s) /\ wf_operand D (OSafe s) /\ throws_arithmetic (sE s)
     /\ holds D (OSafe s) x /\ 0 <= x /\ exists i old r, input_b b D s i old = Some r) ->
  exists i', read_all_in b D (map fst l) (mkIs (write_all (output_b b D) l) false false) (map snd l) i'
  /\ failbit i' = false /\ Forall blank (chars i').
Proof. exact sequence_b. Qed.
Print Assumptions C101_sequence.

Example C101_sequence_example :
  let s := mkSafe UShort 0 65535 Native strict_exception_policy in
  (exists r, input_b BHex LP64 s (mkIs [] false false) None = Some r)
  /\ write_all (output_b BHex LP64) [(s, 65535); (s, 0)] = [102; 102; 102; 102; 32; 48; 32].
Proof. cbv zeta. split; [eexists; vm_compute; reflexivity|vm_compute; reflexivity]. Qed.

(** with std::dec this is the input and output of C44 and C55, and what is written
    with std::hex is what C75 is about *)
Theorem C101_streams : forall D s,
  (forall i old, input_b BDec D s i old = input D s i old)
  /\ (forall x, output_b BDec D s x = output D s x)
  /\ (forall x, output_b BHex D s x = insert_safe D true s x).
Proof. exact streams_b. Qed.
Print Assumptions C101_streams.

(** a negative value of a built-in type or a safe type is not read back: the text of
    -1 is "ffffffff", which is too large for int *)
Theorem C101_negative_refuted : exists b D s x i' v m,
  number_type (st s) /\ wf_operand D (OSafe s) /\ throws_arithmetic (sE s) /\ holds D (OSafe s) x
  /\ input_b b D s (mkIs (output_b b D s x) false false) None = Some (i', v, m) /\ throws_arith m.
Proof.
  exists BHex, LP64, (mkSafe Int (-2147483648) 2147483647 Native strict_exception_policy), (-1).
  do 3 eexists. splits; [discriminate|vm_compute; intuition congruence|reflexivity|vm_compute; intuition congruence|
    vm_compute; reflexivity|].
  exists domain_error. split; [vm_compute; auto|reflexivity].
Qed.
Print Assumptions C101_negative_refuted.
