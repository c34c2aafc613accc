(** PropsStreamChar.v -- property C44 for safe types over char, which are read as one character.
    Text is a list of ASCII codes. *)
From Coq Require Import ZArith Bool List.
From Verif Require Import Base CType Spec ExceptionPolicy Promotion SafeBase SafeSpec Stream StreamSpec StreamCharFacts.
Import ListNotations.
Local Open Scope Z_scope.

(** Reading stores the first character that is not white space if its code is in [Min,Max], and
    throws in every other case: end of input, a stream that has failed before, characters out of
    range. Missing: '-' where char is unsigned (see below); that the variable holds a value in
    range if an exception is thrown, which is false (C44_range_refuted). *)
Theorem C44_char_partial : forall D s i old i' v m,
  st s = Char -> wf_operand D (OSafe s) -> throws_arithmetic (sE s) -> Forall (fun c => 0 <= c <= 127) (chars i) ->
  input D s i old = Some (i', v, m) ->
  (exists bl c rest, good i = true /\ Forall blank bl /\ ~ blank c /\ chars i = bl ++ c :: rest
   /\ (csigned D Char = true \/ c <> 45)
   /\ smin s <= c <= smax s /\ returns m tt /\ v = Some c /\ chars i' = rest /\ failbit i' = false)
  \/ (throws_arith m
      /\ forall bl c rest, good i = true -> Forall blank bl -> ~ blank c -> chars i = bl ++ c :: rest ->
         (csigned D Char = true \/ c <> 45) -> ~ (smin s <= c <= smax s)).
Proof. exact char_input. Qed.
Print Assumptions C44_char_partial.

(** "  A-" and "!" read into a safe char with the range 40 to 90 *)
Example C44_char_example :
  let s := mkSafe Char 40 90 Native strict_exception_policy in
  wf_operand LP64 (OSafe s) /\ throws_arithmetic (sE s)
  /\ input LP64 s (mkIs [32; 32; 65; 45] false false) (Some 50) = Some (mkIs [45] false false, Some 65, mret tt)
  /\ (exists i v m, input LP64 s (mkIs [33] false false) (Some 50) = Some (i, v, m) /\ throws_arith m).
Proof.
  cbv zeta. split; [vm_compute; intuition congruence|]. split; [reflexivity|]. split; [vm_compute; reflexivity|].
  eexists _, _, _. split; [vm_compute; reflexivity|]. eexists. split; [|reflexivity]. vm_compute. auto.
Qed.

(** Where char is unsigned, the character '-' cannot be read although it is in range: the test for
    a minus sign before unsigned numbers applies to characters too. *)
Theorem C44_char_minus_refuted : exists D s i old i' v m,
  st s = Char /\ wf_operand D (OSafe s) /\ throws_arithmetic (sE s) /\ chars i = [45] /\ good i = true /\ smin s <= 45 <= smax s
  /\ input D s i old = Some (i', v, m) /\ throws_arith m.
Proof.
  exists LP64u, (mkSafe Char 0 255 Native strict_exception_policy), (mkIs [45] false false), (Some 7). do 3 eexists.
  split; [reflexivity|]. split; [vm_compute; intuition congruence|]. split; [reflexivity|]. split; [reflexivity|]. split; [reflexivity|].
  split; [vm_compute; split; congruence|]. split; [vm_compute; reflexivity|]. eexists. split; [|reflexivity]. vm_compute. auto.
Qed.
Print Assumptions C44_char_minus_refuted.
