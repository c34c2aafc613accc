(** PropsBaseProgram.v -- property C102: programs that read and write safe variables on streams
    and switch between std::dec, std::oct and std::hex. *)
From Coq Require Import ZArith List Bool Lia.
From Verif Require Import Base CType Spec ExceptionPolicy Promotion SafeBase SafeSpec Program ProgramSpec ComposeSpec
  Stream StreamSpec BaseStream BaseStreamSpec IOProgram IOProgramSpec BaseProgram BaseProgramSpec BaseProgramFacts.
Import ListNotations.
Local Open Scope Z_scope.

(** C102, native and automatic promotion, operators + - * and comparisons as in C33. Whatever
    the input is and however the program switches the bases, it ends as it does in exact integer
    arithmetic, where reading takes an integer in the declared range from the input, in the base
    of the stream, or raises because there is none, and writing writes the value in the base of
    the stream; or with an exception. No undefined behaviour.
    Missing: variables of character types (C101); variables with a narrower range read inside a
    try block, for which it is false (C87_caught_refuted, by C102_decimal). *)
Theorem C102_programs_partial : forall nat D G fuel c s i t o s' t' o' r,
  (forall v, type_ok nat D (G v)) -> store_ok D G s i ->
  bp_ok (cmd_ok nat D G) (cond_ok nat D) D G false c -> bp_compiles D G c = true ->
  bp_exec fuel D G (s, t, o) c = Some ((s', t', o'), r) ->
  exists i', store_is s' i'
  /\ ((r = RDone /\ store_ok D G s' i' /\ bp_ideal D G (i, t, o) c (i', t', o') true)
      \/ (exists e, r = RRaised e /\ bp_ideal D G (i, t, o) c (i', t', o') false)).
Proof. exact C102_lemma. Qed.
Print Assumptions C102_programs_partial.

(** the same with all operators, under the conditions of C73 *)
Theorem C102_all_operators_partial : forall nat D G fuel c s i t o s' t' o' r,
  (forall v, type_fine nat D (G v)) -> store_ok D G s i ->
  bp_ok (cmd_fine nat D G) (cond_fine nat D G) D G false c -> bp_compiles D G c = true ->
  bp_exec fuel D G (s, t, o) c = Some ((s', t', o'), r) ->
  exists i', store_is s' i'
  /\ ((r = RDone /\ store_ok D G s' i' /\ bp_ideal D G (i, t, o) c (i', t', o') true)
      \/ (exists e, r = RRaised e /\ bp_ideal D G (i, t, o) c (i', t', o') false)).
Proof. exact C102_all_lemma. Qed.
Print Assumptions C102_all_operators_partial.

(** Variables: 0 is safe<int>, 2 is safe<long>.
    cin >> v0; v2 += v0; cin >> hex; cin >> v0; v2 += v0; cout << v2 << oct << v2 << hex << v2; *)
Definition ex_G : tenv := fun v =>
  match v with 2%nat => OSafe (safe LP64 Long Native default_exception_policy)
  | _ => OSafe (safe LP64 Int Native default_exception_policy) end.
Definition ex_s : store := fun _ => Some 0.
Definition ex_add : bcmd := BPSeq (BPRead 0%nat) (BPDo (CCompound (BA Add) 2%nat (EVar 0%nat))).
Definition ex_c : bcmd :=
  BPSeq ex_add (BPSeq (BPIn BHex) (BPSeq ex_add (BPSeq (BPWrite 2%nat)
    (BPSeq (BPOut BOct) (BPSeq (BPWrite 2%nat) (BPSeq (BPOut BHex) (BPWrite 2%nat))))))).
(** "10 0x10" gives "26" "32" "1a"; "0 -2" gives "-2", and then 2^64 - 2 in the bases 8 and
    16; "10 1fffffffe" raises *)
Definition text1 : list Z := [49; 48; 32; 48; 120; 49; 48].
Definition text2 : list Z := [48; 32; 45; 50].
Definition text3 : list Z := [49; 48; 32; 49; 102; 102; 102; 102; 102; 102; 102; 101].
Example C102_nonvacuous :
  (forall nat v, type_ok nat LP64 (ex_G v)) /\ store_ok LP64 ex_G ex_s (fun _ => 0)
  /\ bp_ok (cmd_ok true LP64 ex_G) (cond_ok true LP64) LP64 ex_G false ex_c /\ bp_compiles LP64 ex_G ex_c = true
  /\ (exists s' t', bp_exec 9 LP64 ex_G (ex_s, (BDec, mkIs text1 false false), (BDec, [])) ex_c
      = Some ((s', (BHex, t'), (BHex, [50; 54; 51; 50; 49; 97])), RDone))
  /\ (exists s' t', bp_exec 9 LP64 ex_G (ex_s, (BDec, mkIs text2 false false), (BDec, [])) ex_c
      = Some ((s', (BHex, t'), (BHex, [45; 50] ++ (49 :: repeat 55 20 ++ [54]) ++ repeat 102 15 ++ [101])), RDone))
  /\ (exists s' t', bp_exec 9 LP64 ex_G (ex_s, (BDec, mkIs text3 false false), (BDec, [])) ex_c
      = Some ((s', (BHex, t'), (BDec, [])), RRaised domain_error)).
Proof.
  split; [|split; [|split; [|split]]].
  - intros nat v. destruct v as [|[|[|v]]]; unfold type_ok, throws_arithmetic; cbn; unfold in_type; repeat split;
      try (intros; discriminate); try (intros E [= <-]; auto); auto; vm_compute; congruence.
  - intros v. split; [reflexivity|]. destruct v as [|[|[|v]]]; vm_compute; split; congruence.
  - cbn. unfold type_ok, op_ok, wide_type. cbn. unfold in_type, holds.
    repeat split; try (intros; discriminate); auto; try (vm_compute; congruence).
  - vm_compute. reflexivity.
  - split; [|split]; do 2 eexists; vm_compute; reflexivity.
Qed.

(** a program that does not switch bases, on streams in std::dec, is a program of C87 *)
Theorem C102_decimal : forall fuel D G c s t o,
  bp_compiles D G (in_decimal c) = io_compiles D G c
  /\ bp_exec fuel D G (s, (BDec, t), (BDec, o)) (in_decimal c)
     = match io_exec fuel D G (s, t, o) c with
       | Some ((s', t', o'), r) => Some ((s', (BDec, t'), (BDec, o')), r)
       | None => None
       end.
Proof. exact C102_decimal_lemma. Qed.
Print Assumptions C102_decimal.
Example C102_decimal_example :
  exists s' t', io_exec 9 LP64 ex_G (ex_s, mkIs text1 false false, []) (IOSeq (IORead 0%nat) (IOWrite 0%nat))
    = Some ((s', t', [49; 48]), RDone).
Proof. do 2 eexists. vm_compute. reflexivity. Qed.
