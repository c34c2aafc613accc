(** PropsIO.v -- property C87: programs that read safe variables from a stream and write them. *)
From Coq Require Import ZArith List Bool Lia.
From Verif Require Import Base CType Spec ExceptionPolicy Promotion SafeBase SafeSpec Program ProgramSpec ComposeSpec
  Stream StreamSpec IOProgram IOProgramSpec IOProgramFacts.
Import ListNotations.
Local Open Scope Z_scope.

(** C87, native and automatic promotion, operators + - * and comparisons as in C33. Whatever
    the input is, the program ends as it does in exact integer arithmetic, where reading takes
    an integer in the declared range from the input or raises because there is none, and
    writing writes decimal numbers; or with an exception. No undefined behaviour.
    Missing: variables of character types (C44); variables with a narrower range read inside a
    try block, for which it is false, see below. *)
Theorem C87_programs_partial : forall nat D G fuel c s i t o s' t' o' r,
  (forall v, type_ok nat D (G v)) -> store_ok D G s i ->
  io_ok (cmd_ok nat D G) (cond_ok nat D) D G false c -> io_compiles D G c = true ->
  io_exec fuel D G (s, t, o) c = Some ((s', t', o'), r) ->
  exists i', store_is s' i'
  /\ ((r = RDone /\ store_ok D G s' i' /\ io_ideal D G (i, t, o) c (i', t', o') true)
      \/ (exists e, r = RRaised e /\ io_ideal D G (i, t, o) c (i', t', o') false)).
Proof. exact C87_lemma. Qed.
Print Assumptions C87_programs_partial.

(** the same with all operators, under the conditions of C73 *)
Theorem C87_all_operators_partial : forall nat D G fuel c s i t o s' t' o' r,
  (forall v, type_fine nat D (G v)) -> store_ok D G s i ->
  io_ok (cmd_fine nat D G) (cond_fine nat D G) D G false c -> io_compiles D G c = true ->
  io_exec fuel D G (s, t, o) c = Some ((s', t', o'), r) ->
  exists i', store_is s' i'
  /\ ((r = RDone /\ store_ok D G s' i' /\ io_ideal D G (i, t, o) c (i', t', o') true)
      \/ (exists e, r = RRaised e /\ io_ideal D G (i, t, o) c (i', t', o') false)).
Proof. exact C87_all_lemma. Qed.
Print Assumptions C87_all_operators_partial.

(** Variables: 0 and 1 are safe<int>, 2 is safe<long>. The program reads n, then n numbers,
    adds up those that can be read, and writes the sum *)
Definition ex_G : tenv := fun v =>
  match v with 2%nat => OSafe (safe LP64 Long Native default_exception_policy)
  | _ => OSafe (safe LP64 Int Native default_exception_policy) end.
Definition ex_s : store := fun _ => Some 0.
Definition ex_body : iocmd :=
  IOSeq (IOTry (IOSeq (IORead 1%nat) (IODo (CCompound (BA Add) 2%nat (EVar 1%nat)))) (IODo CSkip)) (IODo (CDec 0%nat)).
Definition ex_c : iocmd :=
  IOSeq (IORead 0%nat) (IOSeq (IOWhile (Cond RGt true (EVar 0%nat) (EConst (ORaw Int) 0)) ex_body) (IOWrite 2%nat)).
(** "3 10 20 -5" gives "25"; "3 10 x 1" gives "10"; " 99999999999" raises *)
Definition text1 : list Z := [51; 32; 49; 48; 32; 50; 48; 32; 45; 53].
Definition text2 : list Z := [51; 32; 49; 48; 32; 120; 32; 49].
Definition text3 : list Z := [32; 57; 57; 57; 57; 57; 57; 57; 57; 57; 57; 57].
Example C87_nonvacuous :
  (forall nat v, type_ok nat LP64 (ex_G v)) /\ store_ok LP64 ex_G ex_s (fun _ => 0)
  /\ io_ok (cmd_ok true LP64 ex_G) (cond_ok true LP64) LP64 ex_G false ex_c /\ io_compiles LP64 ex_G ex_c = true
  /\ (exists s' t', io_exec 9 LP64 ex_G (ex_s, mkIs text1 false false, []) ex_c = Some ((s', t', [50; 53]), RDone))
  /\ (exists s' t', io_exec 9 LP64 ex_G (ex_s, mkIs text2 false false, []) ex_c = Some ((s', t', [49; 48]), RDone))
  /\ (exists s' t', io_exec 9 LP64 ex_G (ex_s, mkIs text3 false false, []) ex_c = Some ((s', t', []), RRaised domain_error)).
Proof.
  split; [|split; [|split; [|split]]].
  - intros nat v. destruct v as [|[|[|v]]]; unfold type_ok, throws_arithmetic; cbn; unfold in_type; repeat split;
      try (intros; discriminate); try (intros E [= <-]; auto); auto; vm_compute; congruence.
  - intros v. split; [reflexivity|]. destruct v as [|[|[|v]]]; vm_compute; split; congruence.
  - cbn. unfold type_ok, op_ok, wide_type. cbn. unfold in_type, holds.
    repeat split; try (intros; discriminate); auto; try (vm_compute; congruence).
  - vm_compute. reflexivity.
  - split; [|split]; do 2 eexists; vm_compute; reflexivity.
Qed.

(** Without the condition on reading inside a try block it is false: the number is in the
    variable although it is out of range (C44), and the program relies on the declared range.
    try { cin >> v0; } catch(...) {}  v1 = v0 + v0;  with v0 in <1,1000> and the input 20000:
    the sum is not checked, since 1000 + 1000 fits, and the program ends normally with -25536
    in v1, which is declared to be in <2,2000>. *)
Theorem C87_caught_refuted : exists D G fuel c1 s i t s' t' o',
  (forall v, type_ok true D (G v)) /\ store_ok D G s i
  /\ wide_type (base_ty (G 0%nat)) /\ cmd_ok true D G c1
  /\ io_compiles D G (IOSeq (IOTry (IORead 0%nat) (IODo CSkip)) (IODo c1)) = true
  /\ io_exec fuel D G (s, t, []) (IOSeq (IOTry (IORead 0%nat) (IODo CSkip)) (IODo c1)) = Some ((s', t', o'), RDone)
  /\ s' 1%nat = Some (-25536) /\ ~ holds D (G 1%nat) (-25536).
Proof. exact C87_caught_lemma. Qed.
Print Assumptions C87_caught_refuted.

(** try { cin >> v0; } catch(...) {}  v1 /= v0;  with v0 in <1,1000> and the input "x": the
    division by zero is not checked, and happens *)
Theorem C87_caught_undefined_refuted : exists D G fuel c1 s i t s' t' o',
  (forall v, type_fine true D (G v)) /\ store_ok D G s i
  /\ wide_type (base_ty (G 0%nat)) /\ cmd_fine true D G c1
  /\ io_compiles D G (IOSeq (IOTry (IORead 0%nat) (IODo CSkip)) (IODo c1)) = true
  /\ io_exec fuel D G (s, t, []) (IOSeq (IOTry (IORead 0%nat) (IODo CSkip)) (IODo c1)) = Some ((s', t', o'), RUndef).
Proof. exact C87_caught_undefined_lemma. Qed.
Print Assumptions C87_caught_undefined_refuted.

(** reading needs a policy that can report an invalid input when the program runs: with a trap
    policy the program does not compile *)
Theorem C87_no_reading_with_trap : forall D G v a, G v = OSafe a -> traps (sE a) -> io_compiles D G (IORead v) = false.
Proof. exact C87_trap_lemma. Qed.
Print Assumptions C87_no_reading_with_trap.
Example C87_no_reading_with_trap_example :
  traps strict_trap_policy
  /\ io_compiles LP64 (fun _ => OSafe (safe LP64 Int Native strict_trap_policy)) (IOWrite 0%nat) = true
  /\ io_compiles LP64 (fun _ => OSafe (safe LP64 Int Native strict_trap_policy)) (IORead 0%nat) = false
  /\ io_compiles LP64 (fun _ => OSafe (safe LP64 Int Native loose_exception_policy)) (IORead 0%nat) = true.
Proof. vm_compute. repeat split; reflexivity. Qed.
