(** PropsThreads.v -- properties C85 and C86: every moment of the execution of a program, also
    one that never ends, with any number of threads under any schedule; threads that use
    different variables do not influence each other. *)
From Coq Require Import ZArith Bool List Lia.
From Verif Require Import Base CType Spec ExceptionPolicy Promotion SafeBase SafeSpec Program ProgramSpec
  ComposeSpec PropsProgram Threads ThreadsSpec ThreadsFacts.
Import ListNotations.
Local Open Scope Z_scope.

(** C85: in every state that the threads reach, under every schedule, every variable is in its
    declared range; the state is one that the same threads reach in exact arithmetic when
    statements and conditions may also raise; no thread has executed undefined behaviour.
    Nothing is assumed about termination. *)
Theorem C85_every_moment : forall nat D G cs s i s' ts',
  (forall v, type_ok nat D (G v)) -> store_ok D G s i ->
  (forall c, In c cs -> cmd_ok nat D G c /\ compiles D G c = true) ->
  reaches D G (s, map start cs) (s', ts') ->
  exists i', store_ok D G s' i' /\ ireaches (i, map start cs) (i', ts') /\ ~ In TUndef ts'.
Proof. exact moment_ok. Qed.
Print Assumptions C85_every_moment.

(** the same for programs with all ten operators under the conditions of C73 *)
Theorem C85_all_operators_partial : forall nat D G cs s i s' ts',
  (forall v, type_fine nat D (G v)) -> store_ok D G s i ->
  (forall c, In c cs -> cmd_fine nat D G c /\ compiles D G c = true) ->
  reaches D G (s, map start cs) (s', ts') ->
  exists i', store_ok D G s' i' /\ ireaches (i, map start cs) (i', ts') /\ ~ In TUndef ts'.
Proof. exact moment_fine. Qed.
Print Assumptions C85_all_operators_partial.

(** no thread is ever stuck in the middle of its program: all operators, all policies *)
Theorem C85_progress : forall D G s t, ~ ended t -> exists s' t', step1 D G s t = Some (s', t').
Proof. exact step1_total. Qed.
Print Assumptions C85_progress.

(** a program with one thread does what C33, C34, C52, ... are about *)
Theorem C85_one_thread : forall D G c s s1 r,
  (exists fuel, exec fuel D G s c = Some (s1, r))
  <-> (exists n t, alone n D G s (start c) = Some (s1, t) /\ ended t /\ thread_result t = r).
Proof. exact sequential_lemma. Qed.
Print Assumptions C85_one_thread.

(** while (v0 == v0) try { v1 += 25; } catch (...) { v1 = v0; } never ends. *)
Definition forever : cmd :=
  CWhile (Cond REq true (EVar 0%nat) (EVar 0%nat))
    (CTry (CCompound (BA Add) 1%nat (EConst (ORaw Int) 25)) (CAssign 1%nat (EVar 0%nat))).
(** v2 = v1 * v1; v1 -= v2; *)
Definition meddler : cmd :=
  CSeq (CAssign 2%nat (EBin (BA Mul) true (EVar 1%nat) (EVar 1%nat))) (CCompound (BA Sub) 1%nat (EVar 2%nat)).

(** Two threads share v1, of type safe_signed_range<0, 100>. The first goes round three times
    (the third addition raises, and v1 = 3 again), the other one reads v1 = 65 in between and
    in the end raises *)
Example C85_nonvacuous :
  (forall v, type_ok true LP64 (ex_G v)) /\ store_ok LP64 ex_G ex_s ex_i
  /\ (forall c, In c [forever; meddler] -> cmd_ok true LP64 ex_G c /\ compiles LP64 ex_G c = true)
  /\ exists s' ts', reaches LP64 ex_G (ex_s, map start [forever; meddler]) (s', ts')
     /\ s' 1%nat = Some 3 /\ s' 2%nat = Some 4225
     /\ nth_error ts' 0 = Some (TRun forever []) /\ nth_error ts' 1 = Some (TRaise negative_overflow_error []).
Proof.
  split; [exact (ex_G_ok true)|]. split; [exact ex_s_ok|]. split.
  - intros c [<-|[<-|[]]]; (split; [|vm_compute; reflexivity]);
    cbn; unfold type_ok, op_ok; cbn; unfold in_type, holds;
    repeat split; try (intros; discriminate); auto; vm_compute; congruence.
  - do 2 eexists. split.
    + apply (follow_reaches LP64 ex_G [0;0;0;0;0; 1;1; 0;0;0;0;0; 0;0;0;0;0; 0; 1;1]%nat). vm_compute. reflexivity.
    + vm_compute. repeat split; reflexivity.
Qed.

(** C86: no thread writes a variable that another one uses. All operators, all policies, also
    programs with undefined behaviour. In every state they reach each thread is where some
    number of steps of it alone would have brought it, and its variables have the values they
    would have there *)
Theorem C86_no_interference : forall D G cs s s' ts', independent cs -> reaches D G (s, map start cs) (s', ts') ->
  forall n c t, nth_error cs n = Some c -> nth_error ts' n = Some t ->
  exists k s1, alone k D G s (start c) = Some (s1, t) /\ forall v, uses c v -> s1 v = s' v.
Proof. exact noninterference_lemma. Qed.
Print Assumptions C86_no_interference.

(** a thread that has ended has the result that its program has without the others *)
Theorem C86_results : forall D G cs s s' ts', independent cs -> reaches D G (s, map start cs) (s', ts') ->
  forall n c t, nth_error cs n = Some c -> nth_error ts' n = Some t -> ended t ->
  exists fuel s1, exec fuel D G s c = Some (s1, thread_result t) /\ forall v, uses c v -> s1 v = s' v.
Proof. exact results_lemma. Qed.
Print Assumptions C86_results.

(** variables that no thread writes keep their values *)
Theorem C86_unwritten : forall D G cs s s' ts', independent cs -> reaches D G (s, map start cs) (s', ts') ->
  forall v, (forall c, In c cs -> ~ writes c v) -> s' v = s v.
Proof. exact unwritten_lemma. Qed.
Print Assumptions C86_unwritten.

(** all schedules that run every thread to its end give the same results and values *)
Theorem C86_schedule : forall D G cs s s1 ts1 s2 ts2, independent cs ->
  reaches D G (s, map start cs) (s1, ts1) -> reaches D G (s, map start cs) (s2, ts2) ->
  Forall ended ts1 -> Forall ended ts2 -> ts1 = ts2 /\ forall v, s1 v = s2 v.
Proof. exact schedule_lemma. Qed.
Print Assumptions C86_schedule.

(** Both threads read v1; the first writes v0 and the second v2 and v4. The second ends with
    an exception *)
Definition left_side : cmd :=
  CWhile (Cond RLt true (EVar 0%nat) (EVar 1%nat)) (CCompound (BA Mul) 0%nat (EConst (ORaw Int) 3)).
Definition right_side : cmd :=
  CSeq (CPost true 4%nat 2%nat) (CAssign 2%nat (EBin (BA Sub) true (EVar 2%nat) (EVar 1%nat))).
Example C86_nonvacuous :
  independent [left_side; right_side]
  /\ exists s' ts', reaches LP64 ex_G (ex_s, map start [left_side; right_side]) (s', ts')
     /\ Forall ended ts' /\ map thread_result ts' = [RDone; RRaised negative_overflow_error]
     /\ map s' [0; 1; 2; 3; 4]%nat = [Some 81; Some 40; Some 8; Some 5; Some 7].
Proof.
  split.
  - intros n m c d v N Hn Hm W U. destruct n as [|[|n]]; destruct m as [|[|m]]; try congruence;
    cbn in Hn, Hm; try discriminate; try (destruct n; discriminate); try (destruct m; discriminate);
    injection Hn as <-; injection Hm as <-; cbn in W, U; lia.
  - do 2 eexists. split; [|split].
    + apply (follow_reaches LP64 ex_G [0;1;1;0;0;0;1;1;0;0;0;0;0;0]%nat). vm_compute. reflexivity.
    + repeat constructor.
    + vm_compute. split; reflexivity.
Qed.

(** threads that do share a variable are not independent of the schedule: v1 *= 2 and v1 -= 10
    in either order *)
Theorem C86_shared_refuted : exists D G cs s s1 ts1 s2 ts2,
  reaches D G (s, map start cs) (s1, ts1) /\ reaches D G (s, map start cs) (s2, ts2)
  /\ Forall ended ts1 /\ Forall ended ts2 /\ ts1 = ts2 /\ s1 1%nat <> s2 1%nat.
Proof. exact shared_lemma. Qed.
Print Assumptions C86_shared_refuted.
