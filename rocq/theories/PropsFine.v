(** PropsFine.v -- properties C85 and C86 for threads that may be interrupted anywhere: between
    any two accesses to variables, calls of operators, conversions and comparisons. *)
From Coq Require Import ZArith Bool List Lia.
From Verif Require Import Base CType Spec ExceptionPolicy Promotion SafeBase SafeSpec Program ProgramSpec
  ComposeSpec PropsProgram Threads ThreadsSpec PropsThreads Interleave Fine FineSpec FineFacts FineFacts2 FineFacts3.
Import ListNotations.
Local Open Scope Z_scope.

(** C85, as C85_every_moment, with interruptions also inside statements, conditions and
    expressions. In the state that the threads have reached, every variable is in its declared
    range, and the same threads reach the same state in exact arithmetic where each step may
    also raise; nothing undefined has happened *)
Theorem C85_interrupted_anywhere : forall nat D G cs s i s' ts',
  (forall v, type_ok nat D (G v)) -> store_ok D G s i ->
  (forall c, In c cs -> cmd_ok nat D G c /\ compiles D G c = true) ->
  freaches D G (s, map fstart cs) (s', ts') ->
  exists i', store_ok D G s' i' /\ ifreaches (i, map fstart cs) (i', ts') /\ ~ In FUndef ts'.
Proof. exact fine_moment. Qed.
Print Assumptions C85_interrupted_anywhere.

(** with all ten operators under the conditions of C73 *)
Theorem C85_interrupted_all_operators_partial : forall nat D G cs s i s' ts',
  (forall v, type_fine nat D (G v)) -> store_ok D G s i ->
  (forall c, In c cs -> cmd_fine nat D G c /\ compiles D G c = true) ->
  freaches D G (s, map fstart cs) (s', ts') ->
  exists i', store_ok D G s' i' /\ ifreaches (i, map fstart cs) (i', ts') /\ ~ In FUndef ts'.
Proof. exact fine_moment_all. Qed.
Print Assumptions C85_interrupted_all_operators_partial.

(** no thread of a program that compiles is ever stuck: all operators, all policies *)
Theorem C85_interrupted_progress : forall D G cs s s' ts' t,
  (forall c, In c cs -> compiles D G c = true) -> freaches D G (s, map fstart cs) (s', ts') ->
  In t ts' -> ~ fended t -> exists s2 t2, fstep D G s' t s2 t2.
Proof. exact fine_progress. Qed.
Print Assumptions C85_interrupted_progress.

(** every state that threads reach when they are interrupted between statements only is one
    they reach when they may be interrupted anywhere *)
Theorem C85_interrupted_includes : forall D G cs s s' ts', (forall c, In c cs -> compiles D G c = true) ->
  reaches D G (s, map start cs) (s', ts') -> freaches D G (s, map fstart cs) (s', map between ts').
Proof. exact fine_includes. Qed.
Print Assumptions C85_interrupted_includes.

(** v1 += 25, in a handler *)
Definition add25 : cmd := CTry (CCompound (BA Add) 1%nat (EConst (ORaw Int) 25)) (CAssign 1%nat (EVar 0%nat)).
(** v1 = (v1 * v1) / 100 *)
Definition scale : cmd :=
  CAssign 1%nat (EBin (BA Div) true (EBin (BA Mul) true (EVar 1%nat) (EVar 1%nat)) (EConst (ORaw Int) 100)).

Lemma freaches_head : forall D G p q r, fpstep D G p q -> freaches D G q r -> freaches D G p r.
Proof. intros D G p q r H K. eapply freaches_trans; [eapply FRStep; [apply FRHere|exact H]|exact K]. Qed.
Ltac turn k rule :=
  eapply freaches_head; [eapply (FPStep LP64 ex_G _ _ k); [reflexivity|eapply rule; vm_compute; reflexivity]|]; cbn [replace_nth].
Ltac call k path :=
  eapply freaches_head; [eapply (FPStep LP64 ex_G _ _ k); [reflexivity|apply FS_eval; path; apply ES_call; vm_compute; reflexivity]|]; cbn [replace_nth].
Ltac ready k rule :=
  eapply freaches_head; [eapply (FPStep LP64 ex_G _ _ k); [reflexivity|apply rule]|]; cbn [replace_nth].

(** v1 is of type safe_signed_range<0, 100> and is 40. The second thread reads v1 once before
    and once after the first one's update: it computes 40 * 65 / 100 = 26, in range, a value
    that no schedule of whole statements gives *)
Example C85_interrupted_nonvacuous :
  (forall v, type_ok true LP64 (ex_G v)) /\ store_ok LP64 ex_G ex_s ex_i
  /\ (forall c, In c [add25; scale] -> cmd_ok true LP64 ex_G c /\ compiles LP64 ex_G c = true)
  /\ exists s' ts', freaches LP64 ex_G (ex_s, map fstart [add25; scale]) (s', ts')
     /\ s' 1%nat = Some 26 /\ ts' = [FNext []; FNext []].
Proof.
  split; [exact (ex_G_ok true)|]. split; [exact ex_s_ok|]. split.
  - intros c [<-|[<-|[]]]; (split; [|vm_compute; reflexivity]);
    cbn; unfold type_ok, op_ok; cbn; unfold in_type, holds;
    repeat split; try (intros; discriminate); auto; vm_compute; congruence.
  - eexists (upd (upd ex_s 1%nat (Some 65)) 1%nat (Some 26)), [FNext []; FNext []]. split; [|split; reflexivity].
    cbn [map fstart].
    ready 1%nat FS_assign. ready 0%nat FS_try. ready 0%nat FS_compound.
    call 1%nat ltac:(apply ES_left; apply ES_left). call 0%nat ltac:(apply ES_left).
    call 0%nat ltac:(idtac). turn 0%nat FS_convert. ready 0%nat FS_write.
    call 1%nat ltac:(apply ES_left; apply ES_right). ready 0%nat FS_leave.
    call 1%nat ltac:(apply ES_left). call 1%nat ltac:(idtac). turn 1%nat FS_convert. ready 1%nat FS_write.
    apply FRHere.
Qed.

(** C86 for threads that are interrupted anywhere: all operators, all policies, also programs
    with undefined behaviour. Each thread is in a state that it reaches running alone, with
    the values that its variables have there *)
Theorem C86_interrupted : forall D G cs s s' ts', independent cs -> freaches D G (s, map fstart cs) (s', ts') ->
  forall n c t, nth_error cs n = Some c -> nth_error ts' n = Some t ->
  exists s1, falone D G s (fstart c) s1 t /\ forall v, uses c v -> s1 v = s' v.
Proof. exact fine_no_interference. Qed.
Print Assumptions C86_interrupted.

Example C86_interrupted_nonvacuous :
  independent [left_side; right_side]
  /\ exists s' ts', freaches LP64 ex_G (ex_s, map fstart [left_side; right_side]) (s', ts')
     /\ Forall fended ts' /\ map s' [0; 1; 2; 3; 4]%nat = [Some 81; Some 40; Some 8; Some 5; Some 7].
Proof.
  destruct C86_nonvacuous as (I & s' & ts' & R & E & _ & V). split; [exact I|].
  exists s', (map between ts'). split; [|split; [|exact V]].
  - apply fine_includes; [|exact R]. intros c [<-|[<-|[]]]; vm_compute; reflexivity.
  - clear R V. induction E as [|t ts' H E IH]; cbn; constructor; [|exact IH]. destruct t as [c k|[|f k]|e [|f k]|]; exact H.
Qed.
