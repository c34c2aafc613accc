(** PropsPortAll.v -- property C66 for all operators, and for programs with input and output or
    with arrays: changing the types, the policies, the evaluation order or the platform can make
    a program raise an exception, but cannot change what it computes, writes or stores. The
    conditions on operators are those of C73. Missing: what they exclude, and try. *)
From Coq Require Import ZArith Bool List Lia.
From Verif Require Import Base CType Spec ExceptionPolicy Promotion SafeBase SafeSpec Program ProgramSpec RetypeSpec
  ComposeSpec Stream StreamSpec IOProgram IOProgramSpec ArrayProgram ArraySpec PortIOSpec PortIOFacts.
Import ListNotations.
Local Open Scope Z_scope.

(** expressions with the same exact value, of all operators (so this is C82 too) *)
Theorem C66_all_expressions_partial : forall n n' D D' G G' s s' i e e' t t' z z',
  (forall v, type_fine n D (G v)) -> (forall v, type_fine n' D' (G' v)) ->
  store_ok D G s i -> store_ok D' G' s' i ->
  expr_fine n D G None e -> expr_fine n' D' G' None e' -> type_of D G e = Some t -> type_of D' G' e' = Some t' ->
  value i e = value i e' -> returns (eval D G s e) z -> returns (eval D' G' s' e') z' -> z = z'.
Proof. exact C66_expr_all. Qed.
Print Assumptions C66_all_expressions_partial.

(** programs *)
Theorem C66_all_programs_partial : forall n n' D D' G G' fuel fuel' c c' s s' i s1 s1',
  (forall v, type_fine n D (G v)) -> (forall v, type_fine n' D' (G' v)) ->
  store_ok D G s i -> store_ok D' G' s' i ->
  cmd_fine n D G c -> cmd_fine n' D' G' c' -> compiles D G c = true -> compiles D' G' c' = true ->
  same_cmd c c' ->
  exec fuel D G s c = Some (s1, RDone) -> exec fuel' D' G' s' c' = Some (s1', RDone) ->
  forall v, s1 v = s1' v.
Proof. exact C66_all. Qed.
Print Assumptions C66_all_programs_partial.

(** programs that read and write: from the same input they write the same output, and leave the
    same characters unread *)
Theorem C66_input_output_partial : forall n n' D D' G G' fuel fuel' c c' s s' i t t' o s1 t1 o1 s1' t1' o1',
  (forall v, type_fine n D (G v)) -> (forall v, type_fine n' D' (G' v)) ->
  store_ok D G s i -> store_ok D' G' s' i -> chars t = chars t' ->
  io_ok (cmd_fine n D G) (cond_fine n D G) D G false c -> io_ok (cmd_fine n' D' G') (cond_fine n' D' G') D' G' false c' ->
  io_compiles D G c = true -> io_compiles D' G' c' = true -> same_io c c' ->
  io_exec fuel D G (s, t, o) c = Some ((s1, t1, o1), RDone) ->
  io_exec fuel' D' G' (s', t', o) c' = Some ((s1', t1', o1'), RDone) ->
  o1 = o1' /\ chars t1 = chars t1' /\ forall v, s1 v = s1' v.
Proof. exact C66_io. Qed.
Print Assumptions C66_input_output_partial.

(** programs with arrays of the same lengths *)
Theorem C66_arrays_partial : forall n n' D D' G G' A A' fuel fuel' c c' s s' i mem mem' m s1 mem1 s1' mem1',
  (forall v, type_fine n D (G v)) -> (forall v, type_fine n' D' (G' v)) ->
  (forall a, type_fine n D (fst (A a))) -> (forall a, type_fine n' D' (fst (A' a))) ->
  store_ok D G s i -> store_ok D' G' s' i -> arrays_ok D A mem m -> arrays_ok D' A' mem' m ->
  (forall a, snd (A a) = snd (A' a)) ->
  a_ok (cmd_fine n D G) (expr_fine n D G None) (cond_fine n D G) c ->
  a_ok (cmd_fine n' D' G') (expr_fine n' D' G' None) (cond_fine n' D' G') c' ->
  a_compiles D G A c = true -> a_compiles D' G' A' c' = true -> same_acmd c c' ->
  a_exec fuel D G A (s, mem) c = Some ((s1, mem1), RDone) ->
  a_exec fuel' D' G' A' (s', mem') c' = Some ((s1', mem1'), RDone) ->
  (forall v, s1 v = s1' v) /\ (forall a, mem1 a = mem1' a).
Proof. exact C66_arrays. Qed.
Print Assumptions C66_arrays_partial.

(** Two typings: safe<unsigned> where int has 32 bits; safe<unsigned long> with other error
    handling where int has 16 bits. On the second platform safe<unsigned> raises. *)
Definition t1 : otype := OSafe (safe LP64 UInt Native default_exception_policy).
Definition t2 : otype := OSafe (safe IP16 ULong Native strict_exception_policy).
Definition t3 : otype := OSafe (safe IP16 UInt Native default_exception_policy).
Definition ex_i : nat -> Z := fun _ => 700.
Definition ex_s : store := fun v => Some (ex_i v).
(** v1 = (v0 / 7) | (v0 << 7) *)
Definition ex_c (o : otype) (f : bool) : cmd :=
  CAssign 1%nat (EBin (BB Or) f (EBin (BA Div) true (EVar 0%nat) (EConst o 7)) (EBin (BA Shl) true (EVar 0%nat) (EConst o 7))).
Lemma ex_types : type_fine true LP64 t1 /\ type_fine true IP16 t2 /\ type_fine true LP64 (ORaw UInt) /\ type_fine true IP16 (ORaw ULong).
Proof.
  unfold type_fine, type_ok, throws_arithmetic, throws_shift. cbn. unfold in_type.
  repeat split; try (intros E [= <-]; auto); try (intros; discriminate); auto; vm_compute; congruence.
Qed.
Lemma ex_stores : store_ok LP64 (fun _ => t1) ex_s ex_i /\ store_ok IP16 (fun _ => t2) ex_s ex_i.
Proof. split; intros v; (split; [reflexivity|]); vm_compute; split; congruence. Qed.
Lemma ex_fine : cmd_fine true LP64 (fun _ => t1) (ex_c (ORaw UInt) true) /\ cmd_fine true IP16 (fun _ => t2) (ex_c (ORaw ULong) false).
Proof.
  destruct ex_types as (_ & _ & A & B).
  split; cbn [cmd_fine ex_c expr_fine]; (split; [|split; [|]]); try (split; [exact I|split; [split; [assumption|vm_compute; split; congruence]|]]);
    intros t u Ht Hu; vm_compute in Ht; vm_compute in Hu; injection Ht as <-; injection Hu as <-;
    intros s m H; left; vm_compute in H; injection H as <- _; vm_compute; intuition congruence.
Qed.
Example C66_all_nonvacuous :
  type_fine true LP64 t1 /\ type_fine true IP16 t2
  /\ store_ok LP64 (fun _ => t1) ex_s ex_i /\ store_ok IP16 (fun _ => t2) ex_s ex_i
  /\ cmd_fine true LP64 (fun _ => t1) (ex_c (ORaw UInt) true) /\ cmd_fine true IP16 (fun _ => t2) (ex_c (ORaw ULong) false)
  /\ same_cmd (ex_c (ORaw UInt) true) (ex_c (ORaw ULong) false)
  /\ compiles LP64 (fun _ => t1) (ex_c (ORaw UInt) true) = true /\ compiles IP16 (fun _ => t2) (ex_c (ORaw ULong) false) = true
  /\ (exists s1, exec 1 LP64 (fun _ => t1) ex_s (ex_c (ORaw UInt) true) = Some (s1, RDone) /\ s1 1%nat = Some 89700)
  /\ (exists s1, exec 1 IP16 (fun _ => t2) ex_s (ex_c (ORaw ULong) false) = Some (s1, RDone) /\ s1 1%nat = Some 89700)
  /\ (exists e, exec 1 IP16 (fun _ => t3) ex_s (ex_c (ORaw UInt) true) = Some (ex_s, RRaised e)).
Proof.
  refine (conj (proj1 ex_types) (conj (proj1 (proj2 ex_types)) (conj (proj1 ex_stores) (conj (proj2 ex_stores)
    (conj (proj1 ex_fine) (conj (proj2 ex_fine) _)))))).
  split; [repeat constructor|]. split; [vm_compute; reflexivity|]. split; [vm_compute; reflexivity|].
  split; [eexists; split; vm_compute; reflexivity|]. split; [eexists; split; vm_compute; reflexivity|].
  eexists. vm_compute. reflexivity.
Qed.

(** read v0, compute v1, write v1: from " 700 x" the text "89700" *)
Definition ex_io (o : otype) (f : bool) : iocmd := IOSeq (IORead 0%nat) (IOSeq (IODo (ex_c o f)) (IOWrite 1%nat)).
Definition ex_t : istream := mkIs [32; 55; 48; 48; 32; 120] false false.
Example C66_input_output_nonvacuous :
  io_ok (cmd_fine true LP64 (fun _ => t1)) (cond_fine true LP64 (fun _ => t1)) LP64 (fun _ => t1) false (ex_io (ORaw UInt) true)
  /\ io_ok (cmd_fine true IP16 (fun _ => t2)) (cond_fine true IP16 (fun _ => t2)) IP16 (fun _ => t2) false (ex_io (ORaw ULong) false)
  /\ same_io (ex_io (ORaw UInt) true) (ex_io (ORaw ULong) false)
  /\ io_compiles LP64 (fun _ => t1) (ex_io (ORaw UInt) true) = true /\ io_compiles IP16 (fun _ => t2) (ex_io (ORaw ULong) false) = true
  /\ (exists s1, io_exec 1 LP64 (fun _ => t1) (ex_s, ex_t, []) (ex_io (ORaw UInt) true)
                 = Some ((s1, mkIs [32; 120] false false, [56; 57; 55; 48; 48]), RDone))
  /\ (exists s1, io_exec 1 IP16 (fun _ => t2) (ex_s, ex_t, []) (ex_io (ORaw ULong) false)
                 = Some ((s1, mkIs [32; 120] false false, [56; 57; 55; 48; 48]), RDone)).
Proof.
  destruct ex_fine as [F1 F2].
  split; [refine (conj (conj _ _) (conj _ I)); [vm_compute; intuition congruence|discriminate|assumption]|].
  split; [refine (conj (conj _ _) (conj _ I)); [vm_compute; intuition congruence|discriminate|assumption]|].
  split; [repeat constructor|]. split; [vm_compute; reflexivity|]. split; [vm_compute; reflexivity|].
  split; eexists; vm_compute; reflexivity.
Qed.

(** a[v0 >> 9] = (v0 / 7) | (v0 << 7), with three elements *)
Definition ex_a (T : ctype) (f : bool) : acmd :=
  ASet 0%nat f (EBin (BA Shr) true (EVar 0%nat) (EConst (OLit T 9 None None) 9))
    (EBin (BB Or) f (EBin (BA Div) true (EVar 0%nat) (EConst (ORaw T) 7)) (EBin (BA Shl) true (EVar 0%nat) (EConst (ORaw T) 7))).
Definition ex_mem : nat -> list Z := fun _ => [1; 2; 3].
Definition u1 : aenv := fun _ => (t1, 3%nat).
Definition u2 : aenv := fun _ => (t2, 3%nat).
Lemma ex_lit : type_fine true LP64 (OLit UInt 9 None None) /\ type_fine true IP16 (OLit ULong 9 None None).
Proof.
  unfold type_fine, type_ok. cbn. unfold in_type. repeat split; try (intros; discriminate); auto; vm_compute; congruence.
Qed.
Lemma ex_afine :
  a_ok (cmd_fine true LP64 (fun _ => t1)) (expr_fine true LP64 (fun _ => t1) None) (cond_fine true LP64 (fun _ => t1)) (ex_a UInt true)
  /\ a_ok (cmd_fine true IP16 (fun _ => t2)) (expr_fine true IP16 (fun _ => t2) None) (cond_fine true IP16 (fun _ => t2)) (ex_a ULong false).
Proof.
  destruct ex_types as (_ & _ & A & B). destruct ex_lit as [C E].
  split; cbn [a_ok ex_a expr_fine]; split; (split; [|split; [|]]); try exact I;
    try (split; [assumption|vm_compute; split; congruence]);
    try (split; [exact I|split; [split; [assumption|vm_compute; split; congruence]|]]);
    intros t u Ht Hu; vm_compute in Ht; vm_compute in Hu; injection Ht as <-; injection Hu as <-;
    intros s m H; left; vm_compute in H; injection H as <- _; vm_compute; intuition congruence.
Qed.
Example C66_arrays_nonvacuous :
  arrays_ok LP64 u1 ex_mem (fun _ n => nth n [1; 2; 3] 0) /\ arrays_ok IP16 u2 ex_mem (fun _ n => nth n [1; 2; 3] 0)
  /\ a_ok (cmd_fine true LP64 (fun _ => t1)) (expr_fine true LP64 (fun _ => t1) None) (cond_fine true LP64 (fun _ => t1)) (ex_a UInt true)
  /\ a_ok (cmd_fine true IP16 (fun _ => t2)) (expr_fine true IP16 (fun _ => t2) None) (cond_fine true IP16 (fun _ => t2)) (ex_a ULong false)
  /\ same_acmd (ex_a UInt true) (ex_a ULong false)
  /\ a_compiles LP64 (fun _ => t1) u1 (ex_a UInt true) = true /\ a_compiles IP16 (fun _ => t2) u2 (ex_a ULong false) = true
  /\ (exists mem1, a_exec 1 LP64 (fun _ => t1) u1 (ex_s, ex_mem) (ex_a UInt true) = Some ((ex_s, mem1), RDone) /\ mem1 0%nat = [1; 89700; 3])
  /\ (exists mem1, a_exec 1 IP16 (fun _ => t2) u2 (ex_s, ex_mem) (ex_a ULong false) = Some ((ex_s, mem1), RDone) /\ mem1 0%nat = [1; 89700; 3]).
Proof.
  split; [intros a; split; [reflexivity|]; intros [|[|[|n]]] H; cbn in H; [..|exfalso; lia]; (split; [reflexivity|vm_compute; split; congruence])|].
  split; [intros a; split; [reflexivity|]; intros [|[|[|n]]] H; cbn in H; [..|exfalso; lia]; (split; [reflexivity|vm_compute; split; congruence])|].
  refine (conj (proj1 ex_afine) (conj (proj2 ex_afine) _)).
  split; [repeat constructor|]. split; [vm_compute; reflexivity|]. split; [vm_compute; reflexivity|].
  split; eexists; (split; [vm_compute; reflexivity|reflexivity]).
Qed.

(** Without the conditions on operators it is false: v1 = v0 % v0 with v0 = -2147483648 gives
    -2147483648 with safe<int> and 0 with safe<long> *)
Theorem C66_modulus_refuted : exists D G G' c s i s1 s1',
  (forall v, type_fine true D (G v)) /\ (forall v, type_fine true D (G' v))
  /\ store_ok D G s i /\ store_ok D G' s i /\ compiles D G c = true /\ compiles D G' c = true /\ same_cmd c c
  /\ exec 0 D G s c = Some (s1, RDone) /\ exec 0 D G' s c = Some (s1', RDone) /\ s1 1%nat <> s1' 1%nat.
Proof. exact C66_modulus. Qed.
Print Assumptions C66_modulus_refuted.
