(** PropsArray.v -- property C88: programs that use safe values as subscripts. *)
From Coq Require Import ZArith List Bool Lia.
From Verif Require Import Base CType Spec ExceptionPolicy Promotion SafeBase SafeSpec Program ProgramSpec ComposeSpec
  ArrayProgram ArraySpec ArrayFacts.
Import ListNotations.
Local Open Scope Z_scope.

(** C88, operators + - * and native / as in C33. Programs with arrays do what they do in exact
    integer arithmetic, or raise an exception; variables and elements are always within their
    declared ranges. The program has undefined behaviour only if it uses a subscript that is
    out of bounds in exact arithmetic too, and not at all if the declared ranges of its
    subscripts are inside the arrays. *)
Theorem C88_programs : forall nat D G A fuel c s mem i m s' mem' r,
  (forall v, type_ok nat D (G v)) -> (forall a, type_ok nat D (fst (A a))) ->
  store_ok D G s i -> arrays_ok D A mem m ->
  a_ok (cmd_ok nat D G) (expr_ok nat D) (cond_ok nat D) c -> a_compiles D G A c = true ->
  a_exec fuel D G A (s, mem) c = Some ((s', mem'), r) ->
  exists i' m', store_ok D G s' i' /\ arrays_ok D A mem' m'
  /\ ((r = RDone /\ a_ideal A (i, m) c (i', m') Done)
      \/ (exists e, r = RRaised e /\ a_ideal A (i, m) c (i', m') Raised)
      \/ (r = RUndef /\ a_ideal A (i, m) c (i', m') OutOfBounds /\ ~ in_bounds D G A c)).
Proof. exact C88_lemma. Qed.
Print Assumptions C88_programs.

(** the same with all operators, under the conditions of C73 *)
Theorem C88_all_operators_partial : forall nat D G A fuel c s mem i m s' mem' r,
  (forall v, type_fine nat D (G v)) -> (forall a, type_fine nat D (fst (A a))) ->
  store_ok D G s i -> arrays_ok D A mem m ->
  a_ok (cmd_fine nat D G) (expr_fine nat D G None) (cond_fine nat D G) c -> a_compiles D G A c = true ->
  a_exec fuel D G A (s, mem) c = Some ((s', mem'), r) ->
  exists i' m', store_ok D G s' i' /\ arrays_ok D A mem' m'
  /\ ((r = RDone /\ a_ideal A (i, m) c (i', m') Done)
      \/ (exists e, r = RRaised e /\ a_ideal A (i, m) c (i', m') Raised)
      \/ (r = RUndef /\ a_ideal A (i, m) c (i', m') OutOfBounds /\ ~ in_bounds D G A c)).
Proof. exact C88_all_lemma. Qed.
Print Assumptions C88_all_operators_partial.

(** no access out of bounds, no other undefined behaviour *)
Theorem C88_no_access_out_of_bounds_partial : forall nat D G A fuel c s mem i m s' mem' r,
  (forall v, type_fine nat D (G v)) -> (forall a, type_fine nat D (fst (A a))) ->
  store_ok D G s i -> arrays_ok D A mem m ->
  a_ok (cmd_fine nat D G) (expr_fine nat D G None) (cond_fine nat D G) c -> in_bounds D G A c -> a_compiles D G A c = true ->
  a_exec fuel D G A (s, mem) c = Some ((s', mem'), r) -> r <> RUndef.
Proof. exact C88_bounds_lemma. Qed.
Print Assumptions C88_no_access_out_of_bounds_partial.

(** an access with a subscript inside the array raises nothing, if the value fits where it goes *)
Theorem C88_reads : forall nat D G A fuel v a e s mem i m k,
  (forall v, type_ok nat D (G v)) -> (forall a, type_ok nat D (fst (A a))) ->
  store_ok D G s i -> arrays_ok D A mem m -> expr_ok nat D e -> a_compiles D G A (AGet v a e) = true ->
  returns (eval D G s e) (Z.of_nat k) -> (k < snd (A a))%nat -> Z.of_nat k < 2 ^ (pointer_bits D - 1) ->
  holds D (G v) (m a k) ->
  a_exec fuel D G A (s, mem) (AGet v a e) = Some ((upd s v (Some (m a k)), mem), RDone).
Proof. exact C88_get_lemma. Qed.
Print Assumptions C88_reads.
Theorem C88_writes : forall nat D G A fuel a first e d s mem i m k y,
  (forall v, type_ok nat D (G v)) -> (forall a, type_ok nat D (fst (A a))) ->
  store_ok D G s i -> arrays_ok D A mem m -> expr_ok nat D e -> expr_ok nat D d ->
  a_compiles D G A (ASet a first e d) = true ->
  returns (eval D G s e) (Z.of_nat k) -> (k < snd (A a))%nat -> Z.of_nat k < 2 ^ (pointer_bits D - 1) ->
  returns (eval D G s d) y -> holds D (fst (A a)) y ->
  exists mem', a_exec fuel D G A (s, mem) (ASet a first e d) = Some ((s, mem'), RDone)
  /\ arrays_ok D A mem' (upd2 m a k y).
Proof. exact C88_set_lemma. Qed.
Print Assumptions C88_writes.

(** Variables: 0 is a safe_unsigned_range<0, 3>, the others are safe<int>. One array of four
    safe<int>. The program replaces the elements by their running sums, until ++v0 raises:
    while (v1 < 1000) { v1 = a[v0]; v2 += v1; a[v0] = v2; ++v0; } *)
Definition ex_G : tenv := fun v =>
  match v with O => OSafe (mkSafe UChar 0 3 Native default_exception_policy)
  | _ => OSafe (safe LP64 Int Native default_exception_policy) end.
Definition ex_A : aenv := fun _ => (OSafe (safe LP64 Int Native default_exception_policy), 4%nat).
Definition ex_s : store := fun _ => Some 0.
Definition ex_mem : nat -> list Z := fun _ => [5; -7; 20; 100].
Definition ex_c : acmd :=
  AWhile (Cond RLt true (EVar 1%nat) (EConst (ORaw Int) 1000))
    (ASeq (AGet 1%nat 0%nat (EVar 0%nat))
    (ASeq (ADo (CCompound (BA Add) 2%nat (EVar 1%nat)))
    (ASeq (ASet 0%nat false (EVar 0%nat) (EVar 2%nat)) (ADo (CInc 0%nat))))).
Lemma ex_int : forall nat, type_ok nat LP64 (OSafe (safe LP64 Int Native default_exception_policy)).
Proof.
  intros nat. unfold type_ok, throws_arithmetic. cbn. unfold in_type. repeat split; try (intros E [= <-]; auto); auto; vm_compute; congruence.
Qed.
Example C88_nonvacuous :
  (forall nat v, type_ok nat LP64 (ex_G v)) /\ (forall nat a, type_ok nat LP64 (fst (ex_A a)))
  /\ store_ok LP64 ex_G ex_s (fun _ => 0) /\ arrays_ok LP64 ex_A ex_mem (fun _ n => nth n [5; -7; 20; 100] 0)
  /\ a_ok (cmd_ok true LP64 ex_G) (expr_ok true LP64) (cond_ok true LP64) ex_c
  /\ in_bounds LP64 ex_G ex_A ex_c /\ a_compiles LP64 ex_G ex_A ex_c = true
  /\ exists s' mem', a_exec 9 LP64 ex_G ex_A (ex_s, ex_mem) ex_c = Some ((s', mem'), RRaised positive_overflow_error)
     /\ mem' 0%nat = [5; -2; 18; 118] /\ s' 0%nat = Some 3.
Proof.
  split; [|split; [|split; [|split; [|split; [|split; [|split]]]]]].
  - intros nat v. destruct v as [|v]; [|apply ex_int].
    unfold type_ok, throws_arithmetic; cbn; unfold in_type; repeat split; try (intros E [= <-]; auto); auto; vm_compute; congruence.
  - intros nat a. apply ex_int.
  - intros v. split; [reflexivity|]. destruct v as [|v]; vm_compute; split; congruence.
  - intros a. split; [reflexivity|]. intros n H. cbn in H.
    destruct n as [|[|[|[|n]]]]; [..|exfalso; lia]; (split; [reflexivity|vm_compute; split; congruence]).
  - cbn. unfold type_ok, op_ok. cbn. unfold in_type, holds. repeat split; try (intros; discriminate); auto; vm_compute; congruence.
  - cbn. repeat split; injection H as <-; cbn; lia.
  - vm_compute. reflexivity.
  - do 2 eexists. split; [vm_compute; reflexivity|]. split; reflexivity.
Qed.

(** a[v0] = v0 + 5 and v1 = a[v0], with v0 = 3 *)
Example C88_accesses_nonvacuous :
  a_compiles LP64 ex_G ex_A (AGet 1%nat 0%nat (EVar 0%nat)) = true
  /\ a_compiles LP64 ex_G ex_A (ASet 0%nat true (EVar 0%nat) (EBin (BA Add) true (EVar 0%nat) (EVar 1%nat))) = true
  /\ returns (eval LP64 ex_G (fun _ => Some 3) (EVar 0%nat)) (Z.of_nat 3)
  /\ returns (eval LP64 ex_G (fun _ => Some 3) (EBin (BA Add) true (EVar 0%nat) (EVar 1%nat))) 6
  /\ (3 < snd (ex_A 0%nat))%nat /\ Z.of_nat 3 < 2 ^ (pointer_bits LP64 - 1)
  /\ holds LP64 (ex_G 1%nat) 100 /\ holds LP64 (fst (ex_A 0%nat)) 6.
Proof. unfold returns. repeat split; try (vm_compute; (reflexivity || congruence)). Qed.

(** a subscript whose declared range is larger than the array can be out of bounds *)
Theorem C88_wide_subscript_refuted : exists D G A fuel c s mem i m s' mem',
  (forall v, type_ok true D (G v)) /\ (forall a, type_ok true D (fst (A a)))
  /\ store_ok D G s i /\ arrays_ok D A mem m
  /\ a_ok (cmd_ok true D G) (expr_ok true D) (cond_ok true D) c /\ a_compiles D G A c = true
  /\ a_exec fuel D G A (s, mem) c = Some ((s', mem'), RUndef).
Proof. exact C88_wide_lemma. Qed.
Print Assumptions C88_wide_subscript_refuted.

(** All operators: without the conditions of C73 a subscript can be out of bounds although its
    declared range is inside the array. With x a safe<unsigned> and the literal 10, x % 10 is
    declared [0, 5]; an array of six elements is accessed at position 7 *)
Theorem C88_modulus_refuted : exists D G A fuel x s mem i m s' mem',
  (forall v, type_fine true D (G v)) /\ (forall a, type_fine true D (fst (A a)))
  /\ store_ok D G s i /\ arrays_ok D A mem m
  /\ type_fine true D x /\ holds D x 10
  /\ in_bounds D G A (AGet 1%nat 0%nat (EBin (BA Mod) true (EVar 0%nat) (EConst x 10)))
  /\ a_compiles D G A (AGet 1%nat 0%nat (EBin (BA Mod) true (EVar 0%nat) (EConst x 10))) = true
  /\ a_exec fuel D G A (s, mem) (AGet 1%nat 0%nat (EBin (BA Mod) true (EVar 0%nat) (EConst x 10))) = Some ((s', mem'), RUndef).
Proof. exact C88_modulus_lemma. Qed.
Print Assumptions C88_modulus_refuted.
