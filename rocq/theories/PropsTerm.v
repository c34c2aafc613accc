(** PropsTerm.v -- property C95: termination. A safe program ends if the program ends in exact
    arithmetic, and a loop in which one safe variable always grows, or always falls, ends, by an
    exception if nothing else. *)
From Coq Require Import ZArith Bool List Lia.
From Verif Require Import Base CType Spec ExceptionPolicy Promotion SafeBase SafeSpec Program ProgramSpec ComposeSpec
  BuiltinSpec ThreadsSpec PropsProgram TermSpec TermFacts.
Import ListNotations.
Local Open Scope Z_scope.

(** C95. A program that ends in exact arithmetic, wherever exceptions are raised, ends; it may
    catch exceptions *)
Theorem C95_ends : forall nat D G, (forall v, type_ok nat D (G v)) -> forall i c, halts i c ->
  cmd_ok nat D G c -> compiles D G c = true -> forall s, store_ok D G s i -> ends D G s c.
Proof. exact ends_base. Qed.
Print Assumptions C95_ends.
Theorem C95_ends_all_operators_partial : forall nat D G, (forall v, type_fine nat D (G v)) -> forall i c, halts i c ->
  cmd_fine nat D G c -> compiles D G c = true -> forall s, store_ok D G s i -> ends D G s c.
Proof. exact ends_fine. Qed.
Print Assumptions C95_ends_all_operators_partial.

(** A program without handlers that completes in exact arithmetic completes with the same values
    or raises; it does not run forever *)
Theorem C95_exact : forall nat D G c s i i', (forall v, type_ok nat D (G v)) -> store_ok D G s i ->
  cmd_ok nat D G c -> compiles D G c = true -> no_try c -> ideal i c i' true ->
  exists f s' r, exec f D G s c = Some (s', r) /\ ((r = RDone /\ store_ok D G s' i') \/ exists e, r = RRaised e).
Proof. exact exact_ends. Qed.
Print Assumptions C95_exact.
Theorem C95_exact_all_operators_partial : forall nat D G c s i i', (forall v, type_fine nat D (G v)) -> store_ok D G s i ->
  cmd_fine nat D G c -> compiles D G c = true -> no_try c -> ideal i c i' true ->
  exists f s' r, exec f D G s c = Some (s', r) /\ ((r = RDone /\ store_ok D G s' i') \/ exists e, r = RRaised e).
Proof. exact exact_ends_fine. Qed.
Print Assumptions C95_exact_all_operators_partial.

(** Loops that need not end in exact arithmetic: if every turn of the loop that completes makes
    some quantity m larger, and m is at most B as long as all variables are in their declared
    ranges, the loop makes at most B - m + 1 turns *)
Theorem C95_variant : forall nat D G c a f0 m B, (forall v, type_ok nat D (G v)) -> cmd_ok nat D G (CWhile c a) ->
  compiles D G (CWhile c a) = true ->
  (forall s i, store_ok D G s i -> truth i c = Some true -> exists r, exec f0 D G s a = Some r) ->
  (forall i, in_ranges D G i -> m i <= B) ->
  (forall i i1, in_ranges D G i -> in_ranges D G i1 -> truth i c = Some true -> ideal i a i1 true -> m i < m i1) ->
  forall s i f, store_ok D G s i -> (f0 <= f)%nat -> B - m i + 1 < Z.of_nat f -> exists r, exec f D G s (CWhile c a) = Some r.
Proof. exact variant_base. Qed.
Print Assumptions C95_variant.
Theorem C95_variant_all_operators_partial : forall nat D G c a f0 m B, (forall v, type_fine nat D (G v)) ->
  cmd_fine nat D G (CWhile c a) -> compiles D G (CWhile c a) = true ->
  (forall s i, store_ok D G s i -> truth i c = Some true -> exists r, exec f0 D G s a = Some r) ->
  (forall i, in_ranges D G i -> m i <= B) ->
  (forall i i1, in_ranges D G i -> in_ranges D G i1 -> truth i c = Some true -> ideal i a i1 true -> m i < m i1) ->
  forall s i f, store_ok D G s i -> (f0 <= f)%nat -> B - m i + 1 < Z.of_nat f -> exists r, exec f D G s (CWhile c a) = Some r.
Proof. exact variant_fine. Qed.
Print Assumptions C95_variant_all_operators_partial.

(** in particular a variable that grows, or falls, in every turn *)
Theorem C95_counter_up : forall nat D G c a f0 v, (forall v, type_ok nat D (G v)) -> cmd_ok nat D G (CWhile c a) ->
  compiles D G (CWhile c a) = true ->
  (forall s i, store_ok D G s i -> truth i c = Some true -> exists r, exec f0 D G s a = Some r) ->
  (forall i i1, in_ranges D G i -> in_ranges D G i1 -> truth i c = Some true -> ideal i a i1 true -> i v < i1 v) ->
  forall s i f, store_ok D G s i -> (f0 <= f)%nat -> lim_hi D (G v) - i v + 1 < Z.of_nat f ->
  exists r, exec f D G s (CWhile c a) = Some r.
Proof. exact counter_up. Qed.
Print Assumptions C95_counter_up.
Theorem C95_counter_down : forall nat D G c a f0 v, (forall v, type_ok nat D (G v)) -> cmd_ok nat D G (CWhile c a) ->
  compiles D G (CWhile c a) = true ->
  (forall s i, store_ok D G s i -> truth i c = Some true -> exists r, exec f0 D G s a = Some r) ->
  (forall i i1, in_ranges D G i -> in_ranges D G i1 -> truth i c = Some true -> ideal i a i1 true -> i1 v < i v) ->
  forall s i f, store_ok D G s i -> (f0 <= f)%nat -> i v - lim_lo D (G v) + 1 < Z.of_nat f ->
  exists r, exec f D G s (CWhile c a) = Some r.
Proof. exact counter_down. Qed.
Print Assumptions C95_counter_down.

(** for (; x < y; ++x) body, where body writes neither x nor y and always ends: the loop ends;
    if it completes, body has been run for exactly the values x, x + 1, ..., y - 1, and otherwise
    an exception was raised at one of them *)
Theorem C95_counting_up : forall nat D G o x y body f0, (forall v, type_ok nat D (G v)) -> cmd_ok nat D G body ->
  compiles D G (for_up o x y body) = true -> x <> y -> ~ writes body x -> ~ writes body y ->
  (forall s i, store_ok D G s i -> exists r, exec f0 D G s body = Some r) ->
  forall s i f, store_ok D G s i -> (f0 <= f)%nat -> lim_hi D (G x) - i x + 1 < Z.of_nat f ->
  exists s' i' r, exec f D G s (for_up o x y body) = Some (s', r) /\ store_ok D G s' i' /\ i' y = i y
  /\ ((r = RDone /\ passes body x 1 i (numbers (i x) (i y)) i' /\ i' x = Z.max (i x) (i y))
      \/ (exists e, r = RRaised e /\ i x <= i' x <= Z.max (i x) (i y))).
Proof. exact counts_up. Qed.
Print Assumptions C95_counting_up.
(** for (; x > y; --x) body *)
Theorem C95_counting_down : forall nat D G o x y body f0, (forall v, type_ok nat D (G v)) -> cmd_ok nat D G body ->
  compiles D G (for_down o x y body) = true -> x <> y -> ~ writes body x -> ~ writes body y ->
  (forall s i, store_ok D G s i -> exists r, exec f0 D G s body = Some r) ->
  forall s i f, store_ok D G s i -> (f0 <= f)%nat -> i x - lim_lo D (G x) + 1 < Z.of_nat f ->
  exists s' i' r, exec f D G s (for_down o x y body) = Some (s', r) /\ store_ok D G s' i' /\ i' y = i y
  /\ ((r = RDone /\ passes body x (-1) i (map (fun z => i x + i y + 1 - z) (numbers (i y + 1) (i x + 1))) i'
       /\ i' x = Z.min (i x) (i y))
      \/ (exists e, r = RRaised e /\ Z.min (i x) (i y) <= i' x <= i x)).
Proof. exact counts_down. Qed.
Print Assumptions C95_counting_down.

(** the condition on the body holds if it has no loops: all operators and policies *)
Theorem C95_no_loops : forall D G c, no_loops c -> forall s f, exists r, exec f D G s c = Some r.
Proof. exact no_loops_end. Qed.
Print Assumptions C95_no_loops.

(** the same is not true of built-in types: for an unsigned char x, while (x < 300) ++x; never
    ends *)
Definition loop300 : cmd := CWhile (Cond RLt true (EVar 0%nat) (EConst (ORaw Int) 300)) (CInc 0%nat).
Definition uchars : tenv := fun _ => OSafe (safe LP64 UChar Native ex_ep).
Theorem C95_built_in_refuted : forall i f, 0 <= i 0%nat <= 255 -> bexec f LP64 uchars i loop300 = None.
Proof. exact (fun i f B => bloop_wraps uchars f f i B eq_refl). Qed.
Print Assumptions C95_built_in_refuted.

(** Without the conditions of C73 the first claim is false: in exact arithmetic the loop
    while (x % 10 < 7) x = 8 - x; ends with x = 8 if x is 0 before; with a safe<unsigned> x and
    literals it compiles and never ends, because x % 10 is declared [0, 5], so that x % 10 < 7 is
    not evaluated (C25, C29) *)
Theorem C95_all_operators_refuted : (forall i, i 0%nat = 0 -> ideal i (CWhile rem_cond rem_body) (upd i 0%nat 8) true)
  /\ compiles LP64 rem_types (CWhile rem_cond rem_body) = true
  /\ (forall s f, s 0%nat = Some 0 -> exec f LP64 rem_types s (CWhile rem_cond rem_body) = None).
Proof. exact (conj rem_loop_ideal (conj eq_refl rem_loop_runs)). Qed.
Print Assumptions C95_all_operators_refuted.

(** ------------------------------------------------------------------ *)
(** the safe version raises when x is 255 *)
Lemma uchars_ok : forall n v, type_ok n LP64 (uchars v).
Proof.
  intros n v. unfold type_ok, uchars. cbn. unfold in_type.
  split; [vm_compute; intuition congruence|]. split; [intros E [= <-]; vm_compute; auto|]. intros _ P [= <-]. reflexivity.
Qed.
Example C95_counter_nonvacuous : forall s i, store_ok LP64 uchars s i ->
  exists r, exec (Z.to_nat 300) LP64 uchars s loop300 = Some r.
Proof.
  intros s i Hs. destruct (Hs 0%nat) as [_ Hx].
  apply (C95_counter_up true LP64 uchars _ _ 1 0%nat (uchars_ok true)) with (i := i); try assumption; try lia.
  - repeat split; vm_compute; try reflexivity; try intuition congruence. 
  - vm_compute. reflexivity.
  - intros s0 i0 _ _. eexists. reflexivity.
  - intros i0 i1 _ _ _ I. inversion I; subst. unfold upd. cbn. lia.
  - unfold holds in Hx. change (lim_hi LP64 (uchars 0%nat)) with 255 in *. change (lim_lo LP64 (uchars 0%nat)) with 0 in Hx. lia.
Qed.
Example C95_raises : match exec (Z.to_nat 300) LP64 uchars (fun _ => Some 250) loop300 with
  | Some (s', RRaised positive_overflow_error) => s' 0%nat = Some 255 | _ => False end.
Proof. vm_compute. reflexivity. Qed.

(** for (; v1 < v0; ++v1) v2 += v1, with v1 of type safe_signed_range<0, 100>: complete if v0 is
    45, an exception at 100 if it is 1000 *)
Definition sum_up : cmd := for_up true 1%nat 0%nat (CCompound (BA Add) 2%nat (EVar 1%nat)).
Example C95_counting_nonvacuous :
  compiles LP64 ex_G sum_up = true
  /\ (forall s i, store_ok LP64 ex_G s i -> exists r, exec 0 LP64 ex_G s (CCompound (BA Add) 2%nat (EVar 1%nat)) = Some r)
  /\ match exec 102 LP64 ex_G (upd ex_s 0%nat (Some 45)) sum_up with
     | Some (s', RDone) => (s' 1%nat, s' 2%nat) = (Some 45, Some (7 + 40 + 41 + 42 + 43 + 44))
     | _ => False end
  /\ match exec 102 LP64 ex_G (upd ex_s 0%nat (Some 1000)) sum_up with
     | Some (s', RRaised positive_overflow_error) => s' 1%nat = Some 100
     | _ => False end.
Proof.
  split; [vm_compute; reflexivity|]. split; [intros s i _; eexists; reflexivity|]. vm_compute. split; reflexivity.
Qed.
Example C95_numbers : numbers 40 45 = [40; 41; 42; 43; 44]
  /\ map (fun z => 5 + 2 + 1 - z) (numbers (2 + 1) (5 + 1)) = [5; 4; 3].
Proof. split; reflexivity. Qed.
(** the program of C33's example, with a handler, ends in exact arithmetic: while (v0 < 10) ++v0 *)
Example C95_ends_nonvacuous :
  forall i, halts i (CTry (CWhile (Cond RLt true (EVar 0%nat) (EConst (ORaw Int) 10)) (CInc 0%nat)) (CAssign 2%nat (EVar 0%nat))).
Proof.
  intros i. apply H_try; [|intros; constructor].
  assert (K : forall k i, (Z.to_nat (10 - i 0%nat) <= k)%nat ->
    halts i (CWhile (Cond RLt true (EVar 0%nat) (EConst (ORaw Int) 10)) (CInc 0%nat))).
  { induction k as [|k IH]; intros j B; apply H_while.
    1,3: intros _; apply H_inc.
    all: intros T j1 I; cbn in T; injection T as T; apply Z.ltb_lt in T.
    - lia.
    - apply IH. inversion I; subst. unfold upd. cbn [Nat.eqb]. lia. }
  apply (K (Z.to_nat (10 - i 0%nat))). lia.
Qed.
