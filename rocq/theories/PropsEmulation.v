(** PropsEmulation.v -- property C90: with the promotion policy cpp<CharBits, ShortBits, IntBits,
    LongBits, LongLongBits> a program tested on a desktop computes what it will compute on the
    target: if a program over safe types ends normally on the host, the program with built-in
    types in their places runs on a platform of those widths with the same results, and there
    nothing in it is undefined or implementation-defined. Conversely, a program whose
    values all fit on the target raises nothing on the host. Proved for + - * / & | ^ << >> and
    casts, assignments, compound assignments, ++ and --, if and while, and for v = a % b and v %= a
    if v takes every value of the result's type (the declared range of a % b is wrong: C25). The
    conditions [fair] and [comparable] are needed, and some of those on shifts: see the
    refutations. Missing: % inside an expression, unary minus, and exceptions (the target has none). *)
From Coq Require Import ZArith Bool List Lia.
From Verif Require Import Base CType Spec ExceptionPolicy Promotion SafeBase SafeSpec Program ProgramSpec
  EmulationSpec EmulationFacts EmulationExec EmulationBack.
Import ListNotations.
Local Open Scope Z_scope.

(** the type of a result: that of the target *)
Theorem C90_result_type_partial : forall D W op t u k l x y s m, ordered_widths W -> op <> Shl -> op <> Shr ->
  stands_for D W t k -> stands_for D W u l -> fair W k l ->
  binary D op t u x y = Some (s, m) -> stands_for D W (OSafe s) (tresult W k l).
Proof. exact emu_type. Qed.
Print Assumptions C90_result_type_partial.

(** expressions: what the host computes is what the target computes *)
Theorem C90_expressions_partial : forall D W G K s i e e' t, ordered_widths W ->
  (forall v, type_ok false D (G v)) -> (forall v, stands_for D W (G v) (K v)) ->
  store_ok D G s i -> on_host D W G K e e' -> type_of D G e = Some t ->
  stands_for D W t (tkind_of W K e')
  /\ ((exists z, returns (eval D G s e) z /\ tevals W K i e' z) \/ throws_arith (eval D G s e) \/ (shifts e' = true /\ throws_impl (eval D G s e))).
Proof. exact C90_expr. Qed.
Print Assumptions C90_expressions_partial.

(** ... and an exception means that some value does not fit on the target *)
Theorem C90_expressions_no_false_alarm_partial : forall D W G K s i e e' t z, ordered_widths W ->
  (forall v, type_ok false D (G v)) -> (forall v, stands_for D W (G v) (K v)) ->
  store_ok D G s i -> on_host D W G K e e' -> type_of D G e = Some t -> whole_casts D e ->
  tfits W K i e' z -> returns (eval D G s e) z.
Proof. exact C90_expr_fits. Qed.
Print Assumptions C90_expressions_no_false_alarm_partial.

(** programs: every variable ends with the value it has on the target *)
Theorem C90_programs_partial : forall D W G K fuel c c' s i s1, ordered_widths W ->
  (forall v, type_ok false D (G v)) -> (forall v, stands_for D W (G v) (K v)) ->
  store_ok D G s i -> cmd_on_host D W G K c c' -> compiles D G c = true ->
  exec fuel D G s c = Some (s1, RDone) ->
  exists i1, truns W K i c' i1 /\ forall v, s1 v = Some (i1 v).
Proof. exact C90_exec. Qed.
Print Assumptions C90_programs_partial.

(** If the program ends on the target and every value fits there, it ends on the host, raises
    nothing and leaves the same values. *)
Theorem C90_programs_no_false_alarm_partial : forall D W G K c c' s i i1, ordered_widths W ->
  (forall v, type_ok false D (G v)) -> (forall v, stands_for D W (G v) (K v)) -> (forall v, whole D (G v)) ->
  store_ok D G s i -> cmd_on_host D W G K c c' -> whole_types D W c -> compiles D G c = true ->
  tfits_run W K i c' i1 ->
  exists fuel s1, exec fuel D G s c = Some (s1, RDone) /\ forall v, s1 v = Some (i1 v).
Proof. exact C90_back. Qed.
Print Assumptions C90_programs_no_false_alarm_partial.

(** Example: a 16-bit int and a 32-bit long on a 64-bit host, as in the stepper motor example.
    v0 and v1 are int, v2 is unsigned char, v3 is unsigned long.
    v1 = 0; while (v0 < v1 + 1000) { v0 += 300; v3 *= v2; ++v1; } v0 /= v1; *)
Definition ex_W : widths := mkW 8 16 16 32 64.
Definition ex_K : tkinds := fun v => match v with 2%nat => TK KChar false | 3%nat => TK KLong false | _ => TK KInt true end.
Definition ex_t (T : ctype) : otype := OSafe (safe LP64 T (cpp_of ex_W) default_exception_policy).
Definition ex_G : tenv := fun v => match v with 2%nat => ex_t UChar | 3%nat => ex_t UInt | _ => ex_t Short end.
Definition ex_i : nat -> Z := fun v => match v with 0%nat => -300 | 1%nat => 5 | 2%nat => 7 | _ => 2 end.
Definition ex_s : store := fun v => Some (ex_i v).
Definition ex_c : cmd :=
  CSeq (CAssign 1%nat (EConst (ORaw Short) 0))
    (CSeq
       (CWhile (Cond RLt true (EVar 0%nat) (EBin (BA Add) true (EVar 1%nat) (EConst (ORaw Short) 1000)))
               (CSeq (CCompound (BA Add) 0%nat (EConst (ORaw Short) 300))
                     (CSeq (CCompound (BA Mul) 3%nat (EVar 2%nat)) (CInc 1%nat))))
       (CCompound (BA Div) 0%nat (EVar 1%nat))).
Definition ex_c' : tcmd :=
  TSeq (TAssign 1%nat (TConst (TK KInt true) 0))
    (TSeq
       (TWhile RLt (TVar 0%nat) (TBin Add (TVar 1%nat) (TConst (TK KInt true) 1000))
               (TSeq (TAssign 0%nat (TBin Add (TVar 0%nat) (TConst (TK KInt true) 300)))
                     (TSeq (TAssign 3%nat (TBin Mul (TVar 3%nat) (TVar 2%nat)))
                           (TAssign 1%nat (TBin Add (TVar 1%nat) (TConst (TK KInt true) 1))))))
       (TAssign 0%nat (TBin Div (TVar 0%nat) (TVar 1%nat)))).
Lemma ex_types : forall v, type_ok false LP64 (ex_G v).
Proof.
  intros [|[|[|[|v]]]]; unfold type_ok, throws_arithmetic; cbn; unfold in_type;
    repeat split; try (intros E [= <-]; auto); try (intros; discriminate); auto; vm_compute; congruence.
Qed.
Lemma ex_raw : stands_for LP64 ex_W (ORaw Short) (TK KInt true) /\ type_ok false LP64 (ORaw Short).
Proof.
  split; [split; [exists Short; split; reflexivity|left; reflexivity]|].
  unfold type_ok, throws_arithmetic; cbn; unfold in_type;
    repeat split; try (intros E [= <-]; auto); try (intros; discriminate); auto; vm_compute; congruence.
Qed.
Lemma ex_stands : forall v, stands_for LP64 ex_W (ex_G v) (ex_K v).
Proof. intros [|[|[|[|v]]]]; (split; [eexists; split; reflexivity|right; reflexivity]). Qed.
Lemma ex_store : store_ok LP64 ex_G ex_s ex_i.
Proof. intros [|[|[|[|v]]]]; (split; [reflexivity|vm_compute; split; congruence]). Qed.
Lemma ex_fair : fair ex_W (TK KInt true) (TK KInt true) /\ fair ex_W (TK KLong false) (TK KChar false).
Proof. split; intros H; vm_compute in H; [intuition congruence|left; reflexivity]. Qed.
Lemma ex_on_host : cmd_on_host LP64 ex_W ex_G ex_K ex_c ex_c'.
Proof.
  destruct ex_fair as [F1 F2]. destruct ex_raw as [R T].
  assert (C : forall z, -32768 <= z <= 32767 -> on_host LP64 ex_W ex_G ex_K (EConst (ORaw Short) z) (TConst (TK KInt true) z))
    by (intros z Hz; apply H_const; [exact R|exact T|exact Hz]).
  apply HC_seq; [apply HC_assign, C; lia|]. apply HC_seq; [apply HC_while|].
  - constructor.
  - apply H_bin; [left; reflexivity|constructor|apply C; lia|exact F1].
  - exact F1.
  - intros t u _ _. left. reflexivity.
  - apply HC_seq; [apply HC_compound; [left; reflexivity|apply C; lia|exact F1]|].
    apply HC_seq; [apply HC_compound; [right; right; left; reflexivity|constructor|exact F2]|]. apply HC_inc.
  - apply HC_compound; [right; right; right; reflexivity|constructor|exact F1].
Qed.
Example C90_example :
  ordered_widths ex_W /\ compiles LP64 ex_G ex_c = true /\ whole_types LP64 ex_W ex_c /\ (forall v, whole LP64 (ex_G v))
  /\ (exists s1, exec 9 LP64 ex_G ex_s ex_c = Some (s1, RDone) /\ s1 0%nat = Some 240 /\ s1 3%nat = Some (2 * 7 ^ 5))
  /\ exists i1, truns ex_W ex_K ex_i ex_c' i1 /\ i1 0%nat = 240 /\ i1 3%nat = 33614.
Proof.
  split; [vm_compute; intuition congruence|]. split; [vm_compute; reflexivity|].
  split; [repeat split; exists KLong; reflexivity|]. split; [intros [|[|[|[|v]]]] z Hz; exact Hz|].
  assert (E : exists s1, exec 9 LP64 ex_G ex_s ex_c = Some (s1, RDone) /\ s1 0%nat = Some 240 /\ s1 3%nat = Some (2 * 7 ^ 5)).
  { eexists. split; [vm_compute; reflexivity|]. vm_compute. auto. }
  split; [exact E|]. destruct E as (s1 & E & A & B).
  destruct (C90_programs_partial LP64 ex_W ex_G ex_K 9 ex_c ex_c' ex_s ex_i s1 ltac:(vm_compute; intuition congruence) ex_types ex_stands ex_store ex_on_host
    ltac:(vm_compute; reflexivity) E) as (i1 & R & V).
  exists i1. split; [exact R|]. rewrite V in A, B. injection A as A. injection B as B. auto.
Qed.
(** a run on the target in which every value fits: v0 /= v1 * 15, and the same on the host *)
Example C90_example_fits : exists c c' i1, cmd_on_host LP64 ex_W ex_G ex_K c c' /\ whole_types LP64 ex_W c /\ compiles LP64 ex_G c = true
  /\ tfits_run ex_W ex_K ex_i c' i1 /\ i1 0%nat = -4.
Proof.
  destruct ex_raw as [R T].
  exists (CCompound (BA Div) 0%nat (EBin (BA Mul) true (EVar 1%nat) (EConst (ORaw Short) 15))),
    (TAssign 0%nat (TBin Div (TVar 0%nat) (TBin Mul (TVar 1%nat) (TConst (TK KInt true) 15)))), (upd ex_i 0%nat (-4)).
  split; [apply HC_compound; [unfold four; auto| |]|].
  - apply H_bin; [unfold four; auto|constructor|apply H_const; [exact R|exact T|vm_compute; split; congruence]|apply ex_fair].
  - intros H. vm_compute in H. intuition congruence.
  - split; [repeat split|]. split; [vm_compute; reflexivity|]. split; [|reflexivity].
    apply TFR_assign; [|vm_compute; split; congruence].
    refine (TF_bin ex_W ex_K ex_i Div (TVar 0%nat) (TBin Mul (TVar 1%nat) (TConst (TK KInt true) 15)) (-300) 75 _ _ _ _ _ _ _);
      try (vm_compute; split; congruence); [unfold four; auto|exact (TF_var _ _ ex_i 0%nat)| |discriminate].
    refine (TF_bin ex_W ex_K ex_i Mul (TVar 1%nat) (TConst (TK KInt true) 15) 5 15 _ _ _ _ _ _ _);
      try (vm_compute; split; congruence); [unfold four; auto|exact (TF_var _ _ ex_i 1%nat)|constructor; vm_compute; split; congruence|discriminate].
Qed.
(** v3 &= 0xff | v3, with bitwise operators as in the interrupt handler of motor2.c *)
Definition ex_b : cmd := CCompound (BB And) 3%nat (EBin (BB Or) true (EConst (ORaw Short) 255) (EVar 3%nat)).
Definition ex_b' : tcmd := TAssign 3%nat (TBit And (TVar 3%nat) (TBit Or (TConst (TK KInt true) 255) (TVar 3%nat))).
Example C90_example_bits : cmd_on_host LP64 ex_W ex_G ex_K ex_b ex_b' /\ compiles LP64 ex_G ex_b = true
  /\ exec 0 LP64 ex_G ex_s ex_b = Some (upd ex_s 3%nat (Some 2), RDone)
  /\ exists i1, truns ex_W ex_K ex_i ex_b' i1 /\ i1 3%nat = 2.
Proof.
  destruct ex_raw as [R T].
  assert (H : cmd_on_host LP64 ex_W ex_G ex_K ex_b ex_b').
  { apply HC_bit.
    - apply H_bit; [apply H_const; [exact R|exact T|vm_compute; split; congruence]|constructor| | |].
      + intros _. left. vm_compute. reflexivity.
      + left. exists (ORaw Short), 255. split; [reflexivity|lia].
      + right. intros t [= <-]. vm_compute. congruence.
    - intros _. left. reflexivity.
    - right. intros t [= <-]. vm_compute. congruence.
    - right. intros t Ht. vm_compute in Ht. injection Ht as <-. vm_compute. congruence. }
  assert (E : exec 0 LP64 ex_G ex_s ex_b = Some (upd ex_s 3%nat (Some 2), RDone)) by (vm_compute; reflexivity).
  split; [exact H|]. split; [vm_compute; reflexivity|]. split; [exact E|].
  destruct (C90_programs_partial LP64 ex_W ex_G ex_K 0 ex_b ex_b' ex_s ex_i _ ltac:(vm_compute; intuition congruence) ex_types ex_stands ex_store H
    ltac:(vm_compute; reflexivity) E) as (i1 & Q & V).
  exists i1. split; [exact Q|]. specialize (V 3%nat). injection V as V. symmetry. exact V.
Qed.
(** v3 <<= v2; v2 = v3 >> 4 with the count a safe_unsigned_literal *)
Definition ex_four : otype := OLit UChar 4 (Some (cpp_of ex_W)) (Some default_exception_policy).
Definition ex_sh : cmd := CSeq (CCompound (BA Shl) 3%nat (EVar 2%nat)) (CAssign 2%nat (EBin (BA Shr) true (EVar 3%nat) (EConst ex_four 4))).
Definition ex_sh' : tcmd :=
  TSeq (TAssign 3%nat (TShl (TVar 3%nat) (TVar 2%nat))) (TAssign 2%nat (TShr (TVar 3%nat) (TConst (TK KChar false) 4))).
Example C90_example_shifts : cmd_on_host LP64 ex_W ex_G ex_K ex_sh ex_sh' /\ compiles LP64 ex_G ex_sh = true
  /\ whole_types LP64 ex_W ex_sh
  /\ exec 0 LP64 ex_G ex_s ex_sh = Some (upd (upd ex_s 3%nat (Some 256)) 2%nat (Some 16), RDone)
  /\ exists i1, truns ex_W ex_K ex_i ex_sh' i1 /\ i1 2%nat = 16.
Proof.
  assert (P : forall t u E, ex_G 3%nat = t -> u = ex_G 2%nat \/ u = ex_four -> get_ep t = Some E \/ get_ep u = Some E -> throws_shift E)
    by (intros t u E <- [-> | ->] [[= <-]|[= <-]]; reflexivity).
  assert (H : cmd_on_host LP64 ex_W ex_G ex_K ex_sh ex_sh').
  { apply HC_seq; [apply HC_shl; [constructor| |]|apply HC_assign, H_shr; [constructor| | |]].
    - intros _. left. reflexivity.
    - split; [reflexivity|]. split; [right; intros t [= <-]; vm_compute; congruence|].
      split; [intros t u E [= Et] [= Eu]; apply P; auto|]. split; [intros t [= <-]; vm_compute; congruence|].
      right. intros u [= <-]. vm_compute. congruence.
    - apply H_const; [split; [eexists; split; reflexivity|right; reflexivity]| |vm_compute; split; congruence].
      unfold type_ok, throws_arithmetic; cbn; unfold in_type;
        repeat split; try (intros E [= <-]; auto); try (intros; discriminate); auto; vm_compute; congruence.
    - intros _. left. reflexivity.
    - split; [reflexivity|]. split; [right; intros t [= <-]; vm_compute; congruence|].
      split; [intros t u E [= Et] [= Eu]; apply P; auto|]. right. intros u [= <-]. vm_compute. split; [congruence|left; reflexivity]. }
  assert (E : exec 0 LP64 ex_G ex_s ex_sh = Some (upd (upd ex_s 3%nat (Some 256)) 2%nat (Some 16), RDone)) by (vm_compute; reflexivity).
  split; [exact H|]. split; [vm_compute; reflexivity|]. split; [repeat split|]. split; [exact E|].
  destruct (C90_programs_partial LP64 ex_W ex_G ex_K 0 ex_sh ex_sh' ex_s ex_i _ ltac:(vm_compute; intuition congruence) ex_types ex_stands ex_store H
    ltac:(vm_compute; reflexivity) E) as (i1 & Q & V).
  exists i1. split; [exact Q|]. specialize (V 2%nat). injection V as V. symmetry. exact V.
Qed.
(** v3 = (v3 * 15) % v2; v3 %= v2 *)
Definition ex_rem : cmd :=
  CSeq (CAssign 3%nat (EBin (BA Mod) true (EBin (BA Mul) true (EVar 3%nat) (EConst (ORaw Short) 15)) (EVar 2%nat)))
    (CCompound (BA Mod) 3%nat (EVar 2%nat)).
Definition ex_rem' : tcmd :=
  TSeq (TAssign 3%nat (TRem (TBin Mul (TVar 3%nat) (TConst (TK KInt true) 15)) (TVar 2%nat)))
    (TAssign 3%nat (TRem (TVar 3%nat) (TVar 2%nat))).
Example C90_example_rem : cmd_on_host LP64 ex_W ex_G ex_K ex_rem ex_rem' /\ compiles LP64 ex_G ex_rem = true
  /\ whole_types LP64 ex_W ex_rem
  /\ exec 0 LP64 ex_G ex_s ex_rem = Some (upd (upd ex_s 3%nat (Some 2)) 3%nat (Some 2), RDone)
  /\ exists i1, truns ex_W ex_K ex_i ex_rem' i1 /\ i1 3%nat = 2.
Proof.
  destruct ex_raw as [R T].
  assert (Q : forall a b, rem_host LP64 ex_W ex_G 3%nat a b (TK KLong false))
    by (intros; split; [intros z Hz; apply (in_kind_type LP64 ex_W (TK KLong false) UInt); [eexists; split; reflexivity|exact Hz]|left; reflexivity]).
  assert (H : cmd_on_host LP64 ex_W ex_G ex_K ex_rem ex_rem').
  { apply HC_seq; [apply HC_rem; [apply H_bin; [unfold four; auto|constructor|apply H_const; [exact R|exact T|vm_compute; split; congruence]|]|constructor| |]
      |apply HC_rem_assign; [constructor| |]]; try (intros _; left; reflexivity); apply Q. }
  assert (E : exec 0 LP64 ex_G ex_s ex_rem = Some (upd (upd ex_s 3%nat (Some 2)) 3%nat (Some 2), RDone)) by (vm_compute; reflexivity).
  split; [exact H|]. split; [vm_compute; reflexivity|]. split; [repeat split|]. split; [exact E|].
  destruct (C90_programs_partial LP64 ex_W ex_G ex_K 0 ex_rem ex_rem' ex_s ex_i _ ltac:(vm_compute; intuition congruence) ex_types ex_stands ex_store H
    ltac:(vm_compute; reflexivity) E) as (i1 & U & V).
  exists i1. split; [exact U|]. specialize (V 3%nat). injection V as V. symmetry. exact V.
Qed.
(** where int would overflow on the target (v0 = 32000; v0 + v0), the emulator raises an
    exception, although int has 32 bits on the host *)
Example C90_example_overflow : exists s m,
  binary LP64 Add (ex_t Short) (ex_t Short) 32000 32000 = Some (s, m) /\ throws_arith m
  /\ forall z, ~ becomes ex_W (TK KInt true) (32000 + 32000) z.
Proof.
  do 2 eexists. split; [vm_compute; reflexivity|]. split.
  - eexists. split; [|reflexivity]. vm_compute. tauto.
  - intros z H. destruct H as [H|H]; [vm_compute in H; intuition congruence|discriminate].
Qed.

(** Without [fair]: unsigned char arithmetic. On the target unsigned char is promoted to int, so
    255 * 255 overflows; the emulator computes it as unsigned int and returns 65025. *)
Theorem C90_unsigned_char_refuted : exists D W t k s m, ordered_widths W /\ stands_for D W t k /\ type_ok false D t
  /\ binary D Mul t t 255 255 = Some (s, m) /\ returns m 65025
  /\ forall K i z, ~ tevals W K i (TBin Mul (TConst k 255) (TConst k 255)) z.
Proof. exact C90_unsigned_char. Qed.
Print Assumptions C90_unsigned_char_refuted.

(** Without [comparable]: safe_signed_range<-5, 100> and safe_unsigned_range<200, 300> on a
    platform where both are int-sized. -3 < 250 is true on the emulator, but on the target -3 is
    converted to unsigned int, and it is false. *)
Theorem C90_comparison_refuted : exists D W t u k l m, ordered_widths W /\ stands_for D W t k /\ stands_for D W u l
  /\ type_ok false D t /\ type_ok false D u /\ fair W k l /\ holds D t (-3) /\ holds D u 250
  /\ eval_relop D RLt t u (-3) 250 = Some m /\ returns m true
  /\ forall K i w, tholds W K i RLt (TConst k (-3)) (TConst l 250) w -> w = false.
Proof. exact C90_comparison. Qed.
Print Assumptions C90_comparison_refuted.

(** Shifts: on the target the type of x << n is the promoted type of x, and here n is a long. The
    emulator computes 1 << 20 as a long; on the target the shift is undefined. *)
Theorem C90_shift_refuted : exists D W t u k l s m, ordered_widths W /\ stands_for D W t k /\ stands_for D W u l
  /\ type_ok false D t /\ type_ok false D u /\ fair W k l
  /\ binary D Shl t u 1 20 = Some (s, m) /\ returns m (2 ^ 20)
  /\ forall K i z, ~ tevals W K i (TShl (TConst k 1) (TConst l 20)) z.
Proof. exact C90_shift. Qed.
Print Assumptions C90_shift_refuted.

(** A false alarm: 0 << 15 is 0 for a 16-bit int, and the emulator raises an exception. *)
Theorem C90_zero_shift_refuted : exists D W t k s m, ordered_widths W /\ stands_for D W t k /\ type_ok false D t
  /\ binary D Shl t t 0 15 = Some (s, m) /\ throws_impl m
  /\ forall K i, tevals W K i (TShl (TConst k 0) (TConst k 15)) 0.
Proof. exact C90_zero_shift. Qed.
Print Assumptions C90_zero_shift_refuted.

(** Unary minus is computed as 0 - x with the int of the host: -(-32768) is 32768 there, and an
    overflow on the target. *)
Theorem C90_negation_refuted : exists D W s k rs m, ordered_widths W /\ stands_for D W (OSafe s) k /\ type_ok false D (OSafe s)
  /\ k = TK KInt true /\ unary_minus D s (-32768) = Some (rs, m) /\ returns m 32768
  /\ forall K i z, ~ tevals W K i (TBin Sub (TConst k 0) (TConst k (-32768))) z.
Proof. exact C90_negation. Qed.
Print Assumptions C90_negation_refuted.

(** A false alarm: ++x is x + 1 with the int of the host. If the int of the host is none of the
    types of the platform, as with cpp<8, 16, 16, 64, 64>, it ranks above them all, and ++x raises
    an exception for a 64-bit x = 2^40. *)
Theorem C90_increment_refuted : exists D W s k m, ordered_widths W /\ stands_for D W (OSafe s) k /\ type_ok false D (OSafe s)
  /\ holds D (OSafe s) (2 ^ 40) /\ increment D s (2 ^ 40) = Some m /\ throws_arith m
  /\ (forall K i, tfits W K i (TBin Add (TConst k (2 ^ 40)) (TConst (TK KInt true) 1)) (2 ^ 40 + 1)) /\ in_kind W k (2 ^ 40 + 1).
Proof. exact C90_increment. Qed.
Print Assumptions C90_increment_refuted.

(** Literals have their host types. With the policy of example92.cpp, cpp<8, 16, 16, 16, 32>, the
    difference of a 16-bit unsigned 0 and the literal 1 is -1 on the emulator, and 65535 on the
    target, where the literal is a 16-bit int. *)
Theorem C90_literal_refuted : exists D W t k s m, ordered_widths W /\ stands_for D W t k /\ type_ok false D t /\ fair W k (TK KInt true)
  /\ binary D Sub t (ORaw Int) 0 1 = Some (s, m) /\ returns m (-1)
  /\ forall K i z, tevals W K i (TBin Sub (TConst k 0) (TConst (TK KInt true) 1)) z -> z = 65535.
Proof. exact C90_literal. Qed.
Print Assumptions C90_literal_refuted.
