(** FunExampleFacts.v -- the factorial function as a program over safe<long>: proofs. *)
From Coq Require Import ZArith List Bool Arith Lia.
From Verif Require Import Base CType Spec ExceptionPolicy Promotion SafeBase SafeSpec Program ProgramSpec ComposeSpec
  FunProgram FunSpec FunFacts.
Import ListNotations.
Local Open Scope Z_scope.

(** safe<long> fact(safe<int> n) {
      safe<long> r = 1;
      ++calls;
      if (!(n <= 1)) { r = fact(n - 1); r = n * r; }
      return r;
    }
    calls (variable 9) is global; n is variable 1, r variable 2; the caller's variables 0
    and 3 are a safe<int> and a safe<long>. *)
Definition fe_ep : ep := default_exception_policy.
Definition fe_glob : nat -> bool := fun v => Nat.eqb v 9.
Definition fe_int : otype := OSafe (safe LP64 Int Native fe_ep).
Definition fe_long : otype := OSafe (safe LP64 Long Native fe_ep).
Definition fe_G : tenv := fun v => match v with 0%nat | 1%nat | 9%nat => fe_int | _ => fe_long end.
Definition fe_body : fcmd :=
  FSeq (FDo (CInc 9%nat))
    (FIf (FNot (FRel (Cond RLe true (EVar 1%nat) (EConst (ORaw Int) 1))))
       (FSeq (FCall 2%nat 0%nat [EBin (BA Sub) true (EVar 1%nat) (EConst (ORaw Int) 1)])
             (FDo (CAssign 2%nat (EBin (BA Mul) true (EVar 1%nat) (EVar 2%nat)))))
       (FDo CSkip)).
Definition fe_fact : fundef := mkFun [1%nat] fe_G (fun _ => 1) fe_body fe_long (EVar 2%nat).
(** v3 = fact(v0) *)
Definition fe_main : fcmd := FCall 3%nat 0%nat [EVar 0%nat].

Lemma fe_type : forall n v, type_ok n LP64 (fe_G v).
Proof.
  intros n v. assert (H : type_ok n LP64 fe_int /\ type_ok n LP64 fe_long).
  { split; unfold type_ok, throws_arithmetic; cbn; unfold in_type; repeat split;
      try (intros E [= <-]; auto); try (intros; congruence); auto; vm_compute; congruence. }
  unfold fe_G. destruct v as [|[|[|[|[|[|[|[|[|[|v]]]]]]]]]]; tauto.
Qed.
Lemma fe_lit : forall n, type_ok n LP64 (ORaw Int) /\ holds LP64 (ORaw Int) 1.
Proof.
  intros n. split; [|vm_compute; split; congruence].
  unfold type_ok, throws_arithmetic; cbn; unfold in_type; repeat split; try (intros; discriminate); auto; vm_compute; congruence.
Qed.
Lemma fe_simple : forall n, simple_program n LP64 fe_glob [fe_fact] fe_G fe_main.
Proof.
  intros n. pose proof (fe_lit n) as L. split; [apply fe_type|]. split.
  - intros d [<-|[]]. cbn [f_body f_env f_result f_type f_init fe_fact]. split.
    { cbn. split; [exact I|]. split; [split; [exact I|exact L]|].
      split; [|exact I]. split; [|unfold op_ok; auto]. intros d [= <-]. repeat constructor; cbn; unfold op_ok; auto; apply L. }
    split; [exact I|]. split; [apply (fe_type n 2)|]. split; [apply fe_type|]. split; [|reflexivity].
    intros v _. unfold fe_G. destruct v as [|[|[|[|[|[|[|[|[|[|v]]]]]]]]]]; vm_compute; split; congruence.
  - intros d [= <-]. repeat constructor.
Qed.

(** the mathematical factorial *)
Fixpoint factorial (n : nat) : Z := match n with O => 1 | S m => Z.of_nat n * factorial m end.

(** in exact arithmetic the program computes the factorial and counts the calls *)
Lemma fe_ideal_body : forall k j j', j 2%nat = 1 -> j 1%nat = Z.of_nat k -> f_ideal fe_glob [fe_fact] j fe_body j' true ->
  j' 2%nat = factorial k /\ j' 9%nat = j 9%nat + Z.max 1 (Z.of_nat k).
Proof.
  induction k as [k IH] using lt_wf_ind. intros j j' H2 Hj H. unfold fe_body in H.
  inversion H as [| | | | |? ? i1 ? ? ? A B| | | | | | | | |]; subst. inversion A as [? ? ? ? C| | | | | | | | | | | | | |]; subst.
  inversion C; subst. clear A C.
  inversion B as [| | | | | | |? ? t ? ? ? ? T E| | | | | | |]; subst. cbn in T. injection T as <-. cbn [upd Nat.eqb] in E.
  change (upd j 9%nat (j 9%nat + 1) 1%nat) with (j 1%nat) in E. rewrite Hj in E. destruct (Z.leb_spec (Z.of_nat k) 1) as [Hk|Hk]; cbn [negb] in E.
  - inversion E as [? ? ? ? C| | | | | | | | | | | | | |]; subst. inversion C; subst. unfold upd. cbn.
    assert (k = 0 \/ k = 1)%nat as [-> | ->] by lia; cbn; split; congruence || lia.
  - inversion E as [| | | | |? ? i2 ? ? ? A C| | | | | | | | |]; subst.
    inversion A as [|? ? ? ? d fr q z Ed Efr Eb Ez| | | | | | | | | | | | |]; subst. cbn in Ed. injection Ed as <-.
    cbn in Efr. injection Efr as Efr. cbn in Ez. injection Ez as Ez.
    destruct k as [|m]; [lia|].
    assert (F1 : fr 1%nat = Z.of_nat m) by (subst fr; cbn; unfold upd; cbn; lia).
    assert (F2 : fr 2%nat = 1) by (subst fr; reflexivity).
    assert (F9 : fr 9%nat = j 9%nat + 1) by (subst fr; reflexivity).
    destruct (IH m ltac:(lia) fr q F2 F1 Eb) as [Q2 Q9].
    inversion C as [? ? ? ? K| | | | | | | | | | | | | |]; subst. inversion K as [| |? ? ? z0 V| | | | | | | | | | | | | | | | | | | | ]; subst.
    cbn in V. injection V as V. subst z0. unfold upd. cbn [Nat.eqb after_call fe_glob].
    split.
    + change (after_call fe_glob (upd j 9%nat (j 9%nat + 1)) q 1%nat) with (j 1%nat). rewrite Hj, Q2. reflexivity.
    + change (q 9%nat = j 9%nat + Z.max 1 (Z.of_nat (S m))). rewrite Q9, F9. lia.
Qed.

Lemma C91_fact : forall fuel k s i s' r, store_ok LP64 fe_G s i -> i 0%nat = Z.of_nat k ->
  f_exec LP64 fe_glob [fe_fact] fuel fe_G s fe_main = Some (s', r) ->
  (r = RDone /\ s' 3%nat = Some (factorial k) /\ s' 9%nat = Some (i 9%nat + Z.max 1 (Z.of_nat k))
   /\ (forall v, v <> 3%nat -> v <> 9%nat -> s' v = s v) /\ factorial k <= 9223372036854775807)
  \/ exists e, r = RRaised e.
Proof.
  intros fuel k s i s' r Hs Hk H.
  destruct (C91_simple true LP64 fe_glob [fe_fact] fe_G fuel fe_main s i s' r (fe_simple true) ltac:(vm_compute; reflexivity)
    ltac:(vm_compute; reflexivity) Hs H) as (i' & Hs' & [[-> I1]|(e & -> & _)]); [left|right; eauto].
  unfold fe_main in I1. inversion I1 as [|? ? ? ? d fr q z Ed Efr Eb Ez| | | | | | | | | | | | |]; subst. cbn in Ed. injection Ed as <-.
  cbn in Efr. injection Efr as Efr. cbn in Ez. injection Ez as Ez.
  assert (F1 : fr 1%nat = Z.of_nat k) by (subst fr; exact Hk).
  assert (F2 : fr 2%nat = 1) by (subst fr; reflexivity).
  assert (F9 : fr 9%nat = i 9%nat) by (subst fr; reflexivity).
  destruct (fe_ideal_body k fr q F2 F1 Eb) as [Q2 Q9]. split; [reflexivity|].
  assert (Z3 : upd (after_call fe_glob i q) 3%nat z 3%nat = factorial k) by (rewrite <- Q2; symmetry; exact Ez).
  destruct (Hs' 3%nat) as [A B]. rewrite A, Z3. split; [reflexivity|]. split.
  { destruct (Hs' 9%nat) as [A9 _]. rewrite A9. f_equal. change (q 9%nat = i 9%nat + Z.max 1 (Z.of_nat k)). rewrite Q9, F9. reflexivity. }
  split; [|rewrite Z3 in B; apply B].
  intros v N3 N9. destruct (Hs' v) as [Av _]. destruct (Hs v) as [Bv _]. rewrite Av, Bv. f_equal. unfold upd, after_call, fe_glob.
  destruct (Nat.eqb_spec v 3); [contradiction|]. destruct (Nat.eqb_spec v 9); [contradiction|reflexivity].
Qed.

(** safe<unsigned> gcd(safe<unsigned> a, safe<unsigned> b) {
      safe<unsigned> r = 1;
      if (b == 0) r = a; else r = gcd(b, a % b);
      return r;
    }
    a is variable 1, b variable 2, r variable 3; the caller's variables are of the same types *)
Definition ge_t : otype := OSafe (safe LP64 UInt Native fe_ep).
Definition ge_G : tenv := fun _ => ge_t.
Definition ge_body : fcmd :=
  FIf (FRel (Cond REq true (EVar 2%nat) (EConst (ORaw UInt) 0)))
    (FDo (CAssign 3%nat (EVar 1%nat)))
    (FCall 3%nat 0%nat [EVar 2%nat; EBin (BA Mod) true (EVar 1%nat) (EVar 2%nat)]).
Definition ge_gcd : fundef := mkFun [1%nat; 2%nat] ge_G (fun _ => 1) ge_body ge_t (EVar 3%nat).
(** v0 = gcd(v4, v5) *)
Definition ge_main : fcmd := FCall 0%nat 0%nat [EVar 4%nat; EVar 5%nat].
Definition ge_glob : nat -> bool := fun _ => false.

Lemma ge_fine : fine_program true LP64 ge_glob [ge_gcd] ge_G ge_main.
Proof.
  assert (T : type_fine true LP64 ge_t).
  { unfold type_fine, type_ok, throws_arithmetic, throws_shift; cbn; unfold in_type; repeat split;
      try (intros E [= <-]; auto); try (intros; congruence); auto; vm_compute; congruence. }
  assert (R : type_fine true LP64 (ORaw UInt)).
  { unfold type_fine, type_ok, throws_arithmetic, throws_shift; cbn; unfold in_type; repeat split;
      try (intros; discriminate); auto; vm_compute; congruence. }
  split; [intros v; exact T|]. split.
  - intros d [<-|[]]. cbn [f_body f_env f_result f_type f_init ge_gcd]. split.
    { cbn [fcmd_ok ge_body fcond_ok]. split; [|split].
      - cbn. split; [exact I|]. split; [exact R|]. vm_compute. split; congruence.
      - exact I.
      - intros d [= <-]. constructor; [exact I|]. constructor; [|constructor]. cbn [expr_fine]. split; [exact I|]. split; [exact I|].
        intros t u [= <-] [= <-] s m E. vm_compute in E. injection E as <- _. right. vm_compute. intuition congruence. }
    split; [exact I|]. split; [exact T|]. split; [intros v; exact T|]. split; [|reflexivity].
    intros v _. vm_compute. split; congruence.
  - intros d [= <-]. repeat constructor.
Qed.
Lemma ge_ideal : forall k j j', 0 <= j 1%nat -> 0 <= j 2%nat -> j 2%nat < Z.of_nat k -> f_ideal ge_glob [ge_gcd] j ge_body j' true ->
  j' 3%nat = Z.gcd (j 1%nat) (j 2%nat).
Proof.
  induction k as [|k IH]; intros j j' H1 H2 Hk H; [lia|]. unfold ge_body in H.
  inversion H as [| | | | | | |? ? t ? ? ? ? T E| | | | | | |]; subst. cbn in T. injection T as <-.
  destruct (Z.eqb_spec (j 2%nat) 0) as [H0|H0].
  - inversion E as [? ? ? ? C| | | | | | | | | | | | | |]; subst. inversion C; subst. cbn in *. unfold upd. cbn.
    rewrite H0, Z.gcd_0_r. rewrite Z.abs_eq by exact H1. congruence.
  - inversion E as [|? ? ? ? d fr q z Ed Efr Eb Ez| | | | | | | | | | | | |]; subst. cbn in Ed. injection Ed as <-.
    cbn in Efr. destruct (Z.eqb_spec (j 2%nat) 0); [contradiction|]. injection Efr as Efr. cbn in Ez. injection Ez as Ez.
    assert (F1 : fr 1%nat = j 2%nat) by (subst fr; reflexivity).
    assert (F2 : fr 2%nat = Z.rem (j 1%nat) (j 2%nat)) by (subst fr; reflexivity).
    pose proof (Z.rem_bound_pos (j 1%nat) (j 2%nat) H1 ltac:(lia)) as B.
    specialize (IH fr q ltac:(lia) ltac:(lia) ltac:(lia) Eb). unfold upd. cbn. rewrite <- Ez, IH, F1, F2.
    rewrite Z.rem_mod_nonneg by lia. rewrite Z.gcd_comm, Z.gcd_mod by lia. apply Z.gcd_comm.
Qed.
Lemma C91_greatest : forall fuel s i s' r, store_ok LP64 ge_G s i ->
  f_exec LP64 ge_glob [ge_gcd] fuel ge_G s ge_main = Some (s', r) ->
  (r = RDone /\ s' 0%nat = Some (Z.gcd (i 4%nat) (i 5%nat)) /\ forall v, v <> 0%nat -> s' v = s v) \/ exists e, r = RRaised e.
Proof.
  intros fuel s i s' r Hs H.
  destruct (C91_fine true LP64 ge_glob [ge_gcd] ge_G fuel ge_main s i s' r ge_fine ltac:(vm_compute; reflexivity)
    ltac:(vm_compute; reflexivity) Hs H) as (i' & Hs' & [[-> I1]|(e & -> & _)]); [left|right; eauto].
  unfold ge_main in I1. inversion I1 as [|? ? ? ? d fr q z Ed Efr Eb Ez| | | | | | | | | | | | |]; subst. cbn in Ed. injection Ed as <-.
  cbn in Efr. injection Efr as Efr. cbn in Ez. injection Ez as Ez.
  assert (F1 : fr 1%nat = i 4%nat) by (subst fr; reflexivity).
  assert (F2 : fr 2%nat = i 5%nat) by (subst fr; reflexivity).
  assert (N : forall v, 0 <= i v) by (intros v; destruct (Hs v) as [_ [B _]]; exact B).
  pose proof (N 4%nat). pose proof (N 5%nat).
  pose proof (ge_ideal (S (Z.to_nat (i 5%nat))) fr q ltac:(lia) ltac:(lia) ltac:(lia) Eb) as Q.
  split; [reflexivity|]. split.
  - destruct (Hs' 0%nat) as [A _]. rewrite A. f_equal. unfold upd; cbn. rewrite <- Ez, Q, F1, F2. reflexivity.
  - intros v Nv. destruct (Hs' v) as [Av _]. destruct (Hs v) as [Bv _]. rewrite Av, Bv. f_equal. unfold upd.
    destruct (Nat.eqb_spec v 0); [contradiction|reflexivity].
Qed.
