(** PropsCompose.v -- property C73: expressions and programs that mix all ten
    operators. *)
From Coq Require Import ZArith Bool List.
From Verif Require Import Base CType Spec CheckedInteger CheckedResultOps Interval ExceptionPolicy
  Promotion SafeBase SafeSpec Program ProgramSpec ComposeSpec ComposeFacts.
Import ListNotations.
Local Open Scope Z_scope.

(** Variables of the examples: 0 is safe<int>, 1 is safe_unsigned_range<0, 100>, 2 is
    safe<unsigned>, 3 a built-in int, 4 is safe_unsigned_range<0, 5>, the others
    safe<short>. *)
Definition ex_ep : ep := default_exception_policy.
Definition ex_G : tenv := fun v =>
  match v with
  | 0%nat => OSafe (safe LP64 Int Native ex_ep)
  | 1%nat => OSafe (mkSafe UChar 0 100 Native ex_ep)
  | 2%nat => OSafe (safe LP64 UInt Native ex_ep)
  | 3%nat => ORaw Int
  | 4%nat => OSafe (mkSafe UChar 0 5 Native ex_ep)
  | _ => OSafe (safe LP64 Short Native ex_ep)
  end.
Definition ex_lit (n : Z) : expr := EConst (OLit Int n None None) n.
Lemma ex_lit_fine : forall nat n, in_type LP64 Int n -> type_fine nat LP64 (OLit Int n None None).
Proof.
  intros nat n H. split; [|intros E [=]]. split; [|split; intros; discriminate].
  split; [exact H|split; [exact H|apply Z.le_refl]].
Qed.
Lemma ex_G_fine : forall nat v, type_fine nat LP64 (ex_G v).
Proof.
  intros nat v. destruct v as [|[|[|[|[|v]]]]]; unfold type_fine, type_ok; cbn; unfold in_type;
  (split; [split; [vm_compute; intuition congruence|]; split; [intros E [= <-] || intros E [=]; vm_compute; auto|];
           intros _ P; (intros [= <-]; reflexivity) || intros [=]
          |intros E [= <-] || intros E [=]; vm_compute; auto]).
Qed.
Definition store_of (i : nat -> Z) : store := fun v => Some (i v).
Lemma store_of_ok : forall D G i, (forall v, holds D (G v) (i v)) -> store_ok D G (store_of i) i.
Proof. intros D G i H v. split; [reflexivity|apply H]. Qed.

(** C73, expressions: the exact value, inside the declared range of the expression's
    type when nothing else absorbs it, or an exception *)
Theorem C73_expressions_partial : forall nat D G s i e t,
  (forall v, type_fine nat D (G v)) -> store_ok D G s i ->
  expr_fine nat D G None e -> type_of D G e = Some t ->
  (exists z, value i e = Some z /\ returns (eval D G s e) z /\ holds D t z)
  \/ fails (eval D G s e).
Proof. exact C73_expr. Qed.
Print Assumptions C73_expressions_partial.

(** C73, programs *)
Theorem C73_programs_partial : forall nat D G fuel c s i s' r,
  (forall v, type_fine nat D (G v)) -> store_ok D G s i ->
  cmd_fine nat D G c -> compiles D G c = true ->
  exec fuel D G s c = Some (s', r) ->
  exists i', store_ok D G s' i'
  /\ ((r = RDone /\ ideal i c i' true) \/ (exists e, r = RRaised e /\ ideal i c i' false)).
Proof. exact C73_cmd. Qed.
Print Assumptions C73_programs_partial.

(** ((v1 << 3) | v1) + safe<int>(v0 % 7) *)
Definition ex_e : expr :=
  EBin (BA Add) true
    (EBin (BB Or) true (EBin (BA Shl) true (EVar 1%nat) (ex_lit 3)) (EVar 1%nat))
    (ECast (ex_G 0%nat) (EBin (BA Mod) false (EVar 0%nat) (ex_lit 7))).
Definition ex_i : nat -> Z := fun v => match v with 0%nat => -20 | 1%nat => 40 | 2%nat => 987 | 3%nat => 12 | _ => 5 end.
Ltac fine_types :=
  repeat match goal with
  | |- _ /\ _ => split
  | |- type_fine _ _ (ex_G _) => apply ex_G_fine
  | |- type_fine _ _ (OLit _ _ _ _) => apply ex_lit_fine; vm_compute; intuition congruence
  | |- holds _ _ _ => vm_compute; intuition congruence
  | |- True => exact I
  end.
Ltac fine_operator :=
  intros t u Et Eu; vm_compute in Et, Eu; injection Et as <-; injection Eu as <-;
  intros rs m E; vm_compute in E; injection E as <- <-; vm_compute; intuition congruence.
Example C73_expressions_nonvacuous :
  expr_fine true LP64 ex_G None ex_e
  /\ type_of LP64 ex_G ex_e = Some (ex_G 0%nat)
  /\ value ex_i ex_e = Some 354 /\ eval LP64 ex_G (store_of ex_i) ex_e = ([], Ret 354).
Proof.
  split; [|vm_compute; intuition congruence].
  cbn [expr_fine ex_e ex_lit]. fine_types; fine_operator.
Qed.

(** while (v2 > 0) { v0 = v0 + unsigned(v2 % 10); v2 >>= 3; }  v0 %= 7; *)
Definition ex_c : cmd :=
  CSeq
    (CWhile (Cond RGt true (EVar 2%nat) (ex_lit 0))
       (CSeq (CAssign 0%nat (EBin (BA Add) true (EVar 0%nat)
                (ECast (ORaw Int) (EBin (BA Mod) true (EVar 2%nat) (ex_lit 10)))))
             (CCompound (BA Shr) 2%nat (ex_lit 3))))
    (CCompound (BA Mod) 0%nat (ex_lit 7)).
Example C73_programs_nonvacuous :
  cmd_fine true LP64 ex_G ex_c /\ compiles LP64 ex_G ex_c = true
  /\ (forall v, holds LP64 (ex_G v) (ex_i v))
  /\ exists s', exec 20 LP64 ex_G (store_of ex_i) ex_c = Some (s', RDone)
     /\ s' 0%nat = Some (-4) /\ s' 2%nat = Some 0.
Proof.
  split; [|split; [vm_compute; reflexivity|split]].
  - cbn [cmd_fine cond_fine expr_fine ex_c ex_lit]. fine_types; try fine_operator.
    + exact (ex_G_fine true 3%nat).
    + intros t Et; vm_compute in Et; injection Et as <-.
      intros rs m E; vm_compute in E; injection E as <- <-; vm_compute; intuition congruence.
    + intros t Et; vm_compute in Et; injection Et as <-.
      intros rs m E; vm_compute in E; injection E as <- <-; vm_compute; intuition congruence.
  - intros v. destruct v as [|[|[|[|[|v]]]]]; vm_compute; intuition congruence.
  - eexists. split; [vm_compute; reflexivity|]. vm_compute. split; reflexivity.
Qed.

(** Without the conditions the property is false, with throwing policies and native
    promotion everywhere. (safe<unsigned>(5) >> 1) * 3000000000u is 1705032704, with
    no exception: the shift's declared result range is [0, 0], and the
    multiplication is not checked. *)
Theorem C73_silently_wrong_refuted : exists D G i e t z z',
  (forall v, type_fine true D (G v)) /\ (forall v, holds D (G v) (i v))
  /\ e = EBin (BA Mul) true (EBin (BA Shr) true (EVar 2%nat) (EConst (ORaw Int) 1)) (EConst (ORaw UInt) 3000000000)
  /\ type_of D G e = Some t /\ value i e = Some z
  /\ returns (eval D G (store_of i) e) z' /\ z' <> z.
Proof.
  exists LP64, ex_G, (fun _ => 5).
  exists (EBin (BA Mul) true (EBin (BA Shr) true (EVar 2%nat) (EConst (ORaw Int) 1)) (EConst (ORaw UInt) 3000000000)).
  exists (OSafe (mkSafe UInt 0 0 Native ex_ep)), 6000000000, 1705032704.
  split; [apply ex_G_fine|].
  split; [intros v; destruct v as [|[|[|[|[|v]]]]]; vm_compute; intuition congruence|].
  vm_compute. intuition congruence.
Qed.
Print Assumptions C73_silently_wrong_refuted.

(** With x a safe<int>, (x % 7) * 1000000000 is undefined for x = 6 (the constants
    are literals, x % 7 is declared [-2, 1]), and so is 0 - (x | x), 0 a
    literal, for the smallest int (x | x is declared [0, INT_MAX]). *)
Theorem C73_undefined_refuted : exists D G i i' e e' t t',
  (forall v, type_fine true D (G v)) /\ (forall v, holds D (G v) (i v)) /\ (forall v, holds D (G v) (i' v))
  /\ e = EBin (BA Mul) true (EBin (BA Mod) true (EVar 0%nat) (ex_lit 7)) (ex_lit 1000000000)
  /\ e' = EBin (BA Sub) true (ex_lit 0) (EBin (BB Or) true (EVar 0%nat) (EVar 0%nat))
  /\ type_of D G e = Some t /\ eval D G (store_of i) e = ([], Undef)
  /\ type_of D G e' = Some t' /\ eval D G (store_of i') e' = ([], Undef).
Proof.
  exists LP64, ex_G, (fun v => match v with 0%nat => 6 | _ => 5 end),
    (fun v => match v with 0%nat => -2147483648 | _ => 5 end).
  exists (EBin (BA Mul) true (EBin (BA Mod) true (EVar 0%nat) (ex_lit 7)) (ex_lit 1000000000)).
  exists (EBin (BA Sub) true (ex_lit 0) (EBin (BB Or) true (EVar 0%nat) (EVar 0%nat))).
  exists (OSafe (mkSafe Int (-2000000000) 1000000000 Native ex_ep)), (OSafe (mkSafe Int (-2147483647) 0 Native ex_ep)).
  split; [apply ex_G_fine|].
  split; [intros v; destruct v as [|[|[|[|[|v]]]]]; vm_compute; intuition congruence|].
  split; [intros v; destruct v as [|[|[|[|[|v]]]]]; vm_compute; intuition congruence|].
  vm_compute. intuition congruence.
Qed.
Print Assumptions C73_undefined_refuted.

(** safe_unsigned_range<0, 5> r = x % 10, x a safe<unsigned> and 10 a literal, stores
    7 in r when x is 7: 4294967295 % 10 is 5, so x % 10 is declared [0, 5] *)
Theorem C73_range_refuted : exists D G i fuel c s' z,
  (forall v, type_fine true D (G v)) /\ (forall v, holds D (G v) (i v))
  /\ c = CAssign 4%nat (EBin (BA Mod) true (EVar 2%nat) (ex_lit 10))
  /\ compiles D G c = true
  /\ exec fuel D G (store_of i) c = Some (s', RDone) /\ s' 4%nat = Some z /\ ~ holds D (G 4%nat) z.
Proof.
  exists LP64, ex_G, (fun v => match v with 2%nat => 7 | _ => 5 end), 1%nat.
  exists (CAssign 4%nat (EBin (BA Mod) true (EVar 2%nat) (ex_lit 10))).
  eexists. exists 7.
  split; [apply ex_G_fine|].
  split; [intros v; destruct v as [|[|[|[|[|v]]]]]; vm_compute; intuition congruence|].
  split; [reflexivity|]. split; [vm_compute; reflexivity|]. split; [vm_compute; reflexivity|].
  split; [vm_compute; reflexivity|]. vm_compute. intuition congruence.
Qed.
Print Assumptions C73_range_refuted.
