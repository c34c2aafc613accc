(** PortIOFacts.v -- lemmas for PropsPortAll.v. *)
From Coq Require Import ZArith List Bool Arith Lia.
From Verif Require Import Base CType Spec ExceptionPolicy Promotion SafeBase SafeSpec Program ProgramSpec ProgramFacts
  PropsProgramProofs ComposeSpec ComposeFacts Stream StreamSpec StreamFacts RetypeSpec PropsRetypeProofs
  IOProgram IOProgramSpec IOProgramFacts ArrayProgram ArraySpec ArrayFacts PortIOSpec.
Import ListNotations.
Local Open Scope Z_scope.

Definition canonical (ds : list Z) : Prop := forall c r, ds <> 48 :: c :: r.
Lemma canonical_init : forall ds c, canonical (ds ++ [c]) -> canonical ds.
Proof. intros ds c H x r ->. apply (H x (r ++ [c])). reflexivity. Qed.
Lemma denotes_nonneg : forall ds n, denotes ds n -> 0 <= n.
Proof. induction 1 as [c d [H _]|cs n c d H IH [Hd _]]; lia. Qed.
Lemma denotes_nonempty : forall ds n, denotes ds n -> ds <> [].
Proof. induction 1; [discriminate|]. intros K. apply app_eq_nil in K. destruct K. discriminate. Qed.
Lemma canonical_zero : forall ds n, denotes ds n -> canonical ds -> n = 0 -> ds = [48].
Proof.
  induction 1 as [c d [H ->]|cs n c d H IH [Hd ->]]; intros C E.
  - subst. reflexivity.
  - pose proof (denotes_nonneg _ _ H). assert (n = 0) as -> by lia.
    rewrite (IH (canonical_init _ _ C) eq_refl) in C. exfalso. apply (C (48 + d) []). reflexivity.
Qed.
Lemma denotes_unique : forall ds n, denotes ds n -> canonical ds -> forall ds' n', denotes ds' n' -> canonical ds' -> n = n' -> ds = ds'.
Proof.
  assert (K : forall cs n c d, denotes cs n -> digit_char c d -> canonical (cs ++ [c]) -> 0 < n).
  { intros cs n c d H [Hd ->] C. pose proof (denotes_nonneg _ _ H). destruct (Z.eq_dec n 0) as [->|]; [|lia].
    rewrite (canonical_zero _ _ H (canonical_init _ _ C) eq_refl) in C. exfalso. apply (C (48 + d) []). reflexivity. }
  induction 1 as [c d Hc|cs n c d H IH Hc]; intros C ds' n' H' C' E; destruct H' as [c' d' Hc'|cs' n1 c' d' H' Hc'].
  - destruct Hc as [_ ->], Hc' as [_ ->]. subst. reflexivity.
  - pose proof (K _ _ _ _ H' Hc' C'). destruct Hc, Hc'. lia.
  - pose proof (K _ _ _ _ H Hc C). destruct Hc, Hc'. lia.
  - destruct Hc as [Hd ->], Hc' as [Hd' ->]. assert (n = n1 /\ d = d') as [-> ->] by lia.
    rewrite (IH (canonical_init _ _ C) cs' n1 H' (canonical_init _ _ C') eq_refl). reflexivity.
Qed.
Lemma decimal_unique : forall cs cs' z, decimal cs z -> decimal cs' z -> cs = cs'.
Proof.
  intros cs cs' z (sg & ds & n & -> & Hd & Ez & Hs & Np & C) (sg' & ds' & n' & -> & Hd' & Ez' & Hs' & Np' & C').
  assert (sg = sg') as ->.
  { destruct sg, sg'; try reflexivity; try congruence; exfalso; intuition congruence. }
  f_equal. apply (denotes_unique ds n Hd C ds' n' Hd' C'). subst z. destruct sg'; cbn in Ez'; lia.
Qed.

Lemma io_ideal_same : forall D G p c p1 r, io_ideal D G p c p1 r -> r = true ->
  forall D' G' c' t' p2 , same_io c c' -> chars t' = chars (snd (fst p)) ->
  io_ideal D' G' (fst (fst p), t', snd p) c' p2 true ->
  fst (fst p1) = fst (fst p2) /\ chars (snd (fst p1)) = chars (snd (fst p2)) /\ snd p1 = snd p2.
Proof.
  intros D G p c p1 r H. induction H; intros Hr D' G' c' u' p2' Hc Hu H'; try discriminate; inversion Hc; subst; cbn [fst snd] in *.
  - inversion H'; subst. cbn. split; [|auto].
    match goal with [ S : same_cmd c ?x |- _ ] =>
      pose proof (ideal_retype _ _ _ _ H eq_refl _ S) as I1; eapply ideal_det; eauto using same_cmd_refl_r end.
  - inversion H'; subst. cbn.
    match goal with [ A : offers _ _ t _ _ _, B : offers _ _ u' _ _ _ |- _ ] =>
      destruct A as (sg & _ & N & _); destruct B as (sg' & _ & N' & _) end.
    rewrite Hu in N'. destruct (numeral_unique _ _ _ _ _ _ _ N N') as (-> & -> & _). auto.
  - inversion H'; subst. cbn. rewrite Hu. repeat split. f_equal. eapply decimal_unique; eassumption.
  - inversion H'; subst. destruct p3 as [[i3 t3] o3]. destruct p1 as [[i1 t1] o1].
    match goal with [ S : same_io a _, K : io_ideal D' G' _ _ (i3, t3, o3) true |- _ ] =>
      destruct (IHio_ideal1 eq_refl D' G' _ u' _ S Hu K) as (E1 & E2 & E3) end.
    cbn [fst snd] in *. subst i3 o3. eapply IHio_ideal2; [reflexivity|eassumption|symmetry; exact E2|eassumption].
  - inversion H'; subst.
    match goal with [ S : same_cond c ?y, K : truth i ?y = Some ?z |- _ ] => rewrite <- (same_truth _ _ S) in K; assert (w = z) by congruence; subst z end.
    eapply IHio_ideal; [reflexivity| |exact Hu|eassumption]. destruct w; assumption.
  - inversion H'; subst; [auto|].
    match goal with [ S : same_cond c ?y, K : truth i ?y = Some _ |- _ ] => rewrite <- (same_truth _ _ S) in K; congruence end.
  - inversion H'; subst.
    + match goal with [ S : same_cond c ?y, K : truth i ?y = Some _ |- _ ] => rewrite <- (same_truth _ _ S) in K; congruence end.
    + match goal with [ S : same_io a _, K : io_ideal D' G' _ ?x ?q true, L : io_ideal D' G' ?q (IOWhile _ ?x) _ true |- _ ] =>
        destruct q as [[i3 t3] o3]; destruct p1 as [[i1 t1] o1]; destruct (IHio_ideal1 eq_refl D' G' _ u' _ S Hu K) as (E1 & E2 & E3) end.
      cbn [fst snd] in *. subst i3 o3. eapply IHio_ideal2; [reflexivity| |symmetry; exact E2|eassumption]. constructor; assumption.
Qed.

Lemma C66_expr_all : forall n n' D D' G G' s s' i e e' t t' z z',
  (forall v, type_fine n D (G v)) -> (forall v, type_fine n' D' (G' v)) ->
  store_ok D G s i -> store_ok D' G' s' i ->
  expr_fine n D G None e -> expr_fine n' D' G' None e' -> type_of D G e = Some t -> type_of D' G' e' = Some t' ->
  value i e = value i e' -> returns (eval D G s e) z -> returns (eval D' G' s' e') z' -> z = z'.
Proof.
  intros n n' D D' G G' s s' i e e' t t' z z' HG HG' Hs Hs' He He' Ht Ht' V R R'. unfold returns in *.
  destruct (C73_expr n D G s i e t HG Hs He Ht) as [(a & Va & Ra & _)|(l & x & F)%fails_throw]; [|rewrite R in F; discriminate].
  destruct (C73_expr n' D' G' s' i e' t' HG' Hs' He' Ht') as [(b & Vb & Rb & _)|(l & x & F)%fails_throw]; [|rewrite R' in F; discriminate].
  unfold returns in *. congruence.
Qed.

Lemma C66_all : forall n n' D D' G G' fuel fuel' c c' s s' i s1 s1',
  (forall v, type_fine n D (G v)) -> (forall v, type_fine n' D' (G' v)) ->
  store_ok D G s i -> store_ok D' G' s' i ->
  cmd_fine n D G c -> cmd_fine n' D' G' c' -> compiles D G c = true -> compiles D' G' c' = true ->
  same_cmd c c' ->
  exec fuel D G s c = Some (s1, RDone) -> exec fuel' D' G' s' c' = Some (s1', RDone) ->
  forall v, s1 v = s1' v.
Proof.
  intros n n' D D' G G' fuel fuel' c c' s s' i s1 s1' HG HG' Hs Hs' Hc Hc' Hk Hk' S E E' v.
  destruct (C73_cmd n D G fuel c s i s1 RDone HG Hs Hc Hk E) as (i1 & A & [[_ I]|(x & ? & _)]); [|discriminate].
  destruct (C73_cmd n' D' G' fuel' c' s' i s1' RDone HG' Hs' Hc' Hk' E') as (i2 & A' & [[_ I']|(x & ? & _)]); [|discriminate].
  pose proof (ideal_retype _ _ _ _ I eq_refl _ S) as I1.
  assert (i1 = i2) as <- by (eapply ideal_det; eauto using same_cmd_refl_r).
  rewrite (proj1 (A v)), (proj1 (A' v)). reflexivity.
Qed.

Lemma C66_io : forall n n' D D' G G' fuel fuel' c c' s s' i t t' o s1 t1 o1 s1' t1' o1',
  (forall v, type_fine n D (G v)) -> (forall v, type_fine n' D' (G' v)) ->
  store_ok D G s i -> store_ok D' G' s' i -> chars t = chars t' ->
  io_ok (cmd_fine n D G) (cond_fine n D G) D G false c -> io_ok (cmd_fine n' D' G') (cond_fine n' D' G') D' G' false c' ->
  io_compiles D G c = true -> io_compiles D' G' c' = true -> same_io c c' ->
  io_exec fuel D G (s, t, o) c = Some ((s1, t1, o1), RDone) ->
  io_exec fuel' D' G' (s', t', o) c' = Some ((s1', t1', o1'), RDone) ->
  o1 = o1' /\ chars t1 = chars t1' /\ forall v, s1 v = s1' v.
Proof.
  intros n n' D D' G G' fuel fuel' c c' s s' i t t' o s1 t1 o1 s1' t1' o1' HG HG' Hs Hs' Ht Hc Hc' Hk Hk' S E E'.
  destruct (C87_all_lemma n D G fuel c s i t o s1 t1 o1 RDone HG Hs Hc Hk E) as (i1 & A & [(_ & _ & I)|(x & ? & _)]); [|discriminate].
  destruct (C87_all_lemma n' D' G' fuel' c' s' i t' o s1' t1' o1' RDone HG' Hs' Hc' Hk' E') as (i2 & A' & [(_ & _ & I')|(x & ? & _)]); [|discriminate].
  destruct (io_ideal_same _ _ _ _ _ _ I eq_refl D' G' c' t' _ S (eq_sym Ht) I') as (E1 & E2 & E3). cbn [fst snd] in *.
  split; [exact E3|]. split; [exact E2|]. intros v. rewrite (A v), (A' v), E1. reflexivity.
Qed.

Lemma nth_error_ext : forall (A : Type) (l l' : list A), (forall k, nth_error l k = nth_error l' k) -> l = l'.
Proof.
  induction l as [|x l IH]; intros [|y l'] H; [reflexivity|discriminate (H O)|discriminate (H O)|].
  pose proof (H O) as H0. cbn in H0. injection H0 as <-. f_equal. apply IH. intros k. exact (H (S k)).
Qed.

Lemma a_ideal_same : forall A p c p1 r, a_ideal A p c p1 r -> r = Done ->
  forall A' c' p2, same_acmd c c' -> a_ideal A' p c' p2 Done -> p1 = p2.
Proof.
  intros A p c p1 r H. induction H; intros Hr A' c' p2' Hc H'; try discriminate; try congruence; inversion Hc; subst.
  - destruct r; [|discriminate]. inversion H'; subst.
    match goal with [ K : (if ?x then Done else Raised) = Done |- _ ] => destruct x; [|discriminate] end.
    f_equal. match goal with [ S : same_cmd c ?x |- _ ] =>
      pose proof (ideal_retype _ _ _ _ H eq_refl _ S) as I1; eapply ideal_det; eauto using same_cmd_refl_r end.
  - inversion H'; subst. match goal with [ S : same_expr e ?y, K : value i ?y = Some _ |- _ ] => rewrite <- (same_value _ _ S) in K end.
    match goal with [ V : value i e = Some (Z.of_nat n), V' : value i e = Some (Z.of_nat ?n') |- _ ] => assert (n = n') as <- by (apply Nat2Z.inj; congruence) end.
    reflexivity.
  - inversion H'; subst. match goal with [ S : same_expr e ?y, K : value i ?y = Some _ |- _ ] => rewrite <- (same_value _ _ S) in K end.
    match goal with [ S : same_expr d ?y, K : value i ?y = Some _ |- _ ] => rewrite <- (same_value _ _ S) in K end.
    match goal with [ V : value i e = Some (Z.of_nat n), V' : value i e = Some (Z.of_nat ?n') |- _ ] => assert (n = n') as <- by (apply Nat2Z.inj; congruence) end.
    match goal with [ V : value i d = Some z, V' : value i d = Some ?z' |- _ ] => assert (z = z') as <- by congruence end. reflexivity.
  - inversion H'; subst; [|congruence].
    match goal with [ K : a_ideal A' p ?x ?q Done, S : same_acmd _ ?x |- _ ] => assert (p1 = q) as <- by (eapply IHa_ideal1; eauto) end.
    eapply IHa_ideal2; eauto.
  - inversion H'; subst.
    match goal with [ S : same_cond c ?y, K : truth _ ?y = Some ?z |- _ ] => rewrite <- (same_truth _ _ S) in K; assert (w = z) by congruence; subst z end.
    eapply IHa_ideal; eauto. destruct w; assumption.
  - inversion H'; subst; [auto|..]; try congruence.
    match goal with [ S : same_cond c ?y, K : truth _ ?y = Some _ |- _ ] => rewrite <- (same_truth _ _ S) in K; congruence end.
  - inversion H'; subst; try congruence.
    + match goal with [ S : same_cond c ?y, K : truth _ ?y = Some _ |- _ ] => rewrite <- (same_truth _ _ S) in K; congruence end.
    + match goal with [ K : a_ideal A' p ?x ?q Done, S : same_acmd _ ?x |- _ ] => assert (p1 = q) as <- by (eapply IHa_ideal1; eauto) end.
      eapply IHa_ideal2; eauto.
Qed.

Lemma C66_arrays : forall n n' D D' G G' A A' fuel fuel' c c' s s' i mem mem' m s1 mem1 s1' mem1',
  (forall v, type_fine n D (G v)) -> (forall v, type_fine n' D' (G' v)) ->
  (forall a, type_fine n D (fst (A a))) -> (forall a, type_fine n' D' (fst (A' a))) ->
  store_ok D G s i -> store_ok D' G' s' i -> arrays_ok D A mem m -> arrays_ok D' A' mem' m ->
  (forall a, snd (A a) = snd (A' a)) ->
  a_ok (cmd_fine n D G) (expr_fine n D G None) (cond_fine n D G) c ->
  a_ok (cmd_fine n' D' G') (expr_fine n' D' G' None) (cond_fine n' D' G') c' ->
  a_compiles D G A c = true -> a_compiles D' G' A' c' = true -> same_acmd c c' ->
  a_exec fuel D G A (s, mem) c = Some ((s1, mem1), RDone) ->
  a_exec fuel' D' G' A' (s', mem') c' = Some ((s1', mem1'), RDone) ->
  (forall v, s1 v = s1' v) /\ (forall a, mem1 a = mem1' a).
Proof.
  intros n n' D D' G G' A A' fuel fuel' c c' s s' i mem mem' m s1 mem1 s1' mem1' HG HG' HA HA' Hs Hs' Hm Hm' HL Hc Hc' Hk Hk' S E E'.
  destruct (C88_all_lemma n D G A fuel c s mem i m s1 mem1 RDone HG HA Hs Hm Hc Hk E) as (i1 & m1 & B & C & [(_ & I)|[(x & ? & _)|(? & _)]]); [|discriminate|discriminate].
  destruct (C88_all_lemma n' D' G' A' fuel' c' s' mem' i m s1' mem1' RDone HG' HA' Hs' Hm' Hc' Hk' E') as (i2 & m2 & B' & C' & [(_ & I')|[(x & ? & _)|(? & _)]]); [|discriminate|discriminate].
  pose proof (a_ideal_same _ _ _ _ _ I eq_refl _ _ _ S I') as [= <- <-].
  split; [intros v; rewrite (proj1 (B v)), (proj1 (B' v)); reflexivity|].
  intros a. destruct (C a) as [L N], (C' a) as [L' N'].
  apply nth_error_ext. intros k. destruct (Nat.lt_ge_cases k (snd (A a))) as [H|H].
  - rewrite (proj1 (N k H)), (proj1 (N' k ltac:(rewrite <- HL; exact H))). reflexivity.
  - rewrite (proj2 (nth_error_None (mem1 a) k)), (proj2 (nth_error_None (mem1' a) k)); [reflexivity| |]; rewrite ?L, ?L', <- ?HL; exact H.
Qed.

Lemma C66_modulus : exists D G G' c s i s1 s1',
  (forall v, type_fine true D (G v)) /\ (forall v, type_fine true D (G' v))
  /\ store_ok D G s i /\ store_ok D G' s i /\ compiles D G c = true /\ compiles D G' c = true /\ same_cmd c c
  /\ exec 0 D G s c = Some (s1, RDone) /\ exec 0 D G' s c = Some (s1', RDone) /\ s1 1%nat <> s1' 1%nat.
Proof.
  exists LP64, (fun _ => OSafe (safe LP64 Int Native default_exception_policy)), (fun _ => OSafe (safe LP64 Long Native default_exception_policy)).
  exists (CAssign 1%nat (EBin (BA Mod) true (EVar 0%nat) (EVar 0%nat))), (fun _ => Some (-2147483648)), (fun _ => -2147483648).
  exists (upd (fun _ => Some (-2147483648)) 1%nat (Some (-2147483648))), (upd (fun _ => Some (-2147483648)) 1%nat (Some 0)).
  split; [intros v|split; [intros v|split; [intros v; split; [reflexivity|vm_compute; split; congruence]|split; [intros v; split; [reflexivity|vm_compute; split; congruence]|]]]].
  1, 2: unfold type_fine, type_ok, throws_arithmetic, throws_shift; cbn; unfold in_type;
    repeat split; try (intros E [= <-]; auto); try (intros; discriminate); auto; vm_compute; congruence.
  split; [vm_compute; reflexivity|]. split; [vm_compute; reflexivity|]. split; [repeat constructor|].
  split; [vm_compute; reflexivity|]. split; [vm_compute; reflexivity|]. vm_compute. congruence.
Qed.
