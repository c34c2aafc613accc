(** CheckedResultFacts.v -- facts about operators on checked results. Proofs only. *)
From Coq Require Import ZArith Bool List Lia.
From Verif Require Import Base CType Spec CTypeFacts Utility UtilityFacts SafeCompare
  CheckedInteger CheckedIntegerFacts CheckedResultOps.
Import ListNotations.
Local Open Scope Z_scope.

(** comparisons *)
Lemma cr_lt_val : forall D R a b, in_type D R a -> in_type D R b ->
  cr_lt D R (CVal a) (CVal b) = tri_of_bool (a <? b).
Proof. intros. unfold cr_lt. cbn. rewrite c_lt_same by assumption. reflexivity. Qed.
Lemma cr_eq_val : forall D R a b, in_type D R a -> in_type D R b ->
  cr_eq D R (CVal a) (CVal b) = tri_of_bool (a =? b).
Proof. intros. unfold cr_eq. cbn. rewrite c_eq_same by assumption. reflexivity. Qed.

Lemma cr_lt_sound : forall D R a b, cr_ok D R a -> cr_ok D R b ->
  (cr_lt D R a b = TTrue -> forall x y, stands_for D R a x -> stands_for D R b y -> x < y)
  /\ (cr_lt D R a b = TFalse -> forall x y, stands_for D R a x -> stands_for D R b y -> x >= y).
Proof.
  intros D R a b Ha Hb. pose proof (lo_le_0 D R). pose proof (hi_ge_127 D R).
  destruct a as [v|e], b as [w|f].
  - cbn in Ha, Hb. rewrite cr_lt_val by assumption. cbn [stands_for].
    destruct (Z.ltb_spec v w); cbn; split; intros; try discriminate; lia.
  - cbn in Ha. destruct f; cbn; split; intros; try discriminate; unfold in_type in *; lia.
  - cbn in Hb. destruct e; cbn; split; intros; try discriminate; unfold in_type in *; lia.
  - destruct e, f; cbn; split; intros; try discriminate; lia.
Qed.

Lemma cr_eq_sound : forall D R a b, cr_ok D R a -> cr_ok D R b ->
  (cr_eq D R a b = TTrue -> forall x y, stands_for D R a x -> stands_for D R b y -> x = y)
  /\ (cr_eq D R a b = TFalse -> forall x y, stands_for D R a x -> stands_for D R b y -> x <> y).
Proof.
  intros D R a b Ha Hb. pose proof (lo_le_0 D R). pose proof (hi_ge_127 D R).
  destruct a as [v|e], b as [w|f].
  - cbn in Ha, Hb. rewrite cr_eq_val by assumption. cbn [stands_for].
    destruct (Z.eqb_spec v w); cbn; split; intros; try discriminate; lia.
  - cbn in Ha. destruct f; cbn; split; intros; try discriminate; unfold in_type in *; lia.
  - cbn in Hb. destruct e; cbn; split; intros; try discriminate; unfold in_type in *; lia.
  - destruct e, f; cbn; split; intros; try discriminate; lia.
Qed.

Lemma cr_cmp_values : forall D R a b, in_type D R a -> in_type D R b ->
  cr_lt D R (CVal a) (CVal b) = tri_of_bool (a <? b)
  /\ cr_gt D R (CVal a) (CVal b) = tri_of_bool (b <? a)
  /\ cr_le D R (CVal a) (CVal b) = tri_of_bool (a <=? b)
  /\ cr_ge D R (CVal a) (CVal b) = tri_of_bool (b <=? a)
  /\ cr_eq D R (CVal a) (CVal b) = tri_of_bool (a =? b)
  /\ cr_ne D R (CVal a) (CVal b) = tri_of_bool (negb (a =? b)).
Proof.
  intros D R a b Ha Hb. unfold cr_gt, cr_le, cr_ge, cr_ne.
  rewrite !cr_lt_val, cr_eq_val by assumption.
  repeat split; rewrite ?Z.leb_antisym.
  - destruct (b <? a); reflexivity.
  - destruct (a <? b); reflexivity.
  - destruct (a =? b); reflexivity.
Qed.

(** the product flags *)
Lemma to_pflag_val : forall D R v, in_type D R v ->
  to_pflag D R (CVal v) = if v <? 0 then less_than_zero
                          else if 0 <? v then greater_than_zero else zero.
Proof.
  intros D R v Hv. unfold to_pflag, cr_gt. rewrite !cr_lt_val by auto using zero_in.
  destruct (v <? 0); [reflexivity|]. destruct (0 <? v); reflexivity.
Qed.

Lemma to_pflag_cases : forall D R c, cr_ok D R c ->
  (exists v, c = CVal v /\ v < 0 /\ in_type D R v /\ to_pflag D R c = less_than_zero)
  \/ (c = CVal 0 /\ to_pflag D R c = zero)
  \/ (exists v, c = CVal v /\ 0 < v /\ in_type D R v /\ to_pflag D R c = greater_than_zero)
  \/ (c = CErr negative_overflow_error /\ to_pflag D R c = less_than_min)
  \/ (c = CErr positive_overflow_error /\ to_pflag D R c = greater_than_max)
  \/ (exists e, c = CErr e /\ e <> negative_overflow_error /\ e <> positive_overflow_error
       /\ to_pflag D R c = indeterminate).
Proof.
  intros D R c Hc. destruct c as [v|e].
  - cbn in Hc. rewrite to_pflag_val by assumption.
    destruct (Z.ltb_spec v 0); [left; eauto|]. destruct (Z.ltb_spec 0 v); [right; right; left; eauto|].
    right; left. assert (v = 0) by lia. subst. auto.
  - do 3 right. destruct e; cbn; try (left; auto; fail); try (right; left; auto; fail);
    right; right; eexists; repeat split; congruence.
Qed.

Ltac pflag c Hc :=
  let v := fresh "v" in let e := fresh "e" in
  destruct (to_pflag_cases _ _ c Hc) as
    [(v & -> & ? & ? & ->)|[(-> & ->)|[(v & -> & ? & ? & ->)|[(-> & ->)|[(-> & ->)|(e & -> & ? & ? & ->)]]]]].

Lemma stands_for_other : forall D R e z, e <> negative_overflow_error -> e <> positive_overflow_error ->
  stands_for D R (CErr e) z.
Proof. intros D R e z H1 H2. destruct e; cbn; trivial; congruence. Qed.

(** sums and differences *)
Lemma cr_add_total : forall D R a b, cr_ok D R a -> cr_ok D R b ->
  exists c, cr_add D R a b = Ok c /\ cr_ok D R c
    /\ (forall v, c = CVal v -> exists x y, a = CVal x /\ b = CVal y /\ v = x + y).
Proof.
  intros D R a b Ha Hb. destruct a as [x|e], b as [y|f].
  - cbn in Ha, Hb. unfold cr_add. cbn.
    destruct (eoo_cases _ _ _ _ (add_spec D R x y Ha Hb)) as [[Hi ->]|[[Hi ->]|[Hi ->]]];
    eexists; (split; [reflexivity|split; [cbn; trivial|intros v Hv; try discriminate; injection Hv as <-; eauto]]).
  - destruct f; cbn; eexists; (split; [reflexivity|split; [cbn; trivial|intros v Hv; discriminate]]).
  - destruct e; cbn; eexists; (split; [reflexivity|split; [cbn; trivial|intros v Hv; discriminate]]).
  - destruct e, f; cbn; eexists; (split; [reflexivity|split; [cbn; trivial|intros v Hv; discriminate]]).
Qed.

Lemma cr_sub_total : forall D R a b, cr_ok D R a -> cr_ok D R b ->
  exists c, cr_sub D R a b = Ok c /\ cr_ok D R c
    /\ (forall v, c = CVal v -> exists x y, a = CVal x /\ b = CVal y /\ v = x - y).
Proof.
  intros D R a b Ha Hb. destruct a as [x|e], b as [y|f].
  - cbn in Ha, Hb. unfold cr_sub. cbn.
    destruct (eoo_cases _ _ _ _ (subtract_spec D R x y Ha Hb)) as [[Hi ->]|[[Hi ->]|[Hi ->]]];
    eexists; (split; [reflexivity|split; [cbn; trivial|intros v Hv; try discriminate; injection Hv as <-; eauto]]).
  - destruct f; cbn; eexists; (split; [reflexivity|split; [cbn; trivial|intros v Hv; discriminate]]).
  - destruct e; cbn; eexists; (split; [reflexivity|split; [cbn; trivial|intros v Hv; discriminate]]).
  - destruct e, f; cbn; eexists; (split; [reflexivity|split; [cbn; trivial|intros v Hv; discriminate]]).
Qed.

(** products *)
Lemma cr_mul_total : forall D R a b, cr_ok D R a -> cr_ok D R b ->
  exists c, cr_mul D R a b = Ok c /\ cr_ok D R c
    /\ (forall v, c = CVal v -> forall x y, stands_for D R a x -> stands_for D R b y -> v = x * y).
Proof.
  intros D R a b Ha Hb. unfold cr_mul.
  pflag a Ha; pflag b Hb; unfold lookup; cbn [pidx nth mul_table rbind cr_value];
  try (match goal with |- context [multiply D R ?p ?q] =>
        destruct (eoo_cases _ _ _ _ (multiply_spec D R p q ltac:(assumption) ltac:(assumption)))
          as [[? ->]|[[? ->]|[? ->]]] end);
  eexists; (split; [reflexivity|split; [cbn; trivial; apply zero_in|]]);
  intros w Hw; try discriminate; injection Hw as <-; intros x y Hx Hy; cbn [stands_for] in Hx, Hy; subst; lia.
Qed.

(** quotients: x / overflow may be any sub-unit quotient, truncated to 0; it is
    exactly 0 unless x is the minimum and the overflow is positive by one *)
Lemma quot_small_abs : forall x y, Z.abs x < Z.abs y -> Z.quot x y = 0.
Proof.
  intros x y H. apply Z.quot_small_iff; lia.
Qed.

Lemma cr_div_total : forall D R a b, cr_ok D R a -> cr_ok D R b ->
  exists c, cr_div D R a b = Ok c /\ cr_ok D R c
    /\ (forall v, c = CVal v ->
         (exists x y, a = CVal x /\ b = CVal y /\ y <> 0 /\ v = Z.quot x y)
         \/ (v = 0 /\ exists x, a = CVal x /\
              (b = CErr positive_overflow_error \/ b = CErr negative_overflow_error))).
Proof.
  intros D R a b Ha Hb. unfold cr_div.
  pflag a Ha; pflag b Hb; unfold lookup; cbn [pidx nth div_table rbind cr_value];
  try (match goal with |- context [divide D R ?p ?q] =>
        destruct (divide_spec D R p q ltac:(assumption) ltac:(assumption)) as [_ Hd];
        destruct (eoo_cases _ _ _ _ (Hd ltac:(lia)))
          as [[? ->]|[[? ->]|[? ->]]]; clear Hd end);
  eexists; (split; [reflexivity|split; [cbn; trivial; apply zero_in|]]);
  intros w Hw; try discriminate; injection Hw as <-;
  first [ right; split; [reflexivity|]; eexists; split; [reflexivity|]; tauto
        | left; eexists; eexists; split; [reflexivity|]; split; [reflexivity|];
          split; [lia|]; rewrite ?Z.quot_0_l by lia; reflexivity ].
Qed.
