(** EmulationFacts.v -- lemmas for PropsEmulation.v. *)
From Coq Require Import ZArith List Bool Arith Lia.
From Verif Require Import Base CType Utility Spec CheckedInteger CheckedResultOps Interval ExceptionPolicy Promotion SafeBase SafeSpec
  Program ProgramSpec ProgramFacts PropsProgramProofs CTypeFacts SafeFacts SafeConvFacts LawFacts MulExactFacts EmulationSpec.
Import ListNotations.
Local Open Scope Z_scope.

Lemma exact_width : forall D w T, int_t_exact D w = Some T ->
  width D T = w /\ csigned D T = true /\ to_signed T = T /\ to_signed (to_unsigned T) = T
  /\ width D (to_unsigned T) = w /\ csigned D (to_unsigned T) = false /\ T <> to_unsigned T.
Proof.
  intros D w T. unfold int_t_exact.
  repeat match goal with [ |- context [if ?a =? ?b then _ else _] ] => destruct (Z.eqb_spec a b) end;
    intros [= <-]; subst; destruct D; cbn; repeat split; congruence.
Qed.
Lemma exact_inj : forall D a b T, int_t_exact D a = Some T -> int_t_exact D b = Some T -> a = b.
Proof. intros D a b T A B. apply exact_width in A, B. destruct A as [<- _], B as [<- _]. reflexivity. Qed.

Definition hosts (D : dmodel) (W : widths) (k : tkind) (T : ctype) : Prop :=
  exists S, int_t_exact D (kbits W k) = Some S /\ T = if ksigned k then S else to_unsigned S.
Lemma hosts_facts : forall D W k T, hosts D W k T ->
  width D T = kbits W k /\ csigned D T = ksigned k /\ int_t_exact D (kbits W k) = Some (to_signed T).
Proof.
  intros D W k T (S & E & ->). destruct (exact_width _ _ _ E) as (A & B & C & F & H & I & _).
  destruct (ksigned k); repeat split; try assumption; congruence.
Qed.
Lemma is_exact : forall D a b S, int_t_exact D b = Some S -> (exists S', int_t_exact D a = Some S') ->
  is_type (int_t_exact D a) S = (a =? b).
Proof.
  intros D a b S B [S' A]. rewrite A. cbn. destruct (Z.eqb_spec a b) as [->|N].
  - assert (S = S') as -> by congruence. destruct S'; reflexivity.
  - destruct (ctype_eqb S' S) eqn:E; [|reflexivity]. exfalso. apply N.
    assert (S' = S) by (destruct S', S; cbn in E; congruence). subst. eapply exact_inj; eassumption.
Qed.
Definition wrank (W : widths) (w : Z) : Z :=
  if wchar W =? w then 1 else if wshort W =? w then 2 else if wint W =? w then 3 else if wlong W =? w then 4
  else if wllong W =? w then 5 else 6.
Definition all_exact (D : dmodel) (W : widths) : Prop := forall r, exists S, int_t_exact D (tbits W r) = Some S.
Lemma rank_hosts : forall D W k T, all_exact D W -> hosts D W k T ->
  cpp_rank D (wchar W) (wshort W) (wint W) (wlong W) (wllong W) T = wrank W (kbits W k).
Proof.
  intros D W k T A H. destruct (hosts_facts _ _ _ _ H) as (_ & _ & E). unfold cpp_rank, wrank.
  rewrite !(is_exact D _ _ _ E); [reflexivity|exact (A KLLong)|exact (A KLong)|exact (A KInt)|exact (A KShort)|exact (A KChar)].
Qed.
Lemma wrank_lt : forall W r r', ordered_widths W ->
  (wrank W (tbits W r) <? wrank W (tbits W r')) = (tbits W r <? tbits W r').
Proof.
  intros W r r' H. unfold ordered_widths in H. unfold wrank.
  destruct (Z.ltb_spec (tbits W r) (tbits W r'));
    repeat match goal with [ |- context [if ?a =? ?b then _ else _] ] => destruct (Z.eqb_spec a b) end; cbn;
    try reflexivity; exfalso; destruct r, r'; cbn in *; lia.
Qed.
Lemma hosts_inj : forall D W k l T, hosts D W k T -> hosts D W l T -> kbits W k = kbits W l /\ ksigned k = ksigned l.
Proof.
  intros D W k l T H H'. destruct (hosts_facts _ _ _ _ H) as (A & B & _), (hosts_facts _ _ _ _ H') as (A' & B' & _).
  split; congruence.
Qed.
Lemma hosts_eq : forall D W k l T U, hosts D W k T -> hosts D W l U -> kbits W k = kbits W l -> ksigned k = ksigned l -> T = U.
Proof. intros D W k l T U (S & E & ->) (S' & E' & ->) Hb Hs. rewrite Hb in E. rewrite Hs. assert (S = S') by congruence. subst. reflexivity. Qed.

(** promotion on the host: the sign is kept *)
Definition hpromote (W : widths) (k : tkind) : tkind :=
  if wint W <? kbits W k then k else TK KInt (ksigned k).
Lemma promote_hosts : forall D W k T li, all_exact D W -> ordered_widths W -> hosts D W k T -> int_t_exact D (wint W) = Some li ->
  hosts D W (hpromote W k) (cpp_promotion D (cpp_rank D (wchar W) (wshort W) (wint W) (wlong W) (wllong W)) li T).
Proof.
  intros D W k T li A O H E.
  assert (HI : hosts D W (TK KInt true) li) by (exists li; split; [exact E|reflexivity]).
  destruct (hosts_facts _ _ _ _ H) as (_ & Sg & Ex). destruct (exact_width _ _ _ E) as (_ & _ & E1 & _).
  unfold cpp_promotion, cpp_copy_sign, cpp_higher. rewrite Sg, (rank_hosts D W _ _ A H), (rank_hosts D W _ _ A HI).
  unfold kbits. cbn [krank]. rewrite (wrank_lt W KInt (krank k) O). cbn [tbits]. unfold hpromote, kbits.
  destruct H as (S & ES & ->). destruct (exact_width _ _ _ ES) as (_ & _ & S1 & S2 & _).
  destruct (Z.ltb_spec (wint W) (tbits W (krank k))).
  - exists S. split; [exact ES|]. destruct (ksigned k); [exact S1|]. destruct S; reflexivity.
  - exists li. cbn [ksigned krank kbits]. split; [exact E|]. destruct (ksigned k); [exact E1|reflexivity].
Qed.
Definition hcommon (W : widths) (k l : tkind) : tkind :=
  if Bool.eqb (ksigned k) (ksigned l) then (if kbits W k <? kbits W l then l else k)
  else
    let s := if ksigned k then k else l in
    let u := if ksigned k then l else k in
    if kbits W s <=? kbits W u then u else s.
Lemma common_hosts : forall D W k l T U R, all_exact D W -> ordered_widths W -> hosts D W k T -> hosts D W l U ->
  cpp_uac D (cpp_rank D (wchar W) (wshort W) (wint W) (wlong W) (wllong W)) T U = Some R -> hosts D W (hcommon W k l) R.
Proof.
  intros D W k l T U R A O H H'. destruct (hosts_facts _ _ _ _ H) as (Wd & Sg & Ex), (hosts_facts _ _ _ _ H') as (Wd' & Sg' & Ex').
  unfold cpp_uac, hcommon. destruct (ctype_eqb T U) eqn:ETU.
  - intros [= <-]. assert (T = U) by (destruct T, U; cbn in ETU; congruence). subst U.
    destruct (hosts_inj _ _ _ _ _ H H') as [B S]. rewrite S, eqb_reflx, B, Z.ltb_irrefl. exact H.
  - rewrite Sg, Sg'. unfold cpp_higher. destruct (Bool.eqb (ksigned k) (ksigned l)) eqn:Es.
    + rewrite (rank_hosts D W _ _ A H), (rank_hosts D W _ _ A H'). unfold kbits. rewrite wrank_lt by exact O.
      destruct (tbits W (krank k) <? tbits W (krank l)); intros [= <-]; assumption.
    + assert (K : forall (s u : tkind) Ts Tu, hosts D W s Ts -> hosts D W u Tu ->
        (if cpp_rank D (wchar W) (wshort W) (wint W) (wlong W) (wllong W) Ts <=? cpp_rank D (wchar W) (wshort W) (wint W) (wlong W) (wllong W) Tu
         then Some Tu else if digits D Tu <=? digits D Ts then Some Ts else None) = Some R ->
        hosts D W (if kbits W s <=? kbits W u then u else s) R).
      { intros s u Ts Tu Hs Hu. rewrite (rank_hosts D W _ _ A Hs), (rank_hosts D W _ _ A Hu).
        rewrite (Z.leb_antisym (wrank W (kbits W u))), (Z.leb_antisym (kbits W u)). unfold kbits at 1 2. rewrite wrank_lt by exact O.
        fold (kbits W u). fold (kbits W s). destruct (kbits W u <? kbits W s); cbn [negb].
        - destruct (digits D Tu <=? digits D Ts); [|discriminate]. intros [= <-]. exact Hs.
        - intros [= <-]. exact Hu. }
      destruct (ksigned k); apply K; assumption.
Qed.

(** apart from the width and signedness the rank does not matter *)
Lemma hresult_tresult : forall W k l, ordered_widths W -> fair W k l ->
  kbits W (hcommon W (hpromote W k) (hpromote W l)) = kbits W (tresult W k l)
  /\ ksigned (hcommon W (hpromote W k) (hpromote W l)) = ksigned (tresult W k l).
Proof.
  intros W [r s] [r' s'] O F. unfold fair, ordered_widths, tresult, tcommon, tpromote, hcommon, hpromote, kbits in *.
  cbn [krank ksigned] in *.
  destruct r, r', s, s'; cbn in *;
    repeat match goal with
           | [ |- context [?a <? ?b] ] => destruct (Z.ltb_spec a b); cbn in *
           | [ |- context [?a <=? ?b] ] => destruct (Z.leb_spec a b); cbn in *
           | [ F : context [?a <? ?b] |- _ ] => destruct (Z.ltb_spec a b); cbn in *
           end; try (split; (reflexivity || lia)); try (exfalso; intuition lia); try (split; [lia|]; exfalso; intuition (discriminate || lia)).
Qed.
Lemma result_hosts : forall D W k l T U R, ordered_widths W -> fair W k l -> hosts D W k T -> hosts D W l U ->
  cpp_result D (wchar W) (wshort W) (wint W) (wlong W) (wllong W) T U = Some R -> hosts D W (tresult W k l) R.
Proof.
  intros D W k l T U R O F H H' E. unfold cpp_result in E.
  destruct (int_t_exact D (wchar W)) eqn:E1; [|discriminate]. destruct (int_t_exact D (wshort W)) eqn:E2; [|discriminate].
  destruct (int_t_exact D (wint W)) as [li|] eqn:E3; [|discriminate]. destruct (int_t_exact D (wlong W)) eqn:E4; [|discriminate].
  destruct (int_t_exact D (wllong W)) eqn:E5; [|discriminate].
  assert (A : all_exact D W) by (intros []; cbn; eauto).
  pose proof (common_hosts D W _ _ _ _ R A O (promote_hosts D W k T li A O H E3) (promote_hosts D W l U li A O H' E3) E) as (S & HS & ->).
  destruct (hresult_tresult W k l O F) as [B C]. exists S. rewrite <- B, <- C. split; [exact HS|reflexivity].
Qed.

Lemma in_kind_type : forall D W k T z, hosts D W k T -> (in_kind W k z <-> in_type D T z).
Proof.
  intros D W k T z H. destruct (hosts_facts _ _ _ _ H) as (A & B & _). unfold in_kind, in_type, lo, hi, digits.
  rewrite A, B. destruct (ksigned k); lia.
Qed.
Lemma kbits_pos : forall D W k T, hosts D W k T -> 0 < kbits W k.
Proof. intros D W k T H. destruct (hosts_facts _ _ _ _ H) as (A & _). rewrite <- A. destruct D, T; cbn; lia. Qed.

(** converting to a signed common type changes no value; converting to an unsigned one changes no
    value that is not negative *)
Lemma common_widths : forall W k l, ordered_widths W ->
  (if ksigned (tresult W k l) then (if ksigned k then kbits W k <= kbits W (tresult W k l) else kbits W k < kbits W (tresult W k l))
   else kbits W k <= kbits W (tresult W k l))
  /\ (if ksigned (tresult W k l) then (if ksigned l then kbits W l <= kbits W (tresult W k l) else kbits W l < kbits W (tresult W k l))
      else kbits W l <= kbits W (tresult W k l)).
Proof.
  intros W [r s] [r' s'] O. unfold tresult, tcommon, tpromote, kbits, ordered_widths in *. cbn [krank ksigned] in *.
  destruct r, r', s, s'; cbn in *;
    repeat match goal with
           | [ |- context [?a <? ?b] ] => destruct (Z.ltb_spec a b); cbn in *
           | [ |- context [?a <=? ?b] ] => destruct (Z.leb_spec a b); cbn in *
           end; split; lia.
Qed.
Lemma kind_keeps : forall W k t z, 0 < kbits W k ->
  (if ksigned t then (if ksigned k then kbits W k <= kbits W t else kbits W k < kbits W t) else kbits W k <= kbits W t) ->
  in_kind W k z -> ksigned t = true \/ 0 <= z -> in_kind W t z.
Proof.
  intros W k t z P L H S. unfold in_kind in *.
  assert (E : 2 ^ kbits W k = 2 * 2 ^ (kbits W k - 1)) by (rewrite <- Z.pow_succ_r by lia; f_equal; lia).
  assert (Q : 0 < 2 ^ (kbits W k - 1)) by (apply Z.pow_pos_nonneg; lia).
  destruct (ksigned t), (ksigned k).
  - assert (2 ^ (kbits W k - 1) <= 2 ^ (kbits W t - 1)) by (apply Z.pow_le_mono_r; lia). lia.
  - assert (2 ^ (kbits W k) <= 2 ^ (kbits W t - 1)) by (apply Z.pow_le_mono_r; lia). lia.
  - assert (2 ^ (kbits W k) <= 2 ^ (kbits W t)) by (apply Z.pow_le_mono_r; lia). destruct S; [discriminate|]. lia.
  - assert (2 ^ (kbits W k) <= 2 ^ (kbits W t)) by (apply Z.pow_le_mono_r; lia). lia.
Qed.
Lemma common_sym : forall W k l, ordered_widths W ->
  kbits W (tresult W k l) = kbits W (tresult W l k) /\ ksigned (tresult W k l) = ksigned (tresult W l k).
Proof.
  intros W [r s] [r' s'] O. unfold tresult, tcommon, tpromote, kbits, ordered_widths in *. cbn [krank ksigned] in *.
  destruct r, r', s, s'; cbn in *;
    repeat match goal with
           | [ |- context [?a <? ?b] ] => destruct (Z.ltb_spec a b); cbn in *
           | [ |- context [?a <=? ?b] ] => destruct (Z.leb_spec a b); cbn in *
           end; split; (reflexivity || lia).
Qed.
Lemma common_sym_kind : forall W k l z, ordered_widths W -> in_kind W (tresult W k l) z -> in_kind W (tresult W l k) z.
Proof. intros W k l z O H. unfold in_kind in *. destruct (common_sym W k l O) as [A B]. rewrite <- A, <- B. exact H. Qed.

