(** StreamFacts.v -- proofs about the stream operations. *)
From Coq Require Import ZArith List Bool Lia.
From Verif Require Import Base CType Spec CTypeFacts CheckedInteger CheckedResultOps Interval
  ExceptionPolicy Promotion SafeBase SafeSpec IntervalFacts SafeFacts SafeConvFacts Stream StreamSpec.
Import ListNotations.
Local Open Scope Z_scope.

Lemma is_space_blank : forall c, is_space c = true <-> blank c.
Proof.
  intros c. unfold is_space, blank, ch_space. cbn [In].
  rewrite orb_true_iff, andb_true_iff, !Z.leb_le, Z.eqb_eq. lia.
Qed.
Lemma is_digit_iff : forall c, is_digit c = true <-> 48 <= c <= 57.
Proof. intros c. unfold is_digit, ch_0, ch_9. rewrite andb_true_iff, !Z.leb_le. lia. Qed.
Lemma not_digit : forall c, is_digit c = false <-> forall d, ~ digit_char c d.
Proof.
  intros c. rewrite <- not_true_iff_false, is_digit_iff. unfold digit_char. split.
  - intros H d K. lia.
  - intros H K. apply (H (c - 48)). lia.
Qed.

(** ------------------------------------------------------------------ *)
(** digits and the numbers they denote *)
Lemma number_snoc : forall ds c, number (ds ++ [c]) = 10 * number ds + (c - 48).
Proof. intros ds c. unfold number. rewrite fold_left_app. reflexivity. Qed.
Lemma denotes_number : forall ds n, denotes ds n ->
  Forall (fun c => is_digit c = true) ds /\ ds <> [] /\ number ds = n /\ 0 <= n.
Proof.
  intros ds n H. induction H as [c d [A B]|cs n c d H (F & N & E & P) [A B]].
  - splits; [constructor; [apply is_digit_iff; lia|constructor]|discriminate|unfold number; cbn; unfold ch_0; lia|lia].
  - splits.
    + apply Forall_app. split; [assumption|constructor; [apply is_digit_iff; lia|constructor]].
    + destruct cs; discriminate.
    + rewrite number_snoc. lia.
    + lia.
Qed.
Lemma number_denotes : forall ds, Forall (fun c => is_digit c = true) ds -> ds <> [] -> denotes ds (number ds).
Proof.
  intros ds. induction ds as [|c ds IH] using rev_ind; intros F N; [congruence|].
  apply Forall_app in F. destruct F as [F1 F2]. inversion F2 as [|? ? Hc _]; subst.
  apply is_digit_iff in Hc.
  destruct ds as [|d ds].
  - cbn [app]. replace (number [c]) with (c - 48) by (unfold number; cbn; unfold ch_0; lia).
    constructor. unfold digit_char. lia.
  - rewrite number_snoc. constructor; [apply IH; [assumption|discriminate]|unfold digit_char; lia].
Qed.

Lemma span_digits_app : forall ds rest, Forall (fun c => is_digit c = true) ds ->
  (forall c r, rest = c :: r -> is_digit c = false) -> span_digits (ds ++ rest) = (ds, rest).
Proof.
  intros ds rest F H. induction F as [|c ds Hc F IH]; cbn.
  - destruct rest as [|c r]; [reflexivity|]. cbn. rewrite (H c r eq_refl). reflexivity.
  - rewrite Hc, IH. reflexivity.
Qed.
Lemma span_digits_spec : forall cs, cs = fst (span_digits cs) ++ snd (span_digits cs)
  /\ Forall (fun c => is_digit c = true) (fst (span_digits cs))
  /\ (forall c r, snd (span_digits cs) = c :: r -> is_digit c = false).
Proof.
  induction cs as [|c cs (A & B & C)]; cbn.
  - splits; [reflexivity|constructor|discriminate].
  - destruct (is_digit c) eqn:E.
    + destruct (span_digits cs) as [d k]. cbn in *. splits; [congruence|constructor; assumption|assumption].
    + cbn. splits; [reflexivity|constructor|intros c' r [= <- <-]; assumption].
Qed.

(** ------------------------------------------------------------------ *)
(** white space *)
Lemma skip_ws_app : forall bl cs, Forall blank bl -> skip_ws (bl ++ cs) = skip_ws cs.
Proof.
  intros bl cs F. induction F as [|c bl Hc F IH]; [reflexivity|].
  cbn. apply is_space_blank in Hc. rewrite Hc. exact IH.
Qed.
Lemma skip_ws_spec : forall cs, exists bl, cs = bl ++ skip_ws cs /\ Forall blank bl.
Proof.
  induction cs as [|c cs (bl & E & F)].
  - exists []. split; [reflexivity|constructor].
  - cbn. destruct (is_space c) eqn:Ec.
    + exists (c :: bl). split; [cbn; congruence|constructor; [apply is_space_blank; assumption|assumption]].
    + exists []. split; [reflexivity|constructor].
Qed.
Lemma skip_ws_head : forall cs c r, skip_ws cs = c :: r -> is_space c = false.
Proof.
  induction cs as [|c cs IH]; cbn; intros c' r H; [discriminate|].
  destruct (is_space c) eqn:Ec; [eauto|]. injection H as <- <-. assumption.
Qed.
Lemma skip_ws_id : forall c r, is_space c = false -> skip_ws (c :: r) = c :: r.
Proof. intros c r H. cbn. rewrite H. reflexivity. Qed.
Lemma skip_ws_empty : forall cs, skip_ws cs = [] <-> Forall blank cs.
Proof.
  intros cs. split.
  - intros H. destruct (skip_ws_spec cs) as (bl & E & F). rewrite H, app_nil_r in E. congruence.
  - intros F. rewrite <- (app_nil_r cs), skip_ws_app by assumption. reflexivity.
Qed.

(** ------------------------------------------------------------------ *)
(** numerals *)
Definition is_minus (sg : sign) : bool := match sg with Minus => true | _ => false end.
Lemma digit_not_space : forall c, is_digit c = true -> is_space c = false.
Proof.
  intros c H. apply is_digit_iff in H. apply not_true_iff_false. rewrite is_space_blank.
  unfold blank. cbn. lia.
Qed.
Lemma scan_text : forall sg ds rest, ds <> [] -> Forall (fun c => is_digit c = true) ds ->
  (forall c r, rest = c :: r -> is_digit c = false) ->
  scan (sign_text sg ++ ds ++ rest) = (is_minus sg, ds, rest).
Proof.
  intros sg ds rest N F H. pose proof (span_digits_app ds rest F H) as S.
  destruct sg; cbn [sign_text app is_minus]; unfold scan.
  - change (43 =? ch_minus) with false. change (43 =? ch_plus) with true. cbv iota. rewrite S. reflexivity.
  - change (45 =? ch_minus) with true. cbv iota. rewrite S. reflexivity.
  - destruct ds as [|c ds]; [congruence|]. cbn [app] in *.
    inversion F as [|? ? Hc _]; subst. apply is_digit_iff in Hc.
    assert (E1 : (c =? ch_minus) = false) by (apply Z.eqb_neq; unfold ch_minus; lia).
    assert (E2 : (c =? ch_plus) = false) by (apply Z.eqb_neq; unfold ch_plus; lia).
    rewrite E1, E2, S. reflexivity.
Qed.
Lemma scan_inv : forall cs neg ds rest, scan cs = (neg, ds, rest) ->
  Forall (fun c => is_digit c = true) ds /\ (forall c r, rest = c :: r -> is_digit c = false)
  /\ exists sg, is_minus sg = neg /\ cs = sign_text sg ++ ds ++ rest.
Proof.
  intros cs neg ds rest H. unfold scan in H. destruct cs as [|c cs].
  - injection H as <- <- <-. splits; [constructor|discriminate|exists NoSign; split; reflexivity].
  - destruct (c =? ch_minus) eqn:E1; [|destruct (c =? ch_plus) eqn:E2].
    + injection H as <- <- <-. destruct (span_digits_spec cs) as (A & B & C).
      splits; [assumption|assumption|]. exists Minus. split; [reflexivity|].
      apply Z.eqb_eq in E1. subst c. cbn. unfold ch_minus. congruence.
    + injection H as <- <- <-. destruct (span_digits_spec cs) as (A & B & C).
      splits; [assumption|assumption|]. exists Plus. split; [reflexivity|].
      apply Z.eqb_eq in E2. subst c. cbn. unfold ch_plus. congruence.
    + injection H as <- <- <-. destruct (span_digits_spec (c :: cs)) as (A & B & C).
      splits; [assumption|assumption|]. exists NoSign. split; [reflexivity|]. exact A.
Qed.
Definition sg_val (neg : bool) (n : Z) : Z := if neg then - n else n.
Lemma signed_val : forall sg n, signed sg n = sg_val (is_minus sg) n.
Proof. intros [] n; reflexivity. Qed.

Lemma text_skip : forall sg ds rest, ds <> [] -> Forall (fun c => is_digit c = true) ds ->
  skip_ws (sign_text sg ++ ds ++ rest) = sign_text sg ++ ds ++ rest.
Proof.
  intros sg ds rest N F. destruct sg; cbn [sign_text app]; try (apply skip_ws_id; reflexivity).
  destruct ds as [|c ds]; [congruence|]. cbn [app]. inversion F; subst.
  apply skip_ws_id, digit_not_space. assumption.
Qed.
(** the numeral at the beginning of a text is found by skipping white space and scanning *)
Lemma numeral_scan : forall cs sg z rest, numeral cs sg z rest ->
  exists ds, ds <> [] /\ scan (skip_ws cs) = (is_minus sg, ds, rest) /\ z = sg_val (is_minus sg) (number ds)
  /\ 0 <= number ds /\ skip_ws cs = sign_text sg ++ ds ++ rest.
Proof.
  intros cs sg z rest (bl & ds & n & Fb & Hd & E & Ez & Hr).
  destruct (denotes_number ds n Hd) as (F & N & En & P).
  assert (Hr' : forall c r, rest = c :: r -> is_digit c = false).
  { intros c r Er. apply not_digit. intros d. eapply Hr. exact Er. }
  exists ds. subst cs. rewrite skip_ws_app by assumption. rewrite text_skip by assumption.
  splits; [assumption|apply scan_text; assumption|rewrite Ez, signed_val; congruence|congruence|reflexivity].
Qed.
Lemma scan_numeral : forall cs neg ds rest, scan (skip_ws cs) = (neg, ds, rest) -> ds <> [] ->
  exists sg, is_minus sg = neg /\ numeral cs sg (sg_val neg (number ds)) rest
  /\ skip_ws cs = sign_text sg ++ ds ++ rest /\ 0 <= number ds.
Proof.
  intros cs neg ds rest H N. destruct (scan_inv _ _ _ _ H) as (F & Hr & sg & Es & E).
  destruct (skip_ws_spec cs) as (bl & Ec & Fb).
  pose proof (number_denotes ds F N) as Hd. destruct (denotes_number _ _ Hd) as (_ & _ & _ & P).
  exists sg. splits; [assumption| |assumption|assumption].
  exists bl, ds, (number ds). splits; [assumption|assumption|congruence|rewrite signed_val; congruence|].
  intros c r d Er. apply (proj1 (not_digit c)). eapply Hr. exact Er.
Qed.
Lemma numeral_unique : forall cs sg z rest sg' z' rest', numeral cs sg z rest -> numeral cs sg' z' rest' ->
  z = z' /\ rest = rest' /\ is_minus sg = is_minus sg'.
Proof.
  intros cs sg z rest sg' z' rest' H H'.
  destruct (numeral_scan _ _ _ _ H) as (ds & _ & A & B & _).
  destruct (numeral_scan _ _ _ _ H') as (ds' & _ & A' & B' & _).
  rewrite A in A'. injection A' as E1 E2 E3. subst ds' rest'. rewrite <- E1 in B'. splits; congruence.
Qed.

Lemma num_value_spec : forall D T neg ds v err, (csigned D T = true \/ neg = false) -> 0 <= number ds ->
  num_value D T neg ds = (v, err) -> in_type D T v
  /\ ((ds <> [] /\ err = false /\ v = sg_val neg (number ds))
      \/ (err = true /\ (ds = [] \/ ~ in_type D T (sg_val neg (number ds))))).
Proof.
  intros D T neg ds v err Hs Hn H.
  pose proof (lo_le_0 D T) as L. pose proof (hi_ge_127 D T) as P.
  unfold num_value in H. destruct ds as [|c ds].
  - injection H as <- <-. unfold in_type. split; [lia|right; auto].
  - remember (c :: ds) as dd. assert (Ndd : dd <> []) by (subst; discriminate). clear Heqdd. cbv zeta in H.
    destruct (csigned D T) eqn:Es.
    + change (if neg then - number dd else number dd) with (sg_val neg (number dd)) in H.
      destruct (sg_val neg (number dd) <? lo D T) eqn:E1; [|destruct (hi D T <? sg_val neg (number dd)) eqn:E2];
        injection H as <- <-; unfold in_type;
        try apply Z.ltb_lt in E1; try apply Z.ltb_ge in E1; try apply Z.ltb_lt in E2; try apply Z.ltb_ge in E2.
      * split; [lia|right; split; [reflexivity|right; lia]].
      * split; [lia|right; split; [reflexivity|right; lia]].
      * split; [lia|left; auto].
    + destruct Hs as [?|Hs]; [congruence|]. subst neg. cbn [sg_val].
      assert (L0 : lo D T = 0) by (apply lo_unsigned; assumption).
      destruct (hi D T <? number dd) eqn:E1; injection H as <- <-; unfold in_type;
        try apply Z.ltb_lt in E1; try apply Z.ltb_ge in E1.
      * split; [lia|right; split; [reflexivity|right; lia]].
      * split; [lia|left; auto].
Qed.

(** ------------------------------------------------------------------ *)
(** the stream operations *)
Lemma extract_good : forall D T i old, good i = true ->
  extract D T i old =
  match skip_ws (chars i) with
  | [] => (mkIs [] true true, old)
  | _ :: _ =>
      let '(neg, ds, rest) := scan (skip_ws (chars i)) in
      let (v, err) := num_value D T neg ds in
      (mkIs rest err (at_end rest), Some v)
  end.
Proof.
  intros D T i old G. unfold extract, sentry. rewrite G. destruct (skip_ws (chars i)) as [|c r]; reflexivity.
Qed.
Lemma extract_bad : forall D T i old, good i = false -> extract D T i old = (set_fail i, old).
Proof. intros D T i old G. unfold extract, sentry. rewrite G. reflexivity. Qed.
Lemma good_parts : forall i, good i = true -> failbit i = false /\ eofbit i = false.
Proof. intros [cs f e]. unfold good. cbn. rewrite andb_true_iff, !negb_true_iff. auto. Qed.
Lemma reject_good : forall i, good i = true ->
  reject_minus i = match skip_ws (chars i) with
                   | [] => mkIs [] true true
                   | c :: r => mkIs (c :: r) (c =? ch_minus) false
                   end.
Proof.
  intros i G. pose proof (good_parts i G) as [F E]. unfold reject_minus, ws, sentry. rewrite G. cbv iota.
  rewrite F, E. destruct (skip_ws (chars i)) as [|c r]; cbn; [reflexivity|].
  destruct (c =? ch_minus); reflexivity.
Qed.
Lemma reject_bad : forall i, good i = false -> failbit (reject_minus i) = true.
Proof.
  intros i G. unfold reject_minus, ws, sentry. rewrite G. cbv iota.
  unfold peek, sentry, set_fail, good. cbn. reflexivity.
Qed.
Lemma wide_raw : forall D T i old, wide_type T -> extract_raw D T i old = extract D T i old.
Proof. intros D T i old (A & _). destruct T; try reflexivity. congruence. Qed.
Lemma wide_small : forall T, wide_type T -> is_small_char T = false.
Proof. intros T (_ & A & B). destruct T; try reflexivity; congruence. Qed.
Lemma fail_extract : forall D T i old, failbit i = true -> extract D T i old = (set_fail i, old).
Proof. intros D T i old F. apply extract_bad. unfold good. rewrite F. reflexivity. Qed.

Lemma wide_read : forall D T i old i2 v, wide_type T ->
  extract_raw D T (if csigned D T then i else reject_minus i) old = (i2, v) ->
  (exists sg z rest, good i = true /\ numeral (chars i) sg z rest /\ accepted D T sg /\ in_type D T z
   /\ i2 = mkIs rest false (at_end rest) /\ v = Some z)
  \/ (failbit i2 = true /\ (v = old \/ exists z, in_type D T z /\ v = Some z)
      /\ forall sg z rest, good i = true -> numeral (chars i) sg z rest -> accepted D T sg -> ~ in_type D T z).
Proof.
  intros D T i old i2 v W H. rewrite wide_raw in H by assumption.
  destruct (good i) eqn:G.
  2:{ right. destruct (csigned D T).
      - rewrite extract_bad in H by assumption. injection H as <- <-. splits; [reflexivity|auto|discriminate].
      - rewrite fail_extract in H by (apply reject_bad; assumption).
        injection H as <- <-. splits; [reflexivity|auto|discriminate]. }
  destruct (skip_ws (chars i)) as [|c r] eqn:Es.
  { right. assert (H' : (mkIs [] true true, old) = (i2, v)).
    { rewrite <- H. destruct (csigned D T).
      - rewrite extract_good by assumption. rewrite Es. reflexivity.
      - rewrite reject_good by assumption. rewrite Es. reflexivity. }
    injection H' as <- <-. splits; [reflexivity|auto|].
    intros sg z rest _ Hn _ _. destruct (numeral_scan _ _ _ _ Hn) as (ds & _ & A & _).
    rewrite Es in A. cbn in A. injection A as _ <- _.
    destruct (numeral_scan _ _ _ _ Hn) as (ds & Nd & A' & _). rewrite Es in A'. cbn in A'. congruence. }
  pose proof (skip_ws_head _ _ _ Es) as Hsp.
  destruct (negb (csigned D T) && (c =? ch_minus)) eqn:Em.
  - apply andb_true_iff in Em. destruct Em as [Em1 Em2]. apply negb_true_iff in Em1. rewrite Em1 in H.
    rewrite reject_good, Es, Em2 in H by assumption.
    rewrite fail_extract in H by reflexivity. injection H as <- <-.
    right. splits; [reflexivity|auto|].
    intros sg z rest _ Hn Ha _. destruct (numeral_scan _ _ _ _ Hn) as (ds & Nd & A & _).
    rewrite Es in A. unfold scan in A. rewrite Em2 in A. injection A as A _ _.
    destruct Ha as [?|Ha]; [congruence|]. destruct sg; cbn in A; congruence.
  - assert (H' : (let '(neg, ds, rest) := scan (c :: r) in
      let (v, err) := num_value D T neg ds in (mkIs rest err (at_end rest), Some v)) = (i2, v)).
    { rewrite <- H. destruct (csigned D T).
      - rewrite extract_good by assumption. rewrite Es. reflexivity.
      - cbn in Em. rewrite reject_good by assumption. rewrite Es, Em.
        rewrite extract_good by reflexivity. cbn [chars]. rewrite skip_ws_id by assumption. reflexivity. }
    clear H. destruct (scan (c :: r)) as [[neg ds] rest] eqn:Sc.
    destruct (num_value D T neg ds) as [x err] eqn:Ev. injection H' as <- <-.
    assert (Sg : csigned D T = true \/ neg = false).
    { destruct (csigned D T); [left; reflexivity|right]. cbn in Em. unfold scan in Sc. rewrite Em in Sc.
      destruct (c =? ch_plus); injection Sc as <- _ _; reflexivity. }
    assert (P : 0 <= number ds).
    { destruct ds as [|d ds]; [unfold number; cbn; lia|].
      rewrite <- Es in Sc. destruct (scan_numeral _ _ _ _ Sc) as (_ & _ & _ & _ & P); [discriminate|exact P]. }
    rewrite <- Es in Sc.
    destruct (num_value_spec D T neg ds x err Sg P Ev) as [Hx [(Nd & -> & ->)|[-> Hb]]].
    + left. destruct (scan_numeral _ _ _ _ Sc Nd) as (sg & A & B & _ & _).
      exists sg, (sg_val neg (number ds)), rest. splits; try assumption; try reflexivity.
      unfold accepted. destruct Sg as [Sg|Sg]; [left; assumption|right]. intros ->. cbn in A. congruence.
    + right. splits; [reflexivity|eauto|].
      intros sg z rest' _ Hn _ Hz. destruct (numeral_scan _ _ _ _ Hn) as (ds' & Nd & A & B & _).
      rewrite Sc in A. injection A as A1 A2 A3. subst ds' rest'. rewrite <- A1 in B.
      destruct Hb as [->|Hb]; [congruence|]. congruence.
Qed.

(** input for types other than the character types *)
Lemma raw_wf : forall D T, wf_operand D (ORaw T).
Proof.
  intros D T. unfold wf_operand. cbn. pose proof (lo_in D T). pose proof (hi_in D T).
  unfold in_type in *. intuition lia.
Qed.
Lemma validated_char : forall D s T x, wf_operand D (OSafe s) -> throws_arithmetic (sE s) ->
  in_type D T x -> (exists m, construct D s (ORaw T) 0 = Some m) ->
  (smin s <= x <= smax s /\ returns (validated D s T x) x)
  \/ (~ (smin s <= x <= smax s) /\ throws_arith (validated D s T x)).
Proof.
  intros D s T x W E Hx [m0 H0]. destruct (construct_compiles D s (ORaw T) 0 x m0 H0) as (m & Hm).
  unfold validated. rewrite Hm.
  destruct (construct_char D s (ORaw T) x m W (raw_wf D T) E) as [[A B]|[A B]]; [exact Hx|exact Hm| |].
  - left. auto.
  - right. auto.
Qed.
Lemma input_compiled : forall D s, input_compiles D s = true ->
  (exists m, construct D s (ORaw Int) 0 = Some m) /\ (exists m, construct D s (ORaw (st s)) 0 = Some m).
Proof.
  intros D s H. unfold input_compiles in H.
  destruct (construct D s (ORaw Int) 0); [|discriminate].
  destruct (construct D s (ORaw (st s)) 0); [|discriminate]. eauto.
Qed.
Lemma dispatch_domain : forall E, throws_arithmetic E -> throws_arith (dispatch E domain_error).
Proof.
  intros E H. exists domain_error. split; [unfold arithmetic_err; auto|].
  unfold dispatch. cbn. rewrite H. reflexivity.
Qed.
Lemma then_tt : forall (m : M Z) x, returns m x -> returns (mbind m (fun _ => mret tt)) tt.
Proof. intros m x H. unfold returns in *. subst m. reflexivity. Qed.
Lemma then_throws : forall (m : M Z), throws_arith m -> throws_arith (mbind m (fun _ => mret tt)).
Proof. intros m (e & A & ->). exists e. split; [assumption|reflexivity]. Qed.

Lemma input_wide : forall D s i old i' v m, wide_type (st s) -> wf_operand D (OSafe s) ->
  throws_arithmetic (sE s) -> input D s i old = Some (i', v, m) ->
  (exists sg z rest, good i = true /\ numeral (chars i) sg z rest /\ accepted D (st s) sg /\ in_type D (st s) z
   /\ i' = mkIs rest false (at_end rest) /\ v = Some z
   /\ ((smin s <= z <= smax s /\ returns m tt) \/ (~ (smin s <= z <= smax s) /\ throws_arith m)))
  \/ (throws_arith m /\ failbit i' = true /\ (v = old \/ exists z, in_type D (st s) z /\ v = Some z)
      /\ forall sg z rest, good i = true -> numeral (chars i) sg z rest -> accepted D (st s) sg ->
         ~ in_type D (st s) z).
Proof.
  intros D s i old i' v m Wt W E H. unfold input in H.
  destruct (input_compiles D s) eqn:C; [|discriminate].
  destruct (input_compiled D s C) as [_ C2].
  rewrite (wide_small _ Wt) in H.
  destruct (extract_raw D (st s) (if csigned D (st s) then i else reject_minus i) old) as [i2 x] eqn:Ex.
  destruct (wide_read D (st s) i old i2 x Wt Ex) as [(sg & z & rest & G & N & A & I & -> & ->)|(F & V & N)].
  - cbn [failbit] in H. injection H as <- <- <-. left. exists sg, z, rest. splits; auto.
    destruct (validated_char D s (st s) z W E I C2) as [[B R]|[B R]]; [left|right]; split; auto.
    + eapply then_tt; eassumption.
    + apply then_throws; assumption.
  - rewrite F in H. injection H as <- <- <-. right. splits; auto. apply dispatch_domain. assumption.
Qed.

(** input for signed char and unsigned char *)
Lemma input_small : forall D s i old i' v m, is_small_char (st s) = true -> wf_operand D (OSafe s) ->
  throws_arithmetic (sE s) -> input D s i old = Some (i', v, m) ->
  good i = true -> skip_ws (chars i) <> [] ->
  exists x, in_type D Int x
  /\ (forall sg z rest, numeral (chars i) sg z rest -> in_type D Int z ->
       x = z /\ i' = mkIs rest false (at_end rest))
  /\ ((forall sg z rest, numeral (chars i) sg z rest -> ~ in_type D Int z) -> failbit i' = true)
  /\ ((smin s <= x <= smax s /\ returns m tt /\ v = Some x)
      \/ (~ (smin s <= x <= smax s) /\ throws_arith m /\ v = old)).
Proof.
  intros D s i old i' v m Sm W E H G Nb. unfold input in H.
  destruct (input_compiles D s) eqn:C; [|discriminate].
  destruct (input_compiled D s C) as [C1 _]. rewrite Sm in H.
  rewrite extract_good in H by assumption.
  destruct (skip_ws (chars i)) as [|c r] eqn:Es; [congruence|]. rewrite <- Es in H.
  destruct (scan (skip_ws (chars i))) as [[neg ds] rest] eqn:Sc.
  destruct (num_value D Int neg ds) as [x err] eqn:Ev.
  assert (P : 0 <= number ds).
  { destruct ds as [|d ds]; [unfold number; cbn; lia|].
    destruct (scan_numeral _ _ _ _ Sc) as (_ & _ & _ & _ & P); [discriminate|exact P]. }
  destruct (num_value_spec D Int neg ds x err (or_introl eq_refl) P Ev) as [Hx Hv].
  injection H as H1 H2 H3. exists x. splits; [assumption| | |].
  - intros sg z rest' Hn Hz. destruct (numeral_scan _ _ _ _ Hn) as (ds' & Nd & A & B & _).
    rewrite Sc in A. injection A as A1 A2 A3. subst ds' rest'. rewrite <- A1 in B.
    destruct Hv as [(_ & -> & ->)|[_ [?|K]]]; [split; congruence|congruence|congruence].
  - intros K. destruct Hv as [(Nd & -> & Ex)|[-> _]]; [|subst i'; reflexivity].
    destruct (scan_numeral _ _ _ _ Sc Nd) as (sg & A & B & _).
    exfalso. apply (K _ _ _ B). congruence.
  - destruct (validated_char D s Int x W E Hx C1) as [[B R]|[B R]]; [left|right].
    + splits; [lia|lia| |].
      * subst m. eapply then_tt; eassumption.
      * rewrite <- H2, R. reflexivity.
    + splits; [assumption| |].
      * subst m. apply then_throws. assumption.
      * rewrite <- H2. destruct R as (e & _ & ->). reflexivity.
Qed.

(** ------------------------------------------------------------------ *)
(** output *)
Lemma digits_of_denotes : forall fuel n, 0 <= n < 2 ^ Z.of_nat fuel -> fuel <> O ->
  denotes (digits_of fuel n) n.
Proof.
  induction fuel as [|f IH]; intros n Hn Hf; [congruence|]. cbn [digits_of].
  destruct (n <? 10) eqn:E.
  - apply Z.ltb_lt in E. constructor. unfold digit_char, ch_0. lia.
  - apply Z.ltb_ge in E.
    rewrite Nat2Z.inj_succ, Z.pow_succ_r in Hn by lia.
    assert (Hf' : f <> O) by (intros ->; cbn in Hn; lia).
    pose proof (Z.div_mod n 10 ltac:(lia)) as Dm. pose proof (Z.mod_pos_bound n 10 ltac:(lia)).
    rewrite Dm at 3. constructor.
    + apply IH; [|assumption]. split; [apply Z.div_pos; lia|]. apply Z.div_lt_upper_bound; lia.
    + unfold digit_char, ch_0. lia.
Qed.
Lemma put_int_spec : forall v, exists sg ds n, put_int v = sign_text sg ++ ds /\ denotes ds n
  /\ v = signed sg n /\ (sg = Minus <-> v < 0) /\ sg <> Plus.
Proof.
  intros v.
  assert (Hd : denotes (digits_of (S (Z.to_nat (Z.log2 (Z.abs v)))) (Z.abs v)) (Z.abs v)).
  { apply digits_of_denotes; [|discriminate]. split; [lia|].
    rewrite Nat2Z.inj_succ, Z2Nat.id by apply Z.log2_nonneg.
    destruct (Z.eq_dec (Z.abs v) 0) as [K|K]; [rewrite K; cbn; lia|].
    apply Z.log2_spec. lia. }
  unfold put_int. cbv zeta. destruct (v <? 0) eqn:E.
  - apply Z.ltb_lt in E. exists Minus. do 2 eexists. splits; [reflexivity|exact Hd|cbn; lia|intuition|discriminate].
  - apply Z.ltb_ge in E. exists NoSign. do 2 eexists. splits; [reflexivity|exact Hd|cbn; lia| |discriminate].
    split; [discriminate|lia].
Qed.
Lemma uac_int_preserves : forall D T x, in_type D T x -> in_type D (uac D Int T) x.
Proof.
  intros D T x H.
  assert (K : lo D (uac D Int T) <= lo D T /\ hi D T <= hi D (uac D Int T))
    by (destruct D, T; vm_compute; split; discriminate).
  unfold in_type in *. lia.
Qed.
