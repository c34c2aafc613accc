(** BaseStreamFacts.v -- proofs about the stream operations in base 8, 10 and 16. *)
From Coq Require Import ZArith List Bool Lia.
From Verif Require Import Base CType Spec CTypeFacts CheckedInteger CheckedResultOps Interval
  ExceptionPolicy Promotion SafeBase SafeSpec IntervalFacts SafeFacts SafeConvFacts Stream StreamSpec
  StreamFacts PropsStreamProofs Limits BaseStream BaseStreamSpec.
Import ListNotations.
Local Open Scope Z_scope.

Lemma radix_eq : forall b, match b with BDec => 10 | BOct => 8 | BHex => 16 end = radix b.
Proof. intros []; reflexivity. Qed.
Lemma radix_range : forall b, 8 <= radix b <= 16.
Proof. intros []; cbn; lia. Qed.

Lemma digit_val_cases : forall c,
  (48 <= c <= 57 /\ digit_val c = c - 48) \/ (97 <= c <= 102 /\ digit_val c = c - 87)
  \/ (65 <= c <= 70 /\ digit_val c = c - 55)
  \/ (~ 48 <= c <= 57 /\ ~ 97 <= c <= 102 /\ ~ 65 <= c <= 70 /\ digit_val c = 16).
Proof.
  intros c. unfold digit_val.
  destruct (Z.leb_spec 48 c), (Z.leb_spec c 57), (Z.leb_spec 97 c), (Z.leb_spec c 102),
    (Z.leb_spec 65 c), (Z.leb_spec c 70); cbn; lia.
Qed.
Lemma digit_b_iff : forall b c d, digit_in b c d <-> is_digit_b b c = true /\ digit_val c = d.
Proof.
  intros b c d. unfold digit_in, is_digit_b. rewrite Z.ltb_lt, radix_eq.
  pose proof (radix_range b) as R. destruct (digit_val_cases c) as [H|[H|[H|H]]]; lia.
Qed.
Lemma is_digit_in : forall b c, is_digit_b b c = true -> digit_in b c (digit_val c).
Proof. intros b c H. apply digit_b_iff. auto. Qed.
Lemma not_digit_b : forall b c, is_digit_b b c = false <-> forall d, ~ digit_in b c d.
Proof.
  intros b c. rewrite <- not_true_iff_false. split.
  - intros H d K. apply digit_b_iff in K. destruct K. auto.
  - intros H K. apply (H (digit_val c)). apply is_digit_in. assumption.
Qed.
Lemma digit_b_range : forall b c, is_digit_b b c = true ->
  (48 <= c <= 57 \/ 97 <= c <= 102 \/ 65 <= c <= 70) /\ 0 <= digit_val c.
Proof.
  intros b c H. unfold is_digit_b in H. apply Z.ltb_lt in H. pose proof (radix_range b).
  destruct (digit_val_cases c) as [K|[K|[K|K]]]; lia.
Qed.

Definition digs (b : basefield) := Forall (fun c => is_digit_b b c = true).
Lemma number_b_snoc : forall b ds c, number_b b (ds ++ [c]) = radix b * number_b b ds + digit_val c.
Proof. intros b ds c. unfold number_b. rewrite fold_left_app. reflexivity. Qed.
Lemma denotes_number_b : forall b ds n, denotes_in b ds n ->
  digs b ds /\ ds <> [] /\ number_b b ds = n /\ 0 <= n.
Proof.
  intros b ds n H. pose proof (radix_range b) as R.
  induction H as [c d A|cs n c d H (F & N & E & P) A]; apply digit_b_iff in A; destruct A as [A1 A2];
    pose proof (digit_b_range b c A1) as [_ G].
  - splits; [constructor; [assumption|constructor]|discriminate|unfold number_b; cbn [fold_left]; lia|lia].
  - rewrite radix_eq. splits.
    + apply Forall_app. split; [assumption|constructor; [assumption|constructor]].
    + destruct cs; discriminate.
    + rewrite number_b_snoc. congruence.
    + nia.
Qed.
Lemma number_b_denotes : forall b ds, digs b ds -> ds <> [] -> denotes_in b ds (number_b b ds).
Proof.
  intros b ds. induction ds as [|c ds IH] using rev_ind; intros F N; [congruence|].
  apply Forall_app in F. destruct F as [F1 F2]. inversion F2 as [|? ? Hc _]; subst.
  destruct ds as [|d ds].
  - cbn [app]. replace (number_b b [c]) with (digit_val c) by (unfold number_b; cbn [fold_left]; lia).
    constructor. apply is_digit_in. assumption.
  - rewrite number_b_snoc, <- (radix_eq b). constructor; [apply IH; [assumption|discriminate]|].
    apply is_digit_in. assumption.
Qed.

Lemma span_b_app : forall b ds rest, digs b ds -> (forall c r, rest = c :: r -> is_digit_b b c = false) ->
  span_b b (ds ++ rest) = (ds, rest).
Proof.
  intros b ds rest F H. induction F as [|c ds Hc F IH]; cbn [app span_b].
  - destruct rest as [|c r]; [reflexivity|]. cbn. rewrite (H c r eq_refl). reflexivity.
  - rewrite Hc, IH. reflexivity.
Qed.
Lemma span_b_spec : forall b cs, cs = fst (span_b b cs) ++ snd (span_b b cs)
  /\ digs b (fst (span_b b cs)) /\ (forall c r, snd (span_b b cs) = c :: r -> is_digit_b b c = false).
Proof.
  intros b. induction cs as [|c cs (A & B & C)]; cbn [span_b].
  - splits; [reflexivity|constructor|discriminate].
  - destruct (is_digit_b b c) eqn:E.
    + destruct (span_b b cs) as [d k]. cbn in *. splits; [congruence|constructor; assumption|assumption].
    + cbn. splits; [reflexivity|constructor|intros c' r [= <- <-]; assumption].
Qed.

(** the optional prefix *)
Lemma drop_prefix_some : forall b px r, prefix_in b px -> px <> [] -> drop_prefix b (px ++ r) = r.
Proof. intros b px r [->|[-> [-> | ->]]] N; [congruence| |]; reflexivity. Qed.
Lemma drop_prefix_none : forall b ds rest, digs b ds -> ds <> [] ->
  (b = BHex -> ds = [48] -> no_x rest) -> drop_prefix b (ds ++ rest) = ds ++ rest.
Proof.
  intros b ds rest F N H. destruct b; try (destruct ds; reflexivity).
  destruct ds as [|z ds]; [congruence|]. cbn [app drop_prefix].
  destruct ds as [|x ds]; cbn [app].
  - destruct rest as [|x r]; [reflexivity|].
    destruct (Z.eqb_spec z 48) as [->|K]; [|reflexivity].
    destruct (H eq_refl eq_refl x r eq_refl) as [A B]. apply Z.eqb_neq in A, B. rewrite A, B. reflexivity.
  - inversion F as [|? ? _ F']; subst. inversion F' as [|? ? Hx _]; subst.
    apply digit_b_range in Hx. destruct Hx as [Hx _].
    replace (x =? 120) with false by (symmetry; apply Z.eqb_neq; lia).
    replace (x =? 88) with false by (symmetry; apply Z.eqb_neq; lia).
    rewrite andb_false_r. reflexivity.
Qed.
Lemma drop_prefix_inv : forall b cs, exists px, prefix_in b px /\ cs = px ++ drop_prefix b cs
  /\ (px = [] -> b = BHex -> forall x r, cs = 48 :: x :: r -> x <> 120 /\ x <> 88).
Proof.
  intros b cs. unfold prefix_in.
  destruct b; try (exists []; splits; [left; reflexivity|destruct cs as [|? [|? ?]]; reflexivity|discriminate]).
  destruct cs as [|z [|x r]]; try (exists []; splits; [left; reflexivity|reflexivity|discriminate]).
  cbn [drop_prefix]. destruct ((z =? 48) && ((x =? 120) || (x =? 88))) eqn:E.
  - apply andb_true_iff in E. destruct E as [E1 E2]. apply Z.eqb_eq in E1. apply orb_true_iff in E2.
    rewrite !Z.eqb_eq in E2. exists [z; x]. splits; [right|reflexivity|discriminate].
    split; [reflexivity|]. destruct E2 as [->| ->]; subst z; auto.
  - exists []. splits; [left; reflexivity|reflexivity|].
    intros _ _ x' r' [= -> -> ->]. cbn [Z.eqb andb] in E. change ((x' =? 120) || (x' =? 88) = false) in E.
    apply orb_false_iff in E. rewrite !Z.eqb_neq in E. exact E.
Qed.

Lemma first_digit : forall b px ds rest, prefix_in b px -> digs b ds -> ds <> [] ->
  exists c r, px ++ ds ++ rest = c :: r /\ is_space c = false /\ (c =? ch_minus) = false /\ (c =? ch_plus) = false.
Proof.
  intros b px ds rest P F N. destruct P as [->|[-> [-> | ->]]];
    [|eexists _, _; splits; reflexivity|eexists _, _; splits; reflexivity].
  destruct ds as [|c ds]; [congruence|]. inversion F as [|? ? Hc _]; subst.
  apply digit_b_range in Hc. destruct Hc as [Hc _].
  exists c, (ds ++ rest). splits; [reflexivity| | |].
  - apply not_true_iff_false. rewrite is_space_blank. unfold blank. cbn. lia.
  - apply Z.eqb_neq. unfold ch_minus. lia.
  - apply Z.eqb_neq. unfold ch_plus. lia.
Qed.
Lemma scan_b_text : forall b sg px ds rest, prefix_in b px -> ds <> [] -> digs b ds ->
  (forall c r, rest = c :: r -> is_digit_b b c = false) ->
  (b = BHex -> px = [] -> ds = [48] -> no_x rest) ->
  scan_b b (sign_text sg ++ px ++ ds ++ rest) = (is_minus sg, ds, rest).
Proof.
  intros b sg px ds rest P N F H Hx.
  assert (S : span_b b (drop_prefix b (px ++ ds ++ rest)) = (ds, rest)).
  { destruct px as [|p px].
    - cbn [app]. rewrite drop_prefix_none by auto. apply span_b_app; assumption.
    - rewrite drop_prefix_some by (auto; discriminate). apply span_b_app; assumption. }
  destruct (first_digit b px ds rest P F N) as (c & r & E & _ & E1 & E2).
  destruct sg; cbn [sign_text app is_minus]; unfold scan_b; cbv zeta.
  - change (43 =? ch_minus) with false. change (43 =? ch_plus) with true. cbv iota. rewrite S. reflexivity.
  - change (45 =? ch_minus) with true. cbv iota. rewrite S. reflexivity.
  - rewrite E in *. rewrite E1, E2, S. reflexivity.
Qed.
Lemma scan_b_inv : forall b cs neg ds rest, scan_b b cs = (neg, ds, rest) ->
  digs b ds /\ (forall c r, rest = c :: r -> is_digit_b b c = false)
  /\ exists sg px, is_minus sg = neg /\ prefix_in b px /\ cs = sign_text sg ++ px ++ ds ++ rest
     /\ (b = BHex -> px = [] -> ds = [48] -> no_x rest).
Proof.
  intros b cs neg ds rest H.
  assert (K : forall r, (fst (span_b b (drop_prefix b r)), snd (span_b b (drop_prefix b r))) = (ds, rest) ->
     digs b ds /\ (forall c r, rest = c :: r -> is_digit_b b c = false)
     /\ exists px, prefix_in b px /\ r = px ++ ds ++ rest
        /\ (b = BHex -> px = [] -> ds = [48] -> no_x rest)).
  { intros r [= A B]. destruct (span_b_spec b (drop_prefix b r)) as (S1 & S2 & S3). rewrite A, B in *.
    destruct (drop_prefix_inv b r) as (px & P & E & X). splits; [assumption|assumption|].
    exists px. splits; [assumption|congruence|]. intros Hb Hp Hd c k Hk.
    apply (X Hp Hb c k). rewrite E, S1, Hp, Hd, Hk. reflexivity. }
  unfold scan_b in H. cbv zeta in H. destruct cs as [|c cs].
  - injection H as <- <- <-. splits; [constructor|discriminate|].
    exists NoSign, []. splits; [reflexivity|left; reflexivity|reflexivity|discriminate].
  - destruct (c =? ch_minus) eqn:E1; [|destruct (c =? ch_plus) eqn:E2];
      injection H as H1 H2 H3.
    + destruct (K cs ltac:(congruence)) as (A & B & px & P & E & X). splits; [assumption|assumption|].
      apply Z.eqb_eq in E1. exists Minus, px. splits; [assumption|assumption| |assumption].
      rewrite E1, E. reflexivity.
    + destruct (K cs ltac:(congruence)) as (A & B & px & P & E & X). splits; [assumption|assumption|].
      apply Z.eqb_eq in E2. exists Plus, px. splits; [assumption|assumption| |assumption].
      rewrite E2, E. reflexivity.
    + destruct (K (c :: cs) ltac:(congruence)) as (A & B & px & P & E & X). splits; [assumption|assumption|].
      exists NoSign, px. splits; [assumption|assumption|exact E|assumption].
Qed.

Lemma text_skip_b : forall b sg px ds rest, prefix_in b px -> ds <> [] -> digs b ds ->
  skip_ws (sign_text sg ++ px ++ ds ++ rest) = sign_text sg ++ px ++ ds ++ rest.
Proof.
  intros b sg px ds rest P N F. destruct sg; cbn [sign_text app]; try (apply skip_ws_id; reflexivity).
  destruct (first_digit b px ds rest P F N) as (c & r & E & S & _). rewrite E. apply skip_ws_id. assumption.
Qed.
Lemma numeral_scan_b : forall b cs sg z rest, numeral_in b cs sg z rest ->
  exists ds, ds <> [] /\ scan_b b (skip_ws cs) = (is_minus sg, ds, rest)
  /\ z = sg_val (is_minus sg) (number_b b ds) /\ 0 <= number_b b ds /\ skip_ws cs <> [].
Proof.
  intros b cs sg z rest (bl & px & ds & n & Fb & P & Hd & E & Ez & Hr & Hx).
  destruct (denotes_number_b b ds n Hd) as (F & N & En & Pn).
  assert (Hr' : forall c r, rest = c :: r -> is_digit_b b c = false).
  { intros c r Er. apply not_digit_b. intros d. eapply Hr. exact Er. }
  exists ds. subst cs. rewrite skip_ws_app by assumption. rewrite (text_skip_b b) by assumption.
  splits; [assumption|apply scan_b_text; assumption|rewrite Ez, signed_val; congruence|congruence|].
  destruct (first_digit b px ds rest P F N) as (c & r & Ec & _). rewrite Ec. destruct sg; discriminate.
Qed.
Lemma scan_numeral_b : forall b cs neg ds rest, scan_b b (skip_ws cs) = (neg, ds, rest) -> ds <> [] ->
  exists sg, is_minus sg = neg /\ numeral_in b cs sg (sg_val neg (number_b b ds)) rest /\ 0 <= number_b b ds.
Proof.
  intros b cs neg ds rest H N. destruct (scan_b_inv _ _ _ _ _ H) as (F & Hr & sg & px & Es & P & E & X).
  destruct (skip_ws_spec cs) as (bl & Ec & Fb).
  pose proof (number_b_denotes b ds F N) as Hd. destruct (denotes_number_b _ _ _ Hd) as (_ & _ & _ & Pn).
  exists sg. splits; [assumption| |assumption].
  exists bl, px, ds, (number_b b ds). splits; [assumption|assumption|assumption|congruence|rewrite signed_val; congruence| |assumption].
  intros c r d Er. apply (proj1 (not_digit_b b c)). eapply Hr. exact Er.
Qed.
Lemma numeral_unique_b : forall b cs sg z rest sg' z' rest', numeral_in b cs sg z rest ->
  numeral_in b cs sg' z' rest' -> z = z' /\ rest = rest' /\ is_minus sg = is_minus sg'.
Proof.
  intros b cs sg z rest sg' z' rest' H H'.
  destruct (numeral_scan_b _ _ _ _ _ H) as (ds & _ & A & B & _).
  destruct (numeral_scan_b _ _ _ _ _ H') as (ds' & _ & A' & B' & _).
  rewrite A in A'. injection A' as E1 E2 E3. subst ds' rest'. rewrite <- E1 in B'. splits; congruence.
Qed.
Lemma scan_b_pos : forall b cs neg ds rest, scan_b b (skip_ws cs) = (neg, ds, rest) -> 0 <= number_b b ds.
Proof.
  intros b cs neg ds rest H. destruct ds as [|d ds]; [unfold number_b; cbn; lia|].
  destruct (scan_numeral_b _ _ _ _ _ H) as (_ & _ & _ & P); [discriminate|exact P].
Qed.

Lemma num_value_b_spec : forall b D T neg ds v err, (csigned D T = true \/ neg = false) -> 0 <= number_b b ds ->
  num_value_b b D T neg ds = (v, err) -> in_type D T v
  /\ ((ds <> [] /\ err = false /\ v = sg_val neg (number_b b ds))
      \/ (err = true /\ (ds = [] \/ ~ in_type D T (sg_val neg (number_b b ds)))
          /\ (hi D T < sg_val neg (number_b b ds) -> ds <> [] -> v = hi D T))).
Proof.
  intros b D T neg ds v err Hs Hn H.
  pose proof (lo_le_0 D T) as L. pose proof (hi_ge_127 D T) as P.
  unfold num_value_b in H. destruct ds as [|c ds].
  - injection H as <- <-. unfold in_type. split; [lia|right; splits; auto; congruence].
  - remember (c :: ds) as dd. assert (Ndd : dd <> []) by (subst; discriminate). clear Heqdd. cbv zeta in H.
    destruct (csigned D T) eqn:Es.
    + change (if neg then - number_b b dd else number_b b dd) with (sg_val neg (number_b b dd)) in H.
      destruct (Z.ltb_spec (sg_val neg (number_b b dd)) (lo D T)) as [E1|E1];
        [|destruct (Z.ltb_spec (hi D T) (sg_val neg (number_b b dd))) as [E2|E2]];
        injection H as <- <-; unfold in_type.
      * split; [lia|right; splits; [reflexivity|right; lia|lia]].
      * split; [lia|right; splits; [reflexivity|right; lia|reflexivity]].
      * split; [lia|left; auto].
    + destruct Hs as [?|Hs]; [congruence|]. subst neg. cbn [sg_val].
      assert (L0 : lo D T = 0) by (apply lo_unsigned; assumption).
      destruct (Z.ltb_spec (hi D T) (number_b b dd)) as [E1|E1]; injection H as <- <-; unfold in_type.
      * split; [lia|right; splits; [reflexivity|right; lia|reflexivity]].
      * split; [lia|left; auto].
Qed.

(** ------------------------------------------------------------------ *)
(** the stream operations *)
Lemma extract_b_good : forall b D T i old, good i = true ->
  extract_b b D T i old =
  match skip_ws (chars i) with
  | [] => (mkIs [] true true, old)
  | _ :: _ =>
      let '(neg, ds, rest) := scan_b b (skip_ws (chars i)) in
      let (v, err) := num_value_b b D T neg ds in
      (mkIs rest err (at_end rest), Some v)
  end.
Proof.
  intros b D T i old G. unfold extract_b, sentry. rewrite G. destruct (skip_ws (chars i)) as [|c r]; reflexivity.
Qed.
Lemma extract_b_bad : forall b D T i old, good i = false -> extract_b b D T i old = (set_fail i, old).
Proof. intros b D T i old G. unfold extract_b, sentry. rewrite G. reflexivity. Qed.
Lemma wide_raw_b : forall b D T i old, wide_type T -> extract_raw_b b D T i old = extract_b b D T i old.
Proof. intros b D T i old (A & _). destruct T; try reflexivity. congruence. Qed.
Lemma fail_extract_b : forall b D T i old, failbit i = true -> extract_b b D T i old = (set_fail i, old).
Proof. intros b D T i old F. apply extract_b_bad. unfold good. rewrite F. reflexivity. Qed.

Lemma wide_read_b : forall b D T i old i2 v, wide_type T ->
  extract_raw_b b D T (if csigned D T then i else reject_minus i) old = (i2, v) ->
  (exists sg z rest, good i = true /\ numeral_in b (chars i) sg z rest /\ accepted D T sg /\ in_type D T z
   /\ i2 = mkIs rest false (at_end rest) /\ v = Some z)
  \/ (failbit i2 = true
      /\ forall sg z rest, good i = true -> numeral_in b (chars i) sg z rest -> accepted D T sg -> ~ in_type D T z).
Proof.
  intros b D T i old i2 v W H. rewrite wide_raw_b in H by assumption.
  destruct (good i) eqn:G.
  2:{ right. destruct (csigned D T).
      - rewrite extract_b_bad in H by assumption. injection H as <- <-. splits; [reflexivity|discriminate].
      - rewrite fail_extract_b in H by (apply reject_bad; assumption).
        injection H as <- <-. splits; [reflexivity|discriminate]. }
  destruct (skip_ws (chars i)) as [|c r] eqn:Es.
  { right. assert (H' : (mkIs [] true true, old) = (i2, v)).
    { rewrite <- H. destruct (csigned D T).
      - rewrite extract_b_good by assumption. rewrite Es. reflexivity.
      - rewrite reject_good by assumption. rewrite Es. reflexivity. }
    injection H' as <- <-. split; [reflexivity|].
    intros sg z rest _ Hn _ _. destruct (numeral_scan_b _ _ _ _ _ Hn) as (ds & _ & _ & _ & _ & A). congruence. }
  pose proof (skip_ws_head _ _ _ Es) as Hsp.
  destruct (negb (csigned D T) && (c =? ch_minus)) eqn:Em.
  - apply andb_true_iff in Em. destruct Em as [Em1 Em2]. apply negb_true_iff in Em1. rewrite Em1 in H.
    rewrite reject_good, Es, Em2 in H by assumption.
    rewrite fail_extract_b in H by reflexivity. injection H as <- <-.
    right. split; [reflexivity|].
    intros sg z rest _ Hn Ha _. destruct (numeral_scan_b _ _ _ _ _ Hn) as (ds & Nd & A & _).
    rewrite Es in A. unfold scan_b in A. rewrite Em2 in A. injection A as A _ _.
    destruct Ha as [?|Ha]; [congruence|]. destruct sg; cbn in A; congruence.
  - assert (H' : (let '(neg, ds, rest) := scan_b b (c :: r) in
      let (v, err) := num_value_b b D T neg ds in (mkIs rest err (at_end rest), Some v)) = (i2, v)).
    { rewrite <- H. destruct (csigned D T).
      - rewrite extract_b_good by assumption. rewrite Es. reflexivity.
      - cbn in Em. rewrite reject_good by assumption. rewrite Es, Em.
        rewrite extract_b_good by reflexivity. cbn [chars]. rewrite skip_ws_id by assumption. reflexivity. }
    clear H. destruct (scan_b b (c :: r)) as [[neg ds] rest] eqn:Sc.
    destruct (num_value_b b D T neg ds) as [x err] eqn:Ev. injection H' as <- <-.
    assert (Sg : csigned D T = true \/ neg = false).
    { destruct (csigned D T); [left; reflexivity|right]. cbn in Em. unfold scan_b in Sc. rewrite Em in Sc.
      destruct (c =? ch_plus); injection Sc as <- _ _; reflexivity. }
    rewrite <- Es in Sc. pose proof (scan_b_pos _ _ _ _ _ Sc) as P.
    destruct (num_value_b_spec b D T neg ds x err Sg P Ev) as [Hx [(Nd & -> & ->)|(-> & Hb & _)]].
    + left. destruct (scan_numeral_b _ _ _ _ _ Sc Nd) as (sg & A & B & _).
      exists sg, (sg_val neg (number_b b ds)), rest. splits; try assumption; try reflexivity.
      unfold accepted. destruct Sg as [Sg|Sg]; [left; assumption|right]. intros ->. cbn in A. congruence.
    + right. split; [reflexivity|].
      intros sg z rest' _ Hn _ Hz. destruct (numeral_scan_b _ _ _ _ _ Hn) as (ds' & Nd & A & B & _).
      rewrite Sc in A. injection A as A1 A2 A3. subst ds' rest'. rewrite <- A1 in B.
      destruct Hb as [->|Hb]; [congruence|]. congruence.
Qed.

Lemma input_wide_b : forall b D s i old i' v m,
  wide_type (st s) -> wf_operand D (OSafe s) -> throws_arithmetic (sE s) ->
  input_b b D s i old = Some (i', v, m) ->
  (exists sg z rest, good i = true /\ numeral_in b (chars i) sg z rest /\ accepted D (st s) sg
   /\ smin s <= z <= smax s
   /\ returns m tt /\ v = Some z /\ i' = mkIs rest false (at_end rest))
  \/ (throws_arith m
      /\ forall sg z rest, good i = true -> numeral_in b (chars i) sg z rest -> accepted D (st s) sg ->
         ~ (smin s <= z <= smax s)).
Proof.
  intros b D s i old i' v m Wt W E H. pose proof W as (W1 & W2 & _). cbn in W1, W2. unfold in_type in W1, W2.
  unfold input_b in H. destruct (input_compiles D s) eqn:C; [|discriminate].
  destruct (input_compiled D s C) as [_ C2].
  rewrite (wide_small _ Wt) in H.
  destruct (extract_raw_b b D (st s) (if csigned D (st s) then i else reject_minus i) old) as [i2 x] eqn:Ex.
  destruct (wide_read_b b D (st s) i old i2 x Wt Ex) as [(sg & z & rest & G & N & A & I & -> & ->)|(F & N)].
  - cbn [failbit] in H. injection H as <- <- <-.
    destruct (validated_char D s (st s) z W E I C2) as [[B R]|[B R]].
    + left. exists sg, z, rest. splits; auto; try lia. eapply then_tt; eassumption.
    + right. split; [apply then_throws; assumption|]. intros sg' z' rest' _ N' _ B'.
      destruct (numeral_unique_b _ _ _ _ _ _ _ _ N N') as (-> & _). auto.
  - rewrite F in H. injection H as <- <- <-. right. split; [apply dispatch_domain; assumption|].
    intros sg' z' rest' G' N' A' B'. apply (N sg' z' rest' G' N' A'). unfold in_type. lia.
Qed.

(** input for signed char and unsigned char *)
Lemma input_small_b : forall b D s i old i' v m, is_small_char (st s) = true -> wf_operand D (OSafe s) ->
  throws_arithmetic (sE s) -> input_b b D s i old = Some (i', v, m) ->
  good i = true -> skip_ws (chars i) <> [] ->
  exists x, in_type D Int x
  /\ (forall sg z rest, numeral_in b (chars i) sg z rest -> in_type D Int z ->
       x = z /\ i' = mkIs rest false (at_end rest))
  /\ (forall sg z rest, numeral_in b (chars i) sg z rest -> hi D Int < z -> x = hi D Int)
  /\ ((smin s <= x <= smax s /\ returns m tt /\ v = Some x)
      \/ (~ (smin s <= x <= smax s) /\ throws_arith m /\ v = old)).
Proof.
  intros b D s i old i' v m Sm W E H G Nb. unfold input_b in H.
  destruct (input_compiles D s) eqn:C; [|discriminate].
  destruct (input_compiled D s C) as [C1 _]. rewrite Sm in H.
  rewrite extract_b_good in H by assumption.
  destruct (skip_ws (chars i)) as [|c r] eqn:Es; [congruence|]. rewrite <- Es in H.
  destruct (scan_b b (skip_ws (chars i))) as [[neg ds] rest] eqn:Sc.
  destruct (num_value_b b D Int neg ds) as [x err] eqn:Ev.
  pose proof (scan_b_pos _ _ _ _ _ Sc) as P.
  destruct (num_value_b_spec b D Int neg ds x err (or_introl eq_refl) P Ev) as [Hx Hv].
  injection H as H1 H2 H3. exists x. splits; [assumption| | |].
  - intros sg z rest' Hn Hz. destruct (numeral_scan_b _ _ _ _ _ Hn) as (ds' & Nd & A & B & _).
    rewrite Sc in A. injection A as A1 A2 A3. subst ds' rest'. rewrite <- A1 in B.
    destruct Hv as [(_ & -> & ->)|(_ & [?|K] & _)]; [split; congruence|congruence|congruence].
  - intros sg z rest' Hn Hz. destruct (numeral_scan_b _ _ _ _ _ Hn) as (ds' & Nd & A & B & _).
    rewrite Sc in A. injection A as A1 A2 A3. subst ds' rest'. rewrite <- A1 in B.
    destruct Hv as [(_ & _ & K)|(_ & _ & K)].
    + exfalso. unfold in_type in Hx. lia.
    + apply K; [lia|assumption].
  - destruct (validated_char D s Int x W E Hx C1) as [[B R]|[B R]]; [left|right].
    + splits; [lia|lia| |].
      * subst m. eapply then_tt; eassumption.
      * rewrite <- H2, R. reflexivity.
    + splits; [assumption| |].
      * subst m. apply then_throws. assumption.
      * rewrite <- H2. destruct R as (e & _ & ->). reflexivity.
Qed.
Lemma C101_small_lemma : forall b D s i old i' v m,
  st s = SChar \/ st s = UChar -> wf_operand D (OSafe s) -> throws_arithmetic (sE s) ->
  good i = true -> ~ Forall blank (chars i) ->
  input_b b D s i old = Some (i', v, m) ->
  (exists z, returns m tt /\ v = Some z /\ smin s <= z <= smax s
   /\ forall sg n rest, numeral_in b (chars i) sg n rest -> in_type D Int n -> z = n /\ chars i' = rest)
  \/ (throws_arith m /\ v = old
      /\ forall sg n rest, numeral_in b (chars i) sg n rest -> ~ (smin s <= n <= smax s)).
Proof.
  intros b D s i old i' v m T W E G Nb H.
  assert (Sm : is_small_char (st s) = true) by (destruct T as [->| ->]; reflexivity).
  pose proof W as (W1 & W2 & _). cbn in W1, W2. unfold in_type in W1, W2.
  pose proof (small_int D (st s) Sm) as K.
  destruct (input_small_b b D s i old i' v m Sm W E H G) as (x & I & A & _ & [(B & R & V)|(B & R & V)]).
  { rewrite skip_ws_empty. assumption. }
  - left. exists x. splits; auto; try lia. intros sg n rest N In.
    destruct (A _ _ _ N In) as [? ->]. auto.
  - right. splits; auto. intros sg n rest N Bn.
    destruct (A _ _ _ N) as [-> _]; [unfold in_type; lia|]. auto.
Qed.

(** ------------------------------------------------------------------ *)
(** output *)
Lemma char_of_digit : forall b d, 0 <= d < radix b -> digit_in b (char_of d) d.
Proof.
  intros b d H. pose proof (radix_range b). unfold digit_in, char_of. rewrite radix_eq.
  destruct (Z.ltb_spec d 10); lia.
Qed.
Lemma digits_b_denotes : forall b fuel n, 0 <= n < 2 ^ Z.of_nat fuel -> fuel <> O ->
  denotes_in b (digits_b b fuel n) n.
Proof.
  intros b. pose proof (radix_range b) as R.
  induction fuel as [|f IH]; intros n Hn Hf; [congruence|]. cbn [digits_b].
  destruct (Z.ltb_spec n (radix b)) as [E|E].
  - constructor. apply char_of_digit. lia.
  - rewrite Nat2Z.inj_succ, Z.pow_succ_r in Hn by lia.
    assert (Hf' : f <> O) by (intros ->; cbn in Hn; lia).
    pose proof (Z.div_mod n (radix b) ltac:(lia)) as Dm. pose proof (Z.mod_pos_bound n (radix b) ltac:(lia)).
    assert (A : denotes_in b (digits_b b f (n / radix b)) (n / radix b)).
    { apply IH; [|assumption]. split; [apply Z.div_pos; lia|]. apply Z.div_lt_upper_bound; [lia|nia]. }
    pose proof (denotes_in_more b _ _ _ _ A (char_of_digit b (n mod radix b) ltac:(lia))) as B.
    rewrite radix_eq, <- Dm in B. exact B.
Qed.
Lemma digits_b_head : forall b fuel n, 0 <= n < 2 ^ Z.of_nat fuel -> fuel <> O -> digs b (digits_b b fuel n).
Proof. intros b fuel n H K. exact (proj1 (denotes_number_b _ _ _ (digits_b_denotes b fuel n H K))). Qed.

Lemma put_b_spec : forall b D T v, b <> BDec -> denotes_in b (put_b b D T v) (v mod 2 ^ width D T).
Proof.
  intros b D T v N.
  assert (K : denotes_in b (digits_b b (S (Z.to_nat (Z.log2 (v mod 2 ^ width D T)))) (v mod 2 ^ width D T))
                (v mod 2 ^ width D T)).
  { set (n := v mod 2 ^ width D T).
    assert (P : 0 <= n) by (apply Z.mod_pos_bound; apply Z.pow_pos_nonneg; [lia|destruct D, T; vm_compute; discriminate]).
    apply digits_b_denotes; [|discriminate]. split; [assumption|].
    rewrite Nat2Z.inj_succ, Z2Nat.id by apply Z.log2_nonneg.
    destruct (Z.eq_dec n 0) as [K|K]; [rewrite K; cbn; lia|]. apply Z.log2_spec. lia. }
  destruct b; [congruence|exact K|exact K].
Qed.
Lemma output_b_put : forall b D s x, wf_operand D (OSafe s) -> holds D (OSafe s) x ->
  output_b b D s x = put_b b D (uac D Int (st s)) x /\ in_type D (uac D Int (st s)) x.
Proof.
  intros b D s x (W1 & W2 & _) H. unfold holds in H. cbn in W1, W2, H.
  assert (I : in_type D (st s) x) by (unfold in_type in *; lia).
  pose proof (uac_int_preserves D (st s) x I) as J.
  split; [|exact J]. unfold output_b. cbv zeta. f_equal. destruct (is_small_char (st s)) eqn:E.
  - assert (K : in_type D Int x).
    { pose proof (small_int D (st s) E). unfold in_type in *. lia. }
    rewrite (conv_in D Int x K). apply conv_in. exact J.
  - apply conv_in. exact J.
Qed.

(** ------------------------------------------------------------------ *)
(** the decimal streams of Stream.v, the hexadecimal inserter of Limits.v *)
Lemma dec_digit : forall c, is_digit_b BDec c = is_digit c.
Proof.
  intros c. apply eq_true_iff_eq. rewrite is_digit_iff. unfold is_digit_b. rewrite Z.ltb_lt. cbn [radix].
  destruct (digit_val_cases c) as [H|[H|[H|H]]]; lia.
Qed.
Lemma dec_span : forall cs, span_b BDec cs = span_digits cs.
Proof.
  induction cs as [|c cs IH]; [reflexivity|]. cbn [span_b span_digits]. rewrite dec_digit, IH. reflexivity.
Qed.
Lemma dec_scan : forall cs, scan_b BDec cs = scan cs.
Proof.
  intros cs. unfold scan_b, scan. cbv zeta. cbn [drop_prefix]. destruct cs as [|c r]; [reflexivity|].
  rewrite !dec_span. reflexivity.
Qed.
Lemma dec_number : forall ds, Forall (fun c => is_digit c = true) ds -> number_b BDec ds = number ds.
Proof.
  induction ds as [|c ds IH] using rev_ind; intros F; [reflexivity|].
  apply Forall_app in F. destruct F as [F1 F2]. inversion F2 as [|? ? Hc _]; subst.
  rewrite number_b_snoc, number_snoc, IH by assumption. cbn [radix]. f_equal.
  apply is_digit_iff in Hc. destruct (digit_val_cases c) as [H|[H|[H|H]]]; lia.
Qed.
Lemma dec_extract : forall D T i old, extract_b BDec D T i old = extract D T i old.
Proof.
  intros D T i old. unfold extract_b, extract. destruct (sentry false i) as [[] i1]; [|reflexivity].
  rewrite dec_scan. destruct (scan (chars i1)) as [[neg ds] rest] eqn:E.
  destruct (scan_inv _ _ _ _ E) as (F & _). unfold num_value_b, num_value. rewrite dec_number by assumption.
  reflexivity.
Qed.
Lemma dec_input : forall D s i old, input_b BDec D s i old = input D s i old.
Proof.
  intros D s i old. unfold input_b, input. destruct (input_compiles D s); [|reflexivity].
  rewrite dec_extract.
  assert (K : forall j, extract_raw_b BDec D (st s) j old = extract_raw D (st s) j old).
  { intros j. unfold extract_raw_b, extract_raw. destruct (st s); try apply dec_extract. reflexivity. }
  rewrite K. reflexivity.
Qed.
Lemma dec_output : forall D s x, output_b BDec D s x = output D s x.
Proof. reflexivity. Qed.
Lemma hex_of_digits : forall fuel n, hex_of fuel n = digits_b BHex fuel n.
Proof.
  assert (K : forall d, hex_digit d = char_of d).
  { intros d. unfold hex_digit, char_of, ch_0. destruct (Z.ltb_spec d 10); lia. }
  induction fuel as [|f IH]; intros n; [reflexivity|]. cbn [hex_of digits_b radix].
  rewrite IH, !K. reflexivity.
Qed.
Lemma hex_output : forall D s x, output_b BHex D s x = insert_safe D true s x.
Proof.
  intros D s x. unfold output_b, insert_safe, put, put_hex, put_b. cbv zeta. rewrite hex_of_digits. reflexivity.
Qed.

(** ------------------------------------------------------------------ *)
(** writing and reading back *)
Lemma output_b_numeral : forall b D s x bl rest, b <> BDec -> wf_operand D (OSafe s) -> holds D (OSafe s) x ->
  Forall blank bl -> ends_in b rest -> no_x rest ->
  numeral_in b (bl ++ output_b b D s x ++ rest) NoSign (x mod 2 ^ width D (uac D Int (st s))) rest.
Proof.
  intros b D s x bl rest N W H Fb Hr Hx. destruct (output_b_put b D s x W H) as [-> _].
  exists bl, [], (put_b b D (uac D Int (st s)) x), (x mod 2 ^ width D (uac D Int (st s))).
  splits; [assumption|left; reflexivity|apply put_b_spec; assumption|reflexivity|reflexivity|assumption|auto].
Qed.
Lemma width_range : forall D T, (csigned D T = true -> lo D T = - hi D T - 1 /\ 2 ^ width D T = 2 * hi D T + 2)
  /\ (csigned D T = false -> 2 ^ width D T = hi D T + 1).
Proof. intros D T. destruct D, T; vm_compute; split; intros; try discriminate; auto. Qed.
Lemma round_trip_b : forall b D s x bl rest old i' v m,
  number_type (st s) -> wf_operand D (OSafe s) -> throws_arithmetic (sE s) -> holds D (OSafe s) x ->
  Forall blank bl -> ends_in b rest -> no_x rest ->
  input_b b D s (mkIs (bl ++ output_b b D s x ++ rest) false false) old = Some (i', v, m) ->
  ((b = BDec \/ 0 <= x) -> returns m tt /\ v = Some x /\ i' = mkIs rest false (at_end rest))
  /\ (b <> BDec -> x < 0 -> throws_arith m).
Proof.
  intros b D s x bl rest old i' v m Nt W E H Fb Hr Hx Hi.
  assert (B : b = BDec \/ b <> BDec) by (destruct b; [left|right|right]; congruence).
  destruct B as [->|B].
  { split; [intros _|congruence]. rewrite dec_input, dec_output in Hi.
    apply (C55_round_trip_lemma D s x bl rest old i' v m); auto.
    intros c r d Ec K. apply (Hr c r d Ec). unfold digit_in. unfold digit_char in K. lia. }
  pose proof (output_b_numeral b D s x bl rest B W H Fb Hr Hx) as N.
  destruct (output_b_put b D s x W H) as [_ I].
  pose proof W as (W1 & W2 & _). cbn in W1, W2. pose proof H as H0. unfold holds in H0. cbn in H0.
  unfold in_type in W1, W2.
  assert (It : in_type D (st s) x) by (unfold in_type; lia).
  set (C := uac D Int (st s)) in *.
  assert (HC : hi D (st s) <= hi D C /\ lo D C <= lo D (st s))
    by (unfold C; destruct D, (st s); vm_compute; split; discriminate).
  pose proof (width_range D C) as [Ws Wu].
  assert (Z1 : 0 <= x -> x mod 2 ^ width D C = x).
  { intros P. apply Z.mod_small. unfold in_type in I. destruct (csigned D C).
    - destruct (Ws eq_refl). lia.
    - specialize (Wu eq_refl). lia. }
  assert (Z2 : x < 0 -> hi D C < x mod 2 ^ width D C).
  { intros P. unfold in_type in I. destruct (csigned D C) eqn:Es.
    - destruct (Ws eq_refl) as [L2 P2]. rewrite P2.
      replace (x mod (2 * hi D C + 2)) with (x + (2 * hi D C + 2)); [lia|].
      apply Z.mod_unique_pos with (q := -1); lia.
    - pose proof (lo_unsigned D C Es). lia. }
  set (n := x mod 2 ^ width D C) in *. clearbody n.
  assert (Ac : accepted D (st s) NoSign) by (right; discriminate).
  destruct (is_small_char (st s)) eqn:Sm.
  - pose proof (small_int D (st s) Sm) as K.
    assert (EC : C = Int) by (unfold C; destruct (st s); try discriminate Sm; destruct D; reflexivity).
    rewrite EC in *.
    destruct (input_small_b b D s _ old i' v m Sm W E Hi eq_refl) as (z & _ & A & A' & R).
    { cbn [chars]. destruct (numeral_scan_b _ _ _ _ _ N) as (ds & _ & _ & _ & _ & Es). exact Es. }
    split.
    + intros [?|P]; [congruence|]. rewrite (Z1 P) in N.
      destruct (A NoSign x rest N) as [-> ->]; [unfold in_type in *; lia|].
      destruct R as [(_ & R & V)|(R & _)]; [auto|lia].
    + intros _ P. pose proof (A' _ _ _ N (Z2 P)) as Ez. subst z.
      assert (hi D (st s) < hi D Int) by (destruct (st s); try discriminate Sm; destruct D; reflexivity).
      destruct R as [(R & _)|(_ & R & _)]; [lia|exact R].
  - assert (Wt : wide_type (st s)).
    { unfold wide_type, number_type in *. destruct (st s); try discriminate Sm; splits; congruence. }
    destruct (input_wide_b b D s _ old i' v m Wt W E Hi)
      as [(sg' & z & rest' & G & N' & A' & I' & R & -> & ->)|(R & Q)].
    + cbn [chars] in N'. destruct (numeral_unique_b _ _ _ _ _ _ _ _ N N') as (<- & <- & _).
      split.
      * intros [?|P]; [congruence|]. rewrite (Z1 P). auto.
      * intros _ P. specialize (Z2 P). lia.
    + split; [|auto]. intros [?|P]; [congruence|]. exfalso. rewrite (Z1 P) in N.
      exact (Q NoSign x rest eq_refl N Ac ltac:(lia)).
Qed.

(** sequences of values *)
Lemma input_b_any : forall b b' D s i old r, input_b b D s i old = Some r ->
  forall i' old', exists r', input_b b' D s i' old' = Some r'.
Proof.
  intros b b' D s i old r H i' old'. unfold input_b in *. destruct (input_compiles D s); [|discriminate]. eauto.
Qed.
Lemma sequence_gen_b : forall b D l bl,
  Forall blank bl ->
  (forall s x, In (s, x) l -> number_type (st s) /\ wf_operand D (OSafe s) /\ throws_arithmetic (sE s)
     /\ holds D (OSafe s) x /\ 0 <= x /\ exists i old r, input_b b D s i old = Some r) ->
  exists i', read_all_in b D (map fst l) (mkIs (bl ++ write_all (output_b b D) l) false false) (map snd l) i'
  /\ failbit i' = false /\ Forall blank (chars i').
Proof.
  intros b D l. induction l as [|[s x] l IH]; intros bl Fb H.
  - exists (mkIs (bl ++ []) false false). split; [constructor|]. rewrite app_nil_r. auto.
  - destruct (H s x (or_introl eq_refl)) as (Nt & W & E & Hx & Px & i0 & old0 & r0 & C).
    destruct (IH [32]) as (i' & R & F).
    { constructor; [|constructor]. unfold blank. cbn. auto 8. }
    { intros s' x' K. apply H. right. assumption. }
    exists i'. split; [|assumption]. cbn [map fst snd write_all flat_map].
    assert (K : forall old, exists m, input_b b D s (mkIs (bl ++ (output_b b D s x ++ [32]) ++
        flat_map (fun p => output_b b D (fst p) (snd p) ++ [32]) l) false false) old
        = Some (mkIs ([32] ++ write_all (output_b b D) l) false false, Some x, m) /\ returns m tt).
    { intros old. rewrite <- app_assoc.
      destruct (input_b_any b b D s i0 old0 r0 C (mkIs (bl ++ output_b b D s x ++
        ([32] ++ flat_map (fun p => output_b b D (fst p) (snd p) ++ [32]) l)) false false) old) as ([[i1 v1] m1] & E1).
      assert (Nd : ends_in b ([32] ++ flat_map (fun p => output_b b D (fst p) (snd p) ++ [32]) l)).
      { intros c r d [= <- _] Hd. unfold digit_in in Hd. lia. }
      assert (Nx : no_x ([32] ++ flat_map (fun p => output_b b D (fst p) (snd p) ++ [32]) l)).
      { intros c r [= <- _]. lia. }
      destruct (round_trip_b b D s x bl _ old i1 v1 m1 Nt W E Hx Fb Nd Nx E1) as [A _].
      destruct (A (or_intror Px)) as (R1 & -> & ->).
      exists m1. split; [exact E1|exact R1]. }
    destruct (K None) as (m & Km & Rm).
    eapply read_in_cons with (m := m); [|exact Rm|exact R].
    intros old. destruct (K old) as (m' & Km' & Rm'). unfold returns in Rm, Rm'. subst m m'. exact Km'.
Qed.
Lemma sequence_b : forall b D l,
  (forall s x, In (s, x) l -> number_type (st s) /\ wf_operand D (OSafe s) /\ throws_arithmetic (sE s)
     /\ holds D (OSafe s) x /\ 0 <= x /\ exists i old r, input_b b D s i old = Some r) ->
  exists i', read_all_in b D (map fst l) (mkIs (write_all (output_b b D) l) false false) (map snd l) i'
  /\ failbit i' = false /\ Forall blank (chars i').
Proof. intros b D l H. apply (sequence_gen_b b D l []); [constructor|assumption]. Qed.
Lemma text_b : forall b D s x, wf_operand D (OSafe s) -> holds D (OSafe s) x -> 0 <= x ->
  denotes_in b (output_b b D s x) x.
Proof.
  intros b D s x W H P.
  assert (B : b = BDec \/ b <> BDec) by (destruct b; [left|right|right]; congruence).
  destruct B as [->|B].
  - rewrite dec_output. destruct (C55_output_lemma D s x W H) as (sg & ds & n & -> & Hd & Ex & Hs & Np).
    assert (K : sg = NoSign) by (destruct sg; [congruence| |reflexivity]; destruct Hs as [Hs _]; specialize (Hs eq_refl); lia).
    subst sg. cbn [signed sign_text app] in *. subst n. clear - Hd.
    induction Hd as [c d K|cs n c d _ IH K]; constructor; try exact IH; unfold digit_char in K; unfold digit_in; lia.
  - destruct (output_b_put b D s x W H) as [-> I].
    pose proof (put_b_spec b D (uac D Int (st s)) x B) as K.
    rewrite Z.mod_small in K; [exact K|]. unfold in_type in I.
    pose proof (width_range D (uac D Int (st s))) as [Ws Wu]. destruct (csigned D (uac D Int (st s))).
    + destruct (Ws eq_refl). lia.
    + specialize (Wu eq_refl). lia.
Qed.
Lemma input_exact_b : forall b D s i old i' v m,
  wide_type (st s) -> wf_operand D (OSafe s) -> throws_arithmetic (sE s) ->
  input_b b D s i old = Some (i', v, m) ->
  (exists sg z rest, good i = true /\ numeral_in b (chars i) sg z rest /\ accepted D (st s) sg
   /\ smin s <= z <= smax s
   /\ returns m tt /\ v = Some z /\ chars i' = rest /\ failbit i' = false)
  \/ (throws_arith m
      /\ forall sg z rest, good i = true -> numeral_in b (chars i) sg z rest -> accepted D (st s) sg ->
         ~ (smin s <= z <= smax s)).
Proof.
  intros b D s i old i' v m Wt W E H.
  destruct (input_wide_b b D s i old i' v m Wt W E H)
    as [(sg & z & rest & G & N & A & I & R & -> & ->)|K]; [left|right; exact K].
  exists sg, z, rest. splits; auto; lia.
Qed.
Lemma streams_b : forall D s,
  (forall i old, input_b BDec D s i old = input D s i old)
  /\ (forall x, output_b BDec D s x = output D s x)
  /\ (forall x, output_b BHex D s x = insert_safe D true s x).
Proof. intros D s. splits; [apply dec_input|apply dec_output|apply hex_output]. Qed.
