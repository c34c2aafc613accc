(** Motor2PureFacts.v -- the ramps of the second stepper motor program, as a machine on integers. *)
From Coq Require Import ZArith Bool List Lia.
From Verif Require Import Base CType Program Motor2 Motor2Spec Motor2TurnFacts Motor2RunFacts.
Import ListNotations.
Local Open Scope Z_scope.

Definition active (p : ps) : bool := match ph p with ramp_idle | ramp_last => false | _ => true end.
Definition at_last (p : ps) : bool := match ph p with ramp_last => true | _ => false end.
Definition at_max (p : ps) : bool := match ph p with ramp_max => true | _ => false end.

(** j turns and the timer value; [None] = an operation might raise or the ramp has ended *)
Fixpoint walk (n : Z) (j : nat) (p : ps) (a : Z) : option (ps * Z) :=
  match j with
  | O => Some (p, a)
  | S j' => if ok_turn n p && active p then walk n j' (p_turn n p) (a + cc p) else None
  end.

Lemma walk_app : forall n i j p a, walk n (i + j) p a =
  match walk n i p a with Some (p', a') => walk n j p' a' | None => None end.
Proof.
  induction i as [|i IH]; intros j p a; [reflexivity|]. cbn [walk Nat.add].
  destruct (ok_turn n p && active p); [apply IH|reflexivity].
Qed.
Lemma ok_cc : forall n p, ok_turn n p = true -> 0 <= cc p <= 500000000.
Proof. intros n p H. unfold ok_turn in H. rewrite !andb_true_iff, !Z.leb_le in H. lia. Qed.
Lemma walk_grows : forall n j p a p' a', walk n j p a = Some (p', a') -> a <= a'.
Proof.
  induction j as [|j IH]; intros p a p' a' H; cbn [walk] in H; [injection H as <- <-; lia|].
  destruct (ok_turn n p && active p) eqn:E; [|discriminate]. apply andb_true_iff in E. destruct E as [E _].
  apply IH in H. apply ok_cc in E. lia.
Qed.
Lemma p_down_phase : forall n p, ph p <> ramp_idle -> ph (p_down n p) <> ramp_idle.
Proof.
  intros n p H. unfold p_down. destruct (kk p =? n - 1); [discriminate|]. cbv zeta.
  match goal with |- context [least_delay <? ?u] => destruct (least_delay <? u) end; [exact H|discriminate].
Qed.
Lemma active_turn : forall n p, active p = true -> ph (p_turn n p) <> ramp_idle.
Proof.
  intros n p H.
  assert (Q : ph (p_switch n p) <> ramp_idle).
  { unfold active in H. unfold p_switch. destruct (ph p) eqn:Hp; try discriminate.
    - unfold p_up. destruct (kk p =? (n - 1) / 2); [|apply p_down_phase; congruence].
      cbv zeta. destruct (Z.even n); [discriminate|apply p_down_phase; discriminate].
    - unfold p_max. destruct (kk p =? sd p); [discriminate|congruence].
    - apply p_down_phase. congruence. }
  unfold p_turn. cbv zeta. destruct (ph (p_switch n p)); congruence || discriminate.
Qed.

Lemma turn_kk : forall n p, active p = true -> kk (p_turn n p) = kk p + 1.
Proof.
  intros n p H. assert (Q := active_turn n p H). revert Q.
  assert (KK : kk (p_switch n p) = kk p).
  { unfold p_switch, p_up, p_max, p_down. destruct (ph p); cbv zeta; cbn [kk dn cc sd ph];
    repeat (match goal with |- context [if ?b then _ else _] => destruct b end; cbn [kk dn cc sd ph]); reflexivity. }
  unfold p_turn. cbv zeta. destruct (ph (p_switch n p)) eqn:E; cbn [kk ph]; intros Q; rewrite KK; congruence.
Qed.
Lemma walk_kk : forall n j p a p' a', walk n j p a = Some (p', a') -> kk p' = kk p + Z.of_nat j.
Proof.
  induction j as [|j IH]; intros p a p' a' H; cbn [walk] in H; [injection H as <- <-; lia|].
  destruct (ok_turn n p && active p) eqn:E; [|discriminate]. apply andb_true_iff in E. destruct E as [_ E].
  apply IH in H. rewrite H, turn_kk by assumption. lia.
Qed.

(** ------------------------------------------------------------------ *)
(** long moves: up, level, down *)
Fixpoint up (j : nat) (k d c a : Z) : option (Z * Z * Z * Z) :=
  match j with
  | O => Some (k, d, c, a)
  | S j' =>
      let c' := c - c * 2 / (d + 4) in
      if (least_delay <? c') && (0 <=? d) && (d <=? 32000) && (0 <=? c) && (c <=? 500000000)
      then up j' (k + 1) (d + 4) c' (a + c) else None
  end.
Lemma up_walk : forall n j k d c a k' d' c' a' s, up j k d c a = Some (k', d', c', a') ->
  0 <= k -> k + Z.of_nat j <= (n - 1) / 2 -> 1 <= n <= 32767 ->
  walk n j (mkP ramp_up k d c s) a = Some (mkP ramp_up k' d' c' s, a').
Proof.
  intros n. induction j as [|j IH]; intros k d c a k' d' c' a' s H Bk Bj Bn; cbn [up] in H.
  - injection H as <- <- <- <-. reflexivity.
  - match type of H with (if ?b then _ else _) = _ => destruct b eqn:E end; [|discriminate].
    rewrite !andb_true_iff, !Z.leb_le, Z.ltb_lt in E. destruct E as ((((E1 & E2) & E3) & E4) & E5).
    assert (Bh : (n - 1) / 2 <= n - 1) by (apply Z.div_le_upper_bound; lia).
    assert (N1 : (k =? (n - 1) / 2) = false) by (apply Z.eqb_neq; lia).
    assert (N2 : (k =? n - 1) = false) by (apply Z.eqb_neq; lia).
    cbn [walk]. replace (ok_turn n (mkP ramp_up k d c s) && active (mkP ramp_up k d c s)) with true.
    + assert (T : p_turn n (mkP ramp_up k d c s) = mkP ramp_up (k + 1) (d + 4) (c - c * 2 / (d + 4)) s).
      { unfold p_turn, p_switch. cbn [ph]. unfold p_up. cbn [kk dn cc sd]. rewrite N1. unfold p_down.
        cbn [kk dn cc sd ph]. rewrite N2. cbv zeta.
        rewrite (proj2 (Z.ltb_lt 0 (d + 4))) by lia. rewrite (proj2 (Z.ltb_lt _ _) E1). reflexivity. }
      rewrite T. apply IH; [exact H|lia..].
    + symmetry. unfold ok_turn, ok_down, active. cbn [kk dn cc sd ph]. rewrite N1, N2. cbn [orb].
      rewrite !andb_true_iff, orb_true_iff, !Z.leb_le, Z.ltb_lt. lia.
Qed.

Lemma level_walk : forall n j k d s a, 0 <= k -> k + Z.of_nat j <= s -> s <= 65535 -> 1 <= n <= 32767 ->
  walk n j (mkP ramp_max k d least_delay s) a
  = Some (mkP ramp_max (k + Z.of_nat j) d least_delay s, a + Z.of_nat j * least_delay).
Proof.
  intros n. induction j as [|j IH]; intros k d s a Bk Bj Bs Bn.
  - cbn [walk]. rewrite Z.add_0_r, Z.mul_0_l, Z.add_0_r. reflexivity.
  - assert (N : (k =? s) = false) by (apply Z.eqb_neq; lia).
    cbn [walk]. replace (ok_turn n _ && active _) with true.
    + assert (T : p_turn n (mkP ramp_max k d least_delay s) = mkP ramp_max (k + 1) d least_delay s).
      { unfold p_turn, p_switch. cbn [ph]. unfold p_max. cbn [kk sd]. rewrite N. reflexivity. }
      rewrite T, IH by lia. cbn [cc].
      replace (k + 1 + Z.of_nat j) with (k + Z.of_nat (S j)) by lia.
      replace (a + least_delay + Z.of_nat j * least_delay) with (a + Z.of_nat (S j) * least_delay) by (unfold least_delay; lia).
      reflexivity.
    + symmetry. unfold ok_turn, active. cbn [kk dn cc sd ph]. rewrite N. cbn [negb orb].
      rewrite !andb_true_iff, !Z.leb_le, Z.ltb_lt. unfold least_delay. lia.
Qed.
(** the same when the place to slow down has been passed *)
Lemma escaped_walk : forall n j k d s a, 0 <= s < k -> k + Z.of_nat j <= 65535 -> 1 <= n <= 32767 ->
  walk n j (mkP ramp_max k d least_delay s) a
  = Some (mkP ramp_max (k + Z.of_nat j) d least_delay s, a + Z.of_nat j * least_delay).
Proof.
  intros n. induction j as [|j IH]; intros k d s a Bk Bj Bn.
  - cbn [walk]. rewrite Z.add_0_r, Z.mul_0_l, Z.add_0_r. reflexivity.
  - assert (N : (k =? s) = false) by (apply Z.eqb_neq; lia).
    cbn [walk]. replace (ok_turn n _ && active _) with true.
    + assert (T : p_turn n (mkP ramp_max k d least_delay s) = mkP ramp_max (k + 1) d least_delay s).
      { unfold p_turn, p_switch. cbn [ph]. unfold p_max. cbn [kk sd]. rewrite N. reflexivity. }
      rewrite T, IH by lia. cbn [cc].
      replace (k + 1 + Z.of_nat j) with (k + Z.of_nat (S j)) by lia.
      replace (a + least_delay + Z.of_nat j * least_delay) with (a + Z.of_nat (S j) * least_delay) by (unfold least_delay; lia).
      reflexivity.
    + symmetry. unfold ok_turn, active. cbn [kk dn cc sd ph]. rewrite N. cbn [negb orb].
      rewrite !andb_true_iff, !Z.leb_le, Z.ltb_lt. unfold least_delay. lia.
Qed.

Fixpoint down (j : nat) (m d c a : Z) : option (Z * Z * Z * Z) :=
  match j with
  | O => Some (m, d, c, a)
  | S j' =>
      let c' := c + c * 2 / - (d + 4) in
      if (least_delay <? c') && (d + 4 <=? -3) && (-32768 <=? d) && (0 <=? c) && (c <=? 500000000) && (2 <=? m)
      then down j' (m - 1) (d + 4) c' (a + c) else None
  end.
Lemma down_walk : forall n j m d c a m' d' c' a' s, down j m d c a = Some (m', d', c', a') ->
  m <= n -> 1 <= n <= 32767 ->
  walk n j (mkP ramp_down (n - m) d c s) a = Some (mkP ramp_down (n - m') d' c' s, a').
Proof.
  intros n. induction j as [|j IH]; intros m d c a m' d' c' a' s H Bm Bn; cbn [down] in H.
  - injection H as <- <- <- <-. reflexivity.
  - match type of H with (if ?b then _ else _) = _ => destruct b eqn:E end; [|discriminate].
    rewrite !andb_true_iff, !Z.leb_le, Z.ltb_lt in E. destruct E as (((((E1 & E2) & E3) & E4) & E5) & E6).
    assert (N2 : (n - m =? n - 1) = false) by (apply Z.eqb_neq; lia).
    cbn [walk]. replace (ok_turn n _ && active _) with true.
    + assert (T : p_turn n (mkP ramp_down (n - m) d c s) = mkP ramp_down (n - (m - 1)) (d + 4) (c + c * 2 / - (d + 4)) s).
      { unfold p_turn, p_switch. cbn [ph]. unfold p_down.
        cbn [kk dn cc sd ph]. rewrite N2. cbv zeta.
        rewrite (proj2 (Z.ltb_ge 0 (d + 4))) by lia. rewrite (proj2 (Z.ltb_lt _ _) E1). cbn [ph kk dn cc sd].
        f_equal; lia. }
      rewrite T. apply IH; [exact H|lia..].
    + symmetry. unfold ok_turn, ok_down, active. cbn [kk dn cc sd ph]. rewrite N2. cbn [orb].
      rewrite !andb_true_iff, orb_true_iff, !Z.leb_le, Z.ltb_lt. lia.
Qed.

(** ------------------------------------------------------------------ *)
(** short moves: from every point of the first ramp *)
Fixpoint to_max (n : Z) (j : nat) (p : ps) (a : Z) : option (ps * Z) :=
  if at_max p then Some (p, a)
  else match j with
  | O => None
  | S j' => if ok_turn n p && active p then to_max n j' (p_turn n p) (a + cc p) else None
  end.
Lemma to_max_walk : forall n j p a p' a', to_max n j p a = Some (p', a') ->
  at_max p' = true /\ exists i, walk n i p a = Some (p', a').
Proof.
  intros n. induction j as [|j IH]; intros p a p' a' H; cbn [to_max] in H; destruct (at_max p) eqn:E.
  - injection H as <- <-. split; [assumption|]. exists 0%nat. reflexivity.
  - discriminate.
  - injection H as <- <-. split; [assumption|]. exists 0%nat. reflexivity.
  - destruct (ok_turn n p && active p) eqn:F; [|discriminate].
    destruct (IH _ _ _ _ H) as (M & i & W). split; [assumption|]. exists (S i). cbn [walk]. rewrite F. exact W.
Qed.

(** the delay does not grow during j turns *)
Fixpoint falls (n : Z) (j : nat) (p : ps) : bool :=
  match j with O => true | S j' => (cc (p_turn n p) <=? cc p) && falls n j' (p_turn n p) end.
Lemma falls_at : forall n i j p a p1 a1 p2 a2, falls n j p = true -> (i < j)%nat -> walk n i p a = Some (p1, a1) ->
  walk n (S i) p a = Some (p2, a2) -> cc p2 <= cc p1.
Proof.
  intros n. induction i as [|i IH]; intros j p a p1 a1 p2 a2 F B W1 W2; (destruct j as [|j]; [lia|]);
    cbn [falls] in F; apply andb_true_iff in F; destruct F as [F1 F2]; apply Z.leb_le in F1.
  - cbn [walk] in W1, W2. injection W1 as <- <-. destruct (ok_turn n p && active p); [|discriminate]. injection W2 as <- <-. exact F1.
  - cbn [walk] in W1. change (walk n (S (S i)) p a) with
      (if ok_turn n p && active p then walk n (S i) (p_turn n p) (a + cc p) else None) in W2.
    destruct (ok_turn n p && active p); [|discriminate]. apply (IH j _ _ _ _ _ _ F2 ltac:(lia) W1 W2).
Qed.

Definition good (n : Z) : bool := (n <=? 220) || (n =? 222) || (n =? 437).
Definition test_point (n k d c a : Z) : bool :=
  if good n then
    match walk n (Z.to_nat (n - k)) (mkP ramp_up k d c 0) a with
    | Some (p, a') => at_last p && ok_turn n p && (a' + cc p <=? 558250349) && (1 <=? cc p) && (cc p <=? first_delay)
        && ((n =? 437) || falls n (Z.to_nat (n - k)) (mkP ramp_up k d c 0))
    | None => false
    end
  else
    match to_max n (Z.to_nat (n - k)) (mkP ramp_up k d c 0) a with
    | Some (p, a') => (sd p <? kk p) && (0 <=? sd p) && (kk p <=? n) && (cc p =? least_delay)
        && (a' + n * least_delay <=? 4294967295)
    | None => false
    end.
Fixpoint scan (j : nat) (k d c a : Z) : bool :=
  test_point (2 * k + 1) k d c a && test_point (2 * k + 2) k d c a
  && match j with O => true | S j' => scan j' (k + 1) (d + 4) (c - c * 2 / (d + 4)) (a + c) end.
Lemma scan_point : forall i j k d c a k' d' c' a', scan (i + j) k d c a = true -> up i k d c a = Some (k', d', c', a') ->
  test_point (2 * k' + 1) k' d' c' a' = true /\ test_point (2 * k' + 2) k' d' c' a' = true /\ k' = k + Z.of_nat i.
Proof.
  induction i as [|i IH]; intros j k d c a k' d' c' a' H U; cbn [up] in U.
  - injection U as <- <- <- <-. cbn [Nat.add] in H. destruct j; cbn [scan] in H; rewrite !andb_true_iff in H; intuition lia.
  - match type of U with (if ?b then _ else _) = _ => destruct b eqn:E end; [|discriminate].
    cbn [Nat.add scan] in H. rewrite !andb_true_iff in H. destruct H as (_ & H).
    destruct (IH _ _ _ _ _ _ _ _ _ H U) as (A & B & C). repeat split; auto. lia.
Qed.
Lemma up_prefix : forall i j k d c a r, up (i + j) k d c a = Some r -> exists r', up i k d c a = Some r'.
Proof.
  induction i as [|i IH]; intros j k d c a r H; [eexists; reflexivity|]. cbn [Nat.add up] in *.
  match type of H with (if ?b then _ else _) = _ => destruct b end; [|discriminate]. exact (IH _ _ _ _ _ _ H).
Qed.
Lemma scan_all : scan 218 0 1 first_delay 1000 = true.
Proof. vm_compute. reflexivity. Qed.
Lemma up_all : up 218 0 1 first_delay 1000 = Some (218, 873, 640575, 273188045).
Proof. vm_compute. reflexivity. Qed.

(** the first half of a move of at most 438 steps *)
Lemma half : forall n, 1 <= n <= 438 -> exists j k d c a, k = (n - 1) / 2 /\ k = Z.of_nat j
  /\ up j 0 1 first_delay 1000 = Some (k, d, c, a)
  /\ walk n j p_start 1000 = Some (mkP ramp_up k d c 0, a) /\ test_point n k d c a = true.
Proof.
  intros n B. set (j := Z.to_nat ((n - 1) / 2)).
  assert (Bj : 0 <= (n - 1) / 2 < 219) by (split; [apply Z.div_pos; lia|apply Z.div_lt_upper_bound; lia]).
  pose proof (Z.div_mod (n - 1) 2 ltac:(lia)) as DM. pose proof (Z.mod_pos_bound (n - 1) 2 ltac:(lia)) as MB.
  assert (Ej : (j + (218 - j) = 218)%nat) by (unfold j; lia).
  destruct (up_prefix j (218 - j) 0 1 first_delay 1000 (218, 873, 640575, 273188045)) as ([[[k d] c] a] & U).
  { rewrite Ej. exact up_all. }
  assert (S := scan_all). rewrite <- Ej in S.
  destruct (scan_point _ _ _ _ _ _ _ _ _ _ S U) as (T1 & T2 & Ek).
  assert (Ek' : k = (n - 1) / 2) by (unfold j in Ek; lia).
  exists j, k, d, c, a. split; [assumption|]. split; [lia|]. split; [exact U|]. split.
  - apply (up_walk n j 0 1 first_delay 1000); [exact U|lia..].
  - rewrite Ek' in *. destruct (Z.eq_dec ((n - 1) mod 2) 0) as [M|M].
    + replace n with (2 * ((n - 1) / 2) + 1) at 1 by lia. exact T1.
    + replace n with (2 * ((n - 1) / 2) + 2) at 1 by lia. exact T2.
Qed.

Definition lands (n : Z) (t : Z) : Prop := exists p a, walk n (Z.to_nat n) p_start 1000 = Some (p, a)
  /\ ph p = ramp_last /\ ok_turn n p = true /\ a + cc p = t /\ 1 <= cc p <= first_delay.
Definition escapes (n : Z) : Prop := exists d s a, walk n (Z.to_nat n) p_start 1000 = Some (mkP ramp_max n d least_delay s, a)
  /\ 0 <= s < n /\ 1000 <= a <= 4294967295.

Lemma short_lands : forall n, 1 <= n <= 220 \/ n = 222 \/ n = 437 -> exists t, lands n t /\ t <= 558250349.
Proof.
  intros n H. destruct (half n) as (j & k & d & c & a & Ek & Ej & U & W & T); [lia|].
  assert (Bk : 0 <= (n - 1) / 2 <= n - 1) by (split; [apply Z.div_pos; lia|apply Z.div_le_upper_bound; lia]).
  unfold test_point in T. replace (good n) with true in T.
  2: { symmetry. unfold good. rewrite !orb_true_iff, Z.leb_le, !Z.eqb_eq. lia. }
  destruct (walk n (Z.to_nat (n - k)) (mkP ramp_up k d c 0) a) as [[p a']|] eqn:W2; [|discriminate].
  rewrite !andb_true_iff, !Z.leb_le in T. destruct T as (((((T1 & T2) & T3) & T4) & T5) & _).
  exists (a' + cc p). split; [|assumption]. exists p, a'. split.
  - replace (Z.to_nat n) with (j + Z.to_nat (n - k))%nat by lia. rewrite walk_app, W. exact W2.
  - unfold at_last in T1. destruct (ph p); try discriminate. auto.
Qed.
Lemma runaway_escapes : forall n, runaway_distance n -> escapes n.
Proof.
  intros n H. assert (Bn : 1 <= n <= 438) by (unfold runaway_distance in H; lia).
  destruct (half n) as (j & k & d & c & a & Ek & Ej & U & W & T); [lia|].
  assert (Bk : 0 <= (n - 1) / 2 <= n - 1) by (split; [apply Z.div_pos; lia|apply Z.div_le_upper_bound; lia]).
  unfold test_point in T. replace (good n) with false in T.
  2: { symmetry. unfold good. rewrite !orb_false_iff, Z.leb_gt, !Z.eqb_neq. unfold runaway_distance in H. lia. }
  destruct (to_max n (Z.to_nat (n - k)) (mkP ramp_up k d c 0) a) as [[p a']|] eqn:W2; [|discriminate].
  rewrite !andb_true_iff, Z.ltb_lt, !Z.leb_le, Z.eqb_eq in T. destruct T as ((((T1 & T2) & T3) & T4) & T5).
  destruct (to_max_walk _ _ _ _ _ _ W2) as (M & i & W3).
  destruct p as [ph' k' d' c' s']. unfold at_max in M. cbn [ph kk dn cc sd] in *. destruct ph'; try discriminate. subst c'.
  pose proof (walk_kk _ _ _ _ _ _ W3) as K3. cbn [kk] in K3.
  pose proof (walk_grows _ _ _ _ _ _ W) as G1. pose proof (walk_grows _ _ _ _ _ _ W3) as G3.
  exists d', s', (a' + Z.of_nat (Z.to_nat (n - k')) * least_delay). split; [|unfold least_delay in *; lia].
  replace (Z.to_nat n) with (j + (i + Z.to_nat (n - k')))%nat by lia.
  rewrite walk_app, W, walk_app, W3, escaped_walk by lia.
  replace (k' + Z.of_nat (Z.to_nat (n - k'))) with n by lia. reflexivity.
Qed.

(** the delays *)
Lemma up_delay : forall j i a k' d' c' a', up j (Z.of_nat i) (4 * Z.of_nat i + 1) (speed_up i) a = Some (k', d', c', a') ->
  c' = speed_up (i + j).
Proof.
  induction j as [|j IH]; intros i a k' d' c' a' H; cbn [up] in H.
  - injection H as _ _ <- _. rewrite Nat.add_0_r. reflexivity.
  - match type of H with (if ?b then _ else _) = _ => destruct b end; [|discriminate].
    replace (i + S j)%nat with (S i + j)%nat by lia.
    apply (IH (S i) (a + speed_up i) k' d' c' a'). rewrite <- H.
    replace (Z.of_nat (S i)) with (Z.of_nat i + 1) by lia.
    replace (4 * Z.of_nat i + 1 + 4) with (4 * (Z.of_nat i + 1) + 1) by lia.
    f_equal. cbn [speed_up]. replace (Z.of_nat (S i)) with (Z.of_nat i + 1) by lia. rewrite (Z.mul_comm 2). reflexivity.
Qed.
Lemma speed_up_falls : forall k, 0 <= speed_up (S k) <= speed_up k.
Proof.
  assert (A : forall k, 0 <= speed_up k -> 0 <= speed_up (S k) <= speed_up k).
  { intros k H. cbn [speed_up]. set (z := Z.of_nat (S k)). assert (1 <= z) by lia.
    assert (0 <= 2 * speed_up k / (4 * z + 1)) by (apply Z.div_pos; lia).
    assert (2 * speed_up k / (4 * z + 1) <= speed_up k) by (apply Z.div_le_upper_bound; nia). lia. }
  induction k as [|k IH]; apply A; [discriminate|lia].
Qed.
Lemma short_falls : forall n k p a p' a', 1 <= n <= 220 \/ n = 222 -> Z.of_nat k < n ->
  walk n k p_start 1000 = Some (p, a) -> walk n (S k) p_start 1000 = Some (p', a') -> cc p' <= cc p.
Proof.
  intros n k p a p' a' H B W1 W2. destruct (half n) as (j & k0 & d & c & a0 & Ek & Ej & U & W & T); [lia|].
  assert (Bk : 0 <= (n - 1) / 2 <= n - 1) by (split; [apply Z.div_pos; lia|apply Z.div_le_upper_bound; lia]).
  destruct (Nat.lt_ge_cases k j) as [L|L].
  - assert (V : forall i q b, (i <= j)%nat -> walk n i p_start 1000 = Some (q, b) -> cc q = speed_up i).
    { intros i q b Bi Wi. destruct (up_prefix i (j - i) 0 1 first_delay 1000 (k0, d, c, a0)) as ([[[k' d'] c'] a1] & U').
      { replace (i + (j - i))%nat with j by lia. exact U. }
      unfold p_start in Wi. rewrite (up_walk n i 0 1 first_delay 1000 k' d' c' a1 0 U') in Wi by lia. injection Wi as <- <-.
      exact (up_delay i 0 1000 k' d' c' a1 U'). }
    rewrite (V k p a ltac:(lia) W1), (V (S k) p' a' ltac:(lia) W2). apply speed_up_falls.
  - unfold test_point in T. replace (good n) with true in T.
    2: { symmetry. unfold good. rewrite !orb_true_iff, Z.leb_le, !Z.eqb_eq. lia. }
    destruct (walk n (Z.to_nat (n - k0)) (mkP ramp_up k0 d c 0) a0) as [[p0 a1]|] eqn:W0; [|discriminate].
    rewrite !andb_true_iff in T. destruct T as (_ & T). replace (n =? 437) with false in T by (symmetry; apply Z.eqb_neq; lia).
    cbn [orb] in T. replace k with (j + (k - j))%nat in W1 by lia. rewrite walk_app, W in W1.
    replace (S k) with (j + S (k - j))%nat in W2 by lia. rewrite walk_app, W in W2.
    apply (falls_at n (k - j) _ _ _ _ _ _ _ T ltac:(lia) W1 W2).
Qed.

(** long moves *)
Lemma down_from : forall a, down 216 217 (-867) least_delay a = Some (1, -3, 12729843, a + 258322043).
Proof.
  assert (Sh : forall j m d c a a0 m' d' c' a', down j m d c a0 = Some (m', d', c', a') ->
    down j m d c (a + a0) = Some (m', d', c', a + a')).
  { induction j as [|j IH]; intros m d c a a0 m' d' c' a' H; cbn [down] in *.
    - injection H as <- <- <- <-. reflexivity.
    - match type of H with (if ?b then _ else _) = _ => destruct b end; [|discriminate].
      rewrite <- Z.add_assoc. apply IH. exact H. }
  intros a. replace a with (a + 0) at 1 by lia. apply Sh. vm_compute. reflexivity.
Qed.
Section Long.
  Variable n : Z.
  Hypothesis B : 439 <= n <= 32767.
  Let Bk : 219 <= (n - 1) / 2.
  Proof. apply Z.div_le_lower_bound; lia. Qed.
  Definition a_level : Z := 273188045 + 640575 + (n - 437) * least_delay + least_delay.

  Lemma long_level : walk n 219 p_start 1000 = Some (mkP ramp_max 219 877 least_delay (n - 218), 273188045 + 640575).
  Proof.
    replace 219%nat with (218 + 1)%nat by reflexivity. rewrite walk_app. unfold p_start.
    rewrite (up_walk n 218 0 1 first_delay 1000 218 873 640575 273188045 0 up_all) by (cbn; lia).
    cbn [walk]. assert (N1 : (218 =? (n - 1) / 2) = false) by (apply Z.eqb_neq; lia).
    assert (N2 : (218 =? n - 1) = false) by (apply Z.eqb_neq; lia).
    replace (ok_turn n _ && active _) with true.
    - unfold p_turn, p_switch. cbn [ph]. unfold p_up. cbn [kk dn cc sd]. rewrite N1. unfold p_down.
      cbn [kk dn cc sd ph]. rewrite N2. reflexivity.
    - symmetry. unfold ok_turn, ok_down, active. cbn [kk dn cc sd ph]. rewrite N1, N2. cbn [orb].
      rewrite !andb_true_iff, orb_true_iff, !Z.leb_le, Z.ltb_lt. lia.
  Qed.
  Lemma long_level_at : forall j, 219 + Z.of_nat j <= n - 218 ->
    walk n (219 + j) p_start 1000 = Some (mkP ramp_max (219 + Z.of_nat j) 877 least_delay (n - 218),
      273188045 + 640575 + Z.of_nat j * least_delay).
  Proof. intros j Bj. rewrite walk_app, long_level. apply level_walk; lia. Qed.
  Lemma long_top : walk n (Z.to_nat (n - 217)) p_start 1000 = Some (mkP ramp_down (n - 217) (-867) least_delay (n - 218), a_level).
  Proof.
    replace (Z.to_nat (n - 217)) with (219 + Z.to_nat (n - 437) + 1)%nat by lia.
    rewrite walk_app, long_level_at by lia.
    replace (219 + Z.of_nat (Z.to_nat (n - 437))) with (n - 218) by lia.
    replace (Z.of_nat (Z.to_nat (n - 437))) with (n - 437) by lia.
    cbn [walk]. replace (ok_turn n _ && active _) with true.
    - unfold p_turn, p_switch. cbn [ph]. unfold p_max. cbn [kk dn cc sd]. rewrite Z.eqb_refl. cbn [kk dn cc sd ph].
      replace (n - 218 + 1) with (n - 217) by lia. replace (5 - (n - (n - 218)) * 4) with (-867) by lia. reflexivity.
    - symmetry. unfold ok_turn, active. cbn [kk dn cc sd ph]. rewrite Z.eqb_refl. cbn [negb orb].
      rewrite !andb_true_iff, !Z.leb_le, Z.ltb_lt. unfold least_delay. lia.
  Qed.
  Lemma long_end : walk n (Z.to_nat n) p_start 1000
    = Some (mkP ramp_last n (-3) 12729843 (n - 218), a_level + 258322043 + 12729843).
  Proof.
    replace (Z.to_nat n) with (Z.to_nat (n - 217) + (216 + 1))%nat by lia.
    rewrite walk_app, long_top, walk_app.
    rewrite (down_walk n 216 217 (-867) least_delay a_level 1 (-3) 12729843 (a_level + 258322043) (n - 218) (down_from _)) by lia.
    cbn [walk]. replace (ok_turn n _ && active _) with true.
    - unfold p_turn, p_switch. cbn [ph]. unfold p_down. cbn [kk dn cc sd]. rewrite Z.eqb_refl. cbn [kk dn cc sd ph].
      replace (n - 1 + 1) with n by lia. reflexivity.
    - symmetry. unfold ok_turn, ok_down, active. cbn [kk dn cc sd ph]. rewrite Z.eqb_refl. cbn [orb].
      rewrite !andb_true_iff, !Z.leb_le, Z.ltb_lt. lia.
  Qed.
  Lemma long_lands : lands n (558250349 + (n - 437) * 640000).
  Proof.
    exists (mkP ramp_last n (-3) 12729843 (n - 218)), (a_level + 258322043 + 12729843).
    split; [exact long_end|]. split; [reflexivity|]. split.
    - unfold ok_turn. cbn [kk dn cc sd ph]. rewrite !andb_true_iff, !Z.leb_le, Z.ltb_lt. lia.
    - cbn [cc]. unfold a_level, least_delay, first_delay. lia.
  Qed.

  Lemma down_delay : forall j i a m' d' c' a', down j (217 - Z.of_nat i) (4 * Z.of_nat i - 867) (slow_down i) a = Some (m', d', c', a') ->
    c' = slow_down (i + j).
  Proof.
    induction j as [|j IH]; intros i a m' d' c' a' H; cbn [down] in H.
    - injection H as _ _ <- _. rewrite Nat.add_0_r. reflexivity.
    - match type of H with (if ?b then _ else _) = _ => destruct b end; [|discriminate].
      replace (i + S j)%nat with (S i + j)%nat by lia.
      apply (IH (S i) (a + slow_down i) m' d' c' a'). rewrite <- H.
      replace (217 - Z.of_nat (S i)) with (217 - Z.of_nat i - 1) by lia.
      replace (4 * Z.of_nat (S i) - 867) with (4 * Z.of_nat i - 867 + 4) by lia.
      f_equal. cbn [slow_down]. rewrite (Z.mul_comm 2). f_equal. f_equal. lia.
  Qed.
  Lemma down_prefix : forall i j k d c a r, down (i + j) k d c a = Some r -> exists r', down i k d c a = Some r'.
  Proof.
    induction i as [|i IH]; intros j k d c a r H; [eexists; reflexivity|]. cbn [Nat.add down] in *.
    match type of H with (if ?b then _ else _) = _ => destruct b end; [|discriminate]. exact (IH _ _ _ _ _ _ H).
  Qed.
  Lemma delay_at : forall k, Z.of_nat k <= n -> exists p a, walk n k p_start 1000 = Some (p, a) /\ cc p = delay_after n k.
  Proof.
    intros k K. unfold delay_after. destruct (Z.leb_spec (Z.of_nat k) 218).
    - destruct (up_prefix k (218 - k) 0 1 first_delay 1000 (218, 873, 640575, 273188045)) as ([[[k' d] c'] a] & U).
      { replace (k + (218 - k))%nat with 218%nat by lia. exact up_all. }
      exists (mkP ramp_up k' d c' 0), a. split; [apply (up_walk n k 0 1 first_delay 1000); [exact U|lia..]|].
      exact (up_delay k 0 1000 k' d c' a U).
    - destruct (Z.leb_spec (Z.of_nat k) (n - 217)).
      + destruct (Z.eq_dec (Z.of_nat k) (n - 217)) as [E|E].
        * replace k with (Z.to_nat (n - 217)) by lia. rewrite long_top. do 2 eexists. split; reflexivity.
        * replace k with (219 + (k - 219))%nat by lia. rewrite long_level_at by lia. do 2 eexists. split; reflexivity.
      + destruct (Z.eq_dec (Z.of_nat k) n) as [E|E].
        * replace (Z.min (Z.of_nat k) (n - 1) - (n - 217)) with 216 by lia.
          replace k with (Z.to_nat n) by lia. rewrite long_end. do 2 eexists. split; [reflexivity|].
          exact (down_delay 216 0 0 1 (-3) 12729843 258322043 (down_from 0)).
        * set (j := (k - Z.to_nat (n - 217))%nat).
          replace (Z.min (Z.of_nat k) (n - 1) - (n - 217)) with (Z.of_nat j) by lia. rewrite Nat2Z.id.
          replace k with (Z.to_nat (n - 217) + j)%nat by lia. rewrite walk_app, long_top.
          destruct (down_prefix j (216 - j) 217 (-867) least_delay a_level _ ltac:(replace (j + (216 - j))%nat with 216%nat by lia; apply down_from))
            as ([[[m' d] c'] a] & U).
          exists (mkP ramp_down (n - m') d c' (n - 218)), a. split; [apply (down_walk n j 217 (-867) least_delay a_level); [exact U|lia..]|].
          exact (down_delay j 0 a_level m' d c' a U).
  Qed.
  Lemma profile : forall k, Z.of_nat k <= n -> exists p, walk n k p_start 1000 = Some (p, timer_after n k) /\ cc p = delay_after n k.
  Proof.
    induction k as [|k IH]; intros K.
    - destruct (delay_at 0 K) as (p & a & W & C). cbn [walk] in W. injection W as <- <-. exists p_start. auto.
    - destruct (IH ltac:(lia)) as (p & W & C). destruct (delay_at (S k) K) as (p' & a' & W' & C').
      exists p'. split; [|assumption]. rewrite W'. replace (S k) with (k + 1)%nat in W' by lia.
      rewrite walk_app, W in W'. cbn [walk] in W'. destruct (ok_turn n p && active p); [|discriminate].
      injection W' as <- <-. cbn [timer_after]. rewrite C. reflexivity.
  Qed.
End Long.
Lemma walk_prefix : forall n i j p a r, walk n (i + j) p a = Some r -> exists p' a', walk n i p a = Some (p', a').
Proof. intros n i j p a r H. rewrite walk_app in H. destruct (walk n i p a) as [[p' a']|]; [eauto|discriminate]. Qed.
