(** LimitsFacts.v -- proofs about numeric_limits and the display of values. *)
From Coq Require Import ZArith List Bool Lia.
From Verif Require Import Base CType Spec CTypeFacts CheckedInteger CheckedResultOps Interval
  ExceptionPolicy Promotion SafeBase SafeSpec IntervalFacts SafeFacts SafeConvFacts PropsConvProofs Stream StreamSpec
  StreamFacts PropsStreamProofs PropsArithProofs SafeDivFacts Limits LimitsSpec.
Import ListNotations.
Local Open Scope Z_scope.

(** ------------------------------------------------------------------ *)
(** reading text *)
Lemma app_sep : forall (sep : Z) (a a' r r' : list Z),
  ~ In sep a -> ~ In sep a' -> a ++ [sep] ++ r = a' ++ [sep] ++ r' -> a = a' /\ r = r'.
Proof.
  induction a as [|x a IH]; intros a' r r' N N' E; destruct a' as [|x' a']; cbn in E.
  - injection E as ->. auto.
  - injection E as -> _. exfalso. apply N'. left. reflexivity.
  - injection E as <- _. exfalso. apply N. left. reflexivity.
  - injection E as -> E. destruct (IH a' r r') as [-> ->]; auto.
    + intros K. apply N. right. assumption.
    + intros K. apply N'. right. assumption.
Qed.
Lemma denotes_chars : forall ds n, denotes ds n -> forall c, In c ds -> 48 <= c <= 57.
Proof.
  intros ds n H c I. destruct (denotes_number _ _ H) as (F & _).
  rewrite Forall_forall in F. apply is_digit_iff. auto.
Qed.
Lemma denotes_unique : forall ds n n', denotes ds n -> denotes ds n' -> n = n'.
Proof. intros ds n n' A B. apply denotes_number in A. apply denotes_number in B. intuition lia. Qed.
Lemma denotes_nonempty : forall ds n, denotes ds n -> ds <> [].
Proof. intros ds n A. apply denotes_number in A. intuition. Qed.
Lemma decimal_unique : forall cs z z', decimal_text cs z -> decimal_text cs z' -> z = z'.
Proof.
  intros cs z z' (ds & A & B) (ds' & A' & B').
  destruct B as [[B ->]|[B ->]]; destruct B' as [[B' E]|[B' E]].
  - subst ds'. pose proof (denotes_unique _ _ _ A A'). lia.
  - exfalso. pose proof (denotes_chars _ _ A 45). rewrite E in H. cbn in H. lia.
  - exfalso. pose proof (denotes_chars _ _ A' 45). rewrite <- E in H. cbn in H. lia.
  - injection E as ->. pose proof (denotes_unique _ _ _ A A'). lia.
Qed.
Lemma decimal_chars : forall cs z c, decimal_text cs z -> In c cs -> 48 <= c <= 57 \/ c = 45.
Proof.
  intros cs z c (ds & A & [[_ ->]|[_ ->]]) I.
  - left. eapply denotes_chars; eassumption.
  - destruct I as [<-|I]; [right; reflexivity|left; eapply denotes_chars; eassumption].
Qed.
Lemma range_text_unique : forall cs a b c a' b' c',
  range_text decimal_text cs a b c -> range_text decimal_text cs a' b' c' -> a = a' /\ b = b' /\ c = c'.
Proof.
  intros cs a b c a' b' c' (ta & tb & tc & -> & A & B & C) (ta' & tb' & tc' & E & A' & B' & C').
  cbn [app] in E. injection E as E.
  destruct (app_sep 44 ta ta' (tb ++ [93] ++ tc) (tb' ++ [93] ++ tc')) as [-> E1]; [| |exact E|].
  { intros K. destruct (decimal_chars _ _ _ A K); lia. }
  { intros K. destruct (decimal_chars _ _ _ A' K); lia. }
  destruct (app_sep 93 tb tb' tc tc') as [-> ->]; [| |exact E1|].
  { intros K. destruct (decimal_chars _ _ _ B K); lia. }
  { intros K. destruct (decimal_chars _ _ _ B' K); lia. }
  splits; eapply decimal_unique; eassumption.
Qed.

(** ------------------------------------------------------------------ *)
(** writing text *)
Lemma put_int_decimal : forall v, decimal_text (put_int v) v.
Proof.
  intros v. destruct (put_int_spec v) as (sg & ds & n & E & Hd & Ev & Hs & Np).
  pose proof (denotes_number _ _ Hd) as (_ & _ & _ & Hn).
  exists ds. destruct sg; [congruence| |].
  - cbn in Ev. replace (Z.abs v) with n by lia. split; [assumption|right]. split; [apply Hs; reflexivity|exact E].
  - cbn in Ev. subst v. replace (Z.abs n) with n by lia. split; [assumption|left]. split; [assumption|exact E].
Qed.
Lemma insert_value : forall D s x, wf_operand D (OSafe s) -> holds D (OSafe s) x ->
  forall hex, insert_safe D hex s x = put D hex (uac D Int (st s)) x /\ in_type D (uac D Int (st s)) x.
Proof.
  intros D s x (W1 & W2 & _) H hex. unfold holds in H. cbn in W1, W2, H.
  assert (I : in_type D (st s) x) by (unfold in_type in *; lia).
  pose proof (uac_int_preserves D (st s) x I) as J. split; [|assumption].
  unfold insert_safe. cbv zeta. f_equal. destruct (is_small_char (st s)) eqn:E.
  - assert (K : in_type D Int x).
    { pose proof (small_int D (st s) E). unfold in_type in *. lia. }
    rewrite (conv_in D Int x K). apply conv_in. exact J.
  - apply conv_in. exact J.
Qed.
Lemma insert_decimal : forall D s x, wf_operand D (OSafe s) -> holds D (OSafe s) x ->
  decimal_text (insert_safe D false s x) x.
Proof.
  intros D s x W H. destruct (insert_value D s x W H false) as [-> _]. apply put_int_decimal.
Qed.
Lemma holds_bounds : forall D s, wf_operand D (OSafe s) ->
  holds D (OSafe s) (smin s) /\ holds D (OSafe s) (smax s).
Proof. intros D s (_ & _ & W). unfold holds. cbn in *. lia. Qed.
Lemma C76_range_value_lemma : forall D s x, wf_operand D (OSafe s) -> holds D (OSafe s) x ->
  range_text decimal_text (range_value D false (OSafe s) x) (smin s) (smax s) x.
Proof.
  intros D s x W H. destruct (holds_bounds D s W) as [A B].
  exists (insert_safe D false s (smin s)), (insert_safe D false s (smax s)), (insert_safe D false s x).
  splits; [|apply insert_decimal; assumption..].
  unfold range_value, insert_interval. cbn [make_interval limits_of safe_limits nl_min nl_max fst snd insert].
  rewrite <- !app_assoc. reflexivity.
Qed.
Lemma C76_readable_lemma : forall D D' s s' x x',
  wf_operand D (OSafe s) -> holds D (OSafe s) x -> wf_operand D' (OSafe s') -> holds D' (OSafe s') x' ->
  range_value D false (OSafe s) x = range_value D' false (OSafe s') x' ->
  smin s = smin s' /\ smax s = smax s' /\ x = x'.
Proof.
  intros D D' s s' x x' W H W' H' E.
  pose proof (C76_range_value_lemma D s x W H) as A.
  pose proof (C76_range_value_lemma D' s' x' W' H') as B. rewrite E in A.
  exact (range_text_unique _ _ _ _ _ _ _ A B).
Qed.

(** hexadecimal *)
Lemma hex_digit_char : forall d, 0 <= d <= 15 -> hex_char (hex_digit d) d.
Proof.
  intros d H. unfold hex_digit, hex_char, ch_0. destruct (Z.ltb_spec d 10); lia.
Qed.
Lemma hex_of_denotes : forall fuel n, 0 <= n < 2 ^ Z.of_nat fuel -> fuel <> O ->
  hex_denotes (hex_of fuel n) n.
Proof.
  induction fuel as [|f IH]; intros n Hn Hf; [congruence|]. cbn [hex_of].
  destruct (n <? 16) eqn:E.
  - apply Z.ltb_lt in E. constructor. apply hex_digit_char. lia.
  - apply Z.ltb_ge in E.
    rewrite Nat2Z.inj_succ, Z.pow_succ_r in Hn by lia.
    assert (Hf' : f <> O) by (intros ->; cbn in Hn; lia).
    pose proof (Z.div_mod n 16 ltac:(lia)) as Dm. pose proof (Z.mod_pos_bound n 16 ltac:(lia)).
    rewrite Dm at 3. constructor.
    + apply IH; [|assumption]. split; [apply Z.div_pos; lia|]. apply Z.div_lt_upper_bound; lia.
    + apply hex_digit_char. lia.
Qed.
Lemma put_hex_denotes : forall D T v, hex_denotes (put_hex D T v) (v mod 2 ^ width D T).
Proof.
  intros D T v. unfold put_hex. cbv zeta.
  assert (0 <= v mod 2 ^ width D T).
  { apply Z.mod_pos_bound. apply Z.pow_pos_nonneg; [lia|]. destruct T, D; cbn; lia. }
  apply hex_of_denotes; [|discriminate]. split; [assumption|].
  rewrite Nat2Z.inj_succ, Z2Nat.id by apply Z.log2_nonneg.
  destruct (Z.eq_dec (v mod 2 ^ width D T) 0) as [K|K]; [rewrite K; cbn; lia|].
  apply Z.log2_spec. lia.
Qed.
Lemma nonneg_mod : forall D T v, in_type D T v -> 0 <= v -> v mod 2 ^ width D T = v.
Proof.
  intros D T v [_ B] P. apply Z.mod_small. split; [assumption|].
  assert (K : hi D T < 2 ^ width D T).
  { unfold hi. assert (2 ^ digits D T <= 2 ^ width D T); [|lia].
    apply Z.pow_le_mono_r; [lia|]. destruct T, D; cbn; lia. }
  lia.
Qed.
(** the notation of std::hex for type T *)
Definition modulo_hex (w : Z) (cs : list Z) (z : Z) : Prop := hex_denotes cs (z mod 2 ^ w).
Lemma insert_hex : forall D s x, wf_operand D (OSafe s) -> holds D (OSafe s) x ->
  hex_denotes (insert_safe D true s x) (x mod 2 ^ width D (uac D Int (st s))).
Proof.
  intros D s x W H. destruct (insert_value D s x W H true) as [-> _]. apply put_hex_denotes.
Qed.
Lemma C76_result_display_lemma : forall D s x, wf_operand D (OSafe s) -> holds D (OSafe s) x ->
  exists h d, result_display D (OSafe s) x = (h ++ [40] ++ d ++ [41], false)
  /\ decimal_text d x
  /\ range_text (fun cs z => hex_denotes cs (z mod 2 ^ width D (uac D Int (st s)))) h (smin s) (smax s) x
  /\ (0 <= smin s -> range_text hex_denotes h (smin s) (smax s) x).
Proof.
  intros D s x W H. destruct (holds_bounds D s W) as [A B].
  exists (range_value D true (OSafe s) x), (insert_safe D false s x).
  assert (R : range_value D true (OSafe s) x
    = [91] ++ insert_safe D true s (smin s) ++ [44] ++ insert_safe D true s (smax s) ++ [93] ++ insert_safe D true s x).
  { unfold range_value, insert_interval. cbn [make_interval limits_of safe_limits nl_min nl_max fst snd insert].
    rewrite <- !app_assoc. reflexivity. }
  splits.
  - reflexivity.
  - apply insert_decimal; assumption.
  - do 3 eexists. split; [exact R|]. splits; apply insert_hex; assumption.
  - intros P. do 3 eexists. split; [exact R|].
    assert (K : forall y, holds D (OSafe s) y -> hex_denotes (insert_safe D true s y) y).
    { intros y Hy. pose proof (insert_hex D s y W Hy) as I.
      destruct (insert_value D s y W Hy true) as [_ J].
      rewrite nonneg_mod in I; [assumption|assumption|]. unfold holds in Hy. cbn in Hy. lia. }
    splits; apply K; assumption.
Qed.
Lemma hex_chars : forall ds n, hex_denotes ds n -> forall c, In c ds -> 48 <= c <= 57 \/ 97 <= c <= 102.
Proof.
  intros ds n H. induction H as [c d Hc|cs n c d H IH Hc]; intros c0 I.
  - cbn in I. destruct I as [<-|[]]. unfold hex_char in Hc. lia.
  - apply in_app_or in I. destruct I as [I|[<-|[]]]; [auto|]. unfold hex_char in Hc. lia.
Qed.
Lemma C76_result_readable_lemma : forall D D' s s' x x',
  wf_operand D (OSafe s) -> holds D (OSafe s) x -> wf_operand D' (OSafe s') -> holds D' (OSafe s') x' ->
  result_display D (OSafe s) x = result_display D' (OSafe s') x' -> x = x'.
Proof.
  intros D D' s s' x x' W H W' H' E.
  destruct (C76_result_display_lemma D s x W H) as (h & d & E1 & A & B & _).
  destruct (C76_result_display_lemma D' s' x' W' H') as (h' & d' & E2 & A' & B' & _).
  rewrite E1, E2 in E. injection E as E.
  assert (K : forall W h a b c, range_text (fun cs z => hex_denotes cs (z mod 2 ^ W)) h a b c -> ~ In 40 h).
  { clear. intros W h a b c (ta & tb & tc & -> & A & B & C) I.
    repeat (apply in_app_or in I; destruct I as [I|I]).
    - cbn in I. lia.
    - apply (hex_chars _ _ A) in I. lia.
    - cbn in I. lia.
    - apply (hex_chars _ _ B) in I. lia.
    - cbn in I. lia.
    - apply (hex_chars _ _ C) in I. lia. }
  destruct (app_sep 40 h h' (d ++ [41]) (d' ++ [41])) as [_ F];
    [eapply K; exact B|eapply K; exact B'|exact E|].
  apply app_inj_tail in F. destruct F as [-> _]. eapply decimal_unique; eassumption.
Qed.

(** ------------------------------------------------------------------ *)
(** numeric_limits *)
Lemma C75_min_max_lemma : forall D s o x,
  wf_operand D (OSafe s) -> wf_operand D o -> throws_arithmetic (sE s) -> holds D o x ->
  let L := limits_of D (OSafe s) in
  nl_lowest L = nl_min L
  /\ match construct D s o x with
     | Some m => (nl_min L <= x <= nl_max L /\ returns m x) \/ (~ (nl_min L <= x <= nl_max L) /\ throws_arith m)
     | None => ~ (nl_min L <= x <= nl_max L)
     end.
Proof.
  intros D s o x W V E H L. split; [reflexivity|]. exact (C30_lemma D s o x W V E H).
Qed.
Lemma ten_two : forall D T, 10 ^ (digits D T * 643 / 2136) <= 2 ^ digits D T.
Proof.
  assert (K : forallb (fun D => forallb (fun T => 10 ^ (digits D T * 643 / 2136) <=? 2 ^ digits D T) all_ctype)
    all_dmodel = true) by (vm_compute; reflexivity).
  intros D T. rewrite forallb_forall in K. specialize (K D (all_dmodel_in D)).
  rewrite forallb_forall in K. specialize (K T (all_ctype_in T)). apply Z.leb_le. exact K.
Qed.
Lemma C75_digits_lemma : forall D s x, smin s = lo D (st s) -> smax s = hi D (st s) ->
  let L := limits_of D (OSafe s) in
  (0 <= x < nl_radix L ^ nl_digits L -> nl_min L <= x <= nl_max L)
  /\ (Z.abs x < 10 ^ nl_digits10 L -> (nl_signed L = true \/ 0 <= x) -> nl_min L <= x <= nl_max L).
Proof.
  intros D s x A B L. unfold L. cbn. rewrite A, B. pose proof (ten_two D (st s)) as T.
  pose proof (lo_le_0 D (st s)). unfold hi. split; [lia|].
  intros Hx [S|P]; [|lia]. unfold lo. rewrite S. lia.
Qed.
Lemma C75_result_lemma : forall D op t u x y s m z, op = Add \/ op = Sub \/ op = Mul ->
  wf_operand D t -> wf_operand D u -> holds D t x -> holds D u y ->
  binary D op t u x y = Some (s, m) -> throws_arithmetic (sE s) -> returns m z ->
  nl_min (limits_of D (OSafe s)) <= z <= nl_max (limits_of D (OSafe s)).
Proof.
  intros D op t u x y s m z Hop Wt Wu Hx Hy B E R. cbn.
  assert (K : forall v, exact_or_throws m (smin s) (smax s) v -> smin s <= z <= smax s).
  { intros v X. unfold exact_or_throws, returns, throws_arith in *.
    destruct X as [[C A]|(e & _ & C)]; [|congruence]. rewrite C in R. injection R as <-. assumption. }
  destruct Hop as [->|[->| ->]];
    [destruct (C21_lemma D t u x y s m) as [_ X]|destruct (C22_lemma D t u x y s m) as [_ X]
    |destruct (C23_lemma D t u x y s m) as [_ X]]; eauto.
Qed.

(** intervals and values of built-in types *)
Lemma C76_built_in_interval_lemma : forall D T l u, T <> Char -> in_type D T l -> in_type D T u ->
  (exists a b, insert_interval D false (ORaw T) (l, u) = [91] ++ a ++ [44] ++ b ++ [93]
     /\ decimal_text a l /\ decimal_text b u)
  /\ (exists a b, insert_interval D true (ORaw T) (l, u) = [91] ++ a ++ [44] ++ b ++ [93]
     /\ hex_denotes a (l mod 2 ^ (if width D T =? 8 then width D Int else width D T))
     /\ hex_denotes b (u mod 2 ^ (if width D T =? 8 then width D Int else width D T))).
Proof.
  intros D T l u HT Hl Hu.
  assert (C : forall z, in_type D UChar z -> conv D UInt z = z).
  { intros z [A B]. apply conv_in. assert (lo D UInt = 0) by (destruct D; reflexivity).
    assert (lo D UChar = 0) by (destruct D; reflexivity). assert (hi D UChar = 255) by (destruct D; reflexivity).
    assert (255 <= hi D UInt) by (destruct D; vm_compute; congruence). split; lia. }
  assert (S : forall z, in_type D SChar z -> conv D Int z = z).
  { intros z [A B]. apply conv_in. assert (lo D SChar = -128) by (destruct D; reflexivity).
    assert (hi D SChar = 127) by (destruct D; reflexivity).
    assert (lo D Int <= -128 /\ 127 <= hi D Int) by (destruct D; vm_compute; intuition congruence). split; lia. }
  assert (Iw : width D UInt = width D Int) by (destruct D; reflexivity).
  split; destruct T; try congruence; unfold insert_interval; cbn [fst snd insert]; unfold insert_raw; cbn [char_type];
    rewrite ?C, ?S by assumption; unfold put; do 2 eexists; (split; [reflexivity|]);
    try (split; apply put_int_decimal); try (rewrite <- Iw);
    match goal with |- hex_denotes (put_hex D ?T _) _ /\ _ =>
      replace (if _ =? 8 then _ else _) with (width D T) by (destruct D; reflexivity) end;
    split; apply put_hex_denotes.
Qed.
Lemma raw_bounds : forall D T, make_interval D (ORaw T) = (lo D T, hi D T).
Proof. reflexivity. Qed.
Lemma C76_built_in_lemma : forall D T x, T <> Char -> T <> SChar -> T <> UChar -> in_type D T x ->
  range_text decimal_text (range_value D false (ORaw T) x) (lo D T) (hi D T) x
  /\ exists h, result_display D (ORaw T) x = (h ++ [40] ++ put_int x ++ [41], false)
     /\ decimal_text (put_int x) x
     /\ range_text (fun cs z => hex_denotes cs (z mod 2 ^ width D T)) h (lo D T) (hi D T) x.
Proof.
  intros D T x N1 N2 N3 H.
  assert (E : char_type T = false) by (destruct T; congruence || reflexivity).
  assert (W : (if width D T =? 8 then width D Int else width D T) = width D T).
  { destruct D, T; congruence || reflexivity. }
  destruct (C76_built_in_interval_lemma D T (lo D T) (hi D T) N1 (lo_in D T) (hi_in D T))
    as [(a & b & E1 & Ha & Hb) (a' & b' & E2 & Ha' & Hb')].
  rewrite W in *. unfold result_display, range_value. rewrite raw_bounds, E1, E2. cbn [insert]. unfold insert_raw.
  rewrite E. unfold put. split.
  - exists a, b, (put_int x). splits; try assumption; [rewrite <- !app_assoc; reflexivity|apply put_int_decimal].
  - exists (([91] ++ a' ++ [44] ++ b' ++ [93]) ++ put_hex D T x). split; [reflexivity|]. split; [apply put_int_decimal|].
    exists a', b', (put_hex D T x). splits; try assumption; [rewrite <- !app_assoc; reflexivity|apply put_hex_denotes].
Qed.

Lemma C75_flags_lemma : forall D o, wf_operand D o ->
  let L := limits_of D o in
  nl_min L = lim_lo D o /\ nl_max L = lim_hi D o /\ nl_lowest L = lim_lo D o
  /\ nl_integer L = true /\ nl_exact L = true /\ nl_bounded L = true /\ nl_radix L = 2
  /\ (lim_lo D o < 0 -> nl_signed L = true)
  /\ (lim_lo D o = lo D (base_ty o) -> nl_signed L = true -> lim_lo D o < 0).
Proof.
  intros D o (H1 & _ & _). unfold in_type in H1.
  assert (K : (lo D (base_ty o) < 0 -> csigned D (base_ty o) = true) /\ (csigned D (base_ty o) = true -> lo D (base_ty o) < 0)).
  { split.
    - intros H. destruct (csigned D (base_ty o)) eqn:E; [reflexivity|]. rewrite (lo_unsigned _ _ E) in H. lia.
    - intros H. destruct D, (base_ty o); vm_compute in H |- *; congruence. }
  destruct K as [K1 K2].
  destruct o as [T|s|T N P E]; cbn in *; splits; auto; intros; try (apply K1; lia); apply K2 in H0; lia.
Qed.
