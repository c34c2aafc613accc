(** ErrorTextFacts.v -- lemmas for PropsErrorText.v. *)
From Coq Require Import ZArith List Bool Lia String.
From Verif Require Import Base CType Spec CTypeFacts IntervalFacts Stream StreamSpec StreamFacts Limits ErrorText.
Import ListNotations.
Local Open Scope list_scope.
Local Open Scope Z_scope.

Lemma split_unique : forall (x : Z) a b a' b', ~ In x a -> ~ In x a' -> a ++ x :: b = a' ++ x :: b' -> a = a' /\ b = b'.
Proof.
  intros x. induction a as [|c a IH]; intros b [|c' a'] b' N N' H; cbn in *.
  - injection H as <-. auto.
  - injection H as <- _. tauto.
  - injection H as -> _. tauto.
  - injection H as <- H. destruct (IH b a' b') as [-> ->]; auto.
Qed.
Lemma split_last : forall (x : Z) a b a' b', ~ In x b -> ~ In x b' -> a ++ x :: b = a' ++ x :: b' -> a = a' /\ b = b'.
Proof.
  intros x a b a' b' N N' H. apply (f_equal (@rev Z)) in H. rewrite !rev_app_distr in H. cbn [rev] in H.
  rewrite <- !app_assoc in H. cbn [app] in H. apply split_unique in H; [|rewrite <- in_rev; assumption..].
  destruct H as [H1 H2]. split; [rewrite <- (rev_involutive a), H2, rev_involutive|rewrite <- (rev_involutive b), H1, rev_involutive]; reflexivity.
Qed.
Lemma no_colon : forall e, ~ In 58 (message e).
Proof. intros e. assert (H : forallb (fun c => negb (c =? 58)) (message e) = true) by (destruct e; reflexivity).
  intros K. rewrite forallb_forall in H. specialize (H 58 K). discriminate. Qed.
Lemma message_inj : forall e e', message e = message e' -> e = e'.
Proof. intros e e' H. destruct e, e'; reflexivity || discriminate H. Qed.
Lemma literal_inj : forall e e', literal_string e = literal_string e' -> e = e'.
Proof. intros e e' H. destruct e, e'; reflexivity || discriminate H. Qed.
Lemma code_inj : forall e e', error_code_value e = error_code_value e' -> e = e'.
Proof. intros e e' H. destruct e, e'; reflexivity || discriminate H. Qed.
Lemma code_success : forall e, error_code_value e = 0 <-> e = success.
Proof. intros e. split; [intros H; destruct e; reflexivity || discriminate H|intros ->; reflexivity]. Qed.
Lemma what_inj : forall e msg e' msg', what e msg = what e' msg' -> e = e' /\ msg = msg'.
Proof.
  intros e msg e' msg' H. unfold what in H.
  change (codes ": "%string) with [58; 32] in H. cbn [app] in H.
  assert (N : forall e, ~ In 58 (32 :: message e)) by (intros e0 [K|K]; [discriminate|exact (no_colon e0 K)]).
  destruct (split_last 58 msg (32 :: message e) msg' (32 :: message e')) as [-> K]; auto.
  injection K as K. split; [apply message_inj; exact K|reflexivity].
Qed.

Lemma put_int_numeral : forall v, exists sg, numeral (put_int v) sg v [].
Proof.
  intros v. destruct (put_int_spec v) as (sg & ds & n & E & Hd & Ex & _). exists sg, [], ds, n.
  rewrite app_nil_r. cbn [app]. repeat split; auto.
  all: try (intros; discriminate). all: try constructor.
Qed.
Lemma put_int_inj : forall v w, put_int v = put_int w -> v = w.
Proof.
  intros v w H. destruct (put_int_numeral v) as (sg & N). destruct (put_int_numeral w) as (sg' & N'). rewrite H in N.
  destruct (numeral_unique _ _ _ _ _ _ _ N N') as (-> & _). reflexivity.
Qed.
Lemma insert_raw_inj : forall D T v w, in_type D T v -> in_type D T w -> insert_raw D false T v = insert_raw D false T w -> v = w.
Proof.
  intros D T v w Hv Hw H. unfold insert_raw in H. destruct (char_type T) eqn:E; cbn [put] in H; [|apply put_int_inj; exact H].
  injection H as H. unfold in_type in *.
  assert (K : lo D T = -128 /\ hi D T = 127 \/ lo D T = 0 /\ hi D T = 255) by (destruct T; try discriminate; destruct D; vm_compute; auto).
  assert (C : forall x, conv D UChar x = x mod 256) by (intros x; destruct D; reflexivity).
  rewrite !C in H. assert (V : (v - w) mod 256 = 0) by (rewrite Zminus_mod, H, Z.sub_diag; reflexivity).
  apply Z.mod_divide in V; [|lia]. destruct V as (q & V). nia.
Qed.
Lemma cr_output_inj : forall D R c msg c' msg',
  (forall x, c = CVal x -> in_type D R x) -> (forall x, c' = CVal x -> in_type D R x) ->
  cr_output D R c msg = cr_output D R c' msg' -> c = c' /\ (forall e, c = CErr e -> msg = msg').
Proof.
  intros D R c msg c' msg' Hc Hc' H. destruct c as [x|e], c' as [y|e']; unfold cr_output in H;
    change (codes "0"%string) with [48] in H; change (codes "1"%string) with [49] in H; change (codes ":"%string) with [58] in H; cbn [app] in H; try discriminate.
  - injection H as H. specialize (Hc x eq_refl). specialize (Hc' y eq_refl).
    assert (x = y) as ->; [|split; [reflexivity|intros; discriminate]].
    destruct R; try (apply (insert_raw_inj D _ _ _ Hc Hc') in H; exact H).
    assert (K : forall z, in_type D SChar z -> conv D Short z = z /\ in_type D Short z).
    { intros z Hz. assert (I : in_type D Short z).
      { unfold in_type in *. assert (lo D Short <= lo D SChar /\ hi D SChar <= hi D Short) by (destruct D; vm_compute; split; congruence). lia. }
      split; [apply conv_id; exact I|exact I]. }
    destruct (K x Hc) as [E1 I1]. destruct (K y Hc') as [E2 I2]. rewrite E1, E2 in H. exact (insert_raw_inj D Short x y I1 I2 H).
  - injection H as H. destruct (split_unique 58 (message e) msg (message e') msg') as [E ->]; auto using no_colon.
    apply message_inj in E. subst e'. split; reflexivity.
Qed.
Lemma cr_output_decimal : forall D R x msg, in_type D R x -> R <> Char -> R <> UChar ->
  exists sg ds n, cr_output D R (CVal x) msg = 48 :: sign_text sg ++ ds /\ denotes ds n /\ x = signed sg n
  /\ (sg = Minus <-> x < 0) /\ sg <> Plus.
Proof.
  intros D R x msg H N1 N2. destruct (put_int_spec x) as (sg & ds & n & E & K). exists sg, ds, n. split; [|exact K].
  unfold cr_output. change (codes "0"%string) with [48]. cbn [app]. f_equal. rewrite <- E.
  destruct R; try congruence; try reflexivity.
  unfold insert_raw. cbn [char_type put]. f_equal. apply conv_id. unfold in_type in *.
  assert (lo D Short <= lo D SChar /\ hi D SChar <= hi D Short) by (destruct D; vm_compute; split; congruence). lia.
Qed.
Lemma texts_lemma : forall e e', message e = message e' \/ literal_string e = literal_string e'
  \/ error_code_value e = error_code_value e' -> e = e'.
Proof. intros e e' [H|[H|H]]; [apply message_inj|apply literal_inj|apply code_inj]; exact H. Qed.
