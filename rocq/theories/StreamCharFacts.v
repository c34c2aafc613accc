(** StreamCharFacts.v -- lemmas for PropsStreamChar.v. *)
From Coq Require Import ZArith Bool List Lia.
From Verif Require Import Base CType CTypeFacts Spec CheckedInteger CheckedResultOps Interval ExceptionPolicy
  Promotion SafeBase SafeSpec IntervalFacts Stream StreamSpec StreamFacts PropsStreamProofs.
Import ListNotations.
Local Open Scope Z_scope.

Lemma ascii_conv : forall D c, 0 <= c <= 127 -> conv D Char c = c.
Proof. intros D c H. apply conv_in. unfold in_type. destruct D; cbn; lia. Qed.

Lemma char_input : forall D s i old i' v m,
  st s = Char -> wf_operand D (OSafe s) -> throws_arithmetic (sE s) -> Forall (fun c => 0 <= c <= 127) (chars i) ->
  input D s i old = Some (i', v, m) ->
  (exists bl c rest, good i = true /\ Forall blank bl /\ ~ blank c /\ chars i = bl ++ c :: rest
   /\ (csigned D Char = true \/ c <> 45)
   /\ smin s <= c <= smax s /\ returns m tt /\ v = Some c /\ chars i' = rest /\ failbit i' = false)
  \/ (throws_arith m
      /\ forall bl c rest, good i = true -> Forall blank bl -> ~ blank c -> chars i = bl ++ c :: rest ->
         (csigned D Char = true \/ c <> 45) -> ~ (smin s <= c <= smax s)).
Proof.
  intros D s i old i' v m T W E A H. unfold input in H.
  destruct (input_compiles D s) eqn:C; [|discriminate]. destruct (input_compiled D s C) as [_ C2]. rewrite T in *. cbn [is_small_char extract_raw] in H.
  assert (Sk : forall bl c rest, Forall blank bl -> ~ blank c -> chars i = bl ++ c :: rest -> skip_ws (chars i) = c :: rest).
  { intros bl c rest B N ->. rewrite skip_ws_app by exact B. apply skip_ws_id. destruct (is_space c) eqn:Q; [|reflexivity].
    apply is_space_blank in Q. contradiction. }
  destruct (good i) eqn:G.
  - pose proof (good_parts i G) as [F Ee].
    destruct (skip_ws (chars i)) as [|c r] eqn:Es.
    + (* nothing but blanks *)
      assert (H' : failbit i' = true /\ m = dispatch (sE s) domain_error).
      { destruct (csigned D Char); cbv iota in H.
        - unfold extract_char, sentry in H. rewrite G, Es in H. cbn in H. injection H as <- <- <-. auto.
        - rewrite (reject_good i G), Es in H. cbn in H. injection H as <- <- <-. auto. }
      right. destruct H' as [_ ->]. split; [apply dispatch_domain; exact E|].
      intros bl c rest _ B N Ec. discriminate (Sk _ _ _ B N Ec).
    + destruct (skip_ws_spec (chars i)) as (bl & Eb & Bb). rewrite Es in Eb.
      assert (Nc : ~ blank c). { pose proof (skip_ws_head _ _ _ Es) as Q. intros K. apply is_space_blank in K. congruence. }
      assert (Ac : 0 <= c <= 127). { rewrite Eb, Forall_app in A. destruct A as [_ A]. inversion A; assumption. }
      assert (Q : csigned D Char = true \/ c <> 45 ->
        i' = mkIs r false false /\ v = Some c /\ m = mbind (validated D s Char c) (fun _ => mret tt)).
      { intros Ok. assert (X : extract_char D (if csigned D Char then i else reject_minus i) old = (mkIs r false false, Some c)).
        { destruct (csigned D Char) eqn:Ch.
          - unfold extract_char, sentry. rewrite G, Es. cbn. rewrite ascii_conv by exact Ac. reflexivity.
          - rewrite (reject_good i G), Es. destruct Ok as [?|Ok]; [discriminate|].
            replace (c =? ch_minus) with false by (symmetry; apply Z.eqb_neq; exact Ok).
            unfold extract_char, sentry, good. cbn [failbit eofbit negb andb chars]. rewrite skip_ws_id.
            + cbn. rewrite ascii_conv by exact Ac. reflexivity.
            + exact (skip_ws_head _ _ _ Es). }
        rewrite X in H. cbn in H. injection H as <- <- <-. auto. }
      assert (In : in_type D Char c) by (unfold in_type; destruct D; cbn; lia).
      destruct (Bool.bool_dec (csigned D Char) true) as [Ch|Ch]; [|destruct (Z.eq_dec c 45) as [->|Nm]].
      1, 3: destruct Q as (-> & -> & ->); [auto|];
        destruct (validated_char D s Char c W E In C2) as [[B R]|[B R]];
        [left; exists bl, c, r; splits; auto; try lia; eapply then_tt; eassumption
        |right; split; [apply then_throws; assumption|]; intros bl' c' rest' _ B' N' Ec _;
         pose proof (Sk _ _ _ B' N' Ec) as K; assert (c' = c) by congruence; subst c'; exact B].
      apply not_true_is_false in Ch. rewrite Ch in H. cbv iota in H. rewrite (reject_good i G), Es in H. cbn in H. injection H as <- <- <-.
      right. split; [apply dispatch_domain; exact E|]. intros bl' c' rest' _ B' N' Ec Ok.
      pose proof (Sk _ _ _ B' N' Ec) as K. assert (c' = 45) by congruence. subst c'. rewrite Ch in Ok. destruct Ok; congruence.
  - right. assert (m = dispatch (sE s) domain_error) as ->.
    { assert (Hf : failbit (fst (extract_char D (if csigned D Char then i else reject_minus i) old)) = true).
      { assert (G' : good (if csigned D Char then i else reject_minus i) = false).
        { destruct (csigned D Char); [exact G|]. unfold good. rewrite (reject_bad i G). reflexivity. }
        unfold extract_char, sentry. rewrite G'. reflexivity. }
      destruct (extract_char D (if csigned D Char then i else reject_minus i) old) as [i2 x]. cbn in Hf. rewrite Hf in H.
      injection H as _ _ <-. reflexivity. }
    split; [apply dispatch_domain; exact E|]. discriminate.
Qed.
