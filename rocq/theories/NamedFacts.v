(** NamedFacts.v -- lemmas for C57 with policies that have an identity. *)
From Coq Require Import ZArith List Bool Arith Lia.
From Verif Require Import Base CType ExceptionPolicy Promotion SafeBase SafeSpec SafeFacts SafeConvFacts SafeBitFacts
  SafeTraceFacts Program ToldSpec ToldFacts NamedPolicy NamedSpec.
Import ListNotations.

Section N.
  Variable pol : nat -> ep.
  Variable D : dmodel.
  Variable G : nat -> ntype.
  Let H : tenv := fun v => forget pol (G v).

  Lemma get_ep_forget : forall t, get_ep (forget pol t) = option_map pol (policy_name t).
  Proof. destruct t; reflexivity. Qed.
  Lemma common_name_inv : forall t u n, common_name t u = Some n ->
    (policy_name t = Some n \/ policy_name u = Some n)
    /\ (forall m, policy_name t = Some m \/ policy_name u = Some m -> m = n).
  Proof.
    intros t u n. unfold common_name. destruct (policy_name t) as [a|], (policy_name u) as [b|].
    - destruct (Nat.eqb_spec a b) as [->|]; [|discriminate]. intros [= ->]. split; [auto|]. intros m [K|K]; congruence.
    - intros [= ->]. split; [auto|]. intros m [K|K]; congruence.
    - intros [= ->]. split; [auto|]. intros m [K|K]; congruence.
    - discriminate.
  Qed.
  Lemma common_name_ep : forall t u n E, common_name t u = Some n ->
    common_ep (forget pol t) (forget pol u) = Some E -> pol n = E.
  Proof.
    intros t u n E Hn HE. apply common_name_inv in Hn. destruct Hn as [Hn _].
    eapply common_ep_operand; [exact HE|]. rewrite !get_ep_forget. destruct Hn as [-> | ->]; auto.
  Qed.
  Lemma common_name_some : forall t u E, common_ep (forget pol t) (forget pol u) = Some E ->
    (forall n m, policy_name t = Some n -> policy_name u = Some m -> n = m) -> exists n, common_name t u = Some n.
  Proof.
    intros t u E HE Hs. apply common_ep_from in HE. rewrite !get_ep_forget in HE. unfold common_name.
    destruct (policy_name t) as [a|], (policy_name u) as [b|]; eauto.
    - rewrite (Hs a b eq_refl eq_refl), Nat.eqb_refl. eauto.
    - cbn in HE. destruct HE; discriminate.
  Qed.

  Lemma name_from : forall e t n, n_type_of pol D G e = Some t -> policy_name t = Some n -> named_outside G e n.
  Proof.
    induction e as [o z|v|op f a IHa b IHb|a IHa|a IHa|o a IHa]; intros t n Ht Hn; cbn [n_type_of named_outside] in *.
    - congruence.
    - congruence.
    - destruct (n_type_of pol D G a) as [ta|]; [|discriminate]. destruct (n_type_of pol D G b) as [tb|]; [|discriminate].
      destruct (common_name ta tb) as [k|] eqn:Ek; [|discriminate].
      destruct (eval_binop D op _ _ 0 0) as [[s m]|]; [|discriminate]. injection Ht as <-. injection Hn as <-.
      apply common_name_inv in Ek. destruct Ek as [[K|K] _]; eauto.
    - destruct (n_type_of pol D G a) as [[|T mn mx P k|]|]; try discriminate.
      destruct (unary_minus _ _ _) as [[s m]|]; [|discriminate]. injection Ht as <-. injection Hn as <-. eauto.
    - destruct (n_type_of pol D G a) as [[|T mn mx P k|]|]; try discriminate. injection Ht as <-. eauto.
    - destruct (n_type_of pol D G a) as [ta|]; [|discriminate]. destruct (convert _ _ _ _); [|discriminate]. congruence.
  Qed.

  Lemma named_sound : forall e t, n_type_of pol D G e = Some t ->
    type_of D H (forget_e pol e) = Some (forget pol t)
    /\ (forall n, named_outside G e n -> policy_name t = Some n) /\ unmixed G e.
  Proof.
    induction e as [o z|v|op f a IHa b IHb|a IHa|a IHa|o a IHa]; intros t Ht;
      cbn [n_type_of named_outside unmixed forget_e type_of] in *.
    - injection Ht as <-. auto.
    - injection Ht as <-. unfold H. auto.
    - destruct (n_type_of pol D G a) as [ta|]; [|discriminate]. destruct (n_type_of pol D G b) as [tb|]; [|discriminate].
      destruct (IHa _ eq_refl) as (A1 & A2 & A3). destruct (IHb _ eq_refl) as (B1 & B2 & B3).
      destruct (common_name ta tb) as [k|] eqn:Ek; [|discriminate].
      destruct (eval_binop D op _ _ 0 0) as [[s m]|] eqn:Eb; [|discriminate]. injection Ht as <-.
      rewrite A1, B1, Eb. cbn [option_map fst forget policy_name].
      rewrite (common_name_ep _ _ _ _ Ek (eval_binop_ep _ _ _ _ _ _ _ _ Eb)).
      apply common_name_inv in Ek. destruct Ek as [_ Ek].
      assert (K : forall n, named_outside G a n \/ named_outside G b n -> n = k).
      { intros n [Hn|Hn]; apply Ek; auto. }
      split; [destruct s; reflexivity|]. split.
      + intros n Hn. f_equal. symmetry. auto.
      + split; [exact A3|]. split; [exact B3|]. intros n m0 Hn Hm. rewrite (K n Hn), (K m0 Hm). reflexivity.
    - destruct (n_type_of pol D G a) as [[|T mn mx P k|]|]; try discriminate. destruct (IHa _ eq_refl) as (A1 & A2 & A3).
      rewrite A1. cbn [forget].
      destruct (unary_minus D (mkSafe T mn mx P (pol k)) 0) as [[s m]|] eqn:Eb; [|discriminate]. injection Ht as <-.
      cbn [option_map fst forget policy_name]. apply binary_policy in Eb. destruct Eb as [Eb _].
      assert (pol k = sE s) as -> by (eapply common_ep_operand; [exact Eb|right; reflexivity]).
      split; [destruct s; reflexivity|]. split; [|exact A3]. intros n Hn. specialize (A2 n Hn). exact A2.
    - destruct (n_type_of pol D G a) as [[|T mn mx P k|]|]; try discriminate. destruct (IHa _ eq_refl) as (A1 & A2 & A3).
      rewrite A1. injection Ht as <-. auto.
    - destruct (n_type_of pol D G a) as [ta|]; [|discriminate]. destruct (IHa _ eq_refl) as (A1 & A2 & A3).
      rewrite A1. destruct (convert D _ _ 0); [|discriminate]. injection Ht as <-. auto.
  Qed.

  Lemma named_complete : forall e o, type_of D H (forget_e pol e) = Some o -> unmixed G e ->
    exists t, n_type_of pol D G e = Some t /\ forget pol t = o.
  Proof.
    induction e as [o z|v|op f a IHa b IHb|a IHa|a IHa|o a IHa]; intros o' Ht Hu;
      cbn [n_type_of unmixed forget_e type_of] in *.
    - injection Ht as <-. eauto.
    - injection Ht as <-. eauto.
    - destruct (type_of D H (forget_e pol a)) as [oa|]; [|discriminate].
      destruct (type_of D H (forget_e pol b)) as [ob|]; [|discriminate].
      destruct Hu as (Ua & Ub & Hu).
      destruct (IHa _ eq_refl Ua) as (ta & Ea & <-). destruct (IHb _ eq_refl Ub) as (tb & Eb & <-).
      destruct (eval_binop D op _ _ 0 0) as [[s m]|] eqn:Eo; [|discriminate]. injection Ht as <-.
      pose proof (eval_binop_ep _ _ _ _ _ _ _ _ Eo) as HE.
      destruct (common_name_some _ _ _ HE) as (k & Ek).
      { intros n n' Hn Hn'. apply Hu; [left|right]; eapply name_from; eassumption. }
      rewrite Ea, Eb, Ek, Eo. eexists. split; [reflexivity|]. cbn [forget fst].
      rewrite (common_name_ep _ _ _ _ Ek HE). destruct s; reflexivity.
    - destruct (type_of D H (forget_e pol a)) as [oa|]; [|discriminate].
      destruct (IHa _ eq_refl Hu) as (ta & Ea & <-). rewrite Ea.
      destruct ta as [T|T mn mx P k|T N P k]; cbn [forget] in Ht; try discriminate.
      destruct (unary_minus D (mkSafe T mn mx P (pol k)) 0) as [[s m]|] eqn:Eb; [|discriminate]. injection Ht as <-.
      eexists. split; [reflexivity|]. cbn [forget fst]. apply binary_policy in Eb. destruct Eb as [Eb _].
      assert (pol k = sE s) as -> by (eapply common_ep_operand; [exact Eb|right; reflexivity]). destruct s; reflexivity.
    - destruct (type_of D H (forget_e pol a)) as [oa|]; [|discriminate].
      destruct (IHa _ eq_refl Hu) as (ta & Ea & <-). rewrite Ea.
      destruct ta as [T|T mn mx P k|T N P k]; cbn [forget] in Ht; try discriminate. injection Ht as <-.
      eexists. split; reflexivity.
    - destruct (type_of D H (forget_e pol a)) as [oa|]; [|discriminate].
      destruct (IHa _ eq_refl Hu) as (ta & Ea & <-). rewrite Ea.
      destruct (convert D (forget pol o) (forget pol ta) 0); [|discriminate]. injection Ht as <-. eauto.
  Qed.

  Lemma named_exact : forall e,
    (exists t, n_type_of pol D G e = Some t) <-> (exists o, type_of D H (forget_e pol e) = Some o) /\ unmixed G e.
  Proof.
    intros e. split.
    - intros (t & Ht). apply named_sound in Ht. destruct Ht as (H1 & _ & H3). split; [eauto|exact H3].
    - intros [[o Ho] Hu]. destruct (named_complete _ _ Ho Hu) as (t & Ht & _). eauto.
  Qed.

  Lemma named_cond_exact : forall r f a b, n_cond_compiles pol D G r a b = true <->
    cond_compiles D H (Cond r f (forget_e pol a) (forget_e pol b)) = true /\ unmixed G a /\ unmixed G b
    /\ (forall n m, named_outside G a n \/ named_outside G b n -> named_outside G a m \/ named_outside G b m -> n = m).
  Proof.
    intros r f a b. unfold n_cond_compiles. cbn [cond_compiles]. split.
    - intros Hc. destruct (n_type_of pol D G a) as [ta|] eqn:Ea; [|discriminate].
      destruct (n_type_of pol D G b) as [tb|] eqn:Eb; [|discriminate].
      destruct (named_sound _ _ Ea) as (A1 & A2 & A3). destruct (named_sound _ _ Eb) as (B1 & B2 & B3).
      destruct (common_name ta tb) as [k|] eqn:Ek; [|discriminate].
      rewrite A1, B1. destruct (eval_relop D r _ _ 0 0); [|discriminate].
      split; [reflexivity|]. split; [exact A3|]. split; [exact B3|].
      apply common_name_inv in Ek. destruct Ek as [_ Ek].
      assert (K : forall n, named_outside G a n \/ named_outside G b n -> n = k).
      { intros n [Hn|Hn]; apply Ek; auto. }
      intros n n' Hn Hn'. rewrite (K n Hn), (K n' Hn'). reflexivity.
    - intros (Hc & Ua & Ub & Hu).
      destruct (type_of D H (forget_e pol a)) as [oa|] eqn:Oa; [|discriminate].
      destruct (type_of D H (forget_e pol b)) as [ob|] eqn:Ob; [|discriminate].
      destruct (named_complete _ _ Oa Ua) as (ta & Ea & <-). destruct (named_complete _ _ Ob Ub) as (tb & Eb & <-).
      rewrite Ea, Eb.
      destruct (eval_relop D r (forget pol ta) (forget pol tb) 0 0) as [m|] eqn:Er; [|discriminate].
      assert (HC : exists E, common_ep (forget pol ta) (forget pol tb) = Some E).
      { assert (Sy : forall t u E, common_ep t u = Some E -> common_ep u t = Some E).
        { intros t u E. unfold common_ep. rewrite (orb_comm (is_safe u)). destruct (_ || _); [|discriminate].
          destruct (get_ep t) as [x|], (get_ep u) as [y|]; auto.
          destruct (ep_eqb x y) eqn:Q; [|discriminate]. apply ep_eqb_eq in Q. subst y. intros [= ->].
          destruct (ep_eqb E E) eqn:R; [reflexivity|].
          exfalso. destruct E as [[| |] [| |] [| |] [| |]]; discriminate R. }
        destruct r; cbn [eval_relop] in Er; unfold s_lt, s_gt, s_le, s_ge, s_eq, s_ne in Er; unfold s_lt, s_gt, s_eq in Er;
        match type of Er with context [compare ?D ?c ?t ?u ?x ?y] =>
          destruct (compare D c t u x y) as [m'|] eqn:Em; [|discriminate];
          destruct (compare_common _ _ _ _ _ _ _ Em) as [[E HE] _]; exists E; auto end. }
      destruct HC as [E HE]. destruct (common_name_some _ _ _ HE) as (k & Ek).
      { intros n n' Hn Hn'. apply Hu; [left|right]; eapply name_from; eassumption. }
      rewrite Ek. reflexivity.
  Qed.

  Lemma named_compound_exact : forall op v e, n_compound_compiles pol D G op v e = true <->
    compiles D H (CCompound op v (forget_e pol e)) = true /\ unmixed G e
    /\ (forall n m, policy_name (G v) = Some n \/ named_outside G e n -> policy_name (G v) = Some m \/ named_outside G e m -> n = m).
  Proof.
    intros op v e. unfold n_compound_compiles. cbn [compiles]. split.
    - intros Hc. destruct (n_type_of pol D G e) as [te|] eqn:Ee; [|discriminate].
      destruct (named_sound _ _ Ee) as (A1 & A2 & A3).
      destruct (common_name (G v) te) as [k|] eqn:Ek; [|discriminate].
      rewrite A1. fold (H v) in *. destruct (compound D op _ _ 0 0); [|discriminate].
      split; [reflexivity|]. split; [exact A3|].
      apply common_name_inv in Ek. destruct Ek as [_ Ek].
      assert (K : forall n, policy_name (G v) = Some n \/ named_outside G e n -> n = k).
      { intros n [Hn|Hn]; apply Ek; auto. }
      intros n n' Hn Hn'. rewrite (K n Hn), (K n' Hn'). reflexivity.
    - intros (Hc & Ue & Hu).
      destruct (type_of D H (forget_e pol e)) as [oe|] eqn:Oe; [|discriminate].
      destruct (named_complete _ _ Oe Ue) as (te & Ee & <-). rewrite Ee. unfold H in Hc.
      destruct (compound D op (forget pol (G v)) (forget pol te) 0 0) as [m|] eqn:Em; [|discriminate].
      assert (HC : exists E, common_ep (forget pol (G v)) (forget pol te) = Some E).
      { unfold compound in Em. destruct (eval_binop D op _ _ 0 0) as [[s m']|] eqn:Eo; [|discriminate].
        exists (sE s). exact (eval_binop_ep _ _ _ _ _ _ _ _ Eo). }
      destruct HC as [E HE]. destruct (common_name_some _ _ _ HE) as (k & Ek).
      { intros n n' Hn Hn'. apply Hu; [left; exact Hn|right; eapply name_from; eassumption]. }
      rewrite Ek. reflexivity.
  Qed.
End N.
