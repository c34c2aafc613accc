(** LawProgFacts.v -- lemmas for C82 *)
From Coq Require Import ZArith Bool List Lia.
From Verif Require Import Base CType CTypeFacts Spec ExceptionPolicy Promotion SafeBase SafeSpec Program ProgramSpec PropsProgram PropsArith SafeFacts.
Local Open Scope Z_scope.

Lemma C82_lemma : forall nat nat' D D' G G' s s' i i' e e' t t' a b,
  (forall v, type_ok nat D (G v)) -> store_ok D G s i -> expr_ok nat D e -> type_of D G e = Some t ->
  (forall v, type_ok nat' D' (G' v)) -> store_ok D' G' s' i' -> expr_ok nat' D' e' -> type_of D' G' e' = Some t' ->
  value i e = value i' e' ->
  returns (eval D G s e) a -> returns (eval D' G' s' e') b -> a = b.
Proof.
  intros n n' D D' G G' s s' i i' e e' t t' a b T S O Ty T' S' O' Ty' V R R'.
  destruct (C35_expressions n D G s i e t T S O Ty) as [(z & Z1 & Z2 & _)|(x & _ & K)];
    unfold returns in *; [|rewrite R in K; discriminate K].
  destruct (C35_expressions n' D' G' s' i' e' t' T' S' O' Ty') as [(z' & Z1' & Z2' & _)|(x & _ & K)];
    unfold returns in *; [|rewrite R' in K; discriminate K].
  congruence.
Qed.
Lemma native_same_type : forall D t u x y x' y' s s' m m',
  binary D Div t u x y = Some (s, m) -> binary D Mod t u x' y' = Some (s', m') ->
  sP s = Native -> sP s' = Native -> st s = st s'.
Proof.
  intros D t u x y x' y' s s' m m' H H' P P'.
  destruct (binary_inv _ _ _ _ _ _ _ _ H) as (Q & E & R & ri & H1 & H2 & H3 & H4 & -> & _).
  destruct (binary_inv _ _ _ _ _ _ _ _ H') as (Q' & E' & R' & ri' & H1' & H2' & H3' & H4' & -> & _).
  cbn [sP st] in *. subst Q Q'. cbn [result_base_type native_result] in *. congruence.
Qed.
Lemma C82_division_lemma : forall D t u x y s s' m m' q r,
  wf_operand D t -> wf_operand D u -> holds D t x -> holds D u y ->
  binary D Div t u x y = Some (s, m) -> binary D Mod t u x y = Some (s', m') ->
  sP s = Native -> sP s' = Native -> throws_arithmetic (sE s) -> throws_arithmetic (sE s') ->
  ~ (lo D (st s') < 0 /\ x = lo D (st s') /\ y = lo D (st s')) ->
  returns m q -> returns m' r -> q * y + r = x.
Proof.
  intros D t u x y s s' m m' q r Ht Hu Hx Hy H H' P P' HE HE' N R R'.
  destruct (C24_safe_divide_native D t u x y s m Ht Hu Hx Hy H HE P) as (W & Z0 & Q).
  destruct (Z.eq_dec y 0) as [->|Hn].
  { destruct (Z0 eq_refl) as (e & _ & K). unfold returns in R. rewrite R in K. discriminate K. }
  specialize (Q Hn). unfold exact_or_throws, returns in *.
  destruct Q as [[Q B]|(e & _ & K)]; [|rewrite R in K; discriminate K].
  rewrite R in Q. injection Q as ->.
  pose proof (native_same_type D t u x y x y s s' m m' H H' P P') as ES.
  assert (N' : ~ (lo D (st s') < 0 /\ x = lo D (st s') /\ (y = lo D (st s') \/ y = -1))).
  { intros (L & X & [Y|Y]); [tauto|]. destruct W as (W1 & W2 & W3). cbn in W1, W2, W3. unfold in_type in *.
    rewrite ES in *. subst x y. change (-1) with (- (1)) in B. rewrite Z.quot_opp_r, Z.quot_1_r in B by lia.
    destruct (csigned D (st s')) eqn:Es.
    - pose proof (hi_pos_lo D (st s') Es). lia.
    - pose proof (lo_unsigned D (st s') Es). lia. }
  destruct (C25_safe_modulus_partial D t u x y s' m' Ht Hu Hx Hy H' HE' (or_introl P') N') as (_ & Q').
  specialize (Q' Hn). unfold exact_or_throws, returns in *.
  destruct Q' as [[Q' _]|(e & _ & K)]; [|rewrite R' in K; discriminate K].
  rewrite R' in Q'. injection Q' as ->. unfold remainder. lia.
Qed.
