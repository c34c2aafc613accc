(** MulExactFacts.v -- when products return. *)
From Coq Require Import ZArith Bool List Lia.
From Verif Require Import Base CType CTypeFacts Spec CheckedInteger CheckedIntegerFacts CheckedResultOps CheckedResultFacts
  Interval IntervalFacts IntervalOpsFacts ExceptionPolicy Promotion SafeBase SafeSpec SafeFacts SafePortFacts PropsArithProofs PropsArith
  LawSpec LawFacts.
Import ListNotations.
Local Open Scope Z_scope.

Definition zero_range (D : dmodel) (o : otype) : Prop := lim_lo D o = 0 /\ lim_hi D o = 0.

Lemma num_cast : forall D R o, wf_operand D o -> num (cast D R (base_ty o) (lim_lo D o)) ->
  csigned D R = true \/ 0 <= lim_lo D o.
Proof.
  intros D R o (O1 & O2 & O3) Hn.
  destruct (cast_cases D R _ _ O1) as [(I & E)|[(I & E)|[(I & J & E)|(I & J & K & E)]]]; rewrite E in Hn; cbn in Hn; try tauto.
  - destruct (csigned D R) eqn:S; [auto|]. pose proof (lo_unsigned D R S). unfold in_type in I. lia.
  - pose proof (hi_ge_127 D R). lia.
  - destruct (csigned D R) eqn:S; [auto|]. pose proof (lo_unsigned D R S). lia.
Qed.
Lemma cast_num : forall D R o, wf_operand D o -> csigned D R = true \/ 0 <= lim_lo D o ->
  num (cast D R (base_ty o) (lim_lo D o)).
Proof.
  intros D R o (O1 & O2 & O3) Hn.
  destruct (cast_cases D R _ _ O1) as [(I & E)|[(I & E)|[(I & J & E)|(I & J & K & E)]]]; rewrite E; cbn; trivial.
  destruct Hn as [S|S]; [congruence|lia].
Qed.

Lemma elided_mul : forall D R t u x y ri,
  wf_operand D t -> wf_operand D u -> holds D t x -> holds D u y ->
  r_type_interval D Mul R t u = Ok ri -> exception (il ri) = false -> exception (iu ri) = false ->
  (in_type D R x /\ in_type D R y)
  \/ ((zero_range D t \/ zero_range D u) /\ (csigned D R = true \/ (0 <= lim_lo D t /\ 0 <= lim_lo D u))).
Proof.
  intros D R t u x y ri Ht Hu Hx Hy H X1 X2. cbn [r_type_interval] in H.
  destruct (lim_ok D R t u Ht Hu) as (Oa & Ob & Oc & Od).
  unfold i_mul, minmax_of, corners, lim_interval in H. cbn [il iu] in H.
  set (a := cast D R (base_ty t) (lim_lo D t)) in *. set (b := cast D R (base_ty t) (lim_hi D t)) in *.
  set (c := cast D R (base_ty u) (lim_lo D u)) in *. set (d := cast D R (base_ty u) (lim_hi D u)) in *.
  destruct (cr_mul_total D R a c Oa Oc) as (r1 & E1 & O1 & V1).
  destruct (cr_mul_total D R a d Oa Od) as (r2 & E2 & O2 & V2).
  destruct (cr_mul_total D R b c Ob Oc) as (r3 & E3 & O3 & V3).
  destruct (cr_mul_total D R b d Ob Od) as (r4 & E4 & O4 & V4).
  rewrite E1, E2, E3, E4 in H. cbn [seq_res rbind] in H.
  assert (Hall : Forall (cr_ok D R) [r1; r2; r3; r4])
    by (do 4 (apply Forall_cons; [assumption|]); apply Forall_nil).
  destruct (minmax_spec D R r1 [r2; r3; r4] Hall) as (i & Hi & Hs).
  rewrite Hi in H. injection H as <-.
  pose proof Ht as (T1 & T2 & T3). pose proof Hu as (U1 & U2 & U3).
  apply exc_false in X1, X2. destruct X1 as [vl Xl], X2 as [vh Xh].
  destruct Hs as [[Hn ->]|(N1 & N2 & K1 & K2 & Kc & _ & _ & Nh & Hin)].
  { cbn in Xl. subst r1. cbn in Hn. tauto. }
  destruct (cr_mul_not_num D R a c r1 Oa Oc E1 Nh) as [Na Nc].
  pose proof (lim_num_hi D R t Ht Na) as Nb. pose proof (lim_num_hi D R u Hu Nc) as Nd. fold b in Nb. fold d in Nd.
  assert (S : csigned D R = true \/ (0 <= lim_lo D t /\ 0 <= lim_lo D u)).
  { destruct (num_cast D R t Ht Na); [auto|]. destruct (num_cast D R u Hu Nc); auto. }
  assert (Hv : forall r, In r [r1; r2; r3; r4] -> num r -> exists v, r = CVal v).
  { intros r Hr Nr. destruct (Hin r Hr Nr) as [A1 A2]. rewrite Xl in A1. rewrite Xh in A2.
    destruct r as [v|e]; [eauto|]. destruct e; cbn in *; tauto. }
  destruct (cr_mul_ext D R a c Oa Oc Na Nc) as (s1 & F1 & _ & M1).
  destruct (cr_mul_ext D R a d Oa Od Na Nd) as (s2 & F2 & _ & M2).
  destruct (cr_mul_ext D R b c Ob Oc Nb Nc) as (s3 & F3 & _ & M3).
  destruct (cr_mul_ext D R b d Ob Od Nb Nd) as (s4 & F4 & _ & M4).
  rewrite E1 in F1; injection F1 as <-. rewrite E2 in F2; injection F2 as <-.
  rewrite E3 in F3; injection F3 as <-. rewrite E4 in F4; injection F4 as <-.
  destruct (Hv r1) as (w1 & ->); [cbn; tauto|apply (ernd_num _ _ _ _ M1)|].
  destruct (Hv r2) as (w2 & ->); [cbn; tauto|apply (ernd_num _ _ _ _ M2)|].
  destruct (Hv r3) as (w3 & ->); [cbn; tauto|apply (ernd_num _ _ _ _ M3)|].
  destruct (Hv r4) as (w4 & ->); [cbn; tauto|apply (ernd_num _ _ _ _ M4)|].
  cbn [ernd] in M1, M2, M3, M4.
  assert (Hesgn : forall p v, esgn p = Fi v -> p = 0 /\ v = 0).
  { intros p v. esgn_cases; intros HH; try discriminate. injection HH as <-. auto. }
  assert (Zu : c = CVal 0 -> d = CVal 0 -> zero_range D u).
  { intros Zc Zd. apply cast_val in Zc; [|assumption]. apply cast_val in Zd; [|assumption]. split; lia. }
  assert (Zt : a = CVal 0 -> b = CVal 0 -> zero_range D t).
  { intros Zc Zd. apply cast_val in Zc; [|assumption]. apply cast_val in Zd; [|assumption]. split; lia. }
  destruct a as [va|ea] eqn:Ea.
  2:{ right. split; [right|exact S]. apply Zu.
      - destruct c as [vc|ec] eqn:Ec; [|destruct ea, ec; cbn in Na, Nc, M1; try tauto; discriminate].
        destruct ea; cbn in Na; try tauto; cbn in M1; apply Hesgn in M1; f_equal; lia.
      - destruct d as [vd|ed] eqn:Ed; [|destruct ea, ed; cbn in Na, Nd, M2; try tauto; discriminate].
        destruct ea; cbn in Na; try tauto; cbn in M2; apply Hesgn in M2; f_equal; lia. }
  destruct b as [vb|eb] eqn:Eb.
  2:{ right. split; [right|exact S]. apply Zu.
      - destruct c as [vc|ec] eqn:Ec; [|destruct eb, ec; cbn in Nb, Nc, M3; try tauto; discriminate].
        destruct eb; cbn in Nb; try tauto; cbn in M3; apply Hesgn in M3; f_equal; lia.
      - destruct d as [vd|ed] eqn:Ed; [|destruct eb, ed; cbn in Nb, Nd, M4; try tauto; discriminate].
        destruct eb; cbn in Nb; try tauto; cbn in M4; apply Hesgn in M4; f_equal; lia. }
  destruct c as [vc|ec] eqn:Ec.
  2:{ right. split; [left|exact S]. apply Zt.
      - destruct ec; cbn in Nc; try tauto; cbn in M1; apply Hesgn in M1; f_equal; lia.
      - destruct ec; cbn in Nc; try tauto; cbn in M3; apply Hesgn in M3; f_equal; lia. }
  destruct d as [vd|ed] eqn:Ed.
  2:{ right. split; [left|exact S]. apply Zt.
      - destruct ed; cbn in Nd; try tauto; cbn in M2; apply Hesgn in M2; f_equal; lia.
      - destruct ed; cbn in Nd; try tauto; cbn in M4; apply Hesgn in M4; f_equal; lia. }
  left. unfold a in Ea. unfold b in Eb. unfold c in Ec. unfold d in Ed.
  apply cast_val in Ea; [|assumption]. apply cast_val in Eb; [|assumption].
  apply cast_val in Ec; [|assumption]. apply cast_val in Ed; [|assumption].
  unfold holds, in_type in *. lia.
Qed.

Lemma zero_mul : forall D R p, cr_ok D R p -> num p -> cr_mul D R p (CVal 0) = Ok (CVal 0) /\ cr_mul D R (CVal 0) p = Ok (CVal 0).
Proof.
  intros D R p Hp Np. unfold cr_mul.
  assert (Z : to_pflag D R (CVal 0) = zero) by (rewrite to_pflag_val by apply zero_in; reflexivity).
  rewrite Z. pflag p Hp; cbn in Np; try (split; reflexivity). destruct e; tauto || congruence.
Qed.

Lemma zero_elides : forall D R t u ri, wf_operand D t -> wf_operand D u ->
  r_type_interval D Mul R t u = Ok ri ->
  zero_range D t \/ zero_range D u -> csigned D R = true \/ (0 <= lim_lo D t /\ 0 <= lim_lo D u) ->
  exception (il ri) = false /\ exception (iu ri) = false.
Proof.
  intros D R t u ri Ht Hu H Z S. cbn [r_type_interval] in H.
  destruct (lim_ok D R t u Ht Hu) as (Oa & Ob & Oc & Od).
  assert (Na : num (cast D R (base_ty t) (lim_lo D t))) by (apply cast_num; tauto).
  assert (Nc : num (cast D R (base_ty u) (lim_lo D u))) by (apply cast_num; tauto).
  pose proof (lim_num_hi D R t Ht Na) as Nb. pose proof (lim_num_hi D R u Hu Nc) as Nd.
  unfold i_mul, minmax_of, corners, lim_interval in H. cbn [il iu] in H.
  assert (C0 : forall T, cast D R T 0 = CVal 0).
  { intros T. apply cast_spec; apply zero_in. }
  assert (G : exists q r s t_, [r; s; t_] = [CVal 0; CVal 0; CVal 0] /\ q = CVal 0
     /\ seq_res [cr_mul D R (cast D R (base_ty t) (lim_lo D t)) (cast D R (base_ty u) (lim_lo D u));
                 cr_mul D R (cast D R (base_ty t) (lim_lo D t)) (cast D R (base_ty u) (lim_hi D u));
                 cr_mul D R (cast D R (base_ty t) (lim_hi D t)) (cast D R (base_ty u) (lim_lo D u));
                 cr_mul D R (cast D R (base_ty t) (lim_hi D t)) (cast D R (base_ty u) (lim_hi D u))] = Ok [q; r; s; t_]).
  { exists (CVal 0), (CVal 0), (CVal 0), (CVal 0). split; [reflexivity|]. split; [reflexivity|].
    destruct Z as [[Z1 Z2]|[Z1 Z2]]; rewrite Z1, Z2 in *; rewrite !C0 in *.
    - rewrite !(proj2 (zero_mul D R _ Oc Nc)), !(proj2 (zero_mul D R _ Od Nd)). reflexivity.
    - rewrite !(proj1 (zero_mul D R _ Oa Na)), !(proj1 (zero_mul D R _ Ob Nb)). reflexivity. }
  destruct G as (q & r & s & t_ & Eq1 & -> & G). injection Eq1 as -> -> ->.
  rewrite G in H. cbn [rbind] in H.
  assert (Hall : Forall (cr_ok D R) [CVal 0; CVal 0; CVal 0; CVal 0])
    by (do 4 (apply Forall_cons; [apply zero_in|]); apply Forall_nil).
  destruct (minmax_spec D R (CVal 0) [CVal 0; CVal 0; CVal 0] Hall) as (i & Hi & Hs).
  rewrite Hi in H. injection H as <-.
  destruct Hs as [[Hn _]|(_ & _ & _ & _ & _ & I1 & I2 & _)]; [cbn in Hn; tauto|].
  cbn in I1, I2. split.
  - destruct I1 as [<-|[<-|[<-|[<-|[]]]]]; reflexivity.
  - destruct I2 as [<-|[<-|[<-|[<-|[]]]]]; reflexivity.
Qed.

Lemma mul_exact_lemma : forall D t u x y s m,
  wf_operand D t -> wf_operand D u -> holds D t x -> holds D u y ->
  binary D Mul t u x y = Some (s, m) -> throws_arithmetic (sE s) ->
  let fits := (in_type D (st s) x /\ in_type D (st s) y /\ in_type D (st s) (x * y))
    \/ ((lim_lo D t = 0 /\ lim_hi D t = 0 \/ lim_lo D u = 0 /\ lim_hi D u = 0)
        /\ (csigned D (st s) = true \/ (0 <= lim_lo D t /\ 0 <= lim_lo D u))) in
  (returns m (x * y) <-> fits) /\ (throws_arith m <-> ~ fits).
Proof.
  intros D t u x y s m Ht Hu Hx Hy H HE fits.
  assert (Hf : exact_op Mul Z.mul) by (unfold exact_op; auto).
  assert (G : (returns m (x * y) /\ fits) \/ (throws_arith m /\ ~ fits)).
  { destruct (binary_inv _ _ _ _ _ _ _ _ H) as (P & E & R & ri & H1 & H2 & H3 & H4 & -> & K).
    cbn [st sE] in *.
    destruct K as [[X0 ->]|[X0 (W & casts & HW & Hk & _ & ->)]].
    - left. destruct (unchecked_run_exact Mul _ D R t u x y ri Hf Ht Hu Hx Hy H4 X0) as [A B].
      rewrite (exact_exception Mul _ _ _ _ _ _ Hf) in X0. apply orb_false_iff in X0. destruct X0 as [X0 X1].
      split; [exact A|]. destruct (elided_mul D R t u x y ri Ht Hu Hx Hy H4 X0 X1) as [[Ix Iy]|Z]; [left; auto|right; exact Z].
    - rewrite (exact_work Mul _ _ _ _ _ Hf) in HW. injection HW as <-.
      rewrite (exact_exception Mul _ _ _ _ _ _ Hf) in X0.
      destruct (checked_run_exact Mul _ D E R t u x y casts Hf HE Ht Hu Hx Hy Hk) as [(A1 & A2 & A3 & A)|[N T]].
      + left. split; [exact A|left; auto].
      + right. split; [exact T|]. intros [F|[Z S]]; [tauto|].
        destruct (zero_elides D R t u ri Ht Hu H4 Z S) as [F1 F2]. rewrite F1, F2 in X0. discriminate X0. }
  destruct G as [(A & B)|(A & B)].
  - split; [tauto|]. split; [|tauto]. intros (e & _ & T). unfold returns in A. rewrite A in T. discriminate T.
  - split; [|tauto]. split; [|tauto]. intros T. destruct A as (e & _ & A). unfold returns in T. rewrite A in T. discriminate T.
Qed.
