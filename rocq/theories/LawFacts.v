(** LawFacts.v -- lemmas for PropsLaws.v: when sums and differences return, when
    cpp<...> promotion agrees with the compiler and commutes, algebraic laws. *)
From Coq Require Import ZArith Bool List Sorted Lia.
From Verif Require Import Base CType CTypeFacts Spec CheckedInteger CheckedIntegerFacts CheckedResultOps CheckedResultFacts
  Interval IntervalFacts ExceptionPolicy Promotion SafeBase SafeSpec SafeFacts SafePortFacts PropsArithProofs PropsArith
  PropsConv PropsStatic LawSpec.
Import ListNotations.
Local Open Scope Z_scope.

(** C38: exactly when + and - return *)
Lemma elided_in : forall op D R t u x y ri, op = Add \/ op = Sub ->
  wf_operand D t -> wf_operand D u -> holds D t x -> holds D u y ->
  r_type_interval D op R t u = Ok ri -> exception (il ri) = false -> exception (iu ri) = false ->
  in_type D R x /\ in_type D R y.
Proof.
  intros op D R t u x y ri Hop Ht Hu Hx Hy H X1 X2.
  pose proof (lim_interval_ok D R t Ht) as [Oa Ob]. pose proof (lim_interval_ok D R u Hu) as [Oc Od].
  destruct Ht as (T1 & T2 & T3), Hu as (U1 & U2 & U3).
  assert (A : exists a b c d, cast D R (base_ty t) (lim_lo D t) = CVal a /\ cast D R (base_ty t) (lim_hi D t) = CVal b
     /\ cast D R (base_ty u) (lim_lo D u) = CVal c /\ cast D R (base_ty u) (lim_hi D u) = CVal d).
  { destruct Hop as [->| ->]; cbn [r_type_interval] in H; unfold i_add, i_sub, lim_interval in *; cbn [il iu] in *.
    - destruct (cr_add_total D R _ _ Oa Oc) as (l & El & _ & Vl).
      destruct (cr_add_total D R _ _ Ob Od) as (h & Eh & _ & Vh).
      rewrite El, Eh in H. cbn in H. injection H as <-. cbn [il iu] in *.
      apply exc_false in X1, X2. destruct X1 as [v ->], X2 as [w ->].
      destruct (Vl v eq_refl) as (a & c & A & C & _). destruct (Vh w eq_refl) as (b & d & B & E & _).
      exists a, b, c, d. auto.
    - destruct (cr_sub_total D R _ _ Oa Od) as (l & El & _ & Vl).
      destruct (cr_sub_total D R _ _ Ob Oc) as (h & Eh & _ & Vh).
      rewrite El, Eh in H. cbn in H. injection H as <-. cbn [il iu] in *.
      apply exc_false in X1, X2. destruct X1 as [v ->], X2 as [w ->].
      destruct (Vl v eq_refl) as (a & d & A & C & _). destruct (Vh w eq_refl) as (b & c & B & E & _).
      exists a, b, c, d. auto. }
  destruct A as (a & b & c & d & Ea & Eb & Ec & Ed).
  apply cast_val in Ea; [|assumption]. apply cast_val in Eb; [|assumption].
  apply cast_val in Ec; [|assumption]. apply cast_val in Ed; [|assumption].
  unfold holds, in_type in *. lia.
Qed.

Lemma add_sub_returns : forall op D t u x y s m, op = Add \/ op = Sub ->
  wf_operand D t -> wf_operand D u -> holds D t x -> holds D u y ->
  binary D op t u x y = Some (s, m) -> throws_arithmetic (sE s) ->
  (returns m (exact op x y) /\ in_type D (st s) x /\ in_type D (st s) y /\ in_type D (st s) (exact op x y))
  \/ (throws_arith m /\ ~ (in_type D (st s) x /\ in_type D (st s) y /\ in_type D (st s) (exact op x y))).
Proof.
  intros op D t u x y s m Hop Ht Hu Hx Hy H HE.
  assert (Hf : exact_op op (exact op)) by (destruct Hop as [->| ->]; unfold exact_op; cbn [exact]; auto).
  destruct (binary_inv _ _ _ _ _ _ _ _ H) as (P & E & R & ri & H1 & H2 & H3 & H4 & -> & K).
  cbn [st sE] in *.
  destruct K as [[X0 ->]|[X1 (W & casts & HW & Hk & _ & ->)]].
  - left. destruct (unchecked_run_exact op _ D R t u x y ri Hf Ht Hu Hx Hy H4 X0) as [A B].
    rewrite (exact_exception op _ _ _ _ _ _ Hf) in X0. apply orb_false_iff in X0. destruct X0 as [X0 X1].
    destruct (elided_in op D R t u x y ri Hop Ht Hu Hx Hy H4 X0 X1). auto.
  - rewrite (exact_work op _ _ _ _ _ Hf) in HW. injection HW as <-.
    destruct (checked_run_exact op _ D E R t u x y casts Hf HE Ht Hu Hx Hy Hk) as [(A1 & A2 & A3 & A)|[N T]]; auto.
Qed.

Lemma C38_exact_lemma : forall op D t u x y s m, op = Add \/ op = Sub ->
  wf_operand D t -> wf_operand D u -> holds D t x -> holds D u y ->
  binary D op t u x y = Some (s, m) -> throws_arithmetic (sE s) ->
  (returns m (exact op x y) <-> in_type D (st s) x /\ in_type D (st s) y /\ in_type D (st s) (exact op x y))
  /\ (throws_arith m <-> ~ (in_type D (st s) x /\ in_type D (st s) y /\ in_type D (st s) (exact op x y))).
Proof.
  intros op D t u x y s m Hop Ht Hu Hx Hy H HE.
  destruct (add_sub_returns op D t u x y s m Hop Ht Hu Hx Hy H HE) as [(A & B)|(A & B)].
  - split; [tauto|]. split; [|tauto]. intros (e & _ & T). unfold returns in A. rewrite A in T. discriminate T.
  - split; [|tauto]. split; [|tauto]. intros T. destruct A as (e & _ & A). unfold returns in T. rewrite A in T. discriminate T.
Qed.

(** C40: exactly when cpp with the host's widths promotes like the host *)
Ltac all_types T := destruct T.
Lemma C40_exact_64_lemma : forall D T U, D = LP64 \/ D = LP64u ->
  (cpp_result D 8 16 (width D Int) (width D Long) (width D LLong) T U = Some (uac D T U)
   <-> ~ (uac D T U = Int
          /\ (csigned D T = false /\ width D T < width D Int \/ csigned D U = false /\ width D U < width D Int))
       /\ ~ (T = ULong /\ U = LLong) /\ ~ (T = LLong /\ U = ULong)).
Proof.
  intros D T U [->| ->]; destruct T; destruct U;
    (split; [intros H; first [exfalso; vm_compute in H; discriminate H | vm_compute; intuition congruence]
            |intros H; first [vm_compute; reflexivity
                             | exfalso; vm_compute in H; intuition congruence]]).
Qed.
Lemma C40_exact_32_lemma : forall D T U, D = LLP64 \/ D = ILP32 ->
  (cpp_result D 8 16 (width D Int) (width D Long) (width D LLong) T U = Some (uac D T U)
   <-> ~ ((csigned D T = false /\ width D T < width D Int) /\ In (uac D T U) [Int; Long])
       /\ ~ ((csigned D U = false /\ width D U < width D Int) /\ In (uac D T U) [Int; Long])
       /\ ~ (In T [Long; ULong] /\ In U [LLong; ULLong]) /\ ~ (In T [LLong; ULLong] /\ In U [Long; ULong])
       /\ ~ (T = UInt /\ U = Long) /\ ~ (T = Long /\ U = UInt)).
Proof.
  intros D T U [->| ->]; destruct T; destruct U;
    (split; [intros H; first [exfalso; vm_compute in H; discriminate H | vm_compute; intuition congruence]
            |intros H; first [vm_compute; reflexivity
                             | exfalso; vm_compute in H; intuition congruence]]).
Qed.

Lemma C40_exact_16_lemma : forall T U,
  (cpp_result IP16 8 16 (width IP16 Int) (width IP16 Long) (width IP16 LLong) T U = Some (uac IP16 T U)
   <-> ~ (In T [SChar; UChar; Char; Short; UShort] /\ In U [SChar; UChar; Char; Short; UShort])
       /\ ~ (In T [UChar; UShort] /\ U = Int) /\ ~ (T = Int /\ In U [UChar; UShort])
       /\ ~ (In T [Int; UInt] /\ In U [Long; ULong; LLong; ULLong])
       /\ ~ (In T [Long; ULong; LLong; ULLong] /\ In U [Int; UInt])).
Proof.
  intros T U; destruct T; destruct U;
    (split; [intros H; first [exfalso; vm_compute in H; discriminate H | vm_compute; intuition congruence]
            |intros H; first [vm_compute; reflexivity
                             | exfalso; vm_compute in H; intuition congruence]]).
Qed.

(** C47 *)
Lemma commute_any : forall D op f t u x y s m s' m', commutative_op op -> exact_op op f ->
  (forall a b, f a b = f b a) ->
  wf_operand D t -> wf_operand D u -> holds D t x -> holds D u y ->
  binary D op t u x y = Some (s, m) -> binary D op u t y x = Some (s', m') ->
  st s = st s' -> throws_arithmetic (sE s) ->
  s = s' /\ ((exists v, returns m v /\ returns m' v) \/ (throws_arith m /\ throws_arith m')).
Proof.
  intros D op f t u x y s m s' m' Hc Hop Hf Ht Hu Hx Hy H H' HS HE.
  destruct (binary_inv _ _ _ _ _ _ _ _ H) as (P & E & R & ri & H1 & H2 & H3 & H4 & -> & K).
  destruct (binary_inv _ _ _ _ _ _ _ _ H') as (P' & E' & R' & ri' & H1' & H2' & H3' & H4' & -> & K').
  rewrite common_pp_comm, H1 in H1'. injection H1' as <-.
  rewrite common_ep_comm, H2 in H2'. injection H2' as <-. cbn [st sP sE] in HS, HE. subst R'.
  rewrite (r_interval_comm D op R u t) in H4' by assumption. rewrite H4 in H4'. injection H4' as <-.
  split; [reflexivity|].
  assert (X : exception_possible D op R u t ri = exception_possible D op R t u ri)
    by (rewrite !(exact_exception op f) by assumption; reflexivity).
  rewrite X in K'.
  destruct K as [[X0 ->]|[X1 (W & casts & HW & Hk & _ & ->)]];
  destruct K' as [[X0' ->]|[X1' (W' & casts' & HW' & Hk' & _ & ->)]]; try congruence.
  - left. exists (f x y).
    destruct (unchecked_run_exact op f D R t u x y ri Hop Ht Hu Hx Hy H4 X0) as [A _].
    rewrite <- X in X0. rewrite (r_interval_comm D op R t u) in H4 by assumption.
    destruct (unchecked_run_exact op f D R u t y x ri Hop Hu Ht Hy Hx H4 X0) as [B _].
    rewrite (Hf y x) in B. auto.
  - rewrite (exact_work op f) in HW, HW' by assumption. injection HW as <-. injection HW' as <-.
    pose proof (checked_run_exact op f D E R t u x y casts Hop HE Ht Hu Hx Hy Hk) as C.
    pose proof (checked_run_exact op f D E R u t y x casts' Hop HE Hu Ht Hy Hx Hk') as C'.
    rewrite (Hf y x) in C'.
    destruct C as [(A1 & A2 & A3 & A)|[N T]]; destruct C' as [(A1' & A2' & A3' & A')|[N' T']]; try tauto.
    left. eauto.
Qed.
Lemma C47_same_lemma : forall D op t u x y s m s' m', op = Add \/ op = Mul ->
  wf_operand D t -> wf_operand D u -> holds D t x -> holds D u y ->
  binary D op t u x y = Some (s, m) -> binary D op u t y x = Some (s', m') ->
  st s = st s' -> throws_arithmetic (sE s) ->
  s = s' /\ ((exists v, returns m v /\ returns m' v) \/ (throws_arith m /\ throws_arith m')).
Proof.
  intros D op t u x y s m s' m' [->| ->] Ht Hu Hx Hy H H' HS HE.
  - apply (commute_any D Add Z.add t u x y s m s' m'); auto; [left; auto|left; auto|intros; lia].
  - apply (commute_any D Mul Z.mul t u x y s m s' m'); auto; [right; auto|right; right; auto|intros; lia].
Qed.
Lemma cpp_host_comm : forall D T U,
  cpp_result D 8 16 (width D Int) (width D Long) (width D LLong) T U
  = cpp_result D 8 16 (width D Int) (width D Long) (width D LLong) U T.
Proof. intros D T U; destruct D; destruct T; destruct U; vm_compute; reflexivity. Qed.
Lemma C47_cpp_lemma : forall D op t u x y s m s' m', op = Add \/ op = Mul ->
  wf_operand D t -> wf_operand D u -> holds D t x -> holds D u y ->
  binary D op t u x y = Some (s, m) -> binary D op u t y x = Some (s', m') ->
  sP s = Cpp 8 16 (width D Int) (width D Long) (width D LLong) -> throws_arithmetic (sE s) ->
  s = s' /\ ((exists v, returns m v /\ returns m' v) \/ (throws_arith m /\ throws_arith m')).
Proof.
  intros D op t u x y s m s' m' Hop Ht Hu Hx Hy H H' HP HE.
  apply (C47_same_lemma D op t u x y s m s' m'); auto.
  destruct (binary_inv _ _ _ _ _ _ _ _ H) as (P & E & R & ri & H1 & H2 & H3 & H4 & -> & K).
  destruct (binary_inv _ _ _ _ _ _ _ _ H') as (P' & E' & R' & ri' & H1' & H2' & H3' & H4' & -> & K').
  rewrite common_pp_comm, H1 in H1'. injection H1' as <-. cbn [st sP] in *. subst P.
  cbn [result_base_type] in H3, H3'. rewrite cpp_host_comm in H3'. congruence.
Qed.

(** C81 *)
Lemma C29_lt : forall D t u x y m b, wf_operand D t -> wf_operand D u -> holds D t x -> holds D u y ->
  (forall E, get_ep t = Some E \/ get_ep u = Some E -> throws_arithmetic E) ->
  s_lt D t u x y = Some m -> returns m b -> b = (x <? y).
Proof.
  intros D t u x y m b Ht Hu Hx Hy HE H Hb.
  destruct (C29_comparisons D t u x y Ht Hu Hx Hy HE) as (A & _). destruct (A m H) as [R|(e & _ & R)];
    unfold returns in *; rewrite Hb in R; congruence.
Qed.
Lemma C81_transitive_lemma : forall D t u v x y z m1 m2 m3 b,
  wf_operand D t -> wf_operand D u -> wf_operand D v -> holds D t x -> holds D u y -> holds D v z ->
  (forall E, get_ep t = Some E \/ get_ep u = Some E \/ get_ep v = Some E -> throws_arithmetic E) ->
  s_lt D t u x y = Some m1 -> s_lt D u v y z = Some m2 -> s_lt D t v x z = Some m3 ->
  returns m1 true -> returns m2 true -> returns m3 b -> b = true.
Proof.
  intros D t u v x y z m1 m2 m3 b Ht Hu Hv Hx Hy Hz HE H1 H2 H3 R1 R2 R3.
  pose proof (C29_lt D t u x y m1 true Ht Hu Hx Hy ltac:(intros ? [?|?]; apply HE; auto) H1 R1) as A.
  pose proof (C29_lt D u v y z m2 true Hu Hv Hy Hz ltac:(intros ? [?|?]; apply HE; auto) H2 R2) as B.
  pose proof (C29_lt D t v x z m3 b Ht Hv Hx Hz ltac:(intros ? [?|?]; apply HE; auto) H3 R3) as C.
  symmetry in A, B. apply Z.ltb_lt in A, B. rewrite C. apply Z.ltb_lt. lia.
Qed.
Lemma C81_equal_lemma : forall D t u v x y z m1 m2 m3 b c,
  wf_operand D t -> wf_operand D u -> wf_operand D v -> holds D t x -> holds D u y -> holds D v z ->
  (forall E, get_ep t = Some E \/ get_ep u = Some E \/ get_ep v = Some E -> throws_arithmetic E) ->
  s_eq D t u x y = Some m1 -> s_lt D u v y z = Some m2 -> s_lt D t v x z = Some m3 ->
  returns m1 true -> returns m2 b -> returns m3 c -> b = c.
Proof.
  intros D t u v x y z m1 m2 m3 b c Ht Hu Hv Hx Hy Hz HE H1 H2 H3 R1 R2 R3.
  destruct (C29_comparisons D t u x y Ht Hu Hx Hy ltac:(intros ? [?|?]; apply HE; auto)) as (_ & _ & _ & _ & A & _).
  destruct (A m1 H1) as [K|(e & _ & K)]; unfold returns in *; rewrite R1 in K; [|discriminate K].
  injection K as K. symmetry in K. apply Z.eqb_eq in K. subst y.
  pose proof (C29_lt D u v x z m2 b Hu Hv Hy Hz ltac:(intros ? [?|?]; apply HE; auto) H2 R2) as B.
  pose proof (C29_lt D t v x z m3 c Ht Hv Hx Hz ltac:(intros ? [?|?]; apply HE; auto) H3 R3) as C. congruence.
Qed.
Lemma C81_consistent_lemma : forall D t u x y lt gt le ge eq ne a b c d e f,
  wf_operand D t -> wf_operand D u -> holds D t x -> holds D u y ->
  (forall E, get_ep t = Some E \/ get_ep u = Some E -> throws_arithmetic E) ->
  s_lt D t u x y = Some lt -> s_gt D t u x y = Some gt -> s_le D t u x y = Some le ->
  s_ge D t u x y = Some ge -> s_eq D t u x y = Some eq -> s_ne D t u x y = Some ne ->
  returns lt a -> returns gt b -> returns le c -> returns ge d -> returns eq e -> returns ne f ->
  (a = true /\ b = false /\ e = false \/ a = false /\ b = true /\ e = false \/ a = false /\ b = false /\ e = true)
  /\ c = negb b /\ d = negb a /\ f = negb e.
Proof.
  intros D t u x y lt gt le ge eq ne a b c d e f Ht Hu Hx Hy HE H1 H2 H3 H4 H5 H6 R1 R2 R3 R4 R5 R6.
  destruct (C29_comparisons D t u x y Ht Hu Hx Hy HE) as (A1 & A2 & A3 & A4 & A5 & A6).
  assert (U : forall (m : M bool) p q, returns m p -> (returns m q \/ throws_arith m) -> p = q).
  { intros m p q P [Q|(k & _ & Q)]; unfold returns in *; rewrite P in Q; congruence. }
  pose proof (U _ _ _ R1 (A1 _ H1)). pose proof (U _ _ _ R2 (A2 _ H2)). pose proof (U _ _ _ R3 (A3 _ H3)).
  pose proof (U _ _ _ R4 (A4 _ H4)). pose proof (U _ _ _ R5 (A5 _ H5)). pose proof (U _ _ _ R6 (A6 _ H6)).
  subst. rewrite !Z.gtb_ltb, !Z.geb_leb, (Z.leb_antisym y x), (Z.leb_antisym x y).
  split; [|auto]. destruct (Z.ltb_spec x y), (Z.ltb_spec y x), (Z.eqb_spec x y); try lia; tauto.
Qed.

Lemma C81_sorted_lemma : forall D s l, sP s = Native \/ sP s = Automatic -> wf_operand D (OSafe s) ->
  Forall (holds D (OSafe s)) l -> (ordered D (OSafe s) l <-> Sorted Z.le l).
Proof.
  intros D s l HP W. induction l as [|x r IH]; intros F; [cbn; split; auto|].
  inversion F as [|? ? F1 F2]; subst. specialize (IH F2). destruct r as [|y r].
  - cbn. split; auto.
  - inversion F2 as [|? ? F3 F4]; subst.
    destruct (C63_same_type D s s y x eq_refl eq_refl eq_refl HP W W F3 F1) as (L & _).
    assert (E : ordered D (OSafe s) (x :: y :: r)
      <-> s_lt D (OSafe s) (OSafe s) y x = Some (mret false) /\ ordered D (OSafe s) (y :: r)) by (cbn; tauto).
    rewrite E, L, IH. split.
    + intros [A B]. constructor; [assumption|]. constructor. unfold mret in A. injection A as A. apply Z.ltb_ge in A. exact A.
    + intros A. inversion A as [|? ? B C]; subst. split; [|assumption]. inversion C; subst.
      unfold mret. do 3 f_equal. apply Z.ltb_ge. assumption.
Qed.
