(** SafeFacts.v -- facts about the operators on safe types. Proofs only. *)
From Coq Require Import ZArith Bool List Lia.
From Verif Require Import Base CType Spec CTypeFacts Utility UtilityFacts SafeCompare
  CheckedInteger CheckedIntegerFacts CheckedResultOps CheckedResultFacts Interval IntervalFacts
  IntervalOpsFacts ExceptionPolicy Promotion SafeBase SafeSpec.
Import ListNotations.
Local Open Scope Z_scope.

(** ------------------------------------------------------------------ *)
(** operand types *)
Lemma holds_in : forall D o x, wf_operand D o -> holds D o x -> in_type D (base_ty o) x.
Proof. intros D o x (H1 & H2 & H3) Hx. unfold holds, in_type in *. lia. Qed.

Lemma wf_raw : forall D T, wf_operand D (ORaw T).
Proof.
  intros D T. pose proof (lo_in D T). pose proof (hi_in D T). pose proof (lo_le_0 D T).
  pose proof (hi_ge_127 D T). unfold wf_operand. cbn. repeat split; unfold in_type in *; lia.
Qed.

Lemma cast_stands : forall D R T z, in_type D T z -> stands_for D R (cast D R T z) z.
Proof.
  intros D R T z Hz. destruct (cast_spec D R T z Hz) as (H1 & H2 & H3).
  destruct (Z_lt_le_dec z (lo D R)) as [Hl|Hl].
  - rewrite (H3 Hl). destruct (csigned D R); cbn; lia || exact I.
  - destruct (Z_lt_le_dec (hi D R) z) as [Hh|Hh].
    + rewrite H2 by lia. cbn. lia.
    + rewrite H1 by (unfold in_type; lia). reflexivity.
Qed.
Lemma cast_ok : forall D R T z, in_type D T z -> cr_ok D R (cast D R T z).
Proof.
  intros D R T z Hz. destruct (cast_spec D R T z Hz) as (H1 & H2 & H3).
  destruct (Z_lt_le_dec z (lo D R)) as [Hl|Hl]; [rewrite (H3 Hl); exact I|].
  destruct (Z_lt_le_dec (hi D R) z) as [Hh|Hh]; [rewrite H2 by lia; exact I|].
  rewrite H1 by (unfold in_type; lia). cbn. unfold in_type; lia.
Qed.
Lemma cast_val : forall D R T z v, in_type D T z -> cast D R T z = CVal v -> v = z /\ in_type D R z.
Proof.
  intros D R T z v Hz E. pose proof (cast_stands D R T z Hz) as Hs. pose proof (cast_ok D R T z Hz) as Ho.
  rewrite E in *. cbn in *. subst. auto.
Qed.

(** the four kinds of bound *)
Lemma cast_cases : forall D R T z, in_type D T z ->
  (in_type D R z /\ cast D R T z = CVal z)
  \/ (z > hi D R /\ cast D R T z = CErr positive_overflow_error)
  \/ (z < lo D R /\ lo D R < 0 /\ cast D R T z = CErr negative_overflow_error)
  \/ (z < lo D R /\ lo D R = 0 /\ csigned D R = false /\ cast D R T z = CErr domain_error).
Proof.
  intros D R T z Hz. destruct (cast_spec D R T z Hz) as (H1 & H2 & H3).
  destruct (Z_lt_le_dec z (lo D R)) as [Hl|Hl].
  - right; right. rewrite (H3 Hl). destruct (csigned D R) eqn:E.
    + left. pose proof (hi_pos_lo D R E). pose proof (hi_ge_127 D R). repeat split; lia.
    + right. pose proof (lo_unsigned D R E). repeat split; lia.
  - destruct (Z_lt_le_dec (hi D R) z) as [Hh|Hh].
    + right; left. split; [lia|apply H2; lia].
    + left. assert (in_type D R z) by (unfold in_type; lia). auto.
Qed.

(** ------------------------------------------------------------------ *)
(** policies *)
Lemma dispatch_arith : forall E e, throws_arithmetic E -> arithmetic_err e ->
  dispatch E e = ([(arithmetic_error, e)], Throw e).
Proof.
  intros E e H He. unfold throws_arithmetic in H. unfold dispatch, policy_handler.
  destruct He as [->|[->| ->]]; cbn; rewrite H; reflexivity.
Qed.
Lemma dispatch_impl : forall E e, throws_shift E -> shift_err e ->
  dispatch E e = ([(implementation_defined_behavior, e)], Throw e).
Proof.
  intros E e H He. unfold throws_shift in H. unfold dispatch, policy_handler.
  destruct He as [->|[->| ->]]; cbn; rewrite H; reflexivity.
Qed.

Lemma mbind_ret : forall (A B : Type) (a : A) (k : A -> M B), mbind (mret a) k = k a.
Proof. intros. unfold mbind, mret. destruct (k a). reflexivity. Qed.
Lemma mbind_throws : forall (A B : Type) (m : M A) (k : A -> M B), throws_arith m -> throws_arith (mbind m k).
Proof. intros A B m k (e & He & ->). exists e. split; [assumption|reflexivity]. Qed.
Lemma mbind_throws_impl : forall (A B : Type) (m : M A) (k : A -> M B), throws_impl m -> throws_impl (mbind m k).
Proof. intros A B m k (e & He & ->). exists e. split; [assumption|reflexivity]. Qed.

Lemma dar_val : forall E v, dispatch_and_return E (CVal v) = mret (CVal v).
Proof. reflexivity. Qed.
Lemma dar_arith : forall E e, throws_arithmetic E -> arithmetic_err e ->
  throws_arith (dispatch_and_return E (CErr e)).
Proof.
  intros E e HE He. cbn [dispatch_and_return]. rewrite dispatch_arith by assumption.
  exists e. split; [assumption|reflexivity].
Qed.
Lemma dar_impl : forall E e, throws_shift E -> shift_err e ->
  throws_impl (dispatch_and_return E (CErr e)).
Proof.
  intros E e HE He. cbn [dispatch_and_return]. rewrite dispatch_impl by assumption.
  exists e. split; [assumption|reflexivity].
Qed.

(** ------------------------------------------------------------------ *)
(** operand casts *)
Lemma cast_err_arith : forall D R T z, in_type D T z -> ~ in_type D R z ->
  exists e, cast D R T z = CErr e /\ arithmetic_err e.
Proof.
  intros D R T z Hz Hn. unfold arithmetic_err.
  destruct (cast_cases D R T z Hz) as [(? & ?)|[(? & ->)|[(? & ? & ->)|(? & ? & ? & ->)]]];
  [contradiction|eauto 6|eauto 6|eauto 6].
Qed.

Lemma cast_operand_throws : forall D E R o x m,
  throws_arithmetic E -> wf_operand D o -> holds D o x -> cast_operand D E R o x = Some m ->
  (in_type D R x /\ m = mret x) \/ (~ in_type D R x /\ throws_arith m).
Proof.
  intros D E R o x m HE Hw Hx Hc. unfold cast_operand in Hc.
  destruct (static_cast_builtin D R o x) as [fb|]; [|discriminate].
  destruct (all_compile E (cast_errors D R (base_ty o))); [|discriminate]. injection Hc as <-.
  pose proof (holds_in D o x Hw Hx) as Hi.
  destruct (in_range D R x) eqn:Er.
  - apply in_range_iff in Er. left. split; [assumption|].
    rewrite (proj1 (cast_spec D R (base_ty o) x Hi) Er). reflexivity.
  - apply in_range_false in Er. right. split; [assumption|].
    destruct (cast_err_arith D R _ x Hi Er) as (e & -> & He).
    apply mbind_throws. apply dar_arith; assumption.
Qed.

Lemma casting_helper_throws : forall D E R t u x y m,
  throws_arithmetic E -> wf_operand D t -> wf_operand D u -> holds D t x -> holds D u y ->
  casting_helper D E R t u x y = Some m ->
  (in_type D R x /\ in_type D R y /\ m = mret (x, y))
  \/ ((~ in_type D R x \/ ~ in_type D R y) /\ throws_arith m).
Proof.
  intros D E R t u x y m HE Ht Hu Hx Hy Hc. unfold casting_helper in Hc.
  destruct (cast_operand D E R t x) as [mx|] eqn:Ex; [|discriminate].
  destruct (cast_operand D E R u y) as [my|] eqn:Ey; [|discriminate]. injection Hc as <-.
  destruct (cast_operand_throws _ _ _ _ _ _ HE Ht Hx Ex) as [[Ix ->]|[Ix Tx]].
  - rewrite mbind_ret.
    destruct (cast_operand_throws _ _ _ _ _ _ HE Hu Hy Ey) as [[Iy ->]|[Iy Ty]].
    + left. rewrite mbind_ret. auto.
    + right. split; [auto|]. apply mbind_throws. assumption.
  - right. split; [auto|]. apply mbind_throws. assumption.
Qed.

(** ------------------------------------------------------------------ *)
(** structure of a binary operator *)
Lemma binary_inv : forall D op t u x y s m, binary D op t u x y = Some (s, m) ->
  exists P E R ri,
    common_pp t u = Some P /\ common_ep t u = Some E
    /\ result_base_type D P (PArith op) t u = Some R
    /\ r_type_interval D op R t u = Ok ri
    /\ s = mkSafe R (bound_lo D R (il ri)) (bound_hi D R (iu ri)) P E
    /\ ((exception_possible D op R t u ri = false /\ m = unchecked_run D op R x y)
        \/ (exception_possible D op R t u ri = true
            /\ exists W casts, work_type D op R t u = Some W
               /\ casting_helper D E W t u x y = Some casts
               /\ all_compile E (op_errors D op W) = true
               /\ m = checked_run D op E R W casts)).
Proof.
  intros D op t u x y s m H. unfold binary, op_static in H.
  destruct (common_pp t u) as [P|]; [|discriminate].
  destruct (common_ep t u) as [E|]; [|discriminate].
  destruct (result_base_type D P (PArith op) t u) as [R|] eqn:ER; [|discriminate].
  destruct (r_type_interval D op R t u) as [ri|] eqn:Eri; [|discriminate].
  cbn [oi_checked oi_R oi_E oi_type] in H.
  exists P, E, R, ri. repeat (split; [solve [reflexivity|assumption]|]).
  destruct (exception_possible D op R t u ri) eqn:Ex.
  - destruct (work_type D op R t u) as [W|]; [|discriminate].
    destruct (casting_helper D E W t u x y) as [casts|] eqn:Ec; [|discriminate].
    destruct (all_compile E (op_errors D op W)) eqn:Eo; [|discriminate].
    injection H as <- <-. split; [reflexivity|]. right. split; [reflexivity|].
    exists W, casts. auto.
  - injection H as <- <-. auto.
Qed.

(** the run with checks, when the checked operation is exact or overflows *)
Lemma checked_run_eoo : forall D op E R W f t u x y casts,
  throws_arithmetic E -> wf_operand D t -> wf_operand D u -> holds D t x -> holds D u y ->
  casting_helper D E W t u x y = Some casts ->
  (in_type D W x -> in_type D W y -> exists c, checked_op D op W x y = Ok c /\ cr_ok D W c
     /\ match c with CVal v => v = f x y | CErr e => arithmetic_err e end) ->
  let m := checked_run D op E R W casts in
  (in_type D W x /\ in_type D W y /\ in_type D W (f x y) /\ m = mret (conv D R (f x y)))
  \/ throws_arith m.
Proof.
  intros D op E R W f t u x y casts HE Ht Hu Hx Hy Hc Hop m.
  unfold m, checked_run.
  destruct (casting_helper_throws _ _ _ _ _ _ _ _ HE Ht Hu Hx Hy Hc) as [(Ix & Iy & ->)|[_ Tc]].
  - rewrite mbind_ret. cbn [fst snd]. destruct (Hop Ix Iy) as (c & -> & Oc & Hcv).
    cbn [mlift]. rewrite mbind_ret. destruct c as [v|e].
    + left. subst v. rewrite dar_val, mbind_ret. auto.
    + right. apply mbind_throws. apply dar_arith; assumption.
  - right. apply mbind_throws. assumption.
Qed.

(** ------------------------------------------------------------------ *)
(** declared result ranges of + - * *)

(** what the static analysis has to guarantee for the exact function f *)
Definition ri_sound (D : dmodel) (op : aop) (R : ctype) (t u : otype) (ri : interval)
  (f : Z -> Z -> Z) : Prop :=
  (in_type D R (bound_lo D R (il ri)) /\ in_type D R (bound_hi D R (iu ri))
   /\ bound_lo D R (il ri) <= bound_hi D R (iu ri))
  /\ (forall x y, holds D t x -> holds D u y -> in_type D R x -> in_type D R y ->
        in_type D R (f x y) -> bound_lo D R (il ri) <= f x y <= bound_hi D R (iu ri))
  /\ (exception (il ri) = false -> exception (iu ri) = false ->
      forall x y, holds D t x -> holds D u y ->
        raw_op D op R (conv D R x) (conv D R y) = Ok (f x y) /\ in_type D R (f x y)
        /\ bound_lo D R (il ri) <= f x y <= bound_hi D R (iu ri)).

Lemma bound_lo_in : forall D R c, cr_ok D R c -> in_type D R (bound_lo D R c).
Proof. intros D R [v|e] H; cbn in *; [assumption|apply lo_in]. Qed.
Lemma bound_hi_in : forall D R c, cr_ok D R c -> in_type D R (bound_hi D R c).
Proof. intros D R [v|e] H; cbn in *; [assumption|apply hi_in]. Qed.
Lemma bounds_le_of_cle : forall D R a b, cr_ok D R a -> cr_ok D R b ->
  cle a b \/ exception a = true \/ exception b = true ->
  bound_lo D R a <= bound_hi D R b.
Proof.
  intros D R a b Ha Hb H. pose proof (bound_lo_in D R a Ha) as A. pose proof (bound_hi_in D R b Hb) as B.
  destruct a as [v|e], b as [w|g]; cbn in *; unfold in_type in *;
    pose proof (lo_le_0 D R); pose proof (hi_ge_127 D R); try lia.
  all: destruct H as [H|[H|H]]; try discriminate; lia.
Qed.

Lemma exc_true : forall c, exception c = true -> exists e, c = CErr e.
Proof. intros [v|e] H; [discriminate|eauto]. Qed.
Lemma exc_false : forall c, exception c = false -> exists v, c = CVal v.
Proof. intros [v|e] H; [eauto|discriminate]. Qed.

Section Lim.
  Variables (D : dmodel) (R : ctype) (t u : otype).
  Hypotheses (Ht : wf_operand D t) (Hu : wf_operand D u).
  Let a := cast D R (base_ty t) (lim_lo D t).
  Let b := cast D R (base_ty t) (lim_hi D t).
  Let c := cast D R (base_ty u) (lim_lo D u).
  Let d := cast D R (base_ty u) (lim_hi D u).

  Lemma lim_ok : cr_ok D R a /\ cr_ok D R b /\ cr_ok D R c /\ cr_ok D R d.
  Proof. destruct Ht as (? & ? & _), Hu as (? & ? & _). repeat split; apply cast_ok; assumption. Qed.

  Lemma ri_add : forall ri, r_type_interval D Add R t u = Ok ri -> ri_sound D Add R t u ri Z.add.
  Proof.
    intros ri H. cbn [r_type_interval] in H. unfold i_add, lim_interval in H. cbn [il iu] in H.
    fold a b c d in H. destruct lim_ok as (Oa & Ob & Oc & Od).
    destruct (cr_add_total D R a c Oa Oc) as (l & El & Ol & Vl).
    destruct (cr_add_total D R b d Ob Od) as (h & Eh & Oh & Vh).
    rewrite El, Eh in H. cbn in H. injection H as <-. cbn [il iu].
    destruct Ht as (T1 & T2 & T3), Hu as (U1 & U2 & U3).
    assert (Hl : forall v, l = CVal v -> v = lim_lo D t + lim_lo D u /\ in_type D R (lim_lo D t) /\ in_type D R (lim_lo D u)).
    { intros v Ev. destruct (Vl v Ev) as (p & q & Ep & Eq & ->).
      apply cast_val in Ep; [|assumption]. apply cast_val in Eq; [|assumption].
      destruct Ep as [-> ?], Eq as [-> ?]. auto. }
    assert (Hh : forall v, h = CVal v -> v = lim_hi D t + lim_hi D u /\ in_type D R (lim_hi D t) /\ in_type D R (lim_hi D u)).
    { intros v Ev. destruct (Vh v Ev) as (p & q & Ep & Eq & ->).
      apply cast_val in Ep; [|assumption]. apply cast_val in Eq; [|assumption].
      destruct Ep as [-> ?], Eq as [-> ?]. auto. }
    unfold ri_sound; cbn [il iu]; splits.
    - apply bound_lo_in; assumption.
    - apply bound_hi_in; assumption.
    - apply bounds_le_of_cle; try assumption.
      destruct l as [vl|el]; [|auto]. destruct h as [vh|eh]; [|auto]. left.
      destruct (Hl vl eq_refl) as [-> _]. destruct (Hh vh eq_refl) as [-> _]. cbn. lia.
    - intros x y Hx Hy Ix Iy Ixy. unfold holds, in_type in *. split.
      + destruct l as [vl|el]; cbn; [|lia]. destruct (Hl vl eq_refl) as [-> _]. lia.
      + destruct h as [vh|eh]; cbn; [|lia]. destruct (Hh vh eq_refl) as [-> _]. lia.
    - intros X1 X2 x y Hx Hy. apply exc_false in X1, X2. destruct X1 as [vl ->], X2 as [vh ->].
      destruct (Hl vl eq_refl) as (-> & L1 & L2). destruct (Hh vh eq_refl) as (-> & H1 & H2). cbn in Ol, Oh |- *.
      assert (Ix : in_type D R x) by (unfold holds, in_type in *; lia).
      assert (Iy : in_type D R y) by (unfold holds, in_type in *; lia).
      assert (Ixy : in_type D R (x + y)) by (unfold holds, in_type in *; lia).
      rewrite !conv_id by assumption. split; [|split; [assumption|unfold holds in *; lia]].
      apply c_arith_same; auto using promote_in.
  Qed.

  Lemma ri_sub : forall ri, r_type_interval D Sub R t u = Ok ri -> ri_sound D Sub R t u ri Z.sub.
  Proof.
    intros ri H. cbn [r_type_interval] in H. unfold i_sub, lim_interval in H. cbn [il iu] in H.
    fold a b c d in H. destruct lim_ok as (Oa & Ob & Oc & Od).
    destruct (cr_sub_total D R a d Oa Od) as (l & El & Ol & Vl).
    destruct (cr_sub_total D R b c Ob Oc) as (h & Eh & Oh & Vh).
    rewrite El, Eh in H. cbn in H. injection H as <-. cbn [il iu].
    destruct Ht as (T1 & T2 & T3), Hu as (U1 & U2 & U3).
    assert (Hl : forall v, l = CVal v -> v = lim_lo D t - lim_hi D u /\ in_type D R (lim_lo D t) /\ in_type D R (lim_hi D u)).
    { intros v Ev. destruct (Vl v Ev) as (p & q & Ep & Eq & ->).
      apply cast_val in Ep; [|assumption]. apply cast_val in Eq; [|assumption].
      destruct Ep as [-> ?], Eq as [-> ?]. auto. }
    assert (Hh : forall v, h = CVal v -> v = lim_hi D t - lim_lo D u /\ in_type D R (lim_hi D t) /\ in_type D R (lim_lo D u)).
    { intros v Ev. destruct (Vh v Ev) as (p & q & Ep & Eq & ->).
      apply cast_val in Ep; [|assumption]. apply cast_val in Eq; [|assumption].
      destruct Ep as [-> ?], Eq as [-> ?]. auto. }
    unfold ri_sound; cbn [il iu]; splits.
    - apply bound_lo_in; assumption.
    - apply bound_hi_in; assumption.
    - apply bounds_le_of_cle; try assumption.
      destruct l as [vl|el]; [|auto]. destruct h as [vh|eh]; [|auto]. left.
      destruct (Hl vl eq_refl) as [-> _]. destruct (Hh vh eq_refl) as [-> _]. cbn. lia.
    - intros x y Hx Hy Ix Iy Ixy. unfold holds, in_type in *. split.
      + destruct l as [vl|el]; cbn; [|lia]. destruct (Hl vl eq_refl) as [-> _]. lia.
      + destruct h as [vh|eh]; cbn; [|lia]. destruct (Hh vh eq_refl) as [-> _]. lia.
    - intros X1 X2 x y Hx Hy. apply exc_false in X1, X2. destruct X1 as [vl ->], X2 as [vh ->].
      destruct (Hl vl eq_refl) as (-> & L1 & L2). destruct (Hh vh eq_refl) as (-> & H1 & H2). cbn in Ol, Oh |- *.
      assert (Ix : in_type D R x) by (unfold holds, in_type in *; lia).
      assert (Iy : in_type D R y) by (unfold holds, in_type in *; lia).
      assert (Ixy : in_type D R (x - y)) by (unfold holds, in_type in *; lia).
      rewrite !conv_id by assumption. split; [|split; [assumption|unfold holds in *; lia]].
      apply c_arith_same; auto using promote_in.
  Qed.

  (** an operand with a value of R in its range has usable bounds, except for a
      domain error below *)
  Lemma lim_lower : forall o x, wf_operand D o -> holds D o x -> in_type D R x ->
    num (cast D R (base_ty o) (lim_lo D o)) -> lower_bound (cast D R (base_ty o) (lim_lo D o))
      /\ at_least D R (cast D R (base_ty o) (lim_lo D o)) x.
  Proof.
    intros o x (O1 & O2 & O3) Hx Ix Hn. unfold lower_bound.
    destruct (cast_cases D R _ _ O1) as [(? & E)|[(? & E)|[(? & ? & E)|(? & ? & ? & E)]]];
    rewrite E in *; cbn in *; unfold holds, in_type in *; try tauto; try lia.
    - split; [split; [trivial|discriminate]|lia].
    - split; [split; [trivial|discriminate]|trivial].
  Qed.
  Lemma lim_upper : forall o x, wf_operand D o -> holds D o x -> in_type D R x ->
    upper_bound (cast D R (base_ty o) (lim_hi D o)) /\ at_most D R (cast D R (base_ty o) (lim_hi D o)) x.
  Proof.
    intros o x (O1 & O2 & O3) Hx Ix. unfold upper_bound.
    destruct (cast_cases D R _ _ O2) as [(? & E)|[(? & E)|[(? & ? & E)|(? & ? & ? & E)]]];
    rewrite E in *; cbn in *; unfold holds, in_type in *; try tauto; try lia.
    - split; [split; [trivial|discriminate]|lia].
    - split; [split; [trivial|discriminate]|trivial].
  Qed.
  (** a negative bound is an error only if the lower one is *)
  Lemma lim_num_hi : forall o, wf_operand D o -> num (cast D R (base_ty o) (lim_lo D o)) ->
    num (cast D R (base_ty o) (lim_hi D o)).
  Proof.
    intros o (O1 & O2 & O3) Hn.
    destruct (cast_cases D R _ _ O2) as [(? & ->)|[(? & ->)|[(? & ? & ->)|(? & ? & Hs & ->)]]]; cbn; trivial.
    destruct (cast_spec D R _ _ O1) as (_ & _ & H3). rewrite H3, Hs in Hn by lia. assumption.
  Qed.

  Lemma cr_mul_not_num : forall p q r, cr_ok D R p -> cr_ok D R q -> cr_mul D R p q = Ok r -> num r -> num p /\ num q.
  Proof.
    intros p q r Hp Hq. unfold cr_mul.
    pflag p Hp; pflag q Hq; unfold lookup; cbn [pidx nth mul_table rbind cr_value];
    intros E Nr; try (injection E as <-; cbn in Nr; tauto); cbn; auto.
  Qed.

  Lemma at_least_bound : forall k z, cr_ok D R k -> at_least D R k z -> in_type D R z -> bound_lo D R k <= z.
  Proof. intros [v|e] z Ok H Hz; cbn in *; [assumption|unfold in_type in *; lia]. Qed.
  Lemma at_most_bound : forall k z, cr_ok D R k -> at_most D R k z -> in_type D R z -> z <= bound_hi D R k.
  Proof. intros [v|e] z Ok H Hz; cbn in *; [assumption|unfold in_type in *; lia]. Qed.

  Lemma ri_mul : forall ri, r_type_interval D Mul R t u = Ok ri -> ri_sound D Mul R t u ri Z.mul.
  Proof.
    intros ri H. cbn [r_type_interval] in H. destruct lim_ok as (Oa & Ob & Oc & Od).
    pose proof H as Hmul.
    unfold i_mul, minmax_of, corners, lim_interval in H. cbn [il iu] in H. fold a b c d in H.
    destruct (cr_mul_total D R a c Oa Oc) as (r1 & E1 & O1 & V1).
    destruct (cr_mul_total D R a d Oa Od) as (r2 & E2 & O2 & V2).
    destruct (cr_mul_total D R b c Ob Oc) as (r3 & E3 & O3 & V3).
    destruct (cr_mul_total D R b d Ob Od) as (r4 & E4 & O4 & V4).
    rewrite E1, E2, E3, E4 in H. cbn [seq_res rbind] in H.
    assert (Hall : Forall (cr_ok D R) [r1; r2; r3; r4])
      by (do 4 (apply Forall_cons; [assumption|]); apply Forall_nil).
    destruct (minmax_spec D R r1 [r2; r3; r4] Hall) as (i & Hi & Hs).
    rewrite Hi in H. injection H as <-.
    pose proof Ht as (T1 & T2 & T3). pose proof Hu as (U1 & U2 & U3).
    destruct Hs as [[Hn ->]|(N1 & N2 & K1 & K2 & Kc & _ & _ & Nh & Hin)].
    - (* the first product is an error other than overflow *)
      assert (exists e, r1 = CErr e) as (e & ->) by (destruct r1; [cbn in Hn; tauto|eauto]).
      unfold ri_sound; cbn [il iu]; splits; cbn.
      + apply lo_in.
      + apply hi_in.
      + pose proof (lo_le_0 D R). pose proof (hi_ge_127 D R). lia.
      + intros. assumption.
      + discriminate.
    - destruct (cr_mul_not_num a c r1 Oa Oc E1 Nh) as [Na Nc].
      pose proof (lim_num_hi t Ht Na) as Nb. pose proof (lim_num_hi u Hu Nc) as Nd.
      unfold ri_sound; cbn [il iu]; splits.
      + apply bound_lo_in; assumption.
      + apply bound_hi_in; assumption.
      + apply bounds_le_of_cle; auto.
      + intros x y Hx Hy Ix Iy Ixy.
        destruct (lim_lower t x Ht Hx Ix Na) as [La Aa]. destruct (lim_upper t x Ht Hx Ix) as [Lb Ab].
        destruct (lim_lower u y Hu Hy Iy Nc) as [Lc Ac]. destruct (lim_upper u y Hu Hy Iy) as [Ld Ad].
        destruct (i_mul_sound D R (lim_interval D R t) (lim_interval D R u)) as (k & Ek & Kl & Ku & S);
          try assumption.
        rewrite Hmul in Ek. injection Ek as <-.
        destruct (S x y Aa Ab Ac Ad). split; [apply at_least_bound|apply at_most_bound]; assumption.
      + intros X1 X2 x y Hx Hy. apply exc_false in X1, X2. destruct X1 as [vl Xl], X2 as [vh Xh].
        (* every product is a value *)
        assert (Hv : forall r, In r [r1; r2; r3; r4] -> num r -> exists v, r = CVal v).
        { intros r Hr Nr. destruct (Hin r Hr Nr) as [A1 A2]. rewrite Xl in A1. rewrite Xh in A2.
          destruct r as [v|e]; [eauto|]. destruct e; cbn in *; tauto. }
        destruct (cr_mul_ext D R a c Oa Oc Na Nc) as (s1 & F1 & _ & M1).
        destruct (cr_mul_ext D R a d Oa Od Na Nd) as (s2 & F2 & _ & M2).
        destruct (cr_mul_ext D R b c Ob Oc Nb Nc) as (s3 & F3 & _ & M3).
        destruct (cr_mul_ext D R b d Ob Od Nb Nd) as (s4 & F4 & _ & M4).
        rewrite E1 in F1; injection F1 as <-. rewrite E2 in F2; injection F2 as <-.
        rewrite E3 in F3; injection F3 as <-. rewrite E4 in F4; injection F4 as <-.
        destruct (Hv r1) as (w1 & ->); [cbn; tauto|apply (ernd_num _ _ _ _ M1)|].
        destruct (Hv r2) as (w2 & ->); [cbn; tauto|apply (ernd_num _ _ _ _ M2)|].
        destruct (Hv r3) as (w3 & ->); [cbn; tauto|apply (ernd_num _ _ _ _ M3)|].
        destruct (Hv r4) as (w4 & ->); [cbn; tauto|apply (ernd_num _ _ _ _ M4)|].
        cbn [ernd] in M1, M2, M3, M4. rewrite Xl, Xh. cbn [bound_lo bound_hi].
        assert (B1 : vl <= w1 <= vh /\ vl <= w2 <= vh /\ vl <= w3 <= vh /\ vl <= w4 <= vh).
        { pose proof (Hin (CVal w1) ltac:(cbn; tauto) I) as Z1. pose proof (Hin (CVal w2) ltac:(cbn; tauto) I) as Z2.
          pose proof (Hin (CVal w3) ltac:(cbn; tauto) I) as Z3. pose proof (Hin (CVal w4) ltac:(cbn; tauto) I) as Z4.
          rewrite Xl, Xh in *. cbn in *. lia. }
        rewrite Xl in K1. rewrite Xh in K2. cbn in K1, K2.
        assert (Hesgn : forall p v, esgn p = Fi v -> p = 0 /\ v = 0).
        { intros p v. esgn_cases; intros HH; try discriminate. injection HH as <-. auto. }
        (* zero times anything *)
        assert (Zu : c = CVal 0 -> d = CVal 0 -> raw_op D Mul R (conv D R x) (conv D R y) = Ok (x * y)
                  /\ in_type D R (x * y) /\ vl <= x * y <= vh).
        { intros Zc Zd. apply cast_val in Zc; [|assumption]. apply cast_val in Zd; [|assumption].
          assert (y = 0) by (unfold holds in *; lia). subst y. rewrite Z.mul_0_r, conv_0.
          assert (w1 = 0) by (pose proof (V1 w1 eq_refl _ _ (cast_stands D R _ _ T1) (cast_stands D R _ _ U1)); lia).
          split; [|split; [apply zero_in|lia]].
          cbn [raw_op]. unfold c_mul. rewrite c_arith_same; [f_equal; lia|apply conv_range|apply zero_in|].
          rewrite Z.mul_0_r. apply zero_in. }
        assert (Zt : a = CVal 0 -> b = CVal 0 -> raw_op D Mul R (conv D R x) (conv D R y) = Ok (x * y)
                  /\ in_type D R (x * y) /\ vl <= x * y <= vh).
        { intros Za Zb. apply cast_val in Za; [|assumption]. apply cast_val in Zb; [|assumption].
          assert (x = 0) by (unfold holds in *; lia). subst x. rewrite Z.mul_0_l, conv_0.
          assert (w1 = 0) by (pose proof (V1 w1 eq_refl _ _ (cast_stands D R _ _ T1) (cast_stands D R _ _ U1)); lia).
          split; [|split; [apply zero_in|lia]].
          cbn [raw_op]. unfold c_mul. rewrite c_arith_same; [f_equal; lia|apply zero_in|apply conv_range|].
          rewrite Z.mul_0_l. apply zero_in. }
        destruct a as [va|ea] eqn:Ea.
        2:{ apply Zu.
            - destruct c as [vc|ec] eqn:Ec; [|destruct ea, ec; cbn in Na, Nc, M1; try tauto; discriminate].
              destruct ea; cbn in Na; try tauto; cbn in M1; apply Hesgn in M1; f_equal; lia.
            - destruct d as [vd|ed] eqn:Ed; [|destruct ea, ed; cbn in Na, Nd, M2; try tauto; discriminate].
              destruct ea; cbn in Na; try tauto; cbn in M2; apply Hesgn in M2; f_equal; lia. }
        destruct b as [vb|eb] eqn:Eb.
        2:{ apply Zu.
            - destruct c as [vc|ec] eqn:Ec; [|destruct eb, ec; cbn in Nb, Nc, M3; try tauto; discriminate].
              destruct eb; cbn in Nb; try tauto; cbn in M3; apply Hesgn in M3; f_equal; lia.
            - destruct d as [vd|ed] eqn:Ed; [|destruct eb, ed; cbn in Nb, Nd, M4; try tauto; discriminate].
              destruct eb; cbn in Nb; try tauto; cbn in M4; apply Hesgn in M4; f_equal; lia. }
        destruct c as [vc|ec] eqn:Ec.
        2:{ apply Zt.
            - destruct ec; cbn in Nc; try tauto; cbn in M1; apply Hesgn in M1; f_equal; lia.
            - destruct ec; cbn in Nc; try tauto; cbn in M3; apply Hesgn in M3; f_equal; lia. }
        destruct d as [vd|ed] eqn:Ed.
        2:{ apply Zt.
            - destruct ed; cbn in Nd; try tauto; cbn in M2; apply Hesgn in M2; f_equal; lia.
            - destruct ed; cbn in Nd; try tauto; cbn in M4; apply Hesgn in M4; f_equal; lia. }
        unfold a in Ea. unfold b in Eb. unfold c in Ec. unfold d in Ed.
        apply cast_val in Ea; [|assumption]. apply cast_val in Eb; [|assumption].
        apply cast_val in Ec; [|assumption]. apply cast_val in Ed; [|assumption].
        destruct Ea as [-> Ia], Eb as [-> Ib], Ec as [-> Ic], Ed as [-> Id].
        cbn in M1, M2, M3, M4. injection M1 as M1. injection M2 as M2. injection M3 as M3. injection M4 as M4.
        unfold holds in *.
        assert (Ix : in_type D R x) by (unfold in_type in *; lia).
        assert (Iy : in_type D R y) by (unfold in_type in *; lia).
        assert (Hb : vl <= x * y <= vh).
        { destruct (corner_bounds Z.mul (lim_lo D t) (lim_hi D t) (lim_lo D u) (lim_hi D u) x y Hx Hy)
            as (p & q & p' & q' & Hp & Hq & Hp' & Hq' & G1 & G2).
          - intros y0 _. destruct (Z_le_gt_dec 0 y0); [left|right]; intros; nia.
          - intros x0 _. destruct (Z_le_gt_dec 0 x0); [left|right]; intros; nia.
          - destruct Hp as [->| ->], Hq as [->| ->], Hp' as [->| ->], Hq' as [->| ->]; lia. }
        assert (Ixy : in_type D R (x * y)) by (unfold in_type in *; lia).
        rewrite !conv_id by assumption. split; [|split; [assumption|lia]].
        apply c_arith_same; auto using promote_in.
  Qed.
End Lim.

(** ------------------------------------------------------------------ *)
(** + - * in one statement *)
Definition exact_op (op : aop) (f : Z -> Z -> Z) : Prop :=
  (op = Add /\ f = Z.add) \/ (op = Sub /\ f = Z.sub) \/ (op = Mul /\ f = Z.mul).

Lemma exact_checked : forall op f D W x y, exact_op op f -> in_type D W x -> in_type D W y ->
  exact_or_overflow D W (f x y) (checked_op D op W x y).
Proof.
  intros op f D W x y [[-> ->]|[[-> ->]|[-> ->]]] Hx Hy; cbn [checked_op].
  - apply add_spec; assumption.
  - apply subtract_spec; assumption.
  - apply multiply_spec; assumption.
Qed.

Lemma exact_ri : forall op f D R t u ri, exact_op op f -> wf_operand D t -> wf_operand D u ->
  r_type_interval D op R t u = Ok ri -> ri_sound D op R t u ri f.
Proof.
  intros op f D R t u ri [[-> ->]|[[-> ->]|[-> ->]]] Ht Hu H.
  - apply ri_add; assumption.
  - apply ri_sub; assumption.
  - apply ri_mul; assumption.
Qed.

Lemma exact_work : forall op f D R t u, exact_op op f -> work_type D op R t u = Some R.
Proof. intros op f D R t u [[-> _]|[[-> _]|[-> _]]]; reflexivity. Qed.

Lemma exact_exception : forall op f D R t u ri, exact_op op f ->
  exception_possible D op R t u ri = exception (il ri) || exception (iu ri).
Proof. intros op f D R t u ri [[-> _]|[[-> _]|[-> _]]]; reflexivity. Qed.

(** the complete behaviour of + - * under a policy that throws *)
Lemma arith_char : forall op f D t u x y s m, exact_op op f ->
  wf_operand D t -> wf_operand D u -> holds D t x -> holds D u y ->
  binary D op t u x y = Some (s, m) -> throws_arithmetic (sE s) ->
  wf_operand D (OSafe s) /\
  ((returns m (f x y) /\ in_type D (st s) (f x y) /\ smin s <= f x y <= smax s)
   \/ (in_type D (st s) x /\ in_type D (st s) y /\ f x y > hi D (st s)
       /\ m = ([(arithmetic_error, positive_overflow_error)], Throw positive_overflow_error))
   \/ (in_type D (st s) x /\ in_type D (st s) y /\ f x y < lo D (st s)
       /\ m = ([(arithmetic_error, negative_overflow_error)], Throw negative_overflow_error))
   \/ ((~ in_type D (st s) x \/ ~ in_type D (st s) y) /\ throws_arith m)).
Proof.
  intros op f D t u x y s m Hop Ht Hu Hx Hy Hb HE.
  destruct (binary_inv _ _ _ _ _ _ _ _ Hb) as (P & E & R & ri & HP & HEp & HR & Hri & -> & Hm).
  cbn [sE] in HE. cbn [st smin smax].
  destruct (exact_ri _ _ _ _ _ _ _ Hop Ht Hu Hri) as ((W1 & W2 & W3) & Hchk & Hunc).
  split; [unfold wf_operand; cbn; auto|].
  rewrite (exact_exception op f) in Hm by assumption.
  destruct Hm as [[Hx0 ->]|[Hx1 (W & casts & HW & Hc & _ & ->)]].
  - apply orb_false_elim in Hx0. destruct Hx0 as [X1 X2].
    destruct (Hunc X1 X2 x y Hx Hy) as (E1 & E2 & E3). left.
    split; [|auto]. unfold returns, unchecked_run. rewrite E1. cbn [mlift]. rewrite mbind_ret.
    rewrite conv_id by assumption. reflexivity.
  - rewrite (exact_work op f) in HW by assumption. injection HW as <-.
    unfold checked_run.
    destruct (casting_helper_throws _ _ _ _ _ _ _ _ HE Ht Hu Hx Hy Hc) as [(Ix & Iy & ->)|[Hn Tc]].
    + rewrite mbind_ret. cbn [fst snd].
      destruct (eoo_cases _ _ _ _ (exact_checked op f D R x y Hop Ix Iy)) as [[Hi ->]|[[Hi ->]|[Hi ->]]];
        cbn [mlift]; rewrite mbind_ret.
      * left. rewrite dar_val, mbind_ret. unfold returns. rewrite conv_id by assumption. auto.
      * right; left. cbn [dispatch_and_return].
        rewrite dispatch_arith by (unfold arithmetic_err; auto). auto.
      * right; right; left. cbn [dispatch_and_return].
        rewrite dispatch_arith by (unfold arithmetic_err; auto). auto.
    + right; right; right. split; [assumption|]. apply mbind_throws. assumption.
Qed.

Lemma throws_pos : forall A, @throws_arith A ([(arithmetic_error, positive_overflow_error)], Throw positive_overflow_error).
Proof. intros. eexists; split; [|reflexivity]. unfold arithmetic_err; auto. Qed.
Lemma throws_neg : forall A, @throws_arith A ([(arithmetic_error, negative_overflow_error)], Throw negative_overflow_error).
Proof. intros. eexists; split; [|reflexivity]. unfold arithmetic_err; auto. Qed.

Lemma arith_exact : forall op f D t u x y s m, exact_op op f ->
  wf_operand D t -> wf_operand D u -> holds D t x -> holds D u y ->
  binary D op t u x y = Some (s, m) -> throws_arithmetic (sE s) ->
  wf_operand D (OSafe s) /\ exact_or_throws m (smin s) (smax s) (f x y).
Proof.
  intros op f D t u x y s m Hop Ht Hu Hx Hy Hb HE.
  destruct (arith_char op f D t u x y s m Hop Ht Hu Hx Hy Hb HE) as [Hw Hc]. split; [assumption|].
  unfold exact_or_throws.
  destruct Hc as [(? & ? & ?)|[(? & ? & ? & ->)|[(? & ? & ? & ->)|[? ?]]]];
    auto using throws_pos, throws_neg.
Qed.
