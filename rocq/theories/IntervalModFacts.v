(** IntervalModFacts.v -- what the remainder of intervals computes, and when it is right
    for a constant divisor. *)
From Coq Require Import ZArith Bool List Lia.
From Verif Require Import Base CType Spec CTypeFacts Utility UtilityFacts SafeCompare
  CheckedInteger CheckedIntegerFacts CheckedResultOps CheckedResultFacts Interval IntervalFacts
  IntervalOpsFacts ExceptionPolicy Promotion SafeBase SafeSpec SafeFacts SafeDivFacts.
From Verif Require Import Program ProgramFacts.
Import ListNotations.
Local Open Scope Z_scope.

Lemma i_mod_hull : forall D R a b c d,
  in_type D R a -> in_type D R b -> in_type D R c -> in_type D R d -> a <= b -> c <= d ->
  0 < c \/ d < 0 ->
  ~ (lo D R < 0 /\ a = lo D R /\ c = lo D R) ->
  exists l u, i_mod D R (mkI (CVal a) (CVal b)) (mkI (CVal c) (CVal d)) = Ok (mkI (CVal l) (CVal u))
    /\ In l [remainder a c; remainder a d; remainder b c; remainder b d]
    /\ In u [remainder a c; remainder a d; remainder b c; remainder b d]
    /\ (forall z, In z [remainder a c; remainder a d; remainder b c; remainder b d] -> l <= z <= u).
Proof.
  intros D R a b c d Ha Hb Hc Hd Hab Hcd H0 Hn.
  assert (Hg : forall p q, (p = a \/ p = b) -> (q = c \/ q = d) ->
     cr_mod D R (CVal p) (CVal q) = Ok (CVal (remainder p q)) /\ in_type D R (remainder p q)).
  { intros p q Hp Hq. apply cr_mod_vals.
    - destruct Hp as [->| ->]; assumption.
    - destruct Hq as [->| ->]; assumption.
    - lia.
    - unfold in_type in *. intros (N & P1 & P2). apply Hn. split; [assumption|]. split; [|lia]. lia. }
  destruct (Hg a c) as [E1 I1]; auto. destruct (Hg a d) as [E2 I2]; auto.
  destruct (Hg b c) as [E3 I3]; auto. destruct (Hg b d) as [E4 I4]; auto.
  unfold i_mod. rewrite (proj2 (excludes_zero_val D R c d Hc Hd Hcd) H0).
  unfold minmax_of, corners. cbn [il iu]. rewrite E1, E2, E3, E4. cbn [seq_res rbind].
  destruct (minmax_spec D R (CVal (remainder a c))
    [CVal (remainder a d); CVal (remainder b c); CVal (remainder b d)]) as (i & Hi & Hs).
  { do 4 (apply Forall_cons; [assumption|]). apply Forall_nil. }
  destruct Hs as [[Hs _]|(_ & _ & _ & _ & _ & K1 & K2 & _ & K3)]; [exfalso; apply Hs; exact I|].
  destruct i as [il0 iu0]. cbn [il iu] in *.
  assert (V : forall k, In k [CVal (remainder a c); CVal (remainder a d); CVal (remainder b c); CVal (remainder b d)] ->
    exists z, k = CVal z /\ In z [remainder a c; remainder a d; remainder b c; remainder b d]).
  { intros k H. cbn in H. destruct H as [<-|[<-|[<-|[<-|[]]]]]; eexists; (split; [reflexivity|]); cbn; auto 6. }
  destruct (V _ K1) as (l & -> & L1). destruct (V _ K2) as (u & -> & U1).
  exists l, u. split; [exact Hi|]. split; [assumption|]. split; [assumption|].
  intros z Hz. destruct (K3 (CVal z)) as [A B]; [|exact I|cbn in A, B; lia].
  cbn in Hz |- *. destruct Hz as [<-|[<-|[<-|[<-|[]]]]]; auto 6.
Qed.

(** the remainders of a whole range by c > 0 *)
Definition period_ok (a b c : Z) : Prop :=
  a / c = b / c \/ (a mod c = 0 /\ b mod c = c - 1) \/ (a mod c = c - 1 /\ b mod c = 0).

Lemma period_iff : forall a b c, 0 <= a <= b -> 0 < c ->
  (forall x, a <= x <= b -> Z.min (a mod c) (b mod c) <= x mod c <= Z.max (a mod c) (b mod c))
  <-> period_ok a b c.
Proof.
  intros a b c Hab Hc.
  pose proof (Z.div_mod a c ltac:(lia)) as Ea. pose proof (Z.mod_pos_bound a c Hc) as Ba.
  pose proof (Z.div_mod b c ltac:(lia)) as Eb. pose proof (Z.mod_pos_bound b c Hc) as Bb.
  split.
  - intros H. destruct (Z.eq_dec (a / c) (b / c)) as [E|N]; [left; assumption|right].
    assert (Lq : a / c < b / c) by (pose proof (Z.div_le_mono a b c Hc ltac:(lia)); lia).
    assert (Lp : c * (a / c) + c <= c * (b / c)) by nia.
    pose proof (H (c * (b / c)) ltac:(lia)) as P1.
    replace ((c * (b / c)) mod c) with 0 in P1 by (rewrite (Z.mul_comm c (b / c)), Z.mod_mul by lia; reflexivity).
    pose proof (H (c * (a / c) + (c - 1)) ltac:(lia)) as P2.
    replace ((c * (a / c) + (c - 1)) mod c) with (c - 1) in P2
      by (apply (Z.mod_unique _ _ (a / c)); [lia|reflexivity]).
    lia.
  - intros H x Hx.
    pose proof (Z.div_mod x c ltac:(lia)) as Ex. pose proof (Z.mod_pos_bound x c Hc) as Bx.
    destruct H as [H|[H|H]]; [|lia|lia].
    assert (Q : x / c = a / c).
    { pose proof (Z.div_le_mono a x c Hc ltac:(lia)). pose proof (Z.div_le_mono x b c Hc ltac:(lia)). lia. }
    rewrite Q in Ex. rewrite <- H in Eb. lia.
Qed.

Lemma remainder_mod : forall x y, 0 <= x -> 0 < y -> remainder x y = x mod y.
Proof. intros x y Hx Hy. rewrite remainder_rem by lia. apply Z.rem_mod_nonneg; lia. Qed.

Lemma hull_eq : forall a b c l u, 0 <= a -> 0 <= b -> 0 < c ->
  In l [remainder a c; remainder a c; remainder b c; remainder b c] ->
  In u [remainder a c; remainder a c; remainder b c; remainder b c] ->
  (forall z, In z [remainder a c; remainder a c; remainder b c; remainder b c] -> l <= z <= u) ->
  l = Z.min (a mod c) (b mod c) /\ u = Z.max (a mod c) (b mod c).
Proof.
  intros a b c l u Ha Hb Hc. rewrite !remainder_mod by assumption. intros L U H.
  pose proof (H (a mod c) ltac:(cbn; auto)). pose proof (H (b mod c) ltac:(cbn; auto)).
  cbn in L, U. lia.
Qed.

Lemma i_mod_constant : forall D R a b c,
  in_type D R a -> in_type D R b -> in_type D R c -> 0 <= a <= b -> 0 < c ->
  i_mod D R (mkI (CVal a) (CVal b)) (mkI (CVal c) (CVal c))
    = Ok (mkI (CVal (Z.min (a mod c) (b mod c))) (CVal (Z.max (a mod c) (b mod c)))).
Proof.
  intros D R a b c Ha Hb Hc Hab H0.
  destruct (i_mod_hull D R a b c c Ha Hb Hc Hc ltac:(lia) ltac:(lia) ltac:(lia) ltac:(lia)) as (l & u & -> & L & U & H).
  destruct (hull_eq a b c l u ltac:(lia) ltac:(lia) H0 L U H) as [-> ->]. reflexivity.
Qed.

Lemma lim_interval_fits : forall D R o, wf_operand D o -> fits_in D R o ->
  lim_interval D R o = mkI (CVal (lim_lo D o)) (CVal (lim_hi D o)).
Proof.
  intros D R o (W1 & W2 & W3) [F1 F2]. unfold lim_interval.
  rewrite (proj1 (cast_spec D R _ _ W1)), (proj1 (cast_spec D R _ _ W2)) by (unfold in_type in *; lia). reflexivity.
Qed.

Lemma C25_constant : forall D t u x0 y0 s m0 c, wf_operand D t -> wf_operand D u ->
  binary D Mod t u x0 y0 = Some (s, m0) -> fits_in D (st s) t -> fits_in D (st s) u ->
  0 <= lim_lo D t -> 0 < c -> lim_lo D u = c -> lim_hi D u = c ->
  (forall x, holds D t x -> exists m, binary D Mod t u x c = Some (s, m) /\ returns m (x mod c))
  /\ ((forall x, holds D t x -> smin s <= x mod c <= smax s) <-> period_ok (lim_lo D t) (lim_hi D t) c).
Proof.
  intros D t u x0 y0 s m0 c Ht Hu H Ft Fu H0 Hc Lc Uc.
  destruct (binary_inv _ _ _ _ _ _ _ _ H) as (P & E & R & ri & HP & HE & HR & Hri & Es & _).
  assert (ER : st s = R) by (rewrite Es; reflexivity). rewrite ER in *.
  pose proof (lim_interval_fits D R t Ht Ft) as Lt. pose proof (lim_interval_fits D R u Hu Fu) as Lu.
  rewrite Lc, Uc in Lu. pose proof (proj2 (proj2 Ht)) as Hle.
  assert (Ia : in_type D R (lim_lo D t)) by (destruct Ft; unfold in_type; lia).
  assert (Ib : in_type D R (lim_hi D t)) by (destruct Ft; unfold in_type; lia).
  assert (Ic : in_type D R c) by (destruct Fu; unfold in_type; lia).
  assert (Enz : nonzero_interval D R (mkI (CVal c) (CVal c)) = true).
  { unfold nonzero_interval, cr_gt. cbn [il iu]. rewrite !cr_lt_val by auto using zero_in.
    rewrite (proj2 (Z.ltb_ge c 0)), (proj2 (Z.ltb_lt 0 c)) by lia. reflexivity. }
  assert (Eri : ri = mkI (CVal (Z.min (lim_lo D t mod c) (lim_hi D t mod c))) (CVal (Z.max (lim_lo D t mod c) (lim_hi D t mod c)))).
  { unfold r_type_interval in Hri. cbv zeta in Hri. rewrite Lt, Lu in Hri. unfold mod_interval in Hri.
    rewrite Enz in Hri. rewrite i_mod_constant in Hri by (try assumption; lia). injection Hri as <-. reflexivity. }
  split.
  - intros x Hx. destruct (binary_any D Mod t u x0 y0 x c s m0 H) as (m & K). exists m. split; [assumption|].
    destruct (binary_inv _ _ _ _ _ _ _ _ K) as (P' & E' & R' & ri' & HP' & HE' & HR' & Hri' & Es' & Km).
    assert (ER' : st s = R') by (rewrite Es'; reflexivity). rewrite ER in ER'. subst R'.
    rewrite Hri in Hri'. injection Hri' as <-.
    assert (X : exception_possible D Mod R t u ri = false).
    { rewrite Eri. unfold exception_possible. cbv zeta. rewrite Lu. cbn [il iu exception].
      unfold includes_pt, cr_gt. cbn [il iu]. rewrite !orb_false_r.
      unfold cr_le, cr_ge, cr_gt, tri_not. cbn [il iu].
      rewrite ?cr_lt_val by auto using zero_in.
      rewrite ?(proj2 (Z.ltb_ge c 0)), ?(proj2 (Z.ltb_lt 0 c)) by lia. reflexivity. }
    destruct Km as [[_ ->]|[X' _]]; [|rewrite X in X'; discriminate].
    unfold holds in Hx. assert (Ix : in_type D R x) by (destruct Ft; unfold in_type; lia).
    unfold returns, unchecked_run. cbn [raw_op]. rewrite (conv_id D R x), (conv_id D R c) by assumption.
    pose proof (zero_in D R) as Z0.
    assert (Hm : 0 <= x mod c < c) by (apply Z.mod_pos_bound; lia).
    rewrite c_rem_same; auto; [|lia|].
    + rewrite Z.rem_mod_nonneg by lia. cbn [mlift]. rewrite mbind_ret, conv_id by (unfold in_type in *; lia). reflexivity.
    + apply promote_in. rewrite Z.quot_div_nonneg by lia.
      assert (0 <= x / c <= x) by (split; [apply Z.div_pos; lia|apply Z.div_le_upper_bound; nia]). unfold in_type in *. lia.
  - rewrite Es, Eri. cbn [smin smax il iu bound_lo bound_hi].
    rewrite <- (period_iff (lim_lo D t) (lim_hi D t) c) by lia. reflexivity.
Qed.

Lemma C17_constant : forall D R a b c,
  in_type D R a -> in_type D R b -> in_type D R c -> 0 <= a <= b -> 0 < c ->
  exists l u, i_mod D R (mkI (CVal a) (CVal b)) (mkI (CVal c) (CVal c)) = Ok (mkI (CVal l) (CVal u))
    /\ l = Z.min (a mod c) (b mod c) /\ u = Z.max (a mod c) (b mod c)
    /\ ((forall x, a <= x <= b -> l <= x mod c <= u)
        <-> a / c = b / c \/ (a mod c = 0 /\ b mod c = c - 1) \/ (a mod c = c - 1 /\ b mod c = 0)).
Proof.
  intros D R a b c Ha Hb Hc Hab H0. eexists. eexists.
  split; [apply i_mod_constant; assumption|]. split; [reflexivity|]. split; [reflexivity|].
  apply period_iff; assumption.
Qed.
