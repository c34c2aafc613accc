(** SafeDivFacts.v -- facts about / and % on safe types. Proofs only. *)
From Coq Require Import ZArith Bool List Lia.
From Verif Require Import Base CType Spec CTypeFacts Utility UtilityFacts SafeCompare
  CheckedInteger CheckedIntegerFacts CheckedResultOps CheckedResultFacts Interval IntervalFacts
  IntervalOpsFacts ExceptionPolicy Promotion SafeBase SafeSpec SafeFacts.
Import ListNotations.
Local Open Scope Z_scope.

(** ------------------------------------------------------------------ *)
(** the work type *)
Definition check_div_temp (D : dmodel) (R T U : ctype) : bool :=
  match div_temp D R T U with
  | None => false
  | Some W => Bool.eqb (csigned D W) (csigned D R) && (digits D R <=? digits D W)
              && implb ((digits D T <=? digits D R) && (digits D U <=? digits D R)) (digits D W =? digits D R)
  end.
Lemma all_dmodel_in : forall D, In D all_dmodel.
Proof. intros D; destruct D; cbn; tauto. Qed.
Lemma all_ctype_in : forall T, In T all_ctype.
Proof. intros T; destruct T; cbn; tauto. Qed.
Lemma check_div_temp_all :
  forallb (fun D => forallb (fun R => forallb (fun T => forallb (fun U => check_div_temp D R T U)
    all_ctype) all_ctype) all_ctype) all_dmodel = true.
Proof. vm_compute. reflexivity. Qed.
Lemma div_temp_spec : forall D R T U W, div_temp D R T U = Some W ->
  csigned D W = csigned D R /\ digits D R <= digits D W
  /\ (digits D T <= digits D R -> digits D U <= digits D R -> digits D W = digits D R).
Proof.
  intros D R T U W HW. pose proof check_div_temp_all as H.
  rewrite forallb_forall in H. specialize (H D (all_dmodel_in D)).
  rewrite forallb_forall in H. specialize (H R (all_ctype_in R)).
  rewrite forallb_forall in H. specialize (H T (all_ctype_in T)).
  rewrite forallb_forall in H. specialize (H U (all_ctype_in U)).
  unfold check_div_temp in H. rewrite HW in H.
  apply andb_prop in H. destruct H as [H1 H2]. apply andb_prop in H1. destruct H1 as [H0 H1].
  apply Bool.eqb_prop in H0. apply Z.leb_le in H1. repeat split; auto.
  intros A B. apply Z.leb_le in A, B. rewrite A, B in H2. cbn in H2. apply Z.eqb_eq. assumption.
Qed.

Lemma digits_hi_le : forall D T U, digits D T <= digits D U -> hi D T <= hi D U.
Proof.
  intros D T U H. unfold hi. pose proof (digits_pos D T).
  pose proof (Z.pow_le_mono_r 2 (digits D T) (digits D U) ltac:(lia) H). lia.
Qed.
Lemma digits_lo_le : forall D T U, digits D T <= digits D U -> csigned D U = true -> lo D U <= lo D T.
Proof.
  intros D T U H HS. rewrite (hi_pos_lo D U HS). pose proof (digits_hi_le D T U H).
  destruct (csigned D T) eqn:E.
  - rewrite (hi_pos_lo D T E). lia.
  - rewrite (lo_unsigned D T E). pose proof (hi_ge_127 D U). lia.
Qed.
Lemma same_range : forall D T U, csigned D T = csigned D U -> digits D T = digits D U ->
  lo D T = lo D U /\ hi D T = hi D U.
Proof. intros D T U H1 H2. unfold lo, hi. rewrite H1, H2. auto. Qed.
Lemma wider_range : forall D T U, csigned D T = csigned D U -> digits D T <= digits D U ->
  lo D U <= lo D T /\ hi D T <= hi D U.
Proof.
  intros D T U H1 H2. split; [|apply digits_hi_le; assumption].
  destruct (csigned D U) eqn:E.
  - apply digits_lo_le; assumption.
  - rewrite (lo_unsigned D T H1), (lo_unsigned D U E). lia.
Qed.

(** every built-in value an operand can hold is at most the maximum of R, and a
    value below the minimum of R is possible only if R is unsigned *)
Definition fits (D : dmodel) (R : ctype) (o : otype) : Prop :=
  lim_hi D o <= hi D R /\ (lo D R <= lim_lo D o \/ csigned D R = false).

Lemma digits_fits : forall D R o, wf_operand D o -> digits D (base_ty o) <= digits D R -> fits D R o.
Proof.
  intros D R o (W1 & W2 & W3) Hd. pose proof (digits_hi_le D _ _ Hd) as Hh. unfold in_type in *. split; [lia|].
  destruct (csigned D R) eqn:E; [left|auto]. pose proof (digits_lo_le D _ _ Hd E). lia.
Qed.

(** the cast of the lower bound of an operand that fits *)
Lemma fits_lo : forall D R o, wf_operand D o -> fits D R o ->
  (in_type D R (lim_lo D o) /\ cast D R (base_ty o) (lim_lo D o) = CVal (lim_lo D o))
  \/ (csigned D R = false /\ lim_lo D o < 0 /\ cast D R (base_ty o) (lim_lo D o) = CErr domain_error).
Proof.
  intros D R o (W1 & W2 & W3) [F1 F2].
  destruct (cast_cases D R _ _ W1) as [(? & E)|[(? & E)|[(? & ? & E)|(? & ? & ? & E)]]].
  - auto.
  - lia.
  - exfalso. destruct F2; [lia|]. pose proof (lo_unsigned D R H1). lia.
  - right. repeat split; auto. lia.
Qed.
Lemma fits_hi : forall D R o, wf_operand D o -> fits D R o -> in_type D R (lim_lo D o) ->
  in_type D R (lim_hi D o) /\ cast D R (base_ty o) (lim_hi D o) = CVal (lim_hi D o).
Proof.
  intros D R o (W1 & W2 & W3) [F1 F2] Hl.
  assert (Hi : in_type D R (lim_hi D o)) by (unfold in_type in *; lia).
  split; [assumption|]. apply (proj1 (cast_spec D R _ _ W2)). assumption.
Qed.

Lemma cr_div_dom_l : forall D R e c, cr_ok D R c -> ~ num (CErr e) -> cr_div D R (CErr e) c = Ok (CErr range_error).
Proof.
  intros D R e c Hc He. unfold cr_div.
  assert (to_pflag D R (CErr e) = indeterminate) as -> by (destruct e; cbn in *; tauto).
  pflag c Hc; reflexivity.
Qed.
Lemma cr_div_dom_r : forall D R e c, cr_ok D R c -> ~ num (CErr e) -> cr_div D R c (CErr e) = Ok (CErr range_error).
Proof.
  intros D R e c Hc He. unfold cr_div.
  assert (to_pflag D R (CErr e) = indeterminate) as -> by (destruct e; cbn in *; tauto).
  pflag c Hc; reflexivity.
Qed.
Lemma cr_mod_dom_l : forall D R e c, cr_ok D R c -> ~ num (CErr e) -> cr_mod D R (CErr e) c = Ok (CErr range_error).
Proof.
  intros D R e c Hc He. unfold cr_mod.
  assert (to_pflag D R (CErr e) = indeterminate) as -> by (destruct e; cbn in *; tauto).
  pflag c Hc; reflexivity.
Qed.
Lemma cr_mod_dom_r : forall D R e c, cr_ok D R c -> ~ num (CErr e) -> cr_mod D R c (CErr e) = Ok (CErr range_error).
Proof.
  intros D R e c Hc He. unfold cr_mod.
  assert (to_pflag D R (CErr e) = indeterminate) as -> by (destruct e; cbn in *; tauto).
  pflag c Hc; reflexivity.
Qed.

Lemma minmax_loop_not_num : forall D R h l, ~ num h -> minmax D R (h :: l) = Ok (mkI h h).
Proof. intros D R h l Hn. unfold minmax. rewrite minmax_loop_head by assumption. reflexivity. Qed.

Lemma minmax_of_not_num : forall D R h l i, ~ num h -> minmax_of D R (Ok h :: l) = Ok i -> i = mkI h h.
Proof.
  intros D R h l i Hn H. unfold minmax_of in H. cbn [seq_res rbind] in H.
  destruct (seq_res l) as [vs|]; cbn [rbind] in H; [|discriminate].
  rewrite minmax_loop_not_num in H by assumption. congruence.
Qed.

(** a bound that is a domain error makes both bounds of the result errors *)
Lemma unknown_interval : forall g D R ti ui i, (g = cr_div D R \/ g = cr_mod D R) ->
  cr_ok D R (il ti) -> cr_ok D R (il ui) ->
  (il ti = CErr domain_error \/ il ui = CErr domain_error) ->
  minmax_of D R (corners g ti ui) = Ok i \/ minmax_of D R (eight g D R ti ui) = Ok i ->
  i = mkI (CErr range_error) (CErr range_error).
Proof.
  intros g D R ti ui i Hg Ot Ou Hd Hi.
  assert (Hn : ~ num (CErr domain_error)) by (cbn; tauto).
  assert (g (il ti) (il ui) = Ok (CErr range_error)) as E.
  { destruct Hg as [->| ->], Hd as [->| ->];
    auto using cr_div_dom_l, cr_div_dom_r, cr_mod_dom_l, cr_mod_dom_r. }
  unfold corners, eight in Hi. rewrite E in Hi.
  destruct Hi as [Hi|Hi]; apply minmax_of_not_num in Hi; auto; cbn; tauto.
Qed.

Lemma div_mod_unknown : forall D op R t u ri, (op = Div \/ op = Mod) ->
  wf_operand D t -> wf_operand D u ->
  (cast D R (base_ty t) (lim_lo D t) = CErr domain_error \/ cast D R (base_ty u) (lim_lo D u) = CErr domain_error) ->
  r_type_interval D op R t u = Ok ri -> ri = mkI (CErr range_error) (CErr range_error).
Proof.
  intros D op R t u ri Hop (W1 & _) (U1 & _) Hd H.
  pose proof (cast_ok D R _ _ W1) as O1. pose proof (cast_ok D R _ _ U1) as O2.
  destruct Hop as [->| ->]; cbn [r_type_interval] in H.
  - apply (unknown_interval (cr_div D R) D R (lim_interval D R t) (lim_interval D R u) ri); auto.
    unfold div_interval, i_div in H. destruct (nonzero_interval D R (lim_interval D R u)); [|auto].
    destruct (tri_bool _); [auto|discriminate].
  - apply (unknown_interval (cr_mod D R) D R (lim_interval D R t) (lim_interval D R u) ri); auto.
    unfold mod_interval, i_mod in H. destruct (nonzero_interval D R (lim_interval D R u)); [|auto].
    destruct (tri_bool _); [auto|discriminate].
Qed.

(** ------------------------------------------------------------------ *)
(** the eight quotients bound all quotients *)
Lemma nonzero_vals : forall D R c d, in_type D R c -> in_type D R d -> c <= d ->
  (nonzero_interval D R (mkI (CVal c) (CVal d)) = true <-> 0 < c \/ d < 0).
Proof.
  intros D R c d Hc Hd Hcd. unfold nonzero_interval, cr_gt. cbn [il iu].
  rewrite !cr_lt_val by auto using zero_in.
  destruct (Z.ltb_spec 0 c), (Z.ltb_spec d 0); cbn; intuition (try lia; try discriminate).
Qed.

Ltac pick := cbn [In]; repeat first [left; reflexivity | right].

Lemma eight_div_sound : forall D R a b c d k,
  in_type D R a -> in_type D R b -> in_type D R c -> in_type D R d -> a <= b -> c <= 0 <= d ->
  minmax_of D R (eight (cr_div D R) D R (mkI (CVal a) (CVal b)) (mkI (CVal c) (CVal d))) = Ok k ->
  k = mkI (CErr range_error) (CErr range_error)
  \/ (num (il k) /\ num (iu k) /\ cr_ok D R (il k) /\ cr_ok D R (iu k) /\ cle (il k) (iu k)
      /\ forall x y, a <= x <= b -> c <= y <= d -> y <> 0 ->
           at_least D R (il k) (Z.quot x y) /\ at_most D R (iu k) (Z.quot x y)).
Proof.
  intros D R a b c d k Ha Hb Hc Hd Hab Hcd Hk.
  unfold minmax_of in Hk. destruct (seq_res _) as [vs|] eqn:Es; [|discriminate]. cbn [rbind] in Hk.
  apply seq_res_inv in Es. unfold eight in Es. cbn [il iu] in Es.
  (* every quotient is a checked result *)
  assert (Hm1 : in_type D R (conv D R (-1))) by apply conv_range.
  assert (Hp1 : in_type D R 1) by apply one_in.
  assert (Hok : forall p q, in_type D R p -> in_type D R q -> exists r, cr_div D R (CVal p) (CVal q) = Ok r
     /\ cr_ok D R r /\ (q <> 0 -> rnd_strict D R r (Z.quot p q))).
  { intros p q Hp Hq. destruct (Z.eq_dec q 0) as [->|Hq0].
    - destruct (cr_div_total D R (CVal p) (CVal 0) Hp (zero_in D R)) as (r & E & O & _).
      exists r. split; [assumption|]. split; [assumption|]. congruence.
    - destruct (cr_div_vals D R p q Hp Hq Hq0) as (r & E & O & S). exists r. auto. }
  destruct (Hok a c Ha Hc) as (r1 & E1 & O1 & S1).
  destruct (Hok a _ Ha Hm1) as (r2 & E2 & O2 & S2).
  destruct (Hok a 1 Ha Hp1) as (r3 & E3 & O3 & S3).
  destruct (Hok a d Ha Hd) as (r4 & E4 & O4 & S4).
  destruct (Hok b c Hb Hc) as (r5 & E5 & O5 & S5).
  destruct (Hok b _ Hb Hm1) as (r6 & E6 & O6 & S6).
  destruct (Hok b 1 Hb Hp1) as (r7 & E7 & O7 & S7).
  destruct (Hok b d Hb Hd) as (r8 & E8 & O8 & S8).
  rewrite E1, E2, E3, E4, E5, E6, E7, E8 in Es.
  assert (vs = [r1; r2; r3; r4; r5; r6; r7; r8]) as ->.
  { repeat match goal with H : Forall2 _ (_ :: _) ?l |- _ => inversion H; clear H; subst
      | H : Forall2 _ [] ?l |- _ => inversion H; clear H; subst end.
    repeat match goal with H : Ok _ = Ok _ |- _ => injection H as <- end. reflexivity. }
  destruct (minmax_spec D R r1 [r2; r3; r4; r5; r6; r7; r8]) as (i & Hi & Hs).
  { do 8 (apply Forall_cons; [assumption|]); apply Forall_nil. }
  rewrite Hi in Hk. injection Hk as <-.
  destruct Hs as [[Hn ->]|(N1 & N2 & K1 & K2 & Kc & _ & _ & Nh & Hin)].
  - left. (* only 0 / 0 is not a number *)
    destruct (Z.eq_dec c 0) as [->|Hc0].
    + unfold cr_div in E1. rewrite !to_pflag_val in E1 by auto using zero_in.
      destruct (Z.ltb_spec a 0); [|destruct (Z.ltb_spec 0 a)]; cbn in E1; injection E1 as <-; cbn in Hn; try tauto.
    + exfalso. apply Hn. apply (rnd_strict_num D R r1 _ (S1 Hc0)).
  - right. splits; try assumption.
    intros x y Hx Hy Hy0.
    assert (Hb2 : exists p q p' q' rr rr', In rr [r1; r2; r3; r4; r5; r6; r7; r8]
       /\ In rr' [r1; r2; r3; r4; r5; r6; r7; r8]
       /\ rnd_strict D R rr (Z.quot p q) /\ rnd_strict D R rr' (Z.quot p' q')
       /\ Z.quot p q <= Z.quot x y <= Z.quot p' q').
    { destruct (Z_lt_le_dec 0 y) as [Hpos|Hneg].
      - destruct (corner_bounds Z.quot a b 1 d x y Hx ltac:(lia)) as (p & q & p' & q' & Hp & Hq & Hp' & Hq' & G).
        { intros y0 Hy1. apply quot_mono_x. lia. }
        { intros x0 Hx1. apply quot_mono_r. left. lia. }
        assert (Hd0 : d <> 0) by lia.
        exists p, q, p', q'.
        assert (Hsel : forall p q, (p = a \/ p = b) -> (q = 1 \/ q = d) ->
           exists rr, In rr [r1; r2; r3; r4; r5; r6; r7; r8] /\ rnd_strict D R rr (Z.quot p q)).
        { intros p0 q0 [->| ->] [->| ->].
          - exists r3. split; [pick|apply S3; lia].
          - exists r4. split; [pick|apply S4; lia].
          - exists r7. split; [pick|apply S7; lia].
          - exists r8. split; [pick|apply S8; lia]. }
        destruct (Hsel p q Hp Hq) as (rr & I1 & R1). destruct (Hsel p' q' Hp' Hq') as (rr' & I2 & R2).
        exists rr, rr'. auto.
      - assert (Hcneg : c <= -1) by lia.
        assert (HS : csigned D R = true) by (apply (signed_of_neg D R c); [assumption|lia]).
        rewrite (conv_id D R (-1)) in * by (apply neg1_in; assumption).
        destruct (corner_bounds Z.quot a b c (-1) x y Hx ltac:(lia)) as (p & q & p' & q' & Hp & Hq & Hp' & Hq' & G).
        { intros y0 Hy1. apply quot_mono_x. lia. }
        { intros x0 Hx1. apply quot_mono_r. right. lia. }
        exists p, q, p', q'.
        assert (Hsel : forall p q, (p = a \/ p = b) -> (q = c \/ q = -1) ->
           exists rr, In rr [r1; r2; r3; r4; r5; r6; r7; r8] /\ rnd_strict D R rr (Z.quot p q)).
        { intros p0 q0 [->| ->] [->| ->].
          - exists r1. split; [pick|apply S1; lia].
          - exists r2. split; [pick|apply S2; lia].
          - exists r5. split; [pick|apply S5; lia].
          - exists r6. split; [pick|apply S6; lia]. }
        destruct (Hsel p q Hp Hq) as (rr & I1 & R1). destruct (Hsel p' q' Hp' Hq') as (rr' & I2 & R2).
        exists rr, rr'. auto. }
    destruct Hb2 as (p & q & p' & q' & rr & rr' & I1 & I2 & R1 & R2 & G1 & G2).
    destruct (Hin rr I1 (rnd_strict_num _ _ _ _ R1)) as [L1 _].
    destruct (Hin rr' I2 (rnd_strict_num _ _ _ _ R2)) as [_ L2].
    split.
    + apply (at_least_cle D R (il i) rr); auto; [apply (rnd_strict_num _ _ _ _ R1)|].
      apply (rnd_at_least D R rr _ _ R1). assumption.
    + apply (at_most_cle D R rr' (iu i)); auto; [apply (rnd_strict_num _ _ _ _ R2)|].
      apply (rnd_at_most D R rr' _ _ R2). assumption.
Qed.

(** what the static analysis of / guarantees when the operands fit R *)
Lemma div_fits : forall D R t u ri, wf_operand D t -> wf_operand D u -> fits D R t -> fits D R u ->
  r_type_interval D Div R t u = Ok ri ->
  (in_type D R (bound_lo D R (il ri)) /\ in_type D R (bound_hi D R (iu ri))
   /\ bound_lo D R (il ri) <= bound_hi D R (iu ri))
  /\ (forall x y, holds D t x -> holds D u y -> in_type D R x -> in_type D R y -> y <> 0 ->
        in_type D R (Z.quot x y) -> bound_lo D R (il ri) <= Z.quot x y <= bound_hi D R (iu ri))
  /\ (exception_possible D Div R t u ri = false ->
      forall x y, holds D t x -> holds D u y ->
        y <> 0 /\ raw_op D Div R (conv D R x) (conv D R y) = Ok (Z.quot x y)
        /\ in_type D R x /\ in_type D R y /\ in_type D R (Z.quot x y)).
Proof.
  intros D R t u ri Ht Hu Ft Fu H.
  assert (Hunk : ri = mkI (CErr range_error) (CErr range_error) ->
    (in_type D R (bound_lo D R (il ri)) /\ in_type D R (bound_hi D R (iu ri))
     /\ bound_lo D R (il ri) <= bound_hi D R (iu ri))
    /\ (forall x y, holds D t x -> holds D u y -> in_type D R x -> in_type D R y -> y <> 0 ->
        in_type D R (Z.quot x y) -> bound_lo D R (il ri) <= Z.quot x y <= bound_hi D R (iu ri))
    /\ exception_possible D Div R t u ri = true).
  { intros ->. cbn [il iu bound_lo bound_hi]. splits.
    - apply lo_in.
    - apply hi_in.
    - pose proof (lo_le_0 D R). pose proof (hi_ge_127 D R). lia.
    - intros. assumption.
    - cbn [exception_possible il iu exception]. rewrite !orb_true_r. reflexivity. }
  destruct (fits_lo D R t Ht Ft) as [[It Et]|(_ & _ & Et)].
  2:{ destruct (Hunk (div_mod_unknown D Div R t u ri ltac:(auto) Ht Hu ltac:(auto) H)) as (A & B & C).
      split; [assumption|]. split; [assumption|]. rewrite C. discriminate. }
  destruct (fits_lo D R u Hu Fu) as [[Iu Eu]|(_ & _ & Eu)].
  2:{ destruct (Hunk (div_mod_unknown D Div R t u ri ltac:(auto) Ht Hu ltac:(auto) H)) as (A & B & C).
      split; [assumption|]. split; [assumption|]. rewrite C. discriminate. }
  destruct (fits_hi D R t Ht Ft It) as [It2 Et2]. destruct (fits_hi D R u Hu Fu Iu) as [Iu2 Eu2].
  destruct Ht as (_ & _ & T3), Hu as (_ & _ & U3).
  cbn [r_type_interval] in H. unfold div_interval, lim_interval in H. rewrite Et, Eu, Et2, Eu2 in H.
  assert (Hex : forall k, exception_possible D Div R t u k =
    ((lim_lo D u <=? 0) && (0 <=? lim_hi D u)) || exception (il k) || exception (iu k)).
  { intros k. cbn [exception_possible]. unfold lim_interval. rewrite Eu, Eu2.
    unfold includes_pt, cr_le. cbn [il iu]. rewrite !cr_lt_val by auto using zero_in.
    destruct (Z.ltb_spec 0 (lim_lo D u)), (Z.ltb_spec (lim_hi D u) 0),
      (Z.leb_spec (lim_lo D u) 0), (Z.leb_spec 0 (lim_hi D u)); cbn; try reflexivity; lia. }
  assert (Hgen : num (il ri) /\ num (iu ri) /\ cr_ok D R (il ri) /\ cr_ok D R (iu ri)
     /\ (cle (il ri) (iu ri) \/ exception (il ri) = true \/ exception (iu ri) = true)
     /\ (forall x y, holds D t x -> holds D u y -> y <> 0 ->
           at_least D R (il ri) (Z.quot x y) /\ at_most D R (iu ri) (Z.quot x y)) ->
    (in_type D R (bound_lo D R (il ri)) /\ in_type D R (bound_hi D R (iu ri))
     /\ bound_lo D R (il ri) <= bound_hi D R (iu ri))
    /\ (forall x y, holds D t x -> holds D u y -> in_type D R x -> in_type D R y -> y <> 0 ->
          in_type D R (Z.quot x y) -> bound_lo D R (il ri) <= Z.quot x y <= bound_hi D R (iu ri))
    /\ (exception_possible D Div R t u ri = false ->
        forall x y, holds D t x -> holds D u y ->
          y <> 0 /\ raw_op D Div R (conv D R x) (conv D R y) = Ok (Z.quot x y)
          /\ in_type D R x /\ in_type D R y /\ in_type D R (Z.quot x y))).
  { intros (N1 & N2 & K1 & K2 & Kc & Hs). splits.
    - apply bound_lo_in; assumption.
    - apply bound_hi_in; assumption.
    - apply bounds_le_of_cle; assumption.
    - intros x y Hx Hy Ix Iy Hy0 Iq. destruct (Hs x y Hx Hy Hy0).
      split; [apply at_least_bound|apply at_most_bound]; assumption.
    - intros X x y Hx Hy. rewrite Hex in X. apply orb_false_elim in X. destruct X as [X X3].
      apply orb_false_elim in X. destruct X as [X1 X2].
      assert (Hy0 : y <> 0) by (unfold holds in *; intros ->; lia).
      apply exc_false in X2, X3. destruct X2 as [vl X2], X3 as [vh X3].
      assert (Ix : in_type D R x) by (unfold holds, in_type in *; lia).
      assert (Iy : in_type D R y) by (unfold holds, in_type in *; lia).
      destruct (Hs x y Hx Hy Hy0) as [S1 S2]. rewrite X2 in S1, K1. rewrite X3 in S2, K2. cbn in S1, S2, K1, K2.
      assert (Iq : in_type D R (Z.quot x y)) by (unfold in_type in *; lia).
      splits; auto. rewrite !conv_id by assumption. apply c_div_same; auto using promote_in. }
  destruct (nonzero_interval D R (mkI (CVal (lim_lo D u)) (CVal (lim_hi D u)))) eqn:En.
  - apply nonzero_vals in En; [|assumption..].
    destruct (i_div_sound D R (lim_lo D t) (lim_hi D t) (lim_lo D u) (lim_hi D u)) as (k & Ek & N1 & N2 & K1 & K2 & Hs);
      try assumption. rewrite Ek in H. injection H as ->. apply Hgen. splits; try assumption.
    + destruct (exception (il ri)) eqn:X1; [auto|]. destruct (exception (iu ri)) eqn:X2; [auto|]. left.
      apply exc_false in X1, X2. destruct X1 as [vl X1], X2 as [vh X2].
      destruct (Hs (lim_lo D t) (lim_lo D u) ltac:(lia) ltac:(lia)) as [S1 S2].
      rewrite X1 in *. rewrite X2 in *. cbn in *. lia.
    + intros x y Hx Hy _. apply Hs; assumption.
  - assert (Hz : lim_lo D u <= 0 <= lim_hi D u).
    { destruct (Z_le_gt_dec (lim_lo D u) 0), (Z_le_gt_dec 0 (lim_hi D u)); try lia;
      exfalso; assert (Hf : nonzero_interval D R (mkI (CVal (lim_lo D u)) (CVal (lim_hi D u))) = true)
       by (apply nonzero_vals; auto; lia); congruence. }
    destruct (eight_div_sound D R (lim_lo D t) (lim_hi D t) (lim_lo D u) (lim_hi D u) ri It It2 Iu Iu2 T3 Hz H)
      as [E|(N1 & N2 & K1 & K2 & Kc & Hs)].
    + destruct (Hunk E) as (A & B & C). split; [assumption|]. split; [assumption|]. rewrite C. discriminate.
    + apply Hgen. splits; auto.
Qed.

(** ------------------------------------------------------------------ *)
(** promotion policies *)
Lemma uac_digits : forall D T U, digits D T <= digits D (uac D T U) /\ digits D U <= digits D (uac D T U).
Proof. destruct D, T, U; vm_compute; split; congruence. Qed.

Lemma auto_temp_large : forall D t u o, o = t \/ o = u -> wf_operand D o ->
  csigned D (auto_temp D (base_ty t) (base_ty u)) = true -> lo D (auto_temp D (base_ty t) (base_ty u)) <= lim_lo D o.
Proof.
  intros D t u o Ho (W1 & _) HS. unfold auto_temp in *.
  destruct (_ && _).
  - rewrite uintmax_unsigned in HS. discriminate.
  - pose proof (intmax_lo D (base_ty o)). unfold in_type in *. lia.
Qed.

Lemma auto_temp_unsigned : forall D T U, csigned D (auto_temp D T U) = false -> csigned D T = false /\ csigned D U = false.
Proof.
  intros D T U. unfold auto_temp. destruct (csigned D T) eqn:E1, (csigned D U) eqn:E2; cbn;
    rewrite ?intmax_signed; intros; try discriminate; auto.
Qed.

Lemma auto_temp_cases : forall D T U, auto_temp D T U = uintmax D \/ auto_temp D T U = intmax D.
Proof. intros. unfold auto_temp. destruct (_ && _); auto. Qed.

Lemma stored_type_spec : forall D tmp mn mx R, tmp = intmax D \/ tmp = uintmax D ->
  in_type D tmp mn -> in_type D tmp mx -> mn <= mx -> stored_type D tmp mn mx = Some R ->
  csigned D R = csigned D tmp /\ in_type D R mn /\ in_type D R mx
  /\ lo D tmp <= lo D R /\ hi D R <= hi D tmp.
Proof.
  intros D tmp mn mx R [->| ->] H1 H2 H3 HR; unfold stored_type in HR.
  - rewrite intmax_signed in *. destruct (signed_stored_type_spec D mn mx H1 H2) as (T & E & A & B & C & _).
    rewrite HR in E. injection E as <-. pose proof (intmax_lo D R). pose proof (intmax_hi D R A). auto.
  - rewrite uintmax_unsigned in *.
    destruct (unsigned_stored_type_spec D mn mx) as (T & E & A & B & C & _);
      [pose proof (uintmax_bounds D); unfold in_type in *; lia|assumption|].
    rewrite HR in E. injection E as <-. pose proof (uintmax_hi D R).
    rewrite (lo_unsigned D _ A), (lo_unsigned D _ (uintmax_unsigned D)). auto with zarith.
Qed.

Lemma fits_in_fits : forall D R o, fits_in D R o -> fits D R o.
Proof. intros D R o [H1 H2]. split; auto. Qed.

Lemma div_interval_ok : forall D R t u ri, r_type_interval D Div R t u = Ok ri ->
  div_interval D R (lim_interval D R t) (lim_interval D R u) = Ok ri.
Proof. auto. Qed.

(** under automatic promotion the result type holds all quotients *)
Lemma auto_div_range : forall D t u R x y,
  wf_operand D t -> wf_operand D u -> holds D t x -> holds D u y -> y <> 0 ->
  automatic_result D (PArith Div) t u = Some R -> fits_in D R t -> fits_in D R u ->
  in_type D (auto_temp D (base_ty t) (base_ty u)) (Z.quot x y) -> in_type D R (Z.quot x y).
Proof.
  intros D t u R x y Ht Hu Hx Hy Hy0 HR Ft Fu Hq.
  cbn [automatic_result] in HR. set (tmp := auto_temp D (base_ty t) (base_ty u)) in *.
  unfold auto_type in HR.
  destruct (div_interval D tmp (lim_interval D tmp t) (lim_interval D tmp u)) as [ri|] eqn:Ei; [|discriminate].
  assert (Htmp : tmp = intmax D \/ tmp = uintmax D)
    by (unfold tmp; destruct (auto_temp_cases D (base_ty t) (base_ty u)); auto).
  (* R is part of tmp, so the operands fit tmp *)
  assert (Hsub : fits D tmp t /\ fits D tmp u /\ csigned D tmp = csigned D tmp).
  { unfold stored_type in HR.
    assert (hi D R <= hi D tmp).
    { destruct (csigned D tmp) eqn:ES.
      - destruct Htmp as [Hi|Hi]; [|rewrite Hi, uintmax_unsigned in ES; discriminate].
        unfold signed_stored_type in HR. apply int_t_least_spec in HR. destruct HR as (A & _).
        rewrite Hi. apply intmax_hi; assumption.
      - destruct Htmp as [Hi|Hi]; [rewrite Hi, intmax_signed in ES; discriminate|].
        rewrite Hi. apply uintmax_hi. }
    unfold fits_in, fits in *. destruct (csigned D tmp) eqn:ES; [|splits; auto; lia].
    pose proof (auto_temp_large D t u t ltac:(auto) Ht ES). pose proof (auto_temp_large D t u u ltac:(auto) Hu ES).
    fold tmp in H0, H1. splits; auto; lia. }
  destruct Hsub as (Ft' & Fu' & _).
  destruct (div_fits D tmp t u ri Ht Hu Ft' Fu' Ei) as ((B1 & B2 & B3) & Hs & _).
  destruct (stored_type_spec D tmp _ _ R Htmp B1 B2 B3 HR) as (_ & M1 & M2 & _).
  assert (Hin : forall o z, o = t \/ o = u -> wf_operand D o -> holds D o z -> fits D tmp o -> in_type D tmp z).
  { intros o z Ho Hwo Hz [F1 F2]. unfold holds, in_type in *. split; [|lia].
    destruct (csigned D tmp) eqn:ES.
    - pose proof (auto_temp_large D t u o Ho Hwo ES). fold tmp in H. lia.
    - destruct (auto_temp_unsigned D _ _ ES) as [U1 U2]. rewrite (lo_unsigned D tmp ES).
      destruct Hwo as (W1 & _). unfold in_type in W1.
      destruct Ho as [->| ->]; [rewrite (lo_unsigned D _ U1) in W1|rewrite (lo_unsigned D _ U2) in W1]; lia. }
  pose proof (Hs x y Hx Hy (Hin t x ltac:(auto) Ht Hx Ft') (Hin u y ltac:(auto) Hu Hy Fu') Hy0 Hq).
  unfold in_type in *. lia.
Qed.

Lemma work_range : forall D R T U W, div_temp D R T U = Some W -> lo D W <= lo D R /\ hi D R <= hi D W.
Proof. intros D R T U W H. apply div_temp_spec in H. destruct H as (A & B & _). apply wider_range; auto. Qed.

Lemma auto_signed : forall D op t u R, op = Div \/ op = Mod ->
  automatic_result D (PArith op) t u = Some R -> csigned D R = csigned D (auto_temp D (base_ty t) (base_ty u)).
Proof.
  intros D op t u R Hop H.
  assert (exists ri, auto_type D (auto_temp D (base_ty t) (base_ty u)) ri = Some R) as [ri E]
    by (destruct Hop as [->| ->]; eexists; exact H).
  unfold auto_type, stored_type in E. destruct ri as [i|]; [|discriminate].
  destruct (csigned D (auto_temp _ _ _)) eqn:ES.
  - unfold signed_stored_type in E. apply int_t_least_spec in E. tauto.
  - unfold unsigned_stored_type in E. apply uint_t_least_spec in E. tauto.
Qed.

Lemma large_enough_fits : forall D P op R t u mn mx E, wf_operand D t -> wf_operand D u -> op = Div \/ op = Mod ->
  result_base_type D P (PArith op) t u = Some R -> result_large_enough D (mkSafe R mn mx P E) t u ->
  fits D R t /\ fits D R u
  /\ ((digits D (base_ty t) <= digits D R /\ digits D (base_ty u) <= digits D R)
      \/ (P = Automatic /\ fits_in D R t /\ fits_in D R u)).
Proof.
  intros D P op R t u mn mx E Ht Hu Hop HR H. unfold result_large_enough in H. cbn [sP st] in H.
  assert (Hd : digits D (base_ty t) <= digits D R /\ digits D (base_ty u) <= digits D R ->
    fits D R t /\ fits D R u /\
    ((digits D (base_ty t) <= digits D R /\ digits D (base_ty u) <= digits D R)
      \/ (P = Automatic /\ fits_in D R t /\ fits_in D R u))).
  { intros [A B]. split; [apply digits_fits; assumption|]. split; [apply digits_fits; assumption|auto]. }
  destruct H as [->|[H|(H1 & H2 & H3)]].
  - apply Hd. cbn [result_base_type] in HR. injection HR as <-.
    destruct Hop as [->| ->]; apply uac_digits.
  - apply Hd; assumption.
  - split; [apply fits_in_fits; assumption|]. split; [apply fits_in_fits; assumption|]. auto.
Qed.

Lemma throws_domain : forall A, @throws_arith A ([(arithmetic_error, domain_error)], Throw domain_error).
Proof. intros. eexists; split; [|reflexivity]. unfold arithmetic_err; auto. Qed.

Lemma auto_temp_work : forall D R T U W, div_temp D R T U = Some W ->
  csigned D R = csigned D (auto_temp D T U) -> hi D W <= hi D (auto_temp D T U) /\ lo D (auto_temp D T U) <= lo D W.
Proof.
  intros D R T U W HW HS. apply div_temp_spec in HW. destruct HW as (A & _ & _).
  rewrite HS in A. unfold auto_temp in *. destruct (_ && _).
  - rewrite uintmax_unsigned in A. rewrite (lo_unsigned D W A). pose proof (uintmax_bounds D).
    split; [apply uintmax_hi|lia].
  - rewrite intmax_signed in A. split; [apply intmax_hi; assumption|apply intmax_lo].
Qed.

(** the complete behaviour of / under a policy that throws *)
Lemma div_char : forall D t u x y s m,
  wf_operand D t -> wf_operand D u -> holds D t x -> holds D u y ->
  binary D Div t u x y = Some (s, m) -> throws_arithmetic (sE s) -> result_large_enough D s t u ->
  wf_operand D (OSafe s)
  /\ (y = 0 -> throws_arith m)
  /\ (y <> 0 -> (returns m (Z.quot x y) /\ in_type D (st s) x /\ in_type D (st s) y
                 /\ in_type D (st s) (Z.quot x y) /\ smin s <= Z.quot x y <= smax s)
       \/ ((~ in_type D (st s) x \/ ~ in_type D (st s) y \/ ~ in_type D (st s) (Z.quot x y)) /\ throws_arith m)).
Proof.
  intros D t u x y s m Ht Hu Hx Hy Hb HE Hl.
  destruct (binary_inv _ _ _ _ _ _ _ _ Hb) as (P & E & R & ri & HP & HEp & HR & Hri & -> & Hm).
  cbn [sE] in HE. cbn [st smin smax].
  destruct (large_enough_fits D P Div R t u _ _ E Ht Hu ltac:(auto) HR Hl) as (Ft & Fu & Hcase).
  destruct (div_fits D R t u ri Ht Hu Ft Fu Hri) as ((W1 & W2 & W3) & Hchk & Hunc).
  split; [unfold wf_operand; cbn; auto|].
  destruct Hm as [[Hx0 ->]|[Hx1 (W & casts & HW & Hc & _ & ->)]].
  - destruct (Hunc Hx0 x y Hx Hy) as (Hy0 & Er & Ix & Iy & Iq). split; [congruence|]. intros _. left.
    split; [|auto 10]. unfold returns, unchecked_run. rewrite Er. cbn [mlift]. rewrite mbind_ret.
    rewrite conv_id by assumption. reflexivity.
  - cbn [work_type] in HW. destruct (work_range D R _ _ W HW) as [R1 R2].
    unfold checked_run.
    destruct (casting_helper_throws _ _ _ _ _ _ _ _ HE Ht Hu Hx Hy Hc) as [(Ix & Iy & ->)|[Hn Tc]].
    2:{ split; [intros _; apply mbind_throws; assumption|]. intros _. right.
        split; [|apply mbind_throws; assumption]. unfold in_type in *. destruct Hn; [left|right; left]; lia. }
    rewrite mbind_ret. cbn [fst snd checked_op]. destruct (divide_spec D W x y Ix Iy) as [Hz Hnz]. split.
    + intros Hy0. rewrite (Hz Hy0). cbn [mlift]. rewrite mbind_ret. apply mbind_throws.
      apply dar_arith; [assumption|unfold arithmetic_err; auto].
    + intros Hy0.
      destruct (eoo_cases _ _ _ _ (Hnz Hy0)) as [[Hi ->]|[[Hi ->]|[Hi ->]]];
        cbn [mlift]; rewrite mbind_ret.
      * left. rewrite dar_val, mbind_ret.
        assert (Iq : in_type D R x /\ in_type D R y /\ in_type D R (Z.quot x y)).
        { destruct Hcase as [[D1 D2]|(-> & G1 & G2)].
          - destruct (div_temp_spec D R _ _ W HW) as (S1 & _ & S2).
            destruct (same_range D W R S1 (S2 D1 D2)) as [L1 L2]. unfold in_type in *. rewrite L1, L2 in *. auto.
          - assert (in_type D R x /\ in_type D R y) as [Jx Jy].
            { unfold fits_in, holds, in_type in *. lia. }
            split; [assumption|]. split; [assumption|]. cbn [result_base_type] in HR.
            apply (auto_div_range D t u R x y); auto.
            destruct (auto_temp_work D R _ _ W HW (auto_signed D Div t u R ltac:(auto) HR)).
            unfold in_type in *. lia. }
        destruct Iq as (Jx & Jy & Jq). unfold returns. rewrite conv_id by assumption. auto 10.
      * right. split; [unfold in_type; right; right; lia|]. apply mbind_throws.
        apply dar_arith; [assumption|unfold arithmetic_err; auto].
      * right. split; [unfold in_type; right; right; lia|]. apply mbind_throws.
        apply dar_arith; [assumption|unfold arithmetic_err; auto].
Qed.

(** ------------------------------------------------------------------ *)
(** remainder *)
Lemma mod_fits_unchecked : forall D R t u ri, wf_operand D t -> wf_operand D u -> fits D R t -> fits D R u ->
  r_type_interval D Mod R t u = Ok ri -> exception_possible D Mod R t u ri = false ->
  forall x y, holds D t x -> holds D u y -> y <> 0 /\ in_type D R x /\ in_type D R y.
Proof.
  intros D R t u ri Ht Hu Ft Fu H Hex x y Hx Hy.
  assert (Hunk : ri = mkI (CErr range_error) (CErr range_error) -> False).
  { intros ->. cbn [exception_possible il iu exception] in Hex. rewrite !orb_true_r in Hex. discriminate. }
  destruct (fits_lo D R t Ht Ft) as [[It Et]|(_ & _ & Et)];
    [|exfalso; apply Hunk; apply (div_mod_unknown D Mod R t u); auto].
  destruct (fits_lo D R u Hu Fu) as [[Iu Eu]|(_ & _ & Eu)];
    [|exfalso; apply Hunk; apply (div_mod_unknown D Mod R t u); auto].
  destruct (fits_hi D R t Ht Ft It) as [It2 Et2]. destruct (fits_hi D R u Hu Fu Iu) as [Iu2 Eu2].
  cbn [exception_possible] in Hex. unfold lim_interval in Hex. rewrite Eu, Eu2 in Hex.
  apply orb_false_elim in Hex. destruct Hex as [Hex _]. apply orb_false_elim in Hex. destruct Hex as [Hex _].
  unfold includes_pt, cr_le in Hex. cbn [il iu] in Hex. rewrite !cr_lt_val in Hex by auto using zero_in.
  unfold holds, in_type in *. splits; try lia. intros ->.
  assert ((0 <? lim_lo D u) = false) as E1 by lia. assert ((lim_hi D u <? 0) = false) as E2 by lia.
  rewrite E1, E2 in Hex. discriminate.
Qed.

Lemma rem_abs : forall x y, y <> 0 -> Z.abs (Z.rem x y) <= Z.abs x /\ 0 <= x * Z.rem x y.
Proof.
  intros x y Hy. split.
  - rewrite <- Z.rem_abs by assumption. rewrite Z.rem_mod_nonneg by lia.
    destruct (Z.eq_dec x 0) as [->|]; [rewrite Zmod_0_l; lia|].
    destruct (Z_lt_le_dec (Z.abs x) (Z.abs y)); [rewrite Z.mod_small by lia; lia|].
    pose proof (Z.mod_pos_bound (Z.abs x) (Z.abs y) ltac:(lia)). lia.
  - rewrite Z.mul_comm. apply Z.rem_sign_mul. assumption.
Qed.
Lemma remainder_in : forall D R x y, in_type D R x -> y <> 0 -> in_type D R (remainder x y).
Proof.
  intros D R x y Hx Hy. rewrite remainder_rem by assumption.
  pose proof (rem_abs x y Hy) as [H1 H2]. pose proof (lo_le_0 D R). pose proof (hi_ge_127 D R).
  unfold in_type in *. nia.
Qed.

Lemma mod_char : forall D t u x y s m,
  wf_operand D t -> wf_operand D u -> holds D t x -> holds D u y ->
  binary D Mod t u x y = Some (s, m) -> throws_arithmetic (sE s) -> result_large_enough D s t u ->
  ~ (lo D (st s) < 0 /\ x = lo D (st s) /\ (y = lo D (st s) \/ y = -1)) ->
  (y = 0 -> throws_arith m)
  /\ (y <> 0 -> (returns m (remainder x y) /\ in_type D (st s) (remainder x y))
       \/ ((~ in_type D (st s) x \/ ~ in_type D (st s) y) /\ throws_arith m)).
Proof.
  intros D t u x y s m Ht Hu Hx Hy Hb HE Hl Hne.
  destruct (binary_inv _ _ _ _ _ _ _ _ Hb) as (P & E & R & ri & HP & HEp & HR & Hri & -> & Hm).
  cbn [sE] in HE. cbn [st smin smax] in *.
  destruct (large_enough_fits D P Mod R t u _ _ E Ht Hu ltac:(auto) HR Hl) as (Ft & Fu & Hcase).
  destruct Hm as [[Hx0 ->]|[Hx1 (W & casts & HW & Hc & _ & ->)]].
  - destruct (mod_fits_unchecked D R t u ri Ht Hu Ft Fu Hri Hx0 x y Hx Hy) as (Hy0 & Ix & Iy).
    split; [congruence|]. intros _. left.
    pose proof (remainder_in D R x y Ix Hy0) as Ir. split; [|assumption].
    unfold returns, unchecked_run. cbn [raw_op]. rewrite (conv_id D R x), (conv_id D R y) by assumption.
    rewrite c_rem_same; auto.
    + cbn [mlift]. rewrite mbind_ret. rewrite <- remainder_rem by assumption.
      rewrite conv_id by assumption. reflexivity.
    + apply promote_in. pose proof (quot_abs x y Hy0) as Hq. pose proof (lo_le_0 D R). pose proof (hi_ge_127 D R).
      destruct (csigned D R) eqn:ES.
      * pose proof (hi_pos_lo D R ES).
        destruct (Z.eq_dec x (lo D R)) as [->|Hxl]; [|unfold in_type in *; lia].
        destruct (Z.eq_dec y (-1)) as [->|Hy1]; [exfalso; apply Hne; repeat split; auto; lia|].
        destruct (Z.eq_dec y 1) as [->|Hy2]; [rewrite Z.quot_1_r; assumption|].
        pose proof (quot_range D R (lo D R) y Ix Iy Hy0). unfold in_type in *.
        destruct (Z_lt_le_dec y 0).
        -- assert (Z.quot (lo D R) y <= Z.quot (lo D R) (-2)).
           { pose proof (quot_mono_r (lo D R) y (-2) ltac:(right; lia)) as [Hm|Hm].
             - apply Hm; lia.
             - assert (Z.quot (lo D R) (-2) = Z.quot (- lo D R) 2) as -> by (rewrite <- Z.quot_opp_opp by lia; reflexivity).
               assert (Z.quot (lo D R) y = Z.quot (- lo D R) (- y)) as -> by (rewrite Z.quot_opp_opp by lia; reflexivity).
               apply quot_r_nonneg; lia. }
           assert (Z.quot (lo D R) (-2) <= hi D R).
           { assert (Z.quot (lo D R) (-2) = Z.quot (- lo D R) 2) as -> by (rewrite <- Z.quot_opp_opp by lia; reflexivity).
             rewrite Z.quot_div_nonneg by lia. apply Z.div_le_upper_bound; lia. }
           lia.
        -- lia.
      * pose proof (lo_unsigned D R ES). unfold in_type in *.
        assert (0 <= Z.quot x y) by (apply Z.quot_pos; lia). lia.
  - cbn [work_type] in HW. destruct (work_range D R _ _ W HW) as [R1 R2].
    unfold checked_run.
    destruct (casting_helper_throws _ _ _ _ _ _ _ _ HE Ht Hu Hx Hy Hc) as [(Ix & Iy & ->)|[Hn Tc]].
    2:{ split; [intros _; apply mbind_throws; assumption|]. intros _. right.
        split; [|apply mbind_throws; assumption]. unfold in_type in *. destruct Hn; [left|right]; lia. }
    rewrite mbind_ret. cbn [fst snd checked_op]. split.
    + intros ->. rewrite modulus_zero by assumption. cbn [mlift]. rewrite mbind_ret. apply mbind_throws.
      apply dar_arith; [assumption|unfold arithmetic_err; auto].
    + intros Hy0. left.
      assert (Jx : in_type D R x).
      { destruct Hcase as [[D1 D2]|(-> & G1 & G2)].
        - destruct (div_temp_spec D R _ _ W HW) as (S1 & _ & S2).
          destruct (same_range D W R S1 (S2 D1 D2)) as [L1 L2]. unfold in_type in *. lia.
        - unfold fits_in, holds, in_type in *. lia. }
      assert (Jy : in_type D R y).
      { destruct Hcase as [[D1 D2]|(-> & G1 & G2)].
        - destruct (div_temp_spec D R _ _ W HW) as (S1 & _ & S2).
          destruct (same_range D W R S1 (S2 D1 D2)) as [L1 L2]. unfold in_type in *. lia.
        - unfold fits_in, holds, in_type in *. lia. }
      rewrite modulus_spec; auto.
      * cbn [mlift]. rewrite mbind_ret, dar_val, mbind_ret.
        pose proof (remainder_in D R x y Jx Hy0). unfold returns. rewrite conv_id by assumption. auto.
      * intros (S1 & S2 & S3). apply Hne. unfold in_type in *.
        pose proof (hi_pos_lo D W S1). pose proof (hi_ge_127 D W). lia.
Qed.
