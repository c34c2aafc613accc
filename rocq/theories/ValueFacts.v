(** ValueFacts.v -- operators, conversions and comparisons on operand values for which
    nothing can go wrong: the exact value is returned, whatever the policies are. *)
From Coq Require Import ZArith Bool List Lia.
From Verif Require Import Base CType Spec CTypeFacts Utility UtilityFacts SafeCompare
  CheckedInteger CheckedIntegerFacts CheckedResultOps CheckedResultFacts Interval IntervalFacts
  IntervalOpsFacts ExceptionPolicy Promotion SafeBase SafeSpec SafeFacts SafeConvFacts SafeDivFacts
  SafeShiftFacts SafeBitFacts.
From Verif Require Import Program ProgramFacts.
Import ListNotations.
Local Open Scope Z_scope.

Lemma validate_value : forall D R mn mx E T slo shi x m,
  in_type D R mn -> in_type D R mx -> in_type D T x -> mn <= x <= mx ->
  validate D R mn mx E T slo shi x = Some m -> m = mret x.
Proof.
  intros D R mn mx E T slo shi x m Hmn Hmx Hx Hr H. unfold validate in H.
  destruct (validate_static D R mn mx T slo shi) as [[|]|]; [| |discriminate].
  - injection H as <-. rewrite conv_id by (unfold in_type in *; lia). reflexivity.
  - destruct E as [E|]; [|discriminate]. destruct (all_compile _ _); [|discriminate]. injection H as <-.
    destruct (het_cast_spec D R mn mx T x Hmn Hmx Hx) as [K _]. rewrite (K Hr), dar_val, mbind_ret. reflexivity.
Qed.

Lemma construct_value : forall D s o x m, in_type D (st s) (smin s) -> in_type D (st s) (smax s) ->
  in_type D (base_ty o) x -> smin s <= x <= smax s -> construct D s o x = Some m -> m = mret x.
Proof. intros D s o x m H1 H2 H3 H4 H. exact (validate_value _ _ _ _ _ _ _ _ _ _ H1 H2 H3 H4 H). Qed.

Lemma cast_operand_value : forall D E R o x m, in_type D (base_ty o) x -> in_type D R x ->
  cast_operand D E R o x = Some m -> m = mret x.
Proof.
  intros D E R o x m Hx Hr H. unfold cast_operand in H.
  destruct (static_cast_builtin D R o x); [|discriminate]. destruct (all_compile _ _); [|discriminate].
  injection H as <-. rewrite (proj1 (cast_spec D R _ x Hx) Hr), dar_val, mbind_ret. reflexivity.
Qed.

Lemma casting_helper_value : forall D E R t u x y m, in_type D (base_ty t) x -> in_type D (base_ty u) y ->
  in_type D R x -> in_type D R y -> casting_helper D E R t u x y = Some m -> m = mret (x, y).
Proof.
  intros D E R t u x y m Hx Hy Ix Iy H. unfold casting_helper in H.
  destruct (cast_operand D E R t x) as [a|] eqn:Ea; [|discriminate].
  destruct (cast_operand D E R u y) as [b|] eqn:Eb; [|discriminate]. injection H as <-.
  rewrite (cast_operand_value _ _ _ _ _ _ Hx Ix Ea), mbind_ret, (cast_operand_value _ _ _ _ _ _ Hy Iy Eb), mbind_ret.
  reflexivity.
Qed.

Lemma binary_value : forall D op t u x y s m z,
  binary D op t u x y = Some (s, m) -> in_type D (base_ty t) x -> in_type D (base_ty u) y ->
  in_type D (st s) x -> in_type D (st s) y -> in_type D (st s) z ->
  raw_op D op (st s) x y = Ok z ->
  (forall W, work_type D op (st s) t u = Some W -> in_type D W x -> in_type D W y -> in_type D W z ->
     checked_op D op W x y = Ok (CVal z)) ->
  m = mret z.
Proof.
  intros D op t u x y s m z H Hx Hy Ix Iy Iz Hraw Hchk.
  destruct (binary_inv _ _ _ _ _ _ _ _ H) as (P & E & R & ri & HP & HEp & HR & Hri & -> & Hm). cbn [st] in *.
  destruct Hm as [[_ ->]|[_ (W & casts & HW & Hc & _ & ->)]].
  - unfold unchecked_run. rewrite (conv_id D R x), (conv_id D R y), Hraw by assumption.
    cbn [mlift]. rewrite mbind_ret, conv_id by assumption. reflexivity.
  - assert (B : lo D W <= lo D R /\ hi D R <= hi D W).
    { destruct op; cbn [work_type] in HW; try (injection HW as <-; lia); exact (work_range D R _ _ W HW). }
    assert (J : in_type D W x /\ in_type D W y /\ in_type D W z) by (unfold in_type in *; lia).
    destruct J as (Jx & Jy & Jz).
    unfold checked_run. rewrite (casting_helper_value _ _ _ _ _ _ _ _ Hx Hy Jx Jy Hc), mbind_ret. cbn [fst snd].
    rewrite (Hchk W HW Jx Jy Jz). cbn [mlift]. rewrite mbind_ret, dar_val, mbind_ret, conv_id by assumption. reflexivity.
Qed.

(** + - * *)
Lemma arith_value : forall op f D t u x y s m, exact_op op f ->
  binary D op t u x y = Some (s, m) -> in_type D (base_ty t) x -> in_type D (base_ty u) y ->
  in_type D (st s) x -> in_type D (st s) y -> in_type D (st s) (f x y) -> m = mret (f x y).
Proof.
  intros op f D t u x y s m Hop H Hx Hy Ix Iy Iz.
  apply (binary_value D op t u x y s m (f x y) H Hx Hy Ix Iy Iz).
  - destruct Hop as [[-> ->]|[[-> ->]|[-> ->]]]; cbn [raw_op];
    apply c_arith_same; auto using promote_in.
  - intros W HW Jx Jy Jz.
    destruct (eoo_cases _ _ _ _ (exact_checked op f D W x y Hop Jx Jy)) as [[_ K]|[[K _]|[K _]]];
      [assumption|unfold in_type in *; lia|unfold in_type in *; lia].
Qed.

Lemma div_value : forall D t u x y s m,
  binary D Div t u x y = Some (s, m) -> in_type D (base_ty t) x -> in_type D (base_ty u) y ->
  in_type D (st s) x -> in_type D (st s) y -> y <> 0 -> in_type D (st s) (Z.quot x y) -> m = mret (Z.quot x y).
Proof.
  intros D t u x y s m H Hx Hy Ix Iy Hz Iz.
  apply (binary_value D Div t u x y s m (Z.quot x y) H Hx Hy Ix Iy Iz).
  - cbn [raw_op]. apply c_div_same; auto using promote_in.
  - intros W HW Jx Jy Jz. cbn [checked_op].
    destruct (eoo_cases _ _ _ _ (proj2 (divide_spec D W x y Jx Jy) Hz)) as [[_ K]|[[K _]|[K _]]];
      [assumption|unfold in_type in *; lia|unfold in_type in *; lia].
Qed.

Lemma digits_lt_width : forall D R, digits D R <= width D (promote D R).
Proof.
  intros D R. destruct D, R; vm_compute; discriminate.
Qed.

Lemma shr_value : forall D t u x y s m,
  binary D Shr t u x y = Some (s, m) -> in_type D (base_ty t) x -> in_type D (base_ty u) y ->
  in_type D (st s) x -> in_type D (st s) y -> 0 <= x -> 0 <= y < digits D (st s) -> m = mret (x / 2 ^ y).
Proof.
  intros D t u x y s m H Hx Hy Ix Iy Hx0 Hy0.
  pose proof (digits_lt_width D (st s)) as Hw. pose proof (div_pow_in D (st s) x y Ix Hx0 ltac:(lia)) as Iz.
  apply (binary_value D Shr t u x y s m _ H Hx Hy Ix Iy Iz).
  - cbn [raw_op]. unfold c_shr. rewrite (proj2 (Z.ltb_ge y 0)), (proj2 (Z.leb_gt (width D (promote D (st s))) y)) by lia.
    cbn [orb]. reflexivity.
  - intros W [= <-] _ _ _. cbn [checked_op]. rewrite right_shift_spec by assumption.
    rewrite (proj2 (Z.ltb_ge y 0)), (proj2 (Z.ltb_ge (digits D (st s)) y)), (proj2 (Z.ltb_ge x 0)),
      (proj2 (Z.ltb_lt y (width D (promote D (st s))))) by lia. reflexivity.
Qed.

Lemma shl_value : forall D t u x y s m,
  binary D Shl t u x y = Some (s, m) -> in_type D (base_ty t) x -> in_type D (base_ty u) y ->
  in_type D (st s) x -> in_type D (st s) y -> 0 <= x -> 0 <= y < digits D (st s) ->
  in_type D (st s) (x * 2 ^ y) -> m = mret (x * 2 ^ y).
Proof.
  intros D t u x y s m H Hx Hy Ix Iy Hx0 Hy0 Iz.
  pose proof (digits_lt_width D (st s)) as Hw.
  apply (binary_value D Shl t u x y s m _ H Hx Hy Ix Iy Iz).
  - cbn [raw_op]. unfold c_shl. rewrite (proj2 (Z.ltb_ge y 0)), (proj2 (Z.leb_gt (width D (promote D (st s))) y)) by lia.
    cbn [orb]. pose proof (promote_in D (st s) _ Iz) as Ip. rewrite conv_id by assumption.
    destruct (csigned D (promote D (st s))); [|reflexivity].
    rewrite (proj2 (Z.ltb_ge x 0)) by lia.
    rewrite (proj2 (Z.leb_le _ _)); [reflexivity|].
    assert (hi D (promote D (st s)) <= hi D (to_unsigned (promote D (st s)))) by apply to_unsigned_hi.
    unfold in_type in Ip. lia.
  - intros W [= <-] _ _ _. cbn [checked_op]. rewrite left_shift_spec by assumption.
    destruct (Z.eqb_spec y 0) as [->|N]; [rewrite Z.mul_1_r; reflexivity|].
    rewrite (proj2 (Z.ltb_ge y 0)), (proj2 (Z.ltb_ge (digits D (st s)) y)), (proj2 (Z.ltb_ge x 0)) by lia.
    destruct (Z.eqb_spec x 0) as [->|Nx].
    + rewrite (proj2 (Z.ltb_lt y (digits D (st s)))) by lia. reflexivity.
    + rewrite (proj2 (Z.leb_le _ _)) by (unfold in_type in Iz; lia). reflexivity.
Qed.

(** bitwise operators *)
Lemma bit_value : forall D b t u x y s m,
  bitwise D b t u x y = Some (s, m) -> in_type D (st s) x -> in_type D (st s) y ->
  in_type D (st s) (bit_op b x y) -> m = mret (bit_op b x y).
Proof.
  intros D b t u x y s m H Ix Iy Iz.
  destruct (bitwise_inv _ _ _ _ _ _ _ _ H) as (mx & _ & _ & _ & _ & _ & _ & _ & ->).
  rewrite built_in_bit_eq, (conv_id D (st s) x), (conv_id D (st s) y) by assumption.
  rewrite (conv_id D (uac D (st s) (st s)) x), (conv_id D (uac D (st s) (st s)) y) by auto using same_in.
  rewrite conv_id by assumption. reflexivity.
Qed.

(** comparisons *)
Lemma compare_value : forall D c t u x y m P R, common_pp t u = Some P -> result_base_type D P PCmp t u = Some R ->
  wf_operand D t -> wf_operand D u -> holds D t x -> holds D u y -> in_type D R x -> in_type D R y ->
  compare D c t u x y = Some m -> m = mret (match c with CLt => x <? y | CEq => x =? y end).
Proof.
  intros D c t u x y m P R HP HR Ht Hu Hx Hy Ix Iy Hc. unfold compare in Hc. rewrite HP in Hc.
  destruct (common_ep t u) as [E|]; [|discriminate]. rewrite HR in Hc. cbv zeta in Hc.
  assert (Hv : forall k, (if interval_open (lim_interval D R t) || interval_open (lim_interval D R u) then
              match casting_helper D E R t u x y with
              | Some casts => Some (mbind casts (fun p => mret (match c with
                              | CLt => less_than D R R (fst p) (snd p)
                              | CEq => equal D R R (fst p) (snd p) end)))
              | None => None
              end
            else Some (mret (match c with
                          | CLt => c_lt D R R (conv D R x) (conv D R y)
                          | CEq => c_eq D R R (conv D R x) (conv D R y) end))) = Some k ->
          k = mret (match c with CLt => x <? y | CEq => x =? y end)).
  { intros k Hk. destruct (interval_open _ || interval_open _).
    - destruct (casting_helper D E R t u x y) as [casts|] eqn:Hh; [|discriminate]. injection Hk as <-.
      destruct Ht as (Ht1 & Ht2 & _). destruct Hu as (Hu1 & Hu2 & _).
      rewrite (casting_helper_value D E R t u x y casts) by (unfold holds, in_type in *; first [assumption|lia]).
      rewrite mbind_ret. cbn [fst snd]. destruct c.
      + rewrite less_than_spec by assumption. reflexivity.
      + rewrite equal_spec by assumption. reflexivity.
    - injection Hk as <-. rewrite !conv_id by assumption. destruct c.
      + rewrite c_lt_same by assumption. reflexivity.
      + rewrite c_eq_same by assumption. reflexivity. }
  destruct (if interval_open _ || interval_open _ then _ else _) as [k|] eqn:Hk; [|discriminate].
  specialize (Hv k eq_refl). subst k.
  destruct c.
  - destruct (i_lt_sound D R t u x y Ht Hu Hx Hy) as [L G].
    destruct (tri_bool (i_lt _ _ _ _)) eqn:A.
    { injection Hc as <-. rewrite (proj2 (Z.ltb_lt _ _)) by (apply L, tri_bool_true, A). reflexivity. }
    destruct (tri_bool (i_gt _ _ _ _)) eqn:B.
    { injection Hc as <-. apply tri_bool_true in B. specialize (G B).
      rewrite (proj2 (Z.ltb_ge _ _)) by lia. reflexivity. }
    injection Hc as <-. reflexivity.
  - destruct (tri_bool (tri_not _)) eqn:A.
    { exfalso. apply tri_bool_true, tri_not_true in A. eapply intersect_false; try exact A; eassumption. }
    injection Hc as <-. reflexivity.
Qed.
