(** SafeIgnoreFacts.v -- shifts under policies that ignore errors. Proofs only. *)
From Coq Require Import ZArith Bool List Lia.
From Verif Require Import Base CType Spec CTypeFacts Utility UtilityFacts SafeCompare
  CheckedInteger CheckedIntegerFacts CheckedResultOps CheckedResultFacts Interval IntervalFacts
  IntervalOpsFacts ExceptionPolicy Promotion SafeBase SafeSpec SafeFacts SafeDivFacts SafeConvFacts
  SafeBitFacts SafeTraceFacts SafePortFacts PropsCheckedProofs PlainCheck.
Import ListNotations.
Local Open Scope Z_scope.

Lemma c_shl_in : forall D T x y v, c_shl D T T x y = Ok v -> in_type D (promote D T) v.
Proof.
  intros D T x y v. unfold c_shl. destruct (_ || _); [discriminate|]. destruct (csigned D (promote D T)).
  - destruct (x <? 0); [discriminate|]. destruct (_ <=? _); [|discriminate]. intros [= <-]. apply conv_range.
  - intros [= <-]. apply conv_range.
Qed.
Lemma c_shl_fits : forall D T x y v, c_shl D T T x y = Ok v -> in_type D (promote D T) (x * 2 ^ y) -> v = x * 2 ^ y.
Proof.
  intros D T x y v H K. revert H. unfold c_shl. rewrite conv_id by assumption.
  destruct (_ || _); [discriminate|]. destruct (csigned D (promote D T)).
  - destruct (x <? 0); [discriminate|]. destruct (_ <=? _); [|discriminate]. congruence.
  - congruence.
Qed.
Lemma c_shr_in : forall D T x y v, in_type D (promote D T) x -> c_shr D T T x y = Ok v ->
  in_type D (promote D T) v /\ v = x / 2 ^ y.
Proof.
  intros D T x y v Hx. unfold c_shr. destruct (Z.ltb_spec y 0); [discriminate|]. cbn [orb].
  destruct (_ <=? _); [discriminate|]. intros [= <-]. split; [|reflexivity].
  pose proof (pow2_pos y ltac:(lia)). pose proof (lo_le_0 D (promote D T)). pose proof (hi_ge_127 D (promote D T)).
  unfold in_type in *. split.
  - apply Z.div_le_lower_bound; [lia|]. nia.
  - destruct (Z_lt_ge_dec x 0); [pose proof (Z.div_lt_upper_bound x (2 ^ y) 0 ltac:(lia) ltac:(lia)); lia|].
    apply Z.le_trans with x; [|lia]. apply Z.div_le_upper_bound; nia.
Qed.

Ltac fails := right; eexists; split; [reflexivity|]; tauto.
(** the built-in shift is defined: the safe one returns the same value or calls
    the handler of implementation-defined behaviour *)
Lemma native_shift : forall D op t u x y s m v, op = Shl \/ op = Shr ->
  wf_operand D t -> wf_operand D u -> holds D t x -> holds D u y ->
  binary D op t u x y = Some (s, m) -> sP s = Native ->
  built_in D op (base_ty t) (base_ty u) x y = Ok v ->
  m = ([], Ret v)
  \/ exists e, shift_err e
     /\ ((on_implementation_defined_behavior (sE s) = HThrow
          /\ m = ([(implementation_defined_behavior, e)], Throw e))
         \/ (on_implementation_defined_behavior (sE s) = HIgnore
             /\ m = ([(implementation_defined_behavior, e)], Ret v))).
Proof.
  intros D op t u x y s m v Hop Ht Hu Hx Hy H HP Hb.
  destruct (binary_inv _ _ _ _ _ _ _ _ H) as (P & E & R & ri & H1 & H2 & H3 & H4 & -> & K).
  cbn [sP sE st] in *. subst P. cbn [result_base_type] in H3.
  assert (HR : R = promote D (base_ty t)) by (destruct Hop as [-> | ->]; cbn in H3; congruence).
  assert (Ix : in_type D R x) by (rewrite HR; apply promote_in; exact (holds_in D t x Ht Hx)).
  assert (HPR : promote D R = R) by (rewrite HR; apply promote_idem).
  assert (Eraw : raw_op D op R x y = Ok v).
  { destruct Hop as [-> | ->]; cbn [raw_op built_in] in *; unfold c_shl, c_shr in *; rewrite HPR, HR; exact Hb. }
  assert (Iy : in_type D R y).
  { assert (0 <= y < width D R).
    { destruct Hop as [-> | ->]; cbn [raw_op] in Eraw; unfold c_shl, c_shr in Eraw; rewrite HPR in Eraw;
        destruct (Z.ltb_spec y 0); try discriminate; cbn [orb] in Eraw;
        destruct (Z.leb_spec (width D R) y); try discriminate; lia. }
    pose proof (widths D R). pose proof (lo_le_0 D R). pose proof (hi_ge_127 D R). unfold in_type. lia. }
  assert (Iv : in_type D R v).
  { destruct Hop as [-> | ->]; cbn [raw_op] in Eraw.
    - apply c_shl_in in Eraw. rewrite HPR in Eraw. exact Eraw.
    - apply c_shr_in in Eraw; rewrite HPR in *; tauto. }
  destruct K as [[X0 ->]|[X1 (W & casts & HW & Hk & Hcomp & ->)]].
  - left. unfold unchecked_run. rewrite (conv_id D R x), (conv_id D R y) by assumption.
    rewrite Eraw. cbn [mlift]. rewrite mbind_ret, conv_id by assumption. reflexivity.
  - assert (W = R) as -> by (destruct Hop as [-> | ->]; cbn in HW; congruence).
    apply casting_helper_in in Hk; auto. subst casts. unfold checked_run. rewrite mbind_ret. cbn [fst snd].
    assert (C : checked_op D op R x y = Ok (CVal v)
                \/ exists e, checked_op D op R x y = Ok (CErr e)
                     /\ (e = negative_shift \/ e = shift_too_large \/ e = negative_value_shift)).
    { destruct Hop as [-> | ->]; cbn [checked_op raw_op] in *.
      - rewrite left_shift_spec by assumption.
        destruct (Z.eqb_spec y 0) as [->|Y0].
        { left. do 2 f_equal. rewrite (c_shl_fits D R x 0 v Eraw); cbn; rewrite ?HPR; [lia|].
          rewrite Z.mul_1_r. assumption. }
        destruct (Z.ltb_spec y 0); [fails|]. destruct (digits D R <? y); [fails|].
        destruct (Z.ltb_spec x 0); [fails|]. destruct (Z.eqb_spec x 0) as [->|X0].
        { destruct (y <? digits D R); [|fails]. left.
          rewrite (c_shl_fits D R 0 y v Eraw); [reflexivity|]. rewrite HPR. cbn. assumption. }
        destruct (Z.leb_spec (x * 2 ^ y) (hi D R)); [|fails]. left.
        rewrite (c_shl_fits D R x y v Eraw); [reflexivity|]. rewrite HPR. pose proof (pow2_pos y ltac:(lia)).
        pose proof (lo_le_0 D R). unfold in_type in *. nia.
      - rewrite right_shift_spec by assumption. rewrite HPR.
        destruct (Z.ltb_spec y 0); [fails|]. destruct (digits D R <? y); [fails|].
        destruct (Z.ltb_spec x 0); [fails|].
        destruct (Z.ltb_spec y (width D R)) as [L|L].
        + left. apply c_shr_in in Eraw; [|rewrite HPR; assumption]. destruct Eraw as [_ ->]. reflexivity.
        + exfalso. unfold c_shr in Eraw. rewrite HPR in Eraw.
          destruct (Z.leb_spec (width D R) y); [|lia]. rewrite orb_true_r in Eraw. discriminate. }
    destruct C as [-> |(e & -> & He)].
    + left. cbn [mlift]. rewrite mbind_ret, dar_val, mbind_ret, conv_id by assumption. reflexivity.
    + right. exists e. split; [unfold shift_err; tauto|]. cbn [mlift]. rewrite mbind_ret. cbn [dispatch_and_return].
      assert (F : fallback_op D op R x y = Ok v) by (destruct Hop as [-> | ->]; exact Eraw).
      assert (HT : on_implementation_defined_behavior E <> HTrap).
      { intros K. destruct Hop as [-> | ->]; unfold op_errors, all_compile in Hcomp; cbv zeta in Hcomp;
          try destruct (csigned D R); cbn in Hcomp; unfold dispatch_compiles in Hcomp; cbn in Hcomp;
          rewrite K in Hcomp; discriminate. }
      unfold dispatch, policy_handler.
      assert (Hm : make_safe_numerics_action e = implementation_defined_behavior)
        by (destruct He as [->|[->| ->]]; reflexivity).
      rewrite Hm. destruct (on_implementation_defined_behavior E); cbn [mbind app]; cbn [mret].
      * left. auto.
      * right. split; [reflexivity|]. rewrite F. cbn. rewrite conv_id by assumption. reflexivity.
      * contradiction.
Qed.
Lemma ignore_shift : forall D op t u x y s m v, op = Shl \/ op = Shr ->
  wf_operand D t -> wf_operand D u -> holds D t x -> holds D u y ->
  binary D op t u x y = Some (s, m) -> sP s = Native -> on_implementation_defined_behavior (sE s) = HIgnore ->
  built_in D op (base_ty t) (base_ty u) x y = Ok v -> snd m = Ret v.
Proof.
  intros D op t u x y s m v Hop Ht Hu Hx Hy H HP HE Hb.
  destruct (native_shift D op t u x y s m v Hop Ht Hu Hx Hy H HP Hb) as [->|(e & _ & [[K _]|[_ ->]])]; [reflexivity| |reflexivity].
  congruence.
Qed.
Lemma ignore_bitwise : forall D b t u x y s m,
  wf_operand D t -> wf_operand D u -> holds D t x -> holds D u y ->
  bitwise D b t u x y = Some (s, m) -> sP s = Native ->
  snd m = Ret (built_in_bit D b (base_ty t) (base_ty u) x y).
Proof.
  intros D b t u x y s m Ht Hu Hx Hy H HP. revert H. unfold bitwise, bitwise_type.
  destruct (common_pp t u) as [P|] eqn:EP; [|discriminate]. destruct (common_ep t u) as [E|]; [|discriminate].
  destruct (result_base_type D P (PBit b) t u) as [R|] eqn:ER; [|discriminate].
  destruct (round_out _ _ _) as [k|]; [|discriminate]. destruct (in_range D R k); [|discriminate].
  intros H. injection H as <- <-. cbn [st sP] in *. subst P. cbn [result_base_type native_result] in ER.
  injection ER as <-. cbn [snd mret].
  set (R := uac D (base_ty t) (base_ty u)) in *.
  assert (U : uac D R R = R) by apply uac_uac. f_equal.
  destruct b; cbn [built_in_bit]; unfold c_or, c_and, c_xor; cbv zeta; rewrite U; fold R;
  rewrite !(conv_id D R (conv D R _)) by apply conv_range; apply conv_id.
  - apply (C08_full D R); apply conv_range.
  - apply (C08_full D R); apply conv_range.
  - apply (C08_full D R); apply conv_range.
Qed.

(** the type of the result is that of the built-in expression *)
Lemma native_type : forall D op t u x y s m, binary D op t u x y = Some (s, m) -> sP s = Native ->
  st s = built_in_type D op (base_ty t) (base_ty u).
Proof.
  intros D op t u x y s m H HP.
  destruct (binary_inv _ _ _ _ _ _ _ _ H) as (P & E & R & ri & _ & _ & H3 & _ & -> & _).
  cbn [sP st] in *. subst P. cbn in H3. destruct op; cbn in *; congruence.
Qed.

(** the built-in remainder is defined: the safe one is the same or an exception *)
Lemma native_mod : forall D t u x y s m v,
  wf_operand D t -> wf_operand D u -> holds D t x -> holds D u y ->
  binary D Mod t u x y = Some (s, m) -> sP s = Native -> throws_arithmetic (sE s) ->
  ~ (lo D (st s) < 0 /\ x = lo D (st s) /\ y = lo D (st s)) ->
  built_in D Mod (base_ty t) (base_ty u) x y = Ok v ->
  (in_type D (st s) x /\ in_type D (st s) y /\ returns m v)
  \/ ((~ in_type D (st s) x \/ ~ in_type D (st s) y) /\ throws_arith m).
Proof.
  intros D t u x y s m v Ht Hu Hx Hy H HP HE Hn Hb.
  assert (HR := native_type D Mod t u x y s m H HP). cbn [built_in_type] in HR.
  destruct (binary_inv _ _ _ _ _ _ _ _ H) as (P & E & R & ri & H1 & H2 & H3 & H4 & Es & K).
  assert (ER : st s = R) by (rewrite Es; reflexivity). assert (EE : sE s = E) by (rewrite Es; reflexivity).
  assert (EP : sP s = P) by (rewrite Es; reflexivity).
  destruct (large_enough_fits D P Mod R t u (smin s) (smax s) E Ht Hu ltac:(auto) H3 ltac:(left; cbn; congruence))
    as (Ft & Fu & _).
  assert (C : (in_type D (st s) x /\ in_type D (st s) y)
              \/ ((~ in_type D (st s) x \/ ~ in_type D (st s) y) /\ throws_arith m)).
  { destruct K as [[X0 ->]|[X1 (W & casts & HW & Hk & _ & ->)]].
    - destruct (mod_fits_unchecked D R t u ri Ht Hu Ft Fu H4 X0 x y Hx Hy) as (_ & K1 & K2).
      rewrite ER. auto.
    - cbn [work_type] in HW. rewrite <- ER, HR in HW.
      destruct (div_temp_native D (base_ty t) (base_ty u)) as (W' & HW' & L1 & L2).
      assert (W' = W) as -> by congruence. rewrite <- HR in L1, L2.
      rewrite EE in HE.
      destruct (casting_helper_throws _ _ _ _ _ _ _ _ HE Ht Hu Hx Hy Hk) as [(Kx & Ky & _)|[Kn Tc]].
      + left. unfold in_type in *. lia.
      + right. split; [|apply mbind_throws; assumption]. unfold in_type in *. destruct Kn; [left|right]; lia. }
  destruct C as [[Ix Iy]|C]; [left|right; exact C].
  split; [assumption|]. split; [assumption|]. exact (ignore_mod D t u x y s m v Ht Hu Hx Hy H HP Ix Iy Hn Hb).
Qed.
