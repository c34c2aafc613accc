(** PowmFacts.v -- proofs about powm and bit_test. *)
From Coq Require Import ZArith Bool List Lia Arith.
From Verif Require Import Base CType Spec CTypeFacts ExceptionPolicy Promotion SafeBase SafeSpec SafeFacts SafeConvFacts SafeBitFacts
  Program ProgramSpec ProgramFacts PropsProgramProofs PropsArithProofs SafeIgnoreFacts ValueFacts BoolConv BoolSpec BoolFacts Powm.
Import ListNotations.
Local Open Scope Z_scope.
Local Open Scope m_scope.

Definition op_types (D : dmodel) (op : binop) (t u : otype) (R : ctype) : Prop :=
  exists rs m0, eval_binop D op t u 0 0 = Some (rs, m0) /\ st rs = R /\ sP rs = Native /\ sE rs = default_exception_policy
    /\ wf_operand D (OSafe rs).

Section D.
  Variable D : dmodel.
  Notation o32 := (OSafe (safe32 D)).
  Notation o64 := (OSafe (safe64 D)).
  Notation max := (hi D UInt).

  Lemma wf32 : wf_operand D o32. Proof. destruct D; vm_compute; intuition congruence. Qed.
  Lemma wf64 : wf_operand D o64. Proof. destruct D; vm_compute; intuition congruence. Qed.
  Lemma in32 : forall z, 0 <= z <= max -> in_type D UInt z.
  Proof. intros z H. assert (L : lo D UInt = 0) by (destruct D; reflexivity). unfold in_type. lia. Qed.
  Lemma holds32 : forall z, 0 <= z <= max -> holds D o32 z.
  Proof. intros z H. exact (in32 z H). Qed.
  Lemma max_sq : 65535 <= max /\ lo D (uint64 D) = 0 /\ max * max <= hi D (uint64 D) /\ max < hi D (uint64 D) /\ 1 <= hi D Int /\ lo D Int <= 0.
  Proof. destruct D; vm_compute; intuition congruence. Qed.
  Lemma in64 : forall z, 0 <= z <= max * max -> in_type D (uint64 D) z.
  Proof. intros z H. destruct max_sq as (_ & A & B & _). unfold in_type. lia. Qed.
  Lemma in64' : forall z, 0 <= z <= max -> in_type D (uint64 D) z.
  Proof. intros z H. destruct max_sq as (_ & A & _ & B & _). unfold in_type. lia. Qed.

  (** the types *)
  Lemma st_bin : forall op t u rs m0 x y, eval_binop D op t u 0 0 = Some (rs, m0) -> exists m, eval_binop D op t u x y = Some (rs, m).
  Proof. intros op t u rs m0 x y H. exact (eval_binop_any D op t u 0 0 x y rs m0 H). Qed.

  Ltac static := destruct D; (do 2 eexists; split; [vm_compute; reflexivity|]; split; [reflexivity|]; split; [reflexivity|];
    split; [reflexivity|]; vm_compute; intuition congruence).
  Lemma t_mul : op_types D (BA Mul) o64 o64 (uint64 D). Proof. static. Qed.
  Lemma t_mod : op_types D (BA Mod) o64 o32 (uint64 D). Proof. static. Qed.
  Lemma t_mod32 : op_types D (BA Mod) o32 o32 UInt. Proof. static. Qed.
  Lemma t_and1 : op_types D (BB And) o32 (ORaw Int) UInt. Proof. static. Qed.
  Lemma t_and : op_types D (BB And) o32 o32 UInt. Proof. static. Qed.
  Lemma t_shr : op_types D (BA Shr) o32 (ORaw Int) UInt. Proof. static. Qed.
  Lemma t_shl : op_types D (BA Shl) o32 (ORaw UInt) UInt. Proof. static. Qed.

  Lemma mod_value : forall t u x y R, op_types D (BA Mod) t u R -> wf_operand D t -> wf_operand D u -> holds D t x -> holds D u y ->
    in_type D R x -> in_type D R y -> uac D (base_ty t) (base_ty u) = R -> lo D R = 0 -> 0 < y ->
    exists rs, binary D Mod t u x y = Some (rs, mret (x mod y)) /\ st rs = R /\ sE rs = default_exception_policy
      /\ wf_operand D (OSafe rs).
  Proof.
    intros t u x y R (rs & m0 & B0 & TR & TP & TE & W) Wt Wu Hx Hy Ix Iy U L P.
    destruct (st_bin _ _ _ _ _ x y B0) as (m & B). cbn [eval_binop] in B. exists rs. split; [|auto].
    assert (X0 : 0 <= x) by (unfold in_type in Ix; lia).
    destruct (native_mod D t u x y rs m (x mod y) Wt Wu Hx Hy B TP) as [(_ & _ & R')|(N & _)].
    - rewrite TE. reflexivity.
    - rewrite TR, L. lia.
    - cbn [built_in]. unfold c_rem. rewrite U, !conv_id by assumption.
      rewrite (proj2 (Z.eqb_neq y 0)) by lia. rewrite Z.quot_div_nonneg, Z.rem_mod_nonneg by lia.
      rewrite fin_ok; [reflexivity|].
      pose proof (Z.div_le_upper_bound x y x ltac:(lia) ltac:(nia)). pose proof (Z.div_pos x y X0 P). unfold in_type in *. lia.
    - rewrite B. unfold returns in R'. rewrite R'. reflexivity.
    - rewrite TR in N. tauto.
  Qed.

  (** conversions *)
  Lemma conv_exact : forall w o x m0, construct D w o 0 = Some m0 -> wf_operand D (OSafe w) -> in_type D (base_ty o) x ->
    smin w <= x <= smax w -> construct D w o x = Some (mret x).
  Proof.
    intros w o x m0 C (W1 & W2 & _) Hx H. destruct (construct_compiles D w o 0 x m0 C) as (m & K).
    rewrite K. f_equal. exact (construct_value D w o x m W1 W2 Hx H K).
  Qed.
  Lemma to64 : forall x, 0 <= x <= max -> construct D (safe64 D) o32 x = Some (mret x).
  Proof.
    intros x H. assert (C : exists m0, construct D (safe64 D) o32 0 = Some m0) by (destruct D; eexists; vm_compute; reflexivity).
    destruct C as (m0 & C). apply (conv_exact _ _ _ m0 C wf64); [exact (in32 x H)|exact (in64' x H)].
  Qed.
  Lemma same64 : forall rs x, st rs = uint64 D -> in_type D (uint64 D) x -> construct D (safe64 D) (OSafe rs) 0 <> None ->
    construct D (safe64 D) (OSafe rs) x = Some (mret x).
  Proof.
    intros rs x E H C. destruct (construct D (safe64 D) (OSafe rs) 0) as [m0|] eqn:C0; [|congruence].
    apply (conv_exact _ _ _ m0 C0 wf64); [cbn [base_ty]; rewrite E; exact H|exact H].
  Qed.
  Lemma to32 : forall o x, (exists m0, construct D (safe32 D) o 0 = Some m0) -> in_type D (base_ty o) x -> 0 <= x <= max ->
    construct D (safe32 D) o x = Some (mret x).
  Proof. intros o x (m0 & C) Hx H. apply (conv_exact _ _ _ m0 C wf32 Hx). exact (in32 x H). Qed.

  Notation G := (pw_types D).
  Lemma finish_mret : forall (A : Type) s (z : A) w, finish s (mret z) w = (w z, RDone). Proof. reflexivity. Qed.

  Lemma do_multiply : forall s p q x y, G p = o32 -> G q = o32 -> s p = Some x -> s q = Some y -> 0 <= x <= max -> 0 <= y <= max ->
    exec 0 D G s (pw_multiply D p q) = Some (upd s vr (Some (x * y)), RDone).
  Proof.
    intros s p q x y Gp Gq Sp Sq Hx Hy.
    destruct t_mul as (rs & m0 & B0 & TR & TP & TE & W).
    assert (C0 : exists m, construct D (safe64 D) o32 0 = Some m) by (destruct D; eexists; vm_compute; reflexivity).
    destruct C0 as (k0 & C0). destruct (st_bin _ _ _ _ _ x y B0) as (m & B).
    assert (I : in_type D (uint64 D) (x * y)) by (apply in64; split; [lia|apply Z.mul_le_mono_nonneg; lia]).
    assert (M : m = mret (x * y)).
    { cbn [eval_binop] in B. apply (arith_value Mul Z.mul D o64 o64 x y rs m); [unfold exact_op; auto|exact B|..]; rewrite ?TR;
        first [exact I|apply in64'; assumption]. }
    assert (T : type_of D G (EBin (BA Mul) true (ECast o64 (EVar p)) (ECast o64 (EVar q))) = Some (OSafe rs)).
    { cbn [type_of]. rewrite Gp, Gq. cbn [convert]. rewrite C0. cbn [option_map]. rewrite B0. reflexivity. }
    unfold pw_multiply. cbn [exec]. rewrite T. cbn [eval type_of]. rewrite Gp, Gq. cbn [convert]. rewrite C0. cbn [option_map].
    unfold both, read. rewrite Sp, Sq, !mbind_ret, (to64 x Hx), (to64 y Hy). cbn [run]. rewrite !mbind_ret. cbn [fst snd].
    rewrite B. cbn [run_snd]. rewrite M, mbind_ret.
    change (G vr) with o64. cbn [convert].
    rewrite (same64 rs (x * y) TR I).
    - reflexivity.
    - revert B0. clear. intros B0.
      assert (K : match eval_binop D (BA Mul) o64 o64 0 0 with Some (r, _) => construct D (safe64 D) (OSafe r) 0 | None => None end <> None)
        by (destruct D; vm_compute; discriminate).
      rewrite B0 in K. exact K.
  Qed.

  (** converting a result *)
  Lemma to32_of : forall op t u rs m0 x, eval_binop D op t u 0 0 = Some (rs, m0) ->
    match eval_binop D op t u 0 0 with Some (r, _) => construct D (safe32 D) (OSafe r) 0 | None => None end <> None ->
    in_type D (st rs) x -> 0 <= x <= max -> construct D (safe32 D) (OSafe rs) x = Some (mret x).
  Proof.
    intros op t u rs m0 x B0 K Hx H. rewrite B0 in K. destruct (construct D (safe32 D) (OSafe rs) 0) as [k|] eqn:C; [|congruence].
    apply to32; [rewrite C; eauto|exact Hx|exact H].
  Qed.

  Lemma mod_bounds : forall z c, 0 < c <= max -> 0 <= z mod c <= max.
  Proof. intros z c H. pose proof (Z.mod_pos_bound z c ltac:(lia)). lia. Qed.

  Lemma eval_mod : forall s v t x c R, op_types D (BA Mod) t o32 R -> wf_operand D t -> holds D t x -> in_type D R x ->
    0 < c <= max -> in_type D R c -> uac D (base_ty t) UInt = R -> lo D R = 0 -> max <= hi D R ->
    match eval_binop D (BA Mod) t o32 0 0 with Some (r, _) => construct D (safe32 D) (OSafe r) 0 | None => None end <> None ->
    G v = t -> s v = Some x -> s vc = Some c ->
    type_of D G (ECast o32 (EBin (BA Mod) true (EVar v) (EVar vc))) = Some o32
    /\ eval D G s (ECast o32 (EBin (BA Mod) true (EVar v) (EVar vc))) = mret (x mod c).
  Proof.
    intros s v t x c R T Wt Hx Ix Hc Ic U L Mx K Gv Sv Sc.
    destruct (mod_value t o32 x c R T Wt wf32 Hx (holds32 c ltac:(lia)) Ix Ic U L ltac:(lia)) as (rs & B & TR & TE & W).
    destruct T as (rs' & m0 & B0 & _). cbn [eval_binop] in B0.
    assert (rs' = rs) as ->.
    { destruct (st_bin (BA Mod) _ _ _ _ x c B0) as (m & B'). cbn [eval_binop] in B'. congruence. }
    assert (E : type_of D G (EBin (BA Mod) true (EVar v) (EVar vc)) = Some (OSafe rs)).
    { cbn [type_of]. rewrite Gv. change (G vc) with o32. cbn [eval_binop]. rewrite B0. reflexivity. }
    pose proof (mod_bounds x c Hc) as Mb.
    assert (Im : in_type D R (x mod c)) by (unfold in_type; lia).
    assert (C : construct D (safe32 D) (OSafe rs) (x mod c) = Some (mret (x mod c))).
    { apply (to32_of (BA Mod) t o32 rs m0); try assumption. rewrite TR. exact Im. }
    assert (C0 : exists k, construct D (safe32 D) (OSafe rs) 0 = Some k).
    { cbn [eval_binop] in K. rewrite B0 in K. destruct (construct D (safe32 D) (OSafe rs) 0); [eauto|congruence]. }
    destruct C0 as (k & C0). split.
    - cbn [type_of] in *. rewrite E. cbn [convert]. rewrite C0. reflexivity.
    - cbn [eval]. rewrite E. cbn [eval type_of] in *. rewrite Gv. change (G vc) with o32. unfold both, read. rewrite Sv, Sc, !mbind_ret.
      cbn [fst snd eval_binop]. rewrite B. cbn [run_snd]. rewrite mbind_ret. cbn [convert]. rewrite C. reflexivity.
  Qed.

  Lemma do_modulus : forall s v x c, G v = o32 -> s vr = Some x -> s vc = Some c -> 0 <= x <= max * max -> 0 < c <= max ->
    exec 0 D G s (pw_modulus D v) = Some (upd s v (Some (x mod c)), RDone).
  Proof.
    intros s v x c Gv Sr Sc Hx Hc. pose proof max_sq as (_ & L & _ & M & _).
    destruct (eval_mod s vr o64 x c (uint64 D) t_mod wf64) as [T E]; try assumption.
    - exact (in64 x Hx).
    - exact (in64 x Hx).
    - apply in64'. lia.
    - destruct D; reflexivity.
    - lia.
    - destruct D; vm_compute; discriminate.
    - reflexivity.
    - unfold pw_modulus. cbn [exec]. rewrite T, E, mbind_ret, Gv. cbn [convert].
      rewrite (to32 o32 (x mod c)); [reflexivity| |apply in32, mod_bounds; assumption|apply mod_bounds; assumption].
      destruct D; eexists; vm_compute; reflexivity.
  Qed.
  Lemma do_return : forall s x c, s vx = Some x -> s vc = Some c -> 0 <= x <= max -> 0 < c <= max ->
    eval D G s (pw_return D) = mret (x mod c).
  Proof.
    intros s x c Sx Sc Hx Hc.
    destruct (eval_mod s vx o32 x c UInt t_mod32 wf32) as [T E]; try assumption; try (apply in32; lia).
    - destruct D; reflexivity.
    - destruct D; reflexivity.
    - destruct D; vm_compute; discriminate.
    - reflexivity.
  Qed.

  Lemma one_int : in_type D Int 1 /\ in_type D Int 0 /\ in_type D UInt 1 /\ in_type D UInt 0.
  Proof. unfold in_type. destruct D; vm_compute; intuition congruence. Qed.

  Lemma do_halve : forall s b, s vb = Some b -> 0 <= b <= max ->
    exec 0 D G s (CCompound (BA Shr) vb (EConst (ORaw Int) 1)) = Some (upd s vb (Some (b / 2)), RDone).
  Proof.
    intros s b Sb Hb. destruct t_shr as (rs & m0 & B0 & TR & TP & TE & W). destruct (st_bin _ _ _ _ _ b 1 B0) as (m & B).
    destruct one_int as (I1 & _ & I3 & _).
    assert (Dg : 1 < digits D UInt) by (destruct D; reflexivity).
    assert (M : m = mret (b / 2)).
    { cbn [eval_binop] in B. rewrite (shr_value D o32 (ORaw Int) b 1 rs m B); rewrite ?TR; try (apply in32; lia); try assumption; try lia.
      reflexivity. }
    cbn [exec type_of eval]. rewrite mbind_ret. unfold read. rewrite Sb, mbind_ret. change (G vb) with o32.
    unfold compound. rewrite B.
    pose proof (Z.div_le_upper_bound b 2 b ltac:(lia) ltac:(lia)). pose proof (Z.div_pos b 2 ltac:(lia) ltac:(lia)).
    assert (C : forall v, in_type D UInt v -> 0 <= v <= max -> construct D (safe32 D) (OSafe rs) v = Some (mret v)).
    { intros v Iv Hv. apply (to32_of (BA Shr) o32 (ORaw Int) rs m0); try assumption; [|rewrite TR; exact Iv].
      clear. destruct D; vm_compute; discriminate. }
    rewrite (C 0 (proj2 (proj2 (proj2 one_int)))) by (pose proof max_sq; lia).
    cbn [run]. rewrite M, mbind_ret, (C (b / 2)) by (try apply in32; lia). reflexivity.
  Qed.

  Lemma and_value : forall t u x y, op_types D (BB And) t u UInt -> in_type D UInt x -> in_type D UInt y -> 0 <= x -> 0 <= y ->
    exists rs, (forall x' y', exists m, eval_binop D (BB And) t u x' y' = Some (rs, m))
      /\ eval_binop D (BB And) t u x y = Some (rs, mret (Z.land x y)) /\ sE rs = default_exception_policy /\ wf_operand D (OSafe rs).
  Proof.
    intros t u x y (rs & m0 & B0 & TR & TP & TE & W) Ix Iy Hx Hy. exists rs. split; [intros; exact (st_bin _ _ _ _ _ x' y' B0)|].
    destruct (st_bin _ _ _ _ _ x y B0) as (m & B). rewrite B.
    assert (Z.land x y <= x).
    { apply Z.ldiff_le; [lia|]. apply Z.bits_inj'. intros n Hn. rewrite Z.ldiff_spec, Z.land_spec, Z.bits_0.
      destruct (Z.testbit x n), (Z.testbit y n); reflexivity. }
    assert (0 <= Z.land x y) by (apply Z.land_nonneg; auto).
    cbn [eval_binop] in B. rewrite (bit_value D And t u x y rs m B); rewrite ?TR; try assumption; [auto|].
    cbn [bit_op]. unfold in_type in *. assert (lo D UInt = 0) by (destruct D; reflexivity). lia.
  Qed.

  Lemma do_odd : forall s b, s vb = Some b -> 0 <= b <= max ->
    snd (eval_test D G s pw_odd) = Ret (Z.odd b).
  Proof.
    intros s b Sb Hb. destruct one_int as (I1 & _ & I3 & _).
    destruct (and_value o32 (ORaw Int) b 1 t_and1 (in32 b Hb) I3 ltac:(lia) ltac:(lia)) as (rs & A & B & TE & W).
    destruct (A 0 0) as (m0 & B0).
    assert (L : Z.land b 1 = Z.b2z (Z.odd b)).
    { change (Z.land b 1) with (Z.land b (Z.ones 1)). rewrite Z.land_ones by lia. change (2 ^ 1) with 2. rewrite Zmod_odd. destruct (Z.odd b); reflexivity. }
    assert (T : type_of D G (EBin (BB And) true (EVar vb) (EConst (ORaw Int) 1)) = Some (OSafe rs)).
    { cbn [type_of]. change (G vb) with o32. rewrite B0. reflexivity. }
    unfold pw_odd. cbn [eval_test]. rewrite T. cbn [eval type_of]. change (G vb) with o32. unfold both, read.
    rewrite Sb, !mbind_ret. cbn [fst snd]. rewrite B. cbn [run_snd]. rewrite mbind_ret, L.
    assert (R : match eval_binop D (BB And) o32 (ORaw Int) 0 0 with
                | Some (r, _) => smin r = 0 /\ 1 <= smax r /\ to_bool D (OSafe r) 0 <> None
                                 /\ to_bool D (OSafe r) 1 <> None | None => False end).
    { clear. destruct D; vm_compute; intuition congruence. }
    rewrite B0 in R. destruct R as (R1 & R2 & R3 & R4).
    assert (H : holds D (OSafe rs) (Z.b2z (Z.odd b))).
    { unfold holds. cbn [lim_lo lim_hi]. destruct (Z.odd b); cbn; lia. }
    destruct (to_bool D (OSafe rs) (Z.b2z (Z.odd b))) as [m|] eqn:TB; [|destruct (Z.odd b); unfold Z.b2z in TB; congruence].
    destruct (C93_test_lemma D (OSafe rs) _ m W H) as [[_ Q]|[[Q _]|[Q _]]]; try assumption.
    - intros E [= <-]. rewrite TE. reflexivity.
    - intros T0. discriminate.
    - cbn [run]. unfold returns in Q. rewrite Q. destruct (Z.odd b); reflexivity.
    - destruct (Z.odd b); cbn in Q; lia.
    - destruct (Z.odd b); cbn in Q; lia.
  Qed.

  Lemma do_more : forall s b, s vb = Some b -> 0 <= b <= max -> snd (eval_cond D G s pw_more) = Ret (0 <? b).
  Proof.
    intros s b Sb Hb. destruct one_int as (_ & I0 & _ & I3).
    unfold pw_more. cbn [eval_cond type_of eval]. unfold both, read. rewrite Sb, !mbind_ret. cbn [fst snd].
    change (G vb) with o32. cbn [eval_relop].
    assert (C : exists m, s_gt D o32 (ORaw Int) b 0 = Some m).
    { assert (C0 : exists m, eval_relop D RGt o32 (ORaw Int) 0 0 = Some m) by (destruct D; eexists; vm_compute; reflexivity).
      destruct C0 as (m & C0). exact (eval_relop_any D RGt _ _ 0 0 b 0 m C0). }
    destruct C as (m & C). rewrite C. cbn [run]. unfold s_gt in C.
    rewrite (compare_value D CLt (ORaw Int) o32 0 b m Native UInt); try assumption; try reflexivity.
    - split; [|split]; destruct D; vm_compute; intuition congruence.
    - exact wf32.
  Qed.

  Definition pw_state (s : store) (x y b c : Z) : Prop :=
    s vx = Some x /\ s vy = Some y /\ s vb = Some b /\ s vc = Some c.

  Lemma exec_seq : forall s s1 p q, exec 0 D G s p = Some (s1, RDone) -> exec 0 D G s (CSeq p q) = exec 0 D G s1 q.
  Proof. intros s s1 p q H. cbn [exec]. rewrite H. reflexivity. Qed.

  Lemma do_square : forall s x y b c, pw_state s x y b c -> 0 <= y <= max -> 0 <= b <= max -> 0 < c <= max ->
    exists s', exec 0 D G s (CSeq (pw_multiply D vy vy) (CSeq (pw_modulus D vy) (CCompound (BA Shr) vb (EConst (ORaw Int) 1)))) = Some (s', RDone)
      /\ pw_state s' x ((y * y) mod c) (b / 2) c.
  Proof.
    intros s x y b c (Sx & Sy & Sb & Sc) Hy Hb Hc.
    rewrite (exec_seq _ _ _ _ (do_multiply s vy vy y y eq_refl eq_refl Sy Sy Hy Hy)).
    rewrite (exec_seq _ _ _ _ (do_modulus (upd s vr (Some (y * y))) vy (y * y) c eq_refl eq_refl Sc ltac:(nia) Hc)).
    rewrite (do_halve _ b) by assumption.
    eexists. split; [reflexivity|]. repeat split; assumption.
  Qed.

  Lemma do_body : forall s x y b c, pw_state s x y b c -> 0 <= x <= max -> 0 <= y <= max -> 0 <= b <= max -> 0 < c <= max ->
    exists s', pw_body D s = Some (s', RDone)
      /\ pw_state s' (if Z.odd b then (x * y) mod c else x) ((y * y) mod c) (b / 2) c.
  Proof.
    intros s x y b c S Hx Hy Hb Hc. pose proof S as (Sx & Sy & Sb & Sc). unfold pw_body. cbv zeta.
    rewrite (do_odd s b Sb Hb). destruct (Z.odd b).
    - assert (E : exec 0 D G s (CSeq (pw_multiply D vx vy) (pw_modulus D vx))
                  = Some (upd (upd s vr (Some (x * y))) vx (Some ((x * y) mod c)), RDone)).
      { rewrite (exec_seq _ _ _ _ (do_multiply s vx vy x y eq_refl eq_refl Sx Sy Hx Hy)).
        apply (do_modulus (upd s vr (Some (x * y))) vx (x * y) c eq_refl eq_refl Sc); [nia|assumption]. }
      rewrite (exec_seq _ _ _ _ E). apply do_square; try assumption. repeat split; assumption.
    - apply (do_square s x y b c S Hy Hb Hc).
  Qed.

  Lemma pow_step : forall x y b c, 0 <= b -> 0 < c ->
    ((if Z.odd b then (x * y) mod c else x) * ((y * y) mod c) ^ (b / 2)) mod c = (x * y ^ b) mod c.
  Proof.
    intros x y b c Hb Hc.
    assert (P : forall z n, 0 <= n -> ((z mod c) ^ n) mod c = (z ^ n) mod c).
    { intros z n Hn. revert n Hn. apply (natlike_ind (fun n => ((z mod c) ^ n) mod c = (z ^ n) mod c)); [reflexivity|].
      intros n Hn IH. rewrite !Z.pow_succ_r by lia. rewrite Z.mul_mod, IH, Z.mod_mod, <- Z.mul_mod by lia. reflexivity. }
    assert (H2 : 0 <= b / 2) by (apply Z.div_pos; lia).
    rewrite Z.mul_mod, P, <- Z.mul_mod by lia.
    pose proof (Z.div_mod b 2 ltac:(lia)) as Dm. rewrite Zmod_odd in Dm.
    assert (E : y ^ b = (if Z.odd b then y else 1) * (y * y) ^ (b / 2)).
    { replace (y ^ b) with (y ^ (2 * (b / 2) + (if Z.odd b then 1 else 0))) by (f_equal; lia).
      rewrite Z.pow_add_r, Z.pow_mul_r by (destruct (Z.odd b); lia).
      rewrite Z.pow_2_r. destruct (Z.odd b); [rewrite Z.pow_1_r|rewrite Z.pow_0_r]; ring. }
    rewrite E. destruct (Z.odd b).
    - rewrite Z.mul_mod_idemp_l by lia. f_equal. ring.
    - f_equal. ring.
  Qed.

  Lemma do_loop : forall n s x y b c, pw_state s x y b c -> 0 <= x <= max -> 0 <= y <= max -> 0 <= b <= max -> 0 < c <= max ->
    b < 2 ^ Z.of_nat n ->
    exists s' x' y', loop (fun s => eval_cond D G s pw_more) (pw_body D) (S n) s = Some (s', RDone)
      /\ pw_state s' x' y' 0 c /\ 0 <= x' <= max /\ x' mod c = (x * y ^ b) mod c.
  Proof.
    induction n; intros s x y b c S Hx Hy Hb Hc Hn; pose proof S as (Sx & Sy & Sb & Sc);
      cbn [loop]; rewrite (do_more s b Sb Hb); destruct (0 <? b) eqn:Z0.
    - apply Z.ltb_lt in Z0. cbn in Hn. lia.
    - apply Z.ltb_ge in Z0. assert (b = 0) by lia. subst b. exists s, x, y. rewrite Z.pow_0_r, Z.mul_1_r. auto.
    - apply Z.ltb_lt in Z0. destruct (do_body s x y b c S Hx Hy Hb Hc) as (s1 & B & S1). rewrite B.
      assert (Hb2 : 0 <= b / 2 <= max).
      { pose proof (Z.div_pos b 2 ltac:(lia) ltac:(lia)). pose proof (Z.div_le_upper_bound b 2 b ltac:(lia) ltac:(lia)). lia. }
      destruct (IHn s1 _ _ _ c S1) as (s' & x' & y' & L & S' & Hx' & E); try assumption.
      + destruct (Z.odd b); [apply mod_bounds|]; assumption.
      + apply mod_bounds; assumption.
      + rewrite Nat2Z.inj_succ, Z.pow_succ_r in Hn by lia. apply Z.div_lt_upper_bound; lia.
      + exists s', x', y'. rewrite E, pow_step by lia. auto.
    - apply Z.ltb_ge in Z0. assert (b = 0) by lia. subst b. exists s, x, y. rewrite Z.pow_0_r, Z.mul_1_r. auto.
  Qed.

  Lemma do_start : forall s, exec 0 D G s (CSeq (CAssign vx (EConst (ORaw Int) 1)) (CDefault vr))
    = Some (upd (upd s vx (Some 1)) vr None, RDone).
  Proof.
    intros s. assert (E : exec 0 D G s (CAssign vx (EConst (ORaw Int) 1)) = Some (upd s vx (Some 1), RDone)).
    { cbn [exec type_of eval]. rewrite mbind_ret. change (G vx) with o32. cbn [convert].
      rewrite (to32 (ORaw Int) 1); [reflexivity| |exact (proj1 one_int)|pose proof max_sq; lia].
      destruct D; eexists; vm_compute; reflexivity. }
    rewrite (exec_seq _ _ _ _ E). reflexivity.
  Qed.

  Lemma powm_lemma : forall n a b c, 0 <= a <= max -> 0 <= b <= max -> 0 < c <= max -> b < 2 ^ Z.of_nat n ->
    powm (S n) D a b c = Some (Ret (a ^ b mod c)).
  Proof.
    intros n a b c Ha Hb Hc Hn. unfold powm. cbv zeta. rewrite do_start.
    edestruct (do_loop n) as (s' & x' & y' & L & (Sx & Sy & Sb & Sc) & Hx & E); [| | | | | |rewrite L].
    - repeat split.
    - pose proof max_sq; lia.
    - exact Ha.
    - exact Hb.
    - exact Hc.
    - exact Hn.
    - rewrite (do_return s' x' c Sx Sc Hx Hc), E, Z.mul_1_l. reflexivity.
  Qed.

  (** c = 0 *)
  Lemma eval_mod_zero : forall s v t x R, op_types D (BA Mod) t o32 R -> wf_operand D t -> holds D t x -> lo D R = 0 ->
    match eval_binop D (BA Mod) t o32 0 0 with Some (r, _) => construct D (safe32 D) (OSafe r) 0 | None => None end <> None ->
    G v = t -> s v = Some x -> s vc = Some 0 ->
    type_of D G (ECast o32 (EBin (BA Mod) true (EVar v) (EVar vc))) = Some o32
    /\ throws_arith (eval D G s (ECast o32 (EBin (BA Mod) true (EVar v) (EVar vc)))).
  Proof.
    intros s v t x R (rs & m0 & B0 & TR & TP & TE & W) Wt Hx L K Gv Sv Sc.
    destruct (st_bin _ _ _ _ _ x 0 B0) as (m & B). cbn [eval_binop] in B, B0, K. rewrite B0 in K.
    assert (E : type_of D G (EBin (BA Mod) true (EVar v) (EVar vc)) = Some (OSafe rs)).
    { cbn [type_of]. rewrite Gv. change (G vc) with o32. cbn [eval_binop]. rewrite B0. reflexivity. }
    assert (T : throws_arith m).
    { apply (C25_lemma D t o32 x 0 rs m Wt wf32 Hx (holds32 0 ltac:(pose proof max_sq; lia)) B).
      - rewrite TE. reflexivity.
      - left. exact TP.
      - rewrite TR, L. lia.
      - reflexivity. }
    split.
    - cbn [type_of] in *. rewrite E. cbn [convert]. destruct (construct D (safe32 D) (OSafe rs) 0); [reflexivity|congruence].
    - cbn [eval]. rewrite E. cbn [eval type_of] in *. rewrite Gv. change (G vc) with o32. unfold both, read. rewrite Sv, Sc, !mbind_ret.
      cbn [fst snd eval_binop]. rewrite B. cbn [run_snd]. destruct T as (e & He & ->). exists e. auto.
  Qed.

  Lemma do_modulus_zero : forall s v x, G v = o32 -> s vr = Some x -> s vc = Some 0 -> 0 <= x <= max * max ->
    exists e, exec 0 D G s (pw_modulus D v) = Some (s, RRaised e).
  Proof.
    intros s v x Gv Sr Sc Hx. pose proof max_sq as (_ & L & _).
    destruct (eval_mod_zero s vr o64 x (uint64 D) t_mod wf64) as [T (e & _ & E)]; try assumption.
    - exact (in64 x Hx).
    - destruct D; vm_compute; discriminate.
    - reflexivity.
    - exists e. unfold pw_modulus. cbn [exec]. rewrite T, E. reflexivity.
  Qed.

  Lemma exec_seq_raise : forall s s1 p q e, exec 0 D G s p = Some (s1, RRaised e) -> exec 0 D G s (CSeq p q) = Some (s1, RRaised e).
  Proof. intros s s1 p q e H. cbn [exec]. rewrite H. reflexivity. Qed.

  Lemma powm_zero_lemma : forall n a b, 0 <= a <= max -> 0 <= b <= max -> exists e, powm (S n) D a b 0 = Some (Throw e).
  Proof.
    intros n a b Ha Hb. pose proof max_sq as (M1 & _). unfold powm. cbv zeta. rewrite do_start.
    match goal with |- context [loop _ _ _ ?s] => set (s1 := s) end.
    assert (S1 : pw_state s1 1 a b 0) by (repeat split). clearbody s1. destruct S1 as (Sx & Sy & Sb & Sc).
    cbn [loop]. rewrite (do_more s1 b Sb Hb). destruct (0 <? b).
    - unfold pw_body. cbv zeta. rewrite (do_odd s1 b Sb Hb). destruct (Z.odd b).
      + destruct (do_modulus_zero (upd s1 vr (Some (1 * a))) vx (1 * a) eq_refl eq_refl Sc) as (e & E); [nia|].
        rewrite <- (exec_seq _ _ _ _ (do_multiply s1 vx vy 1 a eq_refl eq_refl Sx Sy ltac:(lia) Ha)) in E.
        exists e. rewrite (exec_seq_raise _ _ _ _ _ E). reflexivity.
      + destruct (do_modulus_zero (upd s1 vr (Some (a * a))) vy (a * a) eq_refl eq_refl Sc) as (e & E); [nia|].
        exists e. rewrite (exec_seq _ _ _ _ (do_multiply s1 vy vy a a eq_refl eq_refl Sy Sy Ha Ha)), (exec_seq_raise _ _ _ _ _ E). reflexivity.
    - destruct (eval_mod_zero s1 vx o32 1 UInt t_mod32 wf32) as [T (e & _ & E)]; try assumption; try reflexivity.
      + apply holds32. lia.
      + destruct D; vm_compute; discriminate.
      + exists e. unfold pw_return. rewrite E. reflexivity.
  Qed.

  (** bit_test *)
  Definition bt : tenv := fun v => match v with 2%nat => ORaw UInt | _ => o32 end.

  Lemma bt_mask : forall s k, s 1%nat = Some 1 -> s 2%nat = Some k -> 0 <= k < width D UInt ->
    exec 0 D bt s (CCompound (BA Shl) 1%nat (EVar 2%nat)) = Some (upd s 1%nat (Some (2 ^ k)), RDone).
  Proof.
    intros s k S1 S2 Hk. destruct t_shl as (rs & m0 & B0 & TR & TP & TE & W). destruct (st_bin _ _ _ _ _ 1 k B0) as (m & B).
    assert (Dg : digits D UInt = width D UInt /\ max = 2 ^ width D UInt - 1 /\ width D UInt <= max) by (destruct D; vm_compute; intuition congruence).
    destruct Dg as (Dg & Mx & Wm).
    assert (Pk : 0 < 2 ^ k <= max).
    { split; [apply Z.pow_pos_nonneg; lia|]. rewrite Mx. pose proof (Z.pow_lt_mono_r 2 k (width D UInt) ltac:(lia) ltac:(lia) ltac:(lia)). lia. }
    assert (M : m = mret (2 ^ k)).
    { cbn [eval_binop] in B. rewrite (shl_value D o32 (ORaw UInt) 1 k rs m B); rewrite ?TR; try (apply in32; lia); try lia.
      rewrite Z.mul_1_l. reflexivity. }
    cbn [exec type_of eval]. change (bt 2%nat) with (ORaw UInt). change (bt 1%nat) with o32. unfold read. rewrite S2, S1, !mbind_ret.
    unfold compound. rewrite B.
    assert (C : forall v, in_type D UInt v -> 0 <= v <= max -> construct D (safe32 D) (OSafe rs) v = Some (mret v)).
    { intros v Iv Hv. apply (to32_of (BA Shl) o32 (ORaw UInt) rs m0); try assumption; [|rewrite TR; exact Iv].
      clear. destruct D; vm_compute; discriminate. }
    rewrite (C 0 (proj2 (proj2 (proj2 one_int)))) by lia.
    cbn [run]. rewrite M, mbind_ret, (C (2 ^ k)) by (try apply in32; lia). reflexivity.
  Qed.

  Lemma land_pow2 : forall v k, 0 <= k -> Z.land v (2 ^ k) = if Z.testbit v k then 2 ^ k else 0.
  Proof.
    intros v k Hk. apply Z.bits_inj'. intros n Hn. rewrite Z.land_spec, Z.pow2_bits_eqb by lia.
    destruct (Z.eqb_spec k n) as [<-|N].
    - destruct (Z.testbit v k); [rewrite Z.pow2_bits_true by lia; reflexivity|rewrite Z.bits_0; reflexivity].
    - rewrite andb_false_r. destruct (Z.testbit v k); [rewrite Z.pow2_bits_false by lia; reflexivity|rewrite Z.bits_0; reflexivity].
  Qed.

  Lemma bt_test : forall s v k, s 0%nat = Some v -> s 1%nat = Some (2 ^ k) -> 0 <= v <= max -> 0 <= k < width D UInt ->
    snd (eval_test D bt s (TExpr (EBin (BB And) true (EVar 0%nat) (EVar 1%nat))))
    = if Z.testbit v k then (if k =? 0 then Ret true else Throw positive_overflow_error) else Ret false.
  Proof.
    intros s v k S0 S1 Hv Hk.
    assert (Dg : max = 2 ^ width D UInt - 1) by (destruct D; reflexivity).
    assert (Pk : 0 < 2 ^ k <= max).
    { split; [apply Z.pow_pos_nonneg; lia|]. rewrite Dg. pose proof (Z.pow_lt_mono_r 2 k (width D UInt) ltac:(lia) ltac:(lia) ltac:(lia)). lia. }
    destruct (and_value o32 o32 v (2 ^ k) t_and (in32 v Hv) (in32 (2 ^ k) ltac:(lia)) ltac:(lia) ltac:(lia)) as (rs & A & B & TE & W).
    destruct (A 0 0) as (m0 & B0).
    rewrite land_pow2 in B by lia.
    assert (T : type_of D bt (EBin (BB And) true (EVar 0%nat) (EVar 1%nat)) = Some (OSafe rs)).
    { cbn [type_of]. change (bt 0%nat) with o32. change (bt 1%nat) with o32. rewrite B0. reflexivity. }
    cbn [eval_test]. rewrite T. cbn [eval type_of]. change (bt 0%nat) with o32. change (bt 1%nat) with o32. unfold both, read.
    rewrite S0, S1, !mbind_ret. cbn [fst snd]. rewrite B. cbn [run_snd]. rewrite mbind_ret.
    set (z := if Z.testbit v k then 2 ^ k else 0).
    assert (R : match eval_binop D (BB And) o32 o32 0 0 with
                | Some (r, _) => smin r = 0 /\ smax r = max /\ to_bool D (OSafe r) 0 <> None | None => False end).
    { clear. destruct D; vm_compute; intuition congruence. }
    rewrite B0 in R. destruct R as (R1 & R2 & R3).
    assert (H : holds D (OSafe rs) z).
    { unfold holds. cbn [lim_lo lim_hi]. unfold z. destruct (Z.testbit v k); lia. }
    destruct (to_bool D (OSafe rs) z) as [m|] eqn:TB.
    - destruct (C93_test_lemma D (OSafe rs) _ m W H) as [[F Q]|[[Q _]|[Q Q']]]; try assumption.
      + intros E [= <-]. rewrite TE. reflexivity.
      + intros T0. discriminate.
      + cbn [run]. unfold returns in Q. rewrite Q. cbn [snd]. unfold z in *. destruct (Z.testbit v k); [|reflexivity].
        destruct (Z.eqb_spec k 0) as [->|N]; [reflexivity|].
        exfalso. assert (2 ^ 1 <= 2 ^ k) by (apply Z.pow_le_mono_r; lia). unfold flag in F. lia.
      + unfold z in Q. destruct (Z.testbit v k); lia.
      + cbn [run]. rewrite Q'. cbn [snd]. unfold z in Q. destruct (Z.testbit v k); [|lia].
        destruct (Z.eqb_spec k 0) as [->|N]; [cbn in Q; lia|reflexivity].
    - exfalso. destruct (to_bool D (OSafe rs) 0) as [k0|] eqn:T0; [|congruence].
      destruct (to_bool_any D _ 0 z k0 T0) as (m & E). congruence.
  Qed.

  Lemma bit_test_lemma : forall v k, 0 <= v <= max -> 0 <= k <= max ->
    bit_test D v k = if Z.testbit v k then (if k =? 0 then Ret true else Throw positive_overflow_error) else Ret false.
  Proof.
    intros v k Hv Hk. unfold bit_test. cbv zeta.
    assert (Dg : max = 2 ^ width D UInt - 1 /\ 0 < width D UInt) by (destruct D; split; reflexivity). destruct Dg as (Dg & W0).
    match goal with |- context [exec 0 D _ ?s _] => set (s0 := s) end.
    assert (E : exec 0 D bt s0 (CAssign 1%nat (EConst (ORaw Int) 1)) = Some (upd s0 1%nat (Some 1), RDone)).
    { cbn [exec type_of eval]. rewrite mbind_ret. change (bt 1%nat) with o32. cbn [convert].
      rewrite (to32 (ORaw Int) 1); [reflexivity| |exact (proj1 one_int)|pose proof max_sq; lia].
      destruct D; eexists; vm_compute; reflexivity. }
    unfold bt in E. rewrite E. destruct (Z.leb_spec (width D UInt) k) as [L|L].
    - destruct (Z.testbit v k) eqn:B; [|reflexivity]. exfalso. apply Z.testbit_true in B; [|lia].
      rewrite Z.div_small in B; [discriminate|]. pose proof (Z.pow_le_mono_r 2 (width D UInt) k ltac:(lia) ltac:(lia)). lia.
    - destruct (Z.eqb_spec k 0) as [->|N].
      + cbn [to_b Z.eqb negb]. change (to_b 0) with false. cbv iota.
        exact (bt_test (upd s0 1%nat (Some 1)) v 0 eq_refl eq_refl Hv (conj (Z.le_refl 0) W0)).
      + replace (to_b k) with true by (unfold to_b; rewrite (proj2 (Z.eqb_neq k 0) N); reflexivity). cbv iota.
        pose proof (bt_mask (upd s0 1%nat (Some 1)) k eq_refl eq_refl ltac:(lia)) as M. unfold bt in M. rewrite M.
        pose proof (bt_test (upd (upd s0 1%nat (Some 1)) 1%nat (Some (2 ^ k))) v k eq_refl eq_refl Hv ltac:(lia)) as Q.
        unfold bt in Q. rewrite Q, (proj2 (Z.eqb_neq k 0) N). reflexivity.
  Qed.

  Lemma bit_test_value : forall v k, 0 <= v <= max -> 0 <= k <= max -> k = 0 \/ Z.testbit v k = false ->
    bit_test D v k = Ret (Z.testbit v k).
  Proof.
    intros v k Hv Hk H. rewrite (bit_test_lemma v k Hv Hk). destruct H as [->| ->]; [destruct (Z.testbit v 0)|]; reflexivity.
  Qed.
  Lemma bit_test_throws : forall v k, 0 <= v <= max -> 0 < k <= max -> Z.testbit v k = true ->
    bit_test D v k = Throw positive_overflow_error.
  Proof.
    intros v k Hv Hk H. rewrite (bit_test_lemma v k Hv ltac:(lia)), H, (proj2 (Z.eqb_neq k 0) ltac:(lia)). reflexivity.
  Qed.
End D.
