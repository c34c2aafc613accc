(** EmulationExec.v -- lemmas for PropsEmulation.v: expressions and programs. *)
From Coq Require Import ZArith List Bool Arith Lia.
From Verif Require Import Base CType Spec CTypeFacts Utility UtilityFacts SafeCompare
  CheckedInteger CheckedIntegerFacts CheckedResultOps CheckedResultFacts Interval IntervalFacts
  IntervalOpsFacts ExceptionPolicy Promotion SafeBase SafeSpec SafeFacts SafeDivFacts SafeShiftFacts
  SafeConvFacts SafeBitFacts SafeTraceFacts SafePortFacts PropsConvProofs Program ProgramSpec ProgramFacts
  LawFacts MulExactFacts EmulationSpec EmulationFacts.
Import ListNotations.
Local Open Scope Z_scope.

Lemma fair_sym : forall W k l, ordered_widths W -> fair W k l -> fair W l k.
Proof.
  intros W k l O F H. unfold fair in F. destruct (common_sym W k l O) as [A B]. rewrite <- A, <- B. apply F. tauto.
Qed.
Lemma stands_hosts : forall D W o k, stands_for D W o k -> hosts D W k (base_ty o).
Proof. intros D W o k [(T & A & B) _]. exists T. auto. Qed.
Lemma common_cpp : forall D W t u k l P, stands_for D W t k -> stands_for D W u l -> common_pp t u = Some P -> P = cpp_of W.
Proof.
  intros D W t u k l P [_ Ht] [_ Hu] H. destruct (common_pp_in _ _ _ H) as [A|A]; [destruct Ht|destruct Hu]; congruence.
Qed.
Lemma returns_not_throws : forall (A : Type) (m : M A) a, returns m a -> throws_arith m -> False.
Proof. intros A m a H (e & _ & T). unfold returns in H. rewrite H in T. discriminate. Qed.
Lemma holds_kind : forall D W o k z, stands_for D W o k -> wf_operand D o -> holds D o z -> in_kind W k z.
Proof.
  intros D W o k z S Wf H. apply (in_kind_type D W k (base_ty o)); [apply stands_hosts; assumption|]. apply holds_in_base; assumption.
Qed.

(** one operator *)
Definition op_becomes (W : widths) (r : tkind) (op : aop) (x y z : Z) : Prop :=
  exists x' y', becomes W r x x' /\ becomes W r y y' /\ (op = Div -> y' <> 0) /\ becomes W r (exact op x' y') z.
Lemma digits_kind : forall D W k l T R, hosts D W k T -> hosts D W l R ->
  (if ksigned l then (if ksigned k then kbits W k <= kbits W l else kbits W k < kbits W l) else kbits W k <= kbits W l) ->
  digits D T <= digits D R.
Proof.
  intros D W k l T R H H' L. destruct (hosts_facts _ _ _ _ H) as (A & B & _), (hosts_facts _ _ _ _ H') as (A' & B' & _).
  unfold digits. rewrite A, B, A', B'. destruct (ksigned k), (ksigned l); lia.
Qed.
Lemma emu_binary : forall D W op t u k l x y s m, ordered_widths W -> four op ->
  type_ok false D t -> type_ok false D u -> stands_for D W t k -> stands_for D W u l -> fair W k l ->
  holds D t x -> holds D u y -> binary D op t u x y = Some (s, m) ->
  type_ok false D (OSafe s) /\ stands_for D W (OSafe s) (tresult W k l)
  /\ ((exists z, returns m z /\ holds D (OSafe s) z /\ op_becomes W (tresult W k l) op x y z) \/ throws_arith m)
  /\ (in_kind W (tresult W k l) x -> in_kind W (tresult W k l) y -> (op = Div -> y <> 0) ->
      in_kind W (tresult W k l) (exact op x y) -> returns m (exact op x y)).
Proof.
  intros D W op t u k l x y s m O Hop Ht Hu St Su F Hx Hy H.
  pose proof (policy_throws false D op t u x y s m Ht Hu H) as [HE _].
  destruct (binary_inv _ _ _ _ _ _ _ _ H) as (P & E & R & ri & H1 & H2 & H3 & H4 & Es & Km).
  pose proof (common_cpp D W t u k l P St Su H1) as EP. rewrite EP in H3. cbn [cpp_of result_base_type] in H3.
  assert (SR : hosts D W (tresult W k l) R).
  { refine (result_hosts D W k l _ _ R O F (stands_hosts _ _ _ _ St) (stands_hosts _ _ _ _ Su) _). exact H3. }
  assert (Rs : st s = R) by (rewrite Es; reflexivity). assert (Ps : sP s = cpp_of W) by (rewrite Es; exact EP).
  assert (SS : stands_for D W (OSafe s) (tresult W k l)).
  { split; [destruct SR as (S & A & B); exists S; split; [exact A|cbn [base_ty]; congruence]|right; cbn [get_pp]; congruence]. }
  pose proof (proj1 Ht) as Wt. pose proof (proj1 Hu) as Wu. destruct (common_widths W k l O) as [L1 L2].
  assert (Fit : in_type D (st s) x -> in_type D (st s) y -> (op = Div -> y <> 0) -> in_type D (st s) (exact op x y) ->
    op_becomes W (tresult W k l) op x y (exact op x y)).
  { rewrite Rs. intros A B N C. exists x, y. repeat split; auto; apply B_fits; apply (in_kind_type D W _ R); assumption. }
  assert (Q : type_ok false D (OSafe s)
    /\ ((exists z, returns m z /\ holds D (OSafe s) z /\ op_becomes W (tresult W k l) op x y z) \/ throws_arith m)
    /\ (in_type D (st s) x -> in_type D (st s) y -> (op = Div -> y <> 0) -> in_type D (st s) (exact op x y) -> returns m (exact op x y))).
  2: { destruct Q as (Q1 & Q2 & Q3). refine (conj Q1 (conj SS (conj Q2 _))). intros A B N C.
       apply Q3; [| |exact N|]; rewrite Rs; apply (in_kind_type D W (tresult W k l) R _ SR); assumption. }
  assert (Old : op <> Div -> op_ok false (BA op)) by (unfold op_ok, four in *; intuition congruence).
  assert (AddSub : op = Add \/ op = Sub -> type_ok false D (OSafe s)
    /\ ((exists z, returns m z /\ holds D (OSafe s) z /\ op_becomes W (tresult W k l) op x y z) \/ throws_arith m)
    /\ (in_type D (st s) x -> in_type D (st s) y -> (op = Div -> y <> 0) -> in_type D (st s) (exact op x y) -> returns m (exact op x y))).
  { intros Ho. destruct (op_char false D (BA op) t u x y s m) as [T0 C]; auto; [apply Old; intuition congruence|].
    destruct (C38_exact_lemma op D t u x y s m Ho Wt Wu Hx Hy H HE) as [Ex _].
    refine (conj T0 (conj _ _)); [|intros A B _ C'; apply Ex; auto].
    destruct C as [(z & M1 & M2 & M3)|T]; [left|right; exact T]. exists z.
    assert (Z : z = exact op x y) by (destruct Ho as [-> | ->]; injection M1 as <-; reflexivity). subst z.
    refine (conj M2 (conj M3 _)). destruct (proj1 Ex M2) as (A & B & C). apply Fit; auto. intuition congruence. }
  destruct Hop as [E1|[E1|[E1|E1]]]; [apply AddSub; auto|apply AddSub; auto| |]; clear AddSub; subst op.
  - destruct (op_char false D (BA Mul) t u x y s m) as [T0 C]; auto; [apply Old; congruence|].
    destruct (mul_exact_lemma D t u x y s m Wt Wu Hx Hy H HE) as [Ex _]. cbn zeta in Ex.
    refine (conj T0 (conj _ _)); [|intros A B _ C'; apply Ex; left; auto].
    destruct C as [(z & M1 & M2 & M3)|T]; [left|right; exact T]. exists z. injection M1 as <-.
    refine (conj M2 (conj M3 _)). destruct (proj1 Ex M2) as [(A & B & C)|[Zr Sg]]; [apply Fit; auto; congruence|].
    assert (X0 : x = 0 \/ y = 0) by (unfold holds in *; lia).
    assert (I0 : in_kind W (tresult W k l) 0).
    { unfold in_kind. pose proof (kbits_pos D W _ R SR). assert (0 < 2 ^ kbits W (tresult W k l)) by (apply Z.pow_pos_nonneg; lia).
      assert (0 < 2 ^ (kbits W (tresult W k l) - 1)) by (apply Z.pow_pos_nonneg; lia). destruct (ksigned _); lia. }
    assert (Conv : forall v, in_kind W k v \/ in_kind W l v -> exists v', becomes W (tresult W k l) v v' /\ (v = 0 -> v' = 0)).
    { intros v Hv. destruct (ksigned (tresult W k l)) eqn:Esg.
      - exists v. split; [|auto]. apply B_fits.
        destruct Hv as [Hv|Hv]; [apply (kind_keeps W k)|apply (kind_keeps W l)]; rewrite ?Esg; auto; eapply kbits_pos, stands_hosts; eassumption.
      - exists (v mod 2 ^ kbits W (tresult W k l)). split; [apply B_wraps; exact Esg|]. intros ->. apply Z.mod_0_l.
        pose proof (kbits_pos D W _ R SR). assert (0 < 2 ^ kbits W (tresult W k l)) by (apply Z.pow_pos_nonneg; lia). lia. }
    destruct (Conv x) as (x' & Bx & Zx); [left; eapply holds_kind; eassumption|].
    destruct (Conv y) as (y' & By & Zy); [right; eapply holds_kind; eassumption|].
    exists x', y'. split; [exact Bx|]. split; [exact By|]. split; [congruence|].
    assert (E0 : exact Mul x' y' = 0) by (cbn; destruct X0 as [X0|X0]; [rewrite (Zx X0)|rewrite (Zy X0)]; lia).
    assert (Z0 : x * y = 0) by (destruct X0 as [-> | ->]; lia).
    rewrite E0, Z0. apply B_fits. exact I0.
  - assert (Lg : result_large_enough D s t u).
    { right. left. rewrite Rs. split; [eapply (digits_kind D W k (tresult W k l))|eapply (digits_kind D W l (tresult W k l))];
        try exact SR; try (eapply stands_hosts; eassumption); assumption. }
    destruct (div_char D t u x y s m Wt Wu Hx Hy H HE Lg) as (Ws & Y0 & Y1).
    destruct (result_type_ok false D Div t u x y s m Ht Hu H Ws) as (T0 & _).
    refine (conj T0 (conj _ _)).
    + destruct (Z.eq_dec y 0) as [Ey|Ny]; [right; auto|].
      destruct (Y1 Ny) as [(A & B & C & I & J)|[_ T]]; [left|right; exact T].
      exists (Z.quot x y). refine (conj A (conj _ _)); [exact J|]. apply Fit; auto.
    + intros A B N C. destruct (Y1 (N eq_refl)) as [(A' & _)|[N' _]]; [exact A'|]. cbn [exact] in C. tauto.
Qed.

(** & | ^ of values that are not negative *)
Lemma emu_bitwise : forall D W op t u k l x y s m, ordered_widths W ->
  type_ok false D t -> type_ok false D u -> stands_for D W t k -> stands_for D W u l -> fair W k l ->
  holds D t x -> holds D u y -> 0 <= x -> 0 <= y -> bitwise D op t u x y = Some (s, m) ->
  type_ok false D (OSafe s) /\ stands_for D W (OSafe s) (tresult W k l)
  /\ returns m (bit_op op x y) /\ holds D (OSafe s) (bit_op op x y)
  /\ in_kind W (tresult W k l) x /\ in_kind W (tresult W k l) y.
Proof.
  intros D W op t u k l x y s m O Ht Hu St Su F Hx Hy X0 Y0 H.
  destruct (bitwise_inv _ _ _ _ _ _ _ _ H) as (mx & H1 & H2 & H3 & _).
  pose proof (common_cpp D W t u k l _ St Su H1) as EP. rewrite EP in H3. cbn [cpp_of result_base_type] in H3.
  assert (SR : hosts D W (tresult W k l) (st s)).
  { refine (result_hosts D W k l _ _ _ O F (stands_hosts _ _ _ _ St) (stands_hosts _ _ _ _ Su) _). exact H3. }
  assert (SS : stands_for D W (OSafe s) (tresult W k l)).
  { split; [destruct SR as (S & A & B); exists S; auto|right; cbn [get_pp]; congruence]. }
  destruct (common_widths W k l O) as [L1 L2].
  assert (Kin : forall z, in_kind W k z -> 0 <= z -> in_kind W (tresult W k l) z)
    by (intros z Hz Z0; apply (kind_keeps W k); auto; eapply kbits_pos, stands_hosts; eassumption).
  assert (Lin : forall z, in_kind W l z -> 0 <= z -> in_kind W (tresult W k l) z)
    by (intros z Hz Z0; apply (kind_keeps W l); auto; eapply kbits_pos, stands_hosts; eassumption).
  pose proof (proj1 Ht) as Wt. pose proof (proj1 Hu) as Wu.
  assert (Ht' : holds D t (lim_hi D t)) by (unfold holds; destruct Wt as (_ & _ & ?); lia).
  assert (Hu' : holds D u (lim_hi D u)) by (unfold holds; destruct Wu as (_ & _ & ?); lia).
  assert (B1 : lim_hi D t <= hi D (st s)).
  { assert (in_type D (st s) (lim_hi D t)) as J; [|unfold in_type in J; lia].
    apply (in_kind_type D W _ _ _ SR). apply Kin; [exact (holds_kind D W t k _ St Wt Ht')|unfold holds in *; lia]. }
  assert (B2 : lim_hi D u <= hi D (st s)).
  { assert (in_type D (st s) (lim_hi D u)) as J; [|unfold in_type in J; lia].
    apply (in_kind_type D W _ _ _ SR). apply Lin; [exact (holds_kind D W u l _ Su Wu Hu')|unfold holds in *; lia]. }
  destruct (bitwise_range D op t u x y s m Wt Wu Hx Hy H X0 Y0 B1 B2) as (Ws & Rm & Rg).
  assert (T0 : type_ok false D (OSafe s)).
  { split; [exact Ws|]. split; [|discriminate]. intros E [= <-]. destruct (common_ep_in _ _ _ H2); [apply Ht|apply Hu]; assumption. }
  refine (conj T0 (conj SS (conj Rm (conj Rg (conj _ _))))); [apply Kin; [exact (holds_kind D W t k x St Wt Hx)|exact X0]|
    apply Lin; [exact (holds_kind D W u l y Su Wu Hy)|exact Y0]].
Qed.

(** the shifts *)
Definition stops {A : Type} (sh : bool) (m : M A) : Prop := throws_arith m \/ (sh = true /\ throws_impl m).
Lemma stops_throw : forall (A : Type) sh (m : M A), stops sh m -> exists l e, m = (l, Throw e).
Proof. intros A sh m [(e & _ & H)|(_ & e & _ & H)]; rewrite H; eauto. Qed.
Lemma returns_not_stops : forall (A : Type) sh (m : M A) a, returns m a -> stops sh m -> False.
Proof. intros A sh m a H S. destruct (stops_throw _ _ _ S) as (l & e & T). unfold returns in H. congruence. Qed.
Lemma bind_stops : forall (A B : Type) sh (m : M A) (k : A -> M B), stops sh m -> stops sh (mbind m k).
Proof. intros A B sh m k [T|[S T]]; [left; apply mbind_throws; exact T|right; split; [exact S|apply mbind_throws_impl; exact T]]. Qed.
Lemma stops_l : forall (A : Type) a b (m : M A), stops a m -> stops (a || b) m.
Proof. intros A a b m [T|[-> T]]; [left; exact T|right; auto]. Qed.
Lemma stops_r : forall (A : Type) a b (m : M A), stops b m -> stops (a || b) m.
Proof. intros A a b m [T|[-> T]]; [left; exact T|right; split; [apply orb_true_r|exact T]]. Qed.
Lemma both_stops : forall sh first ma mb,
  (exists x, returns ma x) \/ stops sh ma -> (exists y, returns mb y) \/ stops sh mb ->
  (exists x y, returns ma x /\ returns mb y /\ returns (both first ma mb) (x, y))
  \/ stops sh (both first ma mb).
Proof.
  intros sh first ma mb [(x & Hx)|Tx] [(y & Hy)|Ty]; unfold both.
  - left. exists x, y. split; [exact Hx|]. split; [exact Hy|]. destruct first.
    + rewrite (bind_ret _ _ _ _ _ Hx), (bind_ret _ _ _ _ _ Hy). reflexivity.
    + rewrite (bind_ret _ _ _ _ _ Hy), (bind_ret _ _ _ _ _ Hx). reflexivity.
  - right. destruct first.
    + rewrite (bind_ret _ _ _ _ _ Hx). apply bind_stops. assumption.
    + apply bind_stops. assumption.
  - right. destruct first.
    + apply bind_stops. assumption.
    + rewrite (bind_ret _ _ _ _ _ Hy). apply bind_stops. assumption.
  - right. destruct first; apply bind_stops; assumption.
Qed.

Lemma impl_not_returns : forall (A : Type) (m : M A) z, returns m z -> throws_impl m -> False.
Proof. intros A m z H (e & _ & K). rewrite K in H. discriminate. Qed.
Lemma shl_digits : forall D t u x y s m z, wf_operand D t -> wf_operand D u -> holds D t x -> holds D u y ->
  binary D Shl t u x y = Some (s, m) -> throws_arithmetic (sE s) -> throws_shift (sE s) ->
  0 < lim_hi D t -> 0 <= x -> 0 <= y \/ digits D (st s) <= lim_hi D u ->
  returns m z -> 0 <= y < digits D (st s).
Proof.
  intros D t u x y s m z Ht Hu Hx Hy Hb HE HS Hp X0 Hc R.
  destruct (binary_inv _ _ _ _ _ _ _ _ Hb) as (P & E & T & ri & HP & HEp & HR & Hri & -> & Hm).
  cbn [sE st] in *. pose proof (digits_pos D T). destruct Hm as [[Hx0 ->]|[Hx1 (W & casts & HW & Hk & _ & ->)]].
  - cbn [exception_possible] in Hx0. apply orb_false_elim in Hx0. destruct Hx0 as [X1 X2].
    assert (lim_hi D u < digits D T).
    { apply (shl_unchecked_count D T t u ri Ht Hu Hri X1 X2 Hp). unfold holds in *. lia. }
    unfold holds in *. lia.
  - cbn [work_type] in HW. injection HW as <-.
    destruct (casting_helper_throws _ _ _ _ _ _ _ _ HE Ht Hu Hx Hy Hk) as [(Ix & Iy & ->)|[_ Tc]];
      [|exfalso; eapply returns_not_throws; [exact R|apply mbind_throws; assumption]].
    unfold checked_run in R. rewrite mbind_ret in R. cbn [fst snd checked_op] in R.
    rewrite left_shift_spec in R by assumption. cbn [mlift] in R. rewrite mbind_ret in R.
    assert (Ti : forall e (k : checked -> M Z), shift_err e -> returns (mbind (dispatch_and_return E (CErr e)) k) z -> False).
    { intros e k He K. eapply impl_not_returns; [exact K|]. apply mbind_throws_impl, dar_impl; assumption. }
    destruct (Z.eqb_spec y 0); [lia|].
    destruct (Z.ltb_spec y 0); [exfalso; eapply Ti; [|exact R]; unfold shift_err; auto|].
    destruct (Z.ltb_spec (digits D T) y); [exfalso; eapply Ti; [|exact R]; unfold shift_err; auto|].
    destruct (Z.ltb_spec x 0); [lia|]. destruct (Z.eqb_spec x 0).
    + destruct (Z.ltb_spec y (digits D T)); [lia|]. exfalso; eapply Ti; [|exact R]; unfold shift_err; auto.
    + destruct (Z.leb_spec (x * 2 ^ y) (hi D T)); [|exfalso; eapply Ti; [|exact R]; unfold shift_err; auto].
      split; [lia|]. apply (Z.pow_lt_mono_r_iff 2); [lia|lia|]. rewrite (pow_digits D T).
      assert (0 < 2 ^ y) by (apply Z.pow_pos_nonneg; lia). nia.
Qed.
Lemma shr_digits : forall D t u x y s m z, wf_operand D t -> wf_operand D u -> holds D t x -> holds D u y ->
  binary D Shr t u x y = Some (s, m) -> throws_arithmetic (sE s) -> throws_shift (sE s) ->
  csigned D (st s) = true \/ (0 <= lim_lo D u /\ y <> digits D (st s)) ->
  returns m z -> 0 <= y <= digits D (st s).
Proof.
  intros D t u x y s m z Ht Hu Hx Hy Hb HE HS Hsg R.
  destruct (binary_inv _ _ _ _ _ _ _ _ Hb) as (P & E & T & ri & HP & HEp & HR & Hri & -> & Hm).
  cbn [sE st] in *.
  destruct (shr_static D T t u ri Ht Hu Hri) as (_ & Hst).
  destruct (Hst ltac:(tauto) x y Hx Hy) as [_ Hunc]. clear Hst.
  destruct Hm as [[Hx0 ->]|[Hx1 (W & casts & HW & Hk & _ & ->)]].
  - destruct (Hunc Hx0) as (_ & _ & _ & K). lia.
  - cbn [work_type] in HW. injection HW as <-.
    destruct (casting_helper_throws _ _ _ _ _ _ _ _ HE Ht Hu Hx Hy Hk) as [(Ix & Iy & ->)|[_ Tc]];
      [|exfalso; eapply returns_not_throws; [exact R|apply mbind_throws; assumption]].
    unfold checked_run in R. rewrite mbind_ret in R. cbn [fst snd checked_op] in R.
    rewrite right_shift_spec in R by assumption.
    assert (Ti : forall e (k : checked -> M Z), shift_err e -> returns (mbind (dispatch_and_return E (CErr e)) k) z -> False).
    { intros e k He K. eapply impl_not_returns; [exact K|]. apply mbind_throws_impl, dar_impl; assumption. }
    destruct (Z.ltb_spec y 0); [exfalso; cbn [mlift] in R; rewrite mbind_ret in R; eapply Ti; [|exact R]; unfold shift_err; auto|].
    destruct (Z.ltb_spec (digits D T) y); [exfalso; cbn [mlift] in R; rewrite mbind_ret in R; eapply Ti; [|exact R]; unfold shift_err; auto|].
    lia.
Qed.

(** the result type of a shift that the count does not raise *)
Lemma shift_hosts : forall D W op t u k l x y s m, ordered_widths W -> stands_for D W t k -> stands_for D W u l ->
  fair W k l -> tresult W k l = tpromote W k -> binary D op t u x y = Some (s, m) ->
  hosts D W (tpromote W k) (st s) /\ stands_for D W (OSafe s) (tpromote W k)
  /\ digits D (st s) = value_bits W (tpromote W k).
Proof.
  intros D W op t u k l x y s m O St Su F Er H.
  destruct (binary_inv _ _ _ _ _ _ _ _ H) as (P & E & R & ri & H1 & H2 & H3 & H4 & Es & Km).
  pose proof (common_cpp D W t u k l P St Su H1) as EP. rewrite EP in H3. cbn [cpp_of result_base_type] in H3.
  assert (SR : hosts D W (tpromote W k) R).
  { rewrite <- Er. refine (result_hosts D W k l _ _ R O F (stands_hosts _ _ _ _ St) (stands_hosts _ _ _ _ Su) _). exact H3. }
  destruct (hosts_facts _ _ _ _ SR) as (A & B & _).
  rewrite Es. cbn [st]. split; [exact SR|]. split.
  - destruct SR as (S & A' & B'). split; [exists S; auto|right; cbn; congruence].
  - unfold digits, value_bits. rewrite A, B. destruct (ksigned _); lia.
Qed.
Lemma small_in_type : forall D R y, 0 <= y <= 127 -> in_type D R y.
Proof. intros D R y H. pose proof (lo_le_0 D R). pose proof (hi_ge_127 D R). unfold in_type. lia. Qed.
Lemma digits_small : forall D R, digits D R <= 64.
Proof. intros D R. destruct D, R; vm_compute; congruence. Qed.

Lemma emu_shl : forall D W t u k l x y s m, ordered_widths W ->
  type_ok false D t -> type_ok false D u -> stands_for D W t k -> stands_for D W u l -> fair W k l ->
  tresult W k l = tpromote W k -> (forall E, get_ep t = Some E \/ get_ep u = Some E -> throws_shift E) ->
  0 < lim_hi D t -> 0 <= y \/ value_bits W (tpromote W k) <= lim_hi D u ->
  holds D t x -> holds D u y -> 0 <= x -> binary D Shl t u x y = Some (s, m) ->
  type_ok false D (OSafe s) /\ stands_for D W (OSafe s) (tpromote W k)
  /\ ((returns m (x * 2 ^ y) /\ holds D (OSafe s) (x * 2 ^ y) /\ 0 <= y < kbits W (tpromote W k)
       /\ in_kind W (tpromote W k) (x * 2 ^ y)) \/ stops true m)
  /\ (0 <= y < value_bits W (tpromote W k) -> in_kind W (tpromote W k) (x * 2 ^ y) -> returns m (x * 2 ^ y)).
Proof.
  intros D W t u k l x y s m O Ht Hu St Su F Er Hsh Hp Hc Hx Hy X0 H.
  destruct (shift_hosts D W Shl t u k l x y s m O St Su F Er H) as (SR & SS & Ed).
  pose proof (policy_throws false D Shl t u x y s m Ht Hu H) as [HE _].
  assert (HS : throws_shift (sE s)).
  { destruct (binary_policy _ _ _ _ _ _ _ _ H) as [A _]. apply Hsh. destruct (common_ep_in _ _ _ A); auto. }
  pose proof (proj1 Ht) as Wt. pose proof (proj1 Hu) as Wu. rewrite <- Ed in *.
  destruct (shl_char D t u x y s m Wt Wu Hx Hy H HE HS) as [Ws C].
  assert (T0 : type_ok false D (OSafe s)) by (destruct (result_type_ok false D Shl t u x y s m Ht Hu H Ws) as (A & _); exact A).
  pose proof (hosts_facts _ _ _ _ SR) as (Hw & _). pose proof (digits_small D (st s)) as Dl.
  assert (Dw : digits D (st s) <= kbits W (tpromote W k)) by (rewrite <- Hw; unfold digits; destruct (csigned D (st s)); lia).
  refine (conj T0 (conj SS (conj _ _))).
  - destruct (C ltac:(tauto)) as [(R & Y0 & I & J)|[[_ T]|[[_ T]|(_ & [K|K] & N)]]]; [left|right; left; exact T|right; right; auto|lia|lia].
    pose proof (shl_digits D t u x y s m _ Wt Wu Hx Hy H HE HS Hp X0 Hc R) as Yd.
    refine (conj R (conj J (conj _ _))); [lia|]. apply (in_kind_type D W _ _ _ SR). exact I.
  - intros Yd I. apply (in_kind_type D W _ _ _ SR) in I.
    destruct (C ltac:(tauto)) as [(R & _)|[[N T]|[[N T]|(_ & [K|K] & N)]]]; [exact R| | |lia|lia].
    + exfalso. assert (in_type D (st s) y) by (apply small_in_type; lia).
      assert (in_type D (st s) x); [|tauto]. assert (0 < 2 ^ y) by (apply Z.pow_pos_nonneg; lia).
      unfold in_type in *. pose proof (lo_le_0 D (st s)). nia.
    + exfalso. unfold shl_fails in N. unfold in_type in I. lia.
Qed.
Lemma emu_shr : forall D W t u k l x y s m, ordered_widths W ->
  type_ok false D t -> type_ok false D u -> stands_for D W t k -> stands_for D W u l -> fair W k l ->
  tresult W k l = tpromote W k -> (forall E, get_ep t = Some E \/ get_ep u = Some E -> throws_shift E) ->
  ksigned (tpromote W k) = true
  \/ (0 <= lim_lo D u /\ (lim_hi D u < kbits W (tpromote W k) \/ kbits W (tpromote W k) < lim_lo D u)) ->
  holds D t x -> holds D u y -> 0 <= x -> binary D Shr t u x y = Some (s, m) ->
  type_ok false D (OSafe s) /\ stands_for D W (OSafe s) (tpromote W k)
  /\ ((returns m (x / 2 ^ y) /\ holds D (OSafe s) (x / 2 ^ y) /\ 0 <= y < kbits W (tpromote W k)) \/ stops true m)
  /\ (0 <= y < kbits W (tpromote W k) -> returns m (x / 2 ^ y)).
Proof.
  intros D W t u k l x y s m O Ht Hu St Su F Er Hsh Hc Hx Hy X0 H.
  destruct (shift_hosts D W Shr t u k l x y s m O St Su F Er H) as (SR & SS & Ed).
  pose proof (policy_throws false D Shr t u x y s m Ht Hu H) as [HE _].
  assert (HS : throws_shift (sE s)).
  { destruct (binary_policy _ _ _ _ _ _ _ _ H) as [A _]. apply Hsh. destruct (common_ep_in _ _ _ A); auto. }
  pose proof (proj1 Ht) as Wt. pose proof (proj1 Hu) as Wu.
  pose proof (hosts_facts _ _ _ _ SR) as (Hw & Hsg & _). pose proof (digits_small D (st s)) as Dl. unfold value_bits in Ed.
  assert (Hc' : csigned D (st s) = true \/ (0 <= lim_lo D u /\ y <> digits D (st s))).
  { destruct Hc as [A|[A B]]; [left; congruence|]. destruct (ksigned (tpromote W k)) eqn:Ek; [left; congruence|right].
    split; [exact A|]. rewrite Ed. unfold holds in Hy. lia. }
  destruct (shr_char D t u x y s m Wt Wu Hx Hy H HE HS) as [Ws C].
  assert (T0 : type_ok false D (OSafe s)) by (destruct (result_type_ok false D Shr t u x y s m Ht Hu H Ws) as (A & _); exact A).
  refine (conj T0 (conj SS (conj _ _))).
  - destruct (C Hc') as [(R & _ & Y0 & I & J)|[[_ T]|[_ T]]]; [left|right; left; exact T|right; right; auto].
    pose proof (shr_digits D t u x y s m _ Wt Wu Hx Hy H HE HS Hc' R) as Yd.
    refine (conj R (conj J _)). rewrite Hsg in Hc'. destruct (ksigned (tpromote W k)); [lia|]. destruct Hc' as [A|[_ A]]; [discriminate|lia].
  - intros Yd. destruct (C Hc') as [(R & _)|[[N T]|[N T]]]; [exact R| |].
    + exfalso. assert (in_type D (st s) y) by (apply small_in_type; destruct (ksigned (tpromote W k)); lia).
      assert (in_type D (st s) x); [|tauto].
      apply (in_kind_type D W _ _ _ SR). rewrite <- Er. destruct (common_widths W k l O) as [L1 _].
      apply (kind_keeps W k); auto; [eapply kbits_pos, stands_hosts; eassumption|eapply holds_kind; eassumption].
    + exfalso. destruct (ksigned (tpromote W k)); lia.
Qed.

(** the remainder *)
Lemma rem_args : forall D t u x y s m z, wf_operand D t -> wf_operand D u -> holds D t x -> holds D u y ->
  binary D Mod t u x y = Some (s, m) -> throws_arithmetic (sE s) ->
  digits D (base_ty t) <= digits D (st s) -> digits D (base_ty u) <= digits D (st s) ->
  returns m z -> in_type D (st s) x /\ in_type D (st s) y.
Proof.
  intros D t u x y s m z Ht Hu Hx Hy Hb HE D1 D2 R.
  destruct (binary_inv _ _ _ _ _ _ _ _ Hb) as (P & E & T & ri & HP & HEp & HR & Hri & Es & Hm).
  assert (ER : st s = T) by (rewrite Es; reflexivity). assert (EE : sE s = E) by (rewrite Es; reflexivity).
  rewrite ER in *. rewrite EE in *.
  destruct Hm as [[Hx0 ->]|[Hx1 (W & casts & HW & Hk & _ & ->)]].
  - destruct (mod_fits_unchecked D T t u ri Ht Hu (digits_fits _ _ _ Ht D1) (digits_fits _ _ _ Hu D2) Hri Hx0 x y Hx Hy) as (_ & A & B). auto.
  - cbn [work_type] in HW.
    destruct (casting_helper_throws _ _ _ _ _ _ _ _ HE Ht Hu Hx Hy Hk) as [(Ix & Iy & ->)|[_ Tc]];
      [|exfalso; eapply returns_not_throws; [exact R|apply mbind_throws; assumption]].
    destruct (div_temp_spec D T _ _ W HW) as (S1 & _ & S2).
    destruct (same_range D W T S1 (S2 D1 D2)) as [L1 L2]. unfold in_type in *. lia.
Qed.
Lemma quot_in_type : forall D R x y, in_type D R x -> in_type D R y -> y <> 0 ->
  csigned D R = false \/ lo D R < x \/ 0 <= y -> in_type D R (Z.quot x y).
Proof.
  intros D R x y Ix Iy Hy H. pose proof (quot_range D R x y Ix Iy Hy) as Q. pose proof (quot_abs x y Hy) as A.
  pose proof (lo_le_0 D R). pose proof (hi_ge_127 D R). unfold in_type in *.
  destruct (csigned D R) eqn:Es.
  - pose proof (hi_pos_lo D R Es). destruct H as [H|[H|H]]; [discriminate|lia|].
    assert (lo D R <= Z.quot x y <= hi D R); [|lia]. destruct (Z_le_gt_dec 0 x); [lia|].
    assert (Z.quot x y <= 0); [|lia]. rewrite <- (Z.opp_involutive x) at 1. rewrite Z.quot_opp_l by assumption.
    assert (0 <= Z.quot (- x) y) by (apply Z.quot_pos; lia). lia.
  - pose proof (lo_unsigned D R Es). assert (0 <= Z.quot x y) by (apply Z.quot_pos; lia). lia.
Qed.
Lemma emu_rem : forall D W t u k l x y s m, ordered_widths W ->
  type_ok false D t -> type_ok false D u -> stands_for D W t k -> stands_for D W u l -> fair W k l ->
  ksigned (tresult W k l) = false \/ - 2 ^ (kbits W (tresult W k l) - 1) < lim_lo D t \/ 0 <= lim_lo D u ->
  holds D t x -> holds D u y -> binary D Mod t u x y = Some (s, m) ->
  hosts D W (tresult W k l) (st s) /\ throws_arithmetic (sE s)
  /\ ((returns m (remainder x y) /\ y <> 0 /\ in_kind W (tresult W k l) x /\ in_kind W (tresult W k l) y
       /\ in_kind W (tresult W k l) (Z.quot x y) /\ in_kind W (tresult W k l) (remainder x y)) \/ throws_arith m)
  /\ (in_kind W (tresult W k l) x -> in_kind W (tresult W k l) y -> y <> 0 -> returns m (remainder x y)).
Proof.
  intros D W t u k l x y s m O Ht Hu St Su F Hmin Hx Hy H.
  pose proof (policy_throws false D Mod t u x y s m Ht Hu H) as [HE _].
  assert (SR : hosts D W (tresult W k l) (st s)).
  { destruct (binary_inv _ _ _ _ _ _ _ _ H) as (P & E & R & ri & H1 & H2 & H3 & H4 & Es & Km).
    pose proof (common_cpp D W t u k l P St Su H1) as EP. rewrite EP in H3. cbn [cpp_of result_base_type] in H3.
    rewrite Es. refine (result_hosts D W k l _ _ R O F (stands_hosts _ _ _ _ St) (stands_hosts _ _ _ _ Su) _). exact H3. }
  pose proof (proj1 Ht) as Wt. pose proof (proj1 Hu) as Wu. destruct (common_widths W k l O) as [L1 L2].
  assert (D1 : digits D (base_ty t) <= digits D (st s))
    by (eapply (digits_kind D W k (tresult W k l)); [eapply stands_hosts; eassumption|exact SR|exact L1]).
  assert (D2 : digits D (base_ty u) <= digits D (st s))
    by (eapply (digits_kind D W l (tresult W k l)); [eapply stands_hosts; eassumption|exact SR|exact L2]).
  pose proof (hosts_facts _ _ _ _ SR) as (Hw & Hsg & _).
  assert (Hm' : csigned D (st s) = false \/ lo D (st s) < x \/ 0 <= y).
  { destruct Hmin as [A|[A|A]]; [left; congruence| |right; right; unfold holds in Hy; lia].
    destruct (csigned D (st s)) eqn:Es; [|left; reflexivity]. right. left. unfold lo, digits. rewrite Es, Hw. unfold holds in Hx. lia. }
  destruct (mod_char D t u x y s m Wt Wu Hx Hy H HE) as [Y0 Y1].
  { right. left. auto. }
  { intros (A & B & C). destruct Hm' as [E|[E|E]]; [|lia|lia]. pose proof (lo_unsigned D (st s) E). lia. }
  refine (conj SR (conj HE (conj _ _))).
  - destruct (Z.eq_dec y 0) as [Ey|Ny]; [right; auto|].
    destruct (Y1 Ny) as [[R I]|[_ T]]; [left|right; exact T].
    destruct (rem_args D t u x y s m _ Wt Wu Hx Hy H HE D1 D2 R) as [Ix Iy].
    refine (conj R (conj Ny (conj _ (conj _ (conj _ _))))); apply (in_kind_type D W _ _ _ SR); auto. apply quot_in_type; auto.
  - intros Kx Ky Ny. apply (in_kind_type D W _ _ _ SR) in Kx, Ky. destruct (Y1 Ny) as [[R _]|[N _]]; [exact R|tauto].
Qed.
(** a value of the result's type goes into an object that takes it *)
Lemma convert_takes : forall D tgt s z k, type_ok false D tgt -> throws_arithmetic (sE s) -> in_type D (st s) z -> holds D tgt z ->
  convert D tgt (OSafe s) z = Some k -> returns k z.
Proof.
  intros D tgt s z k (W1 & E1 & _) HE Hi Hz Kk. destruct tgt as [T|w|T N P E]; cbn [convert] in Kk.
  - destruct (to_builtin_char D T s z k HE Hi Kk) as [[_ ->]|[N _]]; [reflexivity|]. exfalso. apply N. exact Hz.
  - destruct W1 as (A & B & _). cbn in A, B. unfold holds in Hz. cbn [lim_lo lim_hi] in Hz. unfold construct, validate in Kk.
    destruct (validate_static _ _ _ _ _ _ _) as [[|]|]; [| |discriminate].
    + injection Kk as <-. unfold returns. rewrite conv_id by (unfold in_type in *; lia). reflexivity.
    + cbn [base_ty] in Kk. destruct (all_compile _ _); [|discriminate]. injection Kk as <-.
      destruct (het_cast_spec D (st w) (smin w) (smax w) (st s) z A B Hi) as [C _]. rewrite C by assumption. reflexivity.
  - discriminate.
Qed.

Lemma convert_keeps : forall n D o t x k, type_ok n D o -> type_ok n D t -> holds D t x -> holds D o x ->
  convert D o t x = Some k -> returns k x.
Proof.
  intros n D o t x k To Tt Ix Hx Kk.
  destruct o as [T|so|T N P E]; cbn [convert] in Kk.
  - destruct t as [U|ts|U N P E].
    + destruct (ctype_eqb T U); [|discriminate]. injection Kk as <-. reflexivity.
    + destruct (to_builtin_char D T ts x k) as [[_ ->]|[N _]]; auto.
      * apply (proj1 (proj2 Tt)). reflexivity.
      * apply (holds_in D (OSafe ts)); [exact (proj1 Tt)|assumption].
      * reflexivity.
      * exfalso. apply N. exact Hx.
    + unfold holds in Ix. cbn [lim_lo lim_hi] in Ix. assert (x = N) by lia. subst x.
      destruct (C46_lemma D T U N E) as [A _].
      * destruct Tt as ((A & _) & _). exact A.
      * intros E0 HE. apply (proj1 (proj2 Tt)). exact HE.
      * destruct (A Hx) as (m & Hm & R). rewrite Kk in Hm. injection Hm as <-. assumption.
  - destruct (construct_char D so t x k (proj1 To) (proj1 Tt) (proj1 (proj2 To) _ eq_refl) Ix Kk) as [[_ ->]|[N _]].
    + reflexivity.
    + exfalso. apply N. exact Hx.
  - discriminate.
Qed.

Section Emu.
Variables (D : dmodel) (W : widths) (G : tenv) (K : tkinds).
Hypothesis O : ordered_widths W.
Hypothesis HG : forall v, type_ok false D (G v).
Hypothesis HK : forall v, stands_for D W (G v) (K v).

Lemma convert_returns : forall tgt src k x m, type_ok false D tgt -> type_ok false D src -> stands_for D W tgt k ->
  holds D src x -> convert D tgt src x = Some m -> (returns m x /\ holds D tgt x /\ becomes W k x x) \/ throws_arith m.
Proof.
  intros tgt src k x m Tt Ts St Hx H. destruct (convert_char false D tgt src x m Tt Ts Hx H) as [[A B]|T]; [left|right; exact T].
  split; [exact B|]. split; [exact A|]. apply B_fits. eapply holds_kind; [eassumption|apply Tt|exact A].
Qed.
Lemma lim_holds : forall t, type_ok false D t -> holds D t (lim_lo D t).
Proof. intros t ((_ & _ & L) & _). unfold holds. lia. Qed.

Lemma witness : forall e t, not_negative D G e -> type_of D G e = Some t -> type_ok false D t ->
  (forall o z, e = EConst o z -> holds D t z) -> exists x, holds D t x /\ 0 <= x.
Proof.
  intros e t [(o & z & E & Z0)|N] Ht Tt Hc; [exists z; eauto|]. exists (lim_lo D t). split; [apply lim_holds; assumption|auto].
Qed.

Lemma not_neg_value : forall s e t x, not_negative D G e -> type_of D G e = Some t ->
  returns (eval D G s e) x -> holds D t x -> 0 <= x.
Proof.
  intros s e t x [(o & z & -> & Z0)|N] Ht R I; [cbn in R; unfold returns, mret in R; congruence|].
  specialize (N t Ht). unfold holds in I. lia.
Qed.
Lemma stops_any : forall (A : Type) sh (m : M A), stops sh m -> stops true m.
Proof. intros A sh m [T|[_ T]]; [left; exact T|right; auto]. Qed.

Lemma emu_expr : forall s i, store_ok D G s i -> forall e e', on_host D W G K e e' ->
  forall t, type_of D G e = Some t ->
  type_ok false D t /\ stands_for D W t (tkind_of W K e')
  /\ ((exists z, returns (eval D G s e) z /\ holds D t z /\ tevals W K i e' z) \/ stops (shifts e') (eval D G s e))
  /\ (whole_casts D e -> forall z, tfits W K i e' z -> returns (eval D G s e) z).
Proof.
  intros s i Hs e e' H. induction H as [o k z S T0 Z0|v|op f a a' b b' Hop Ha IHa Hb IHb F|op f a a' b b' Ha IHa Hb IHb F Na Nb|f a a' b b' Ha IHa Hb IHb F Sh|f a a' b b' Ha IHa Hb IHb F Sh|o k a a' S T0 Ha IHa];
    intros t Ht; cbn [type_of eval tkind_of whole_casts shifts] in *.
  - injection Ht as <-. refine (conj T0 (conj S (conj _ _))).
    + left. exists z. split; [reflexivity|]. split; [exact Z0|]. constructor. eapply holds_kind; [eassumption|apply T0|exact Z0].
    + intros _ z' Hz. inversion Hz; subst. reflexivity.
  - injection Ht as <-. destruct (Hs v) as [E I]. refine (conj (HG v) (conj (HK v) (conj _ _))).
    + left. exists (i v). unfold read. rewrite E. split; [reflexivity|]. split; [exact I|constructor].
    + intros _ z Hz. inversion Hz; subst. unfold read. rewrite E. reflexivity.
  - destruct (type_of D G a) as [ta|] eqn:Eta; [|discriminate]. destruct (type_of D G b) as [tb|] eqn:Etb; [|discriminate].
    destruct (eval_binop D (BA op) ta tb 0 0) as [[rs m0]|] eqn:Ebin; [|discriminate]. cbn in Ht. injection Ht as <-.
    destruct (IHa ta eq_refl) as (Ta & Sa & Ra & Fa). destruct (IHb tb eq_refl) as (Tb & Sb & Rb & Fb).
    assert (St : type_ok false D (OSafe rs) /\ stands_for D W (OSafe rs) (tresult W (tkind_of W K a') (tkind_of W K b'))).
    { destruct (eval_binop_any D (BA op) ta tb 0 0 (lim_lo D ta) (lim_lo D tb) rs m0 Ebin) as (k & Kk). cbn [eval_binop] in Kk.
      destruct (emu_binary D W op ta tb _ _ (lim_lo D ta) (lim_lo D tb) rs k O Hop Ta Tb Sa Sb F (lim_holds ta Ta) (lim_holds tb Tb) Kk) as (A & B & _).
      auto. }
    destruct St as [T1 S1]. refine (conj T1 (conj S1 (conj _ _))).
    + destruct (both_stops (shifts a' || shifts b') f (eval D G s a) (eval D G s b)) as [(x & y & Hx & Hy & Hp)|T].
      * destruct Ra as [(x & Hx & _)|T]; [left; eauto|right; apply stops_l; assumption].
      * destruct Rb as [(y & Hy & _)|T]; [left; eauto|right; apply stops_r; assumption].
      * rewrite (bind_ret _ _ _ _ _ Hp). cbn [fst snd].
        destruct Ra as [(x' & Hx' & Ix & Vx)|T]; [|destruct (returns_not_stops _ _ _ _ Hx T)].
        destruct Rb as [(y' & Hy' & Iy & Vy)|T]; [|destruct (returns_not_stops _ _ _ _ Hy T)].
        assert (x' = x) by (unfold returns in *; congruence). assert (y' = y) by (unfold returns in *; congruence). subst x' y'.
        destruct (eval_binop_any D (BA op) ta tb 0 0 x y rs m0 Ebin) as (k & Kk). rewrite Kk. cbn [run_snd]. cbn [eval_binop] in Kk.
        destruct (emu_binary D W op ta tb _ _ x y rs k O Hop Ta Tb Sa Sb F Ix Iy Kk) as (_ & _ & [(z & Rz & Iz & x' & y' & B1 & B2 & B3 & B4)|T] & _);
          [left|right; left; exact T].
        exists z. refine (conj Rz (conj Iz _)). eapply TE_bin; eauto.
      * right. apply bind_stops. exact T.
    + intros [Wa Wb] z Hz. inversion Hz as [| |op' a0 b0 x y Ho Hx Hy Kx Ky N Kz| | | | |]; subst.
      pose proof (Fa Wa x Hx) as Rx. pose proof (Fb Wb y Hy) as Ry.
      destruct Ra as [(x' & Hx' & Ix & Vx)|T]; [|destruct (returns_not_stops _ _ _ _ Rx T)].
      destruct Rb as [(y' & Hy' & Iy & Vy)|T]; [|destruct (returns_not_stops _ _ _ _ Ry T)].
      assert (x' = x) by (unfold returns in *; congruence). assert (y' = y) by (unfold returns in *; congruence). subst x' y'.
      destruct (both_stops (shifts a' || shifts b') f (eval D G s a) (eval D G s b)) as [(x0 & y0 & Hx0 & Hy0 & Hp)|T]; [left; eauto|left; eauto| |].
      * assert (x0 = x) by (unfold returns in *; congruence). assert (y0 = y) by (unfold returns in *; congruence). subst x0 y0.
        rewrite (bind_ret _ _ _ _ _ Hp). cbn [fst snd].
        destruct (eval_binop_any D (BA op) ta tb 0 0 x y rs m0 Ebin) as (k & Kk). rewrite Kk. cbn [run_snd]. cbn [eval_binop] in Kk.
        destruct (emu_binary D W op ta tb _ _ x y rs k O Hop Ta Tb Sa Sb F Ix Iy Kk) as (_ & _ & _ & B). apply B; assumption.
      * exfalso. unfold both in T. destruct f.
        -- rewrite (bind_ret _ _ _ _ _ Rx), (bind_ret _ _ _ _ _ Ry) in T. eapply (returns_not_stops _ _ _ (x, y)); [reflexivity|exact T].
        -- rewrite (bind_ret _ _ _ _ _ Ry), (bind_ret _ _ _ _ _ Rx) in T. eapply (returns_not_stops _ _ _ (x, y)); [reflexivity|exact T].
  - destruct (type_of D G a) as [ta|] eqn:Eta; [|discriminate]. destruct (type_of D G b) as [tb|] eqn:Etb; [|discriminate].
    destruct (eval_binop D (BB op) ta tb 0 0) as [[rs m0]|] eqn:Ebin; [|discriminate]. cbn in Ht. injection Ht as <-.
    destruct (IHa ta eq_refl) as (Ta & Sa & Ra & Fa). destruct (IHb tb eq_refl) as (Tb & Sb & Rb & Fb).
    destruct (witness a ta Na Eta Ta) as (xa & Xa & Pa). { intros o z ->. inversion Ha; subst. cbn in Eta. injection Eta as <-. assumption. }
    destruct (witness b tb Nb Etb Tb) as (xb & Xb & Pb). { intros o z ->. inversion Hb; subst. cbn in Etb. injection Etb as <-. assumption. }
    assert (Va : forall x, returns (eval D G s a) x -> holds D ta x -> 0 <= x).
    { intros x Rx Ix. destruct Na as [(o & z & -> & Z0)|Na]; [cbn in Rx; unfold returns, mret in Rx; congruence|].
      specialize (Na ta Eta). unfold holds in Ix. lia. }
    assert (Vb : forall x, returns (eval D G s b) x -> holds D tb x -> 0 <= x).
    { intros x Rx Ix. destruct Nb as [(o & z & -> & Z0)|Nb]; [cbn in Rx; unfold returns, mret in Rx; congruence|].
      specialize (Nb tb Etb). unfold holds in Ix. lia. }
    destruct (eval_binop_any D (BB op) ta tb 0 0 xa xb rs m0 Ebin) as (k0 & K0). cbn [eval_binop] in K0.
    destruct (emu_bitwise D W op ta tb _ _ xa xb rs k0 O Ta Tb Sa Sb F Xa Xb Pa Pb K0) as (T1 & S1 & _).
    refine (conj T1 (conj S1 (conj _ _))).
    + destruct (both_stops (shifts a' || shifts b') f (eval D G s a) (eval D G s b)) as [(x & y & Hx & Hy & Hp)|T].
      * destruct Ra as [(x & Hx & _)|T]; [left; eauto|right; apply stops_l; assumption].
      * destruct Rb as [(y & Hy & _)|T]; [left; eauto|right; apply stops_r; assumption].
      * left. rewrite (bind_ret _ _ _ _ _ Hp). cbn [fst snd].
        destruct Ra as [(x' & Hx' & Ix & Vx)|T]; [|destruct (returns_not_stops _ _ _ _ Hx T)].
        destruct Rb as [(y' & Hy' & Iy & Vy)|T]; [|destruct (returns_not_stops _ _ _ _ Hy T)].
        assert (x' = x) by (unfold returns in *; congruence). assert (y' = y) by (unfold returns in *; congruence). subst x' y'.
        destruct (eval_binop_any D (BB op) ta tb 0 0 x y rs m0 Ebin) as (k & Kk). rewrite Kk. cbn [run_snd]. cbn [eval_binop] in Kk.
        pose proof (Va x Hx Ix) as X0. pose proof (Vb y Hy Iy) as Y0.
        destruct (emu_bitwise D W op ta tb _ _ x y rs k O Ta Tb Sa Sb F Ix Iy X0 Y0 Kk) as (_ & _ & Rz & Iz & Kx & Ky).
        exists (bit_op op x y). refine (conj Rz (conj Iz _)). apply (TE_bit W K i op a' b' x y x y); auto using B_fits.
      * right. apply bind_stops. exact T.
    + intros [Wa Wb] z Hz. inversion Hz as [| | |op' a0 b0 x y Hx Hy X0 Y0| | | |]; subst.
      pose proof (Fa Wa x Hx) as Rx. pose proof (Fb Wb y Hy) as Ry.
      destruct Ra as [(x' & Hx' & Ix & Vx)|T]; [|destruct (returns_not_stops _ _ _ _ Rx T)].
      destruct Rb as [(y' & Hy' & Iy & Vy)|T]; [|destruct (returns_not_stops _ _ _ _ Ry T)].
      assert (x' = x) by (unfold returns in *; congruence). assert (y' = y) by (unfold returns in *; congruence). subst x' y'.
      assert (Hp : returns (both f (eval D G s a) (eval D G s b)) (x, y)).
      { unfold both. destruct f.
        - rewrite (bind_ret _ _ _ _ _ Rx), (bind_ret _ _ _ _ _ Ry). reflexivity.
        - rewrite (bind_ret _ _ _ _ _ Ry), (bind_ret _ _ _ _ _ Rx). reflexivity. }
      rewrite (bind_ret _ _ _ _ _ Hp). cbn [fst snd].
      destruct (eval_binop_any D (BB op) ta tb 0 0 x y rs m0 Ebin) as (k & Kk). rewrite Kk. cbn [run_snd]. cbn [eval_binop] in Kk.
      destruct (emu_bitwise D W op ta tb _ _ x y rs k O Ta Tb Sa Sb F Ix Iy X0 Y0 Kk) as (_ & _ & Rz & _). exact Rz.
  - destruct (type_of D G a) as [ta|] eqn:Eta; [|discriminate]. destruct (type_of D G b) as [tb|] eqn:Etb; [|discriminate].
    destruct (eval_binop D (BA Shl) ta tb 0 0) as [[rs m0]|] eqn:Ebin; [|discriminate]. cbn in Ht. injection Ht as <-.
    destruct (IHa ta eq_refl) as (Ta & Sa & Ra & Fa). destruct (IHb tb eq_refl) as (Tb & Sb & Rb & Fb).
    destruct Sh as (Er & Na & HS0 & HC0).
    assert (HS : forall E, get_ep ta = Some E \/ get_ep tb = Some E -> throws_shift E) by (intros E; exact (HS0 ta tb E Eta Etb)).
    destruct (witness a ta Na Eta Ta) as (xa & Xa & Pa). { intros o z ->. inversion Ha; subst. cbn in Eta. injection Eta as <-. assumption. }
    assert (Va : forall x, returns (eval D G s a) x -> holds D ta x -> 0 <= x) by (intros x Rx Ix; exact (not_neg_value s a ta x Na Eta Rx Ix)).
    destruct HC0 as [Hpos Hc0]. specialize (Hpos ta Eta).
    assert (exists xb, holds D tb xb /\ (0 <= xb \/ value_bits W (tpromote W (tkind_of W K a')) <= lim_hi D tb)) as (xb & Xb & Cb).
    { destruct Hc0 as [Nb|Wd]; [|exists (lim_lo D tb); split; [apply lim_holds; exact Tb|right; auto]].
      destruct (witness b tb Nb Etb Tb) as (xb & Xb & Pb); [|exists xb; auto].
      intros o z ->. inversion Hb; subst. cbn in Etb. injection Etb as <-. assumption. }
    assert (Cy : forall y, returns (eval D G s b) y -> holds D tb y -> 0 <= y \/ value_bits W (tpromote W (tkind_of W K a')) <= lim_hi D tb).
    { intros y Ry Iy. destruct Hc0 as [Nb|Wd]; [left; exact (not_neg_value s b tb y Nb Etb Ry Iy)|right; auto]. }
    destruct (eval_binop_any D (BA Shl) ta tb 0 0 xa xb rs m0 Ebin) as (k0 & K0). cbn [eval_binop] in K0.
    destruct (emu_shl D W ta tb _ _ xa xb rs k0 O Ta Tb Sa Sb F Er HS Hpos Cb Xa Xb Pa K0) as (T1 & S1 & _).
    refine (conj T1 (conj S1 (conj _ _))).
    + destruct (both_stops true f (eval D G s a) (eval D G s b)) as [(x & y & Hx & Hy & Hp)|T].
      * destruct Ra as [(x & Hx & _)|T]; [left; eauto|right; eapply stops_any; exact T].
      * destruct Rb as [(y & Hy & _)|T]; [left; eauto|right; eapply stops_any; exact T].
      * rewrite (bind_ret _ _ _ _ _ Hp). cbn [fst snd].
        destruct Ra as [(x' & Hx' & Ix & Vx)|T]; [|destruct (returns_not_stops _ _ _ _ Hx T)].
        destruct Rb as [(y' & Hy' & Iy & Vy)|T]; [|destruct (returns_not_stops _ _ _ _ Hy T)].
        assert (x' = x) by (unfold returns in *; congruence). assert (y' = y) by (unfold returns in *; congruence). subst x' y'.
        destruct (eval_binop_any D (BA Shl) ta tb 0 0 x y rs m0 Ebin) as (k & Kk). rewrite Kk. cbn [run_snd]. cbn [eval_binop] in Kk.
        pose proof (Va x Hx Ix) as X0. 
        destruct (emu_shl D W ta tb _ _ x y rs k O Ta Tb Sa Sb F Er HS Hpos (Cy y Hy Iy) Ix Iy X0 Kk) as (_ & _ & [(Rz & Iz & Y0 & Kz)|T] & _);
          [left|right; exact T].
        exists (x * 2 ^ y). refine (conj Rz (conj Iz _)). eapply TE_shl; eauto using B_fits.
      * right. apply bind_stops. exact T.
    + intros [Wa Wb] z Hz. inversion Hz as [| | | |a0 b0 x y Hx Hy X0 Y0 Kz| | |]; subst.
      pose proof (Fa Wa x Hx) as Rx. pose proof (Fb Wb y Hy) as Ry.
      destruct Ra as [(x' & Hx' & Ix & Vx)|T]; [|destruct (returns_not_stops _ _ _ _ Rx T)].
      destruct Rb as [(y' & Hy' & Iy & Vy)|T]; [|destruct (returns_not_stops _ _ _ _ Ry T)].
      assert (x' = x) by (unfold returns in *; congruence). assert (y' = y) by (unfold returns in *; congruence). subst x' y'.
      assert (Hp : returns (both f (eval D G s a) (eval D G s b)) (x, y)).
      { unfold both. destruct f.
        - rewrite (bind_ret _ _ _ _ _ Rx), (bind_ret _ _ _ _ _ Ry). reflexivity.
        - rewrite (bind_ret _ _ _ _ _ Ry), (bind_ret _ _ _ _ _ Rx). reflexivity. }
      rewrite (bind_ret _ _ _ _ _ Hp). cbn [fst snd].
      destruct (eval_binop_any D (BA Shl) ta tb 0 0 x y rs m0 Ebin) as (k & Kk). rewrite Kk. cbn [run_snd]. cbn [eval_binop] in Kk.
      destruct (emu_shl D W ta tb _ _ x y rs k O Ta Tb Sa Sb F Er HS Hpos (Cy y Ry Iy) Ix Iy X0 Kk) as (_ & _ & _ & B). apply B; assumption.
  - destruct (type_of D G a) as [ta|] eqn:Eta; [|discriminate]. destruct (type_of D G b) as [tb|] eqn:Etb; [|discriminate].
    destruct (eval_binop D (BA Shr) ta tb 0 0) as [[rs m0]|] eqn:Ebin; [|discriminate]. cbn in Ht. injection Ht as <-.
    destruct (IHa ta eq_refl) as (Ta & Sa & Ra & Fa). destruct (IHb tb eq_refl) as (Tb & Sb & Rb & Fb).
    destruct Sh as (Er & Na & HS0 & HC0).
    assert (HS : forall E, get_ep ta = Some E \/ get_ep tb = Some E -> throws_shift E) by (intros E; exact (HS0 ta tb E Eta Etb)).
    destruct (witness a ta Na Eta Ta) as (xa & Xa & Pa). { intros o z ->. inversion Ha; subst. cbn in Eta. injection Eta as <-. assumption. }
    assert (Va : forall x, returns (eval D G s a) x -> holds D ta x -> 0 <= x) by (intros x Rx Ix; exact (not_neg_value s a ta x Na Eta Rx Ix)).
    assert (Hc : ksigned (tpromote W (tkind_of W K a')) = true
      \/ (0 <= lim_lo D tb /\ (lim_hi D tb < kbits W (tpromote W (tkind_of W K a')) \/ kbits W (tpromote W (tkind_of W K a')) < lim_lo D tb)))
      by (destruct HC0 as [A|A]; [left; exact A|right; exact (A tb Etb)]).
    pose (xb := lim_lo D tb). pose proof (lim_holds tb Tb) as Xb. fold xb in Xb.
    destruct (eval_binop_any D (BA Shr) ta tb 0 0 xa xb rs m0 Ebin) as (k0 & K0). cbn [eval_binop] in K0.
    destruct (emu_shr D W ta tb _ _ xa xb rs k0 O Ta Tb Sa Sb F Er HS Hc Xa Xb Pa K0) as (T1 & S1 & _).
    refine (conj T1 (conj S1 (conj _ _))).
    + destruct (both_stops true f (eval D G s a) (eval D G s b)) as [(x & y & Hx & Hy & Hp)|T].
      * destruct Ra as [(x & Hx & _)|T]; [left; eauto|right; eapply stops_any; exact T].
      * destruct Rb as [(y & Hy & _)|T]; [left; eauto|right; eapply stops_any; exact T].
      * rewrite (bind_ret _ _ _ _ _ Hp). cbn [fst snd].
        destruct Ra as [(x' & Hx' & Ix & Vx)|T]; [|destruct (returns_not_stops _ _ _ _ Hx T)].
        destruct Rb as [(y' & Hy' & Iy & Vy)|T]; [|destruct (returns_not_stops _ _ _ _ Hy T)].
        assert (x' = x) by (unfold returns in *; congruence). assert (y' = y) by (unfold returns in *; congruence). subst x' y'.
        destruct (eval_binop_any D (BA Shr) ta tb 0 0 x y rs m0 Ebin) as (k & Kk). rewrite Kk. cbn [run_snd]. cbn [eval_binop] in Kk.
        pose proof (Va x Hx Ix) as X0. 
        destruct (emu_shr D W ta tb _ _ x y rs k O Ta Tb Sa Sb F Er HS Hc Ix Iy X0 Kk) as (_ & _ & [(Rz & Iz & Y0)|T] & _);
          [left|right; exact T].
        exists (x / 2 ^ y). refine (conj Rz (conj Iz _)). eapply TE_shr; eauto.
      * right. apply bind_stops. exact T.
    + intros [Wa Wb] z Hz. inversion Hz as [| | | | |a0 b0 x y Hx Hy X0 Y0| |]; subst.
      pose proof (Fa Wa x Hx) as Rx. pose proof (Fb Wb y Hy) as Ry.
      destruct Ra as [(x' & Hx' & Ix & Vx)|T]; [|destruct (returns_not_stops _ _ _ _ Rx T)].
      destruct Rb as [(y' & Hy' & Iy & Vy)|T]; [|destruct (returns_not_stops _ _ _ _ Ry T)].
      assert (x' = x) by (unfold returns in *; congruence). assert (y' = y) by (unfold returns in *; congruence). subst x' y'.
      assert (Hp : returns (both f (eval D G s a) (eval D G s b)) (x, y)).
      { unfold both. destruct f.
        - rewrite (bind_ret _ _ _ _ _ Rx), (bind_ret _ _ _ _ _ Ry). reflexivity.
        - rewrite (bind_ret _ _ _ _ _ Ry), (bind_ret _ _ _ _ _ Rx). reflexivity. }
      rewrite (bind_ret _ _ _ _ _ Hp). cbn [fst snd].
      destruct (eval_binop_any D (BA Shr) ta tb 0 0 x y rs m0 Ebin) as (k & Kk). rewrite Kk. cbn [run_snd]. cbn [eval_binop] in Kk.
      destruct (emu_shr D W ta tb _ _ x y rs k O Ta Tb Sa Sb F Er HS Hc Ix Iy X0 Kk) as (_ & _ & _ & B). apply B; assumption.
  - destruct (type_of D G a) as [ta|] eqn:Eta; [|discriminate].
    destruct (convert D o ta 0) as [m0|] eqn:Ec; [|discriminate]. cbn in Ht. injection Ht as <-.
    destruct (IHa ta eq_refl) as (Ta & Sa & Ra & Fa). refine (conj T0 (conj S (conj _ _))).
    + destruct Ra as [(x & Hx & Ix & Vx)|T]; [|right; apply bind_stops; exact T].
      rewrite (bind_ret _ _ _ _ _ Hx). destruct (convert_any D o ta 0 x m0 Ec) as (k' & Kk). rewrite Kk. cbn [run].
      destruct (convert_returns o ta k x k' T0 Ta S Ix Kk) as [(A & B & C)|T]; [left|right; left; exact T].
      exists x. refine (conj A (conj B _)). eapply TE_cast; eauto.
    + intros [Wo Wa] z Hz. inversion Hz as [| | | | | | |k0 a0 x Hx Kx]; subst. pose proof (Fa Wa z Hx) as Rx.
      destruct Ra as [(x' & Hx' & Ix & Vx)|T]; [|destruct (returns_not_stops _ _ _ _ Rx T)].
      assert (x' = z) by (unfold returns in *; congruence). subst x'.
      rewrite (bind_ret _ _ _ _ _ Rx). destruct (convert_any D o ta 0 z m0 Ec) as (k' & Kk). rewrite Kk. cbn [run].
      apply (convert_keeps false D o ta z k' T0 Ta Ix); [|exact Kk]. apply Wo.
      apply (in_kind_type D W k (base_ty o)); [apply stands_hosts; assumption|assumption].
Qed.

(** comparisons *)
Lemma emu_compare : forall c t u k l x y m b, type_ok false D t -> type_ok false D u -> stands_for D W t k -> stands_for D W u l ->
  fair W k l -> holds D t x -> holds D u y -> 
  ksigned (tresult W k l) = true \/ (0 <= lim_lo D t /\ 0 <= lim_lo D u) \/ (exists p, holds D t p /\ holds D u p) ->
  compare D c t u x y = Some m -> returns m b -> in_kind W (tresult W k l) x /\ in_kind W (tresult W k l) y.
Proof.
  intros c t u k l x y m b Ht Hu St Su F Hx Hy Cmp H Hm. pose proof (proj1 Ht) as Wt. pose proof (proj1 Hu) as Wu.
  assert (Easy : ksigned (tresult W k l) = true \/ (0 <= x /\ 0 <= y) -> in_kind W (tresult W k l) x /\ in_kind W (tresult W k l) y).
  { intros A. destruct (common_widths W k l O) as [L1 L2].
    split; [apply (kind_keeps W k)|apply (kind_keeps W l)]; auto; try (eapply kbits_pos, stands_hosts; eassumption);
      try (eapply holds_kind; eassumption); tauto. }
  destruct Cmp as [A|[A|(p & P1 & P2)]]; [apply Easy; auto|apply Easy; right; unfold holds in *; lia|].
  unfold compare in H. destruct (common_pp t u) as [P|] eqn:EP; [|discriminate].
  destruct (common_ep t u) as [E|] eqn:EE; [|discriminate].
  destruct (result_base_type D P PCmp t u) as [R|] eqn:ER; [|discriminate]. cbv zeta in H.
  rewrite (common_cpp D W t u k l P St Su EP) in ER. cbn [cpp_of result_base_type] in ER.
  assert (SR : hosts D W (tresult W k l) R).
  { exact (result_hosts D W k l _ _ R O F (stands_hosts _ _ _ _ St) (stands_hosts _ _ _ _ Su) ER). }
  assert (Goal' : in_type D R x /\ in_type D R y -> in_kind W (tresult W k l) x /\ in_kind W (tresult W k l) y).
  { intros [A B]. split; apply (in_kind_type D W _ R); assumption. }
  assert (HE : throws_arithmetic E) by (destruct (common_ep_in _ _ _ EE); [apply Ht|apply Hu]; assumption).
  destruct (i_lt_sound D R t u p p Wt Wu P1 P2) as [L Gt].
  assert (L' : tri_bool (i_lt D R (lim_interval D R t) (lim_interval D R u)) = false).
  { destruct (tri_bool _) eqn:A; [|reflexivity]. apply tri_bool_true in A. specialize (L A). lia. }
  assert (G' : tri_bool (i_gt D R (lim_interval D R t) (lim_interval D R u)) = false).
  { destruct (tri_bool (i_gt _ _ _ _)) eqn:A; [|reflexivity]. apply tri_bool_true in A. specialize (Gt A). lia. }
  assert (I' : tri_bool (tri_not (intersect D R (lim_interval D R t) (lim_interval D R u))) = false).
  { destruct (tri_bool (tri_not _)) eqn:A; [|reflexivity]. apply tri_bool_true, tri_not_true in A.
    exfalso. eapply intersect_false; try exact A; eassumption. }
  apply Goal'. rewrite ?L', ?G', ?I' in H.
  destruct (interval_open (lim_interval D R t) || interval_open (lim_interval D R u)) eqn:Ho.
  - destruct (casting_helper D E R t u x y) as [casts|] eqn:Hk; [|discriminate].
    destruct (casting_helper_throws _ _ _ _ _ _ _ _ HE Wt Wu Hx Hy Hk) as [(Ix & Iy & _)|[_ Tc]]; [auto|].
    exfalso. eapply returns_not_throws; [exact Hm|].
    destruct c; injection H as <-; apply mbind_throws; exact Tc.
  - apply orb_false_iff in Ho. destruct Ho as [H1 H2]. split; [apply (lim_interval_vals D R t)|apply (lim_interval_vals D R u)]; assumption.
Qed.
Lemma mnot_returns : forall m b, returns (mnot m) b -> returns m (negb b).
Proof.
  intros m b. unfold returns, mnot. destruct m as [l [a|e| |]]; cbn; try (intros H; injection H; discriminate).
  intros H. injection H as H1 H2. rewrite app_nil_r in H1. subst. rewrite negb_involutive. reflexivity.
Qed.
Lemma emu_relop : forall r t u k l x y m b, type_ok false D t -> type_ok false D u -> stands_for D W t k -> stands_for D W u l ->
  fair W k l -> holds D t x -> holds D u y -> 
  ksigned (tresult W k l) = true \/ (0 <= lim_lo D t /\ 0 <= lim_lo D u) \/ (exists p, holds D t p /\ holds D u p) ->
  eval_relop D r t u x y = Some m -> returns m b -> in_kind W (tresult W k l) x /\ in_kind W (tresult W k l) y /\ b = math_rel r x y.
Proof.
  intros r t u k l x y m b Ht Hu St Su F Hx Hy Cmp H Hm.
  assert (B : b = math_rel r x y).
  { destruct (eval_relop_char false D r t u x y m Ht Hu Hx Hy H) as [A|A]; [unfold returns in *; congruence|].
    exfalso. eapply returns_not_throws; eassumption. }
  assert (Q : in_kind W (tresult W k l) x /\ in_kind W (tresult W k l) y); [|tauto].
  assert (Sw : in_kind W (tresult W l k) y /\ in_kind W (tresult W l k) x -> in_kind W (tresult W k l) x /\ in_kind W (tresult W k l) y)
    by (intros [A1 A2]; split; apply common_sym_kind; assumption).
  assert (Cmp' : ksigned (tresult W l k) = true \/ (0 <= lim_lo D u /\ 0 <= lim_lo D t) \/ (exists p, holds D u p /\ holds D t p)).
  { destruct Cmp as [A|[A|(p & A)]]; [left; rewrite <- (proj2 (common_sym W k l O)); exact A|right; left; tauto|right; right; exists p; tauto]. }
  pose proof (fair_sym W k l O F) as F'.
  destruct r; cbn [eval_relop] in H; unfold s_lt, s_gt, s_le, s_ge, s_eq, s_ne, s_gt, s_lt, s_eq in H.
  - eapply emu_compare; [exact Ht|exact Hu|..]; eassumption.
  - apply Sw. eapply (emu_compare CLt u t l k y x); eassumption.
  - destruct (compare D CLt u t y x) as [m'|] eqn:Ec; [|discriminate]. cbn in H. injection H as <-. apply mnot_returns in Hm.
    apply Sw. eapply (emu_compare CLt u t l k y x); eassumption.
  - destruct (compare D CLt t u x y) as [m'|] eqn:Ec; [|discriminate]. cbn in H. injection H as <-. apply mnot_returns in Hm.
    eapply emu_compare; [exact Ht|exact Hu|..]; eassumption.
  - eapply emu_compare; [exact Ht|exact Hu|..]; eassumption.
  - destruct (compare D CEq t u x y) as [m'|] eqn:Ec; [|discriminate]. cbn in H. injection H as <-. apply mnot_returns in Hm.
    eapply emu_compare; [exact Ht|exact Hu|..]; eassumption.
Qed.
Lemma compare_fits : forall c t u k l x y m, type_ok false D t -> type_ok false D u -> stands_for D W t k -> stands_for D W u l ->
  fair W k l -> holds D t x -> holds D u y -> in_kind W (tresult W k l) x -> in_kind W (tresult W k l) y ->
  compare D c t u x y = Some m -> exists b, returns m b.
Proof.
  intros c t u k l x y m Ht Hu St Su F Hx Hy Ix Iy H. unfold compare in H. destruct (common_pp t u) as [P|] eqn:EP; [|discriminate].
  destruct (common_ep t u) as [E|] eqn:EE; [|discriminate].
  destruct (result_base_type D P PCmp t u) as [R|] eqn:ER; [|discriminate]. cbv zeta in H.
  rewrite (common_cpp D W t u k l P St Su EP) in ER. cbn [cpp_of result_base_type] in ER.
  assert (SR : hosts D W (tresult W k l) R).
  { exact (result_hosts D W k l _ _ R O F (stands_hosts _ _ _ _ St) (stands_hosts _ _ _ _ Su) ER). }
  assert (HE : throws_arithmetic E) by (destruct (common_ep_in _ _ _ EE); [apply Ht|apply Hu]; assumption).
  assert (V : forall v, (if interval_open (lim_interval D R t) || interval_open (lim_interval D R u) then
              match casting_helper D E R t u x y with
              | Some casts =>
                  Some (mbind casts (fun p => 
                        mret (match c with
                              | CLt => less_than D R R (fst p) (snd p)
                              | CEq => equal D R R (fst p) (snd p)
                              end)))
              | None => None
              end
            else
              Some (mret (match c with
                          | CLt => c_lt D R R (conv D R x) (conv D R y)
                          | CEq => c_eq D R R (conv D R x) (conv D R y)
                          end))) = Some v -> exists b, returns v b).
  { intros v. destruct (_ || _).
    - destruct (casting_helper D E R t u x y) as [casts|] eqn:Hk; [|discriminate]. intros [= <-].
      destruct (casting_helper_throws _ _ _ _ _ _ _ _ HE (proj1 Ht) (proj1 Hu) Hx Hy Hk) as [(_ & _ & ->)|[N _]].
      + eexists. rewrite mbind_ret. reflexivity.
      + exfalso. apply (in_kind_type D W _ R) in Ix, Iy; try exact SR. tauto.
    - intros [= <-]. eexists. reflexivity. }
  destruct (if interval_open (lim_interval D R t) || interval_open (lim_interval D R u) then _ else _) as [v|]; [|discriminate].
  specialize (V v eq_refl).
  destruct c; repeat match type of H with context [if tri_bool ?b then _ else _] => destruct (tri_bool b) end; injection H as <-;
    solve [assumption|eexists; reflexivity].
Qed.
Lemma mnot_back : forall m, (exists b, returns m b) -> exists b, returns (mnot m) b.
Proof. intros m [b H]. exists (negb b). unfold mnot. rewrite (bind_ret _ _ _ _ _ H). reflexivity. Qed.
Lemma relop_fits : forall r t u k l x y m, type_ok false D t -> type_ok false D u -> stands_for D W t k -> stands_for D W u l ->
  fair W k l -> holds D t x -> holds D u y -> in_kind W (tresult W k l) x -> in_kind W (tresult W k l) y ->
  eval_relop D r t u x y = Some m -> returns m (math_rel r x y).
Proof.
  intros r t u k l x y m Ht Hu St Su F Hx Hy Ix Iy H.
  destruct (eval_relop_char false D r t u x y m Ht Hu Hx Hy H) as [A|T]; [exact A|exfalso].
  assert (exists b, returns m b) as [b B]; [|eapply returns_not_throws; eassumption].
  pose proof (fair_sym W k l O F) as F'. apply (common_sym_kind W k l x O) in Ix as Ix'. apply (common_sym_kind W k l y O) in Iy as Iy'.
  destruct r; cbn [eval_relop] in H; unfold s_lt, s_gt, s_le, s_ge, s_eq, s_ne, s_gt, s_lt, s_eq in H.
  - eapply (compare_fits CLt t u k l x y); eassumption.
  - eapply (compare_fits CLt u t l k y x); eassumption.
  - destruct (compare D CLt u t y x) as [m'|] eqn:Ec; [|discriminate]. cbn in H. injection H as <-. apply mnot_back.
    eapply (compare_fits CLt u t l k y x); eassumption.
  - destruct (compare D CLt t u x y) as [m'|] eqn:Ec; [|discriminate]. cbn in H. injection H as <-. apply mnot_back.
    eapply (compare_fits CLt t u k l x y); eassumption.
  - eapply (compare_fits CEq t u k l x y); eassumption.
  - destruct (compare D CEq t u x y) as [m'|] eqn:Ec; [|discriminate]. cbn in H. injection H as <-. apply mnot_back.
    eapply (compare_fits CEq t u k l x y); eassumption.
Qed.

Lemma emu_cond : forall s i r f x x' y y', store_ok D G s i -> on_host D W G K x x' -> on_host D W G K y y' ->
  fair W (tkind_of W K x') (tkind_of W K y') -> comparable D G x y (tresult W (tkind_of W K x') (tkind_of W K y')) ->
  cond_compiles D G (Cond r f x y) = true ->
  ((exists w, returns (eval_cond D G s (Cond r f x y)) w /\ tholds W K i r x' y' w) \/ stops (shifts x' || shifts y') (eval_cond D G s (Cond r f x y)))
  /\ (whole_casts D x -> whole_casts D y -> forall w, tfits_cond W K i r x' y' w -> returns (eval_cond D G s (Cond r f x y)) w).
Proof.
  intros s i r f x x' y y' Hs Hx Hy F Cmp Hc. cbn [cond_compiles eval_cond] in *.
  destruct (type_of D G x) as [ta|] eqn:Eta; [|discriminate]. destruct (type_of D G y) as [tb|] eqn:Etb; [|discriminate].
  destruct (eval_relop D r ta tb 0 0) as [m0|] eqn:Er; [|discriminate].
  destruct (emu_expr s i Hs x x' Hx ta Eta) as (Ta & Sa & Ra & Fa). destruct (emu_expr s i Hs y y' Hy tb Etb) as (Tb & Sb & Rb & Fb).
  split.
  - destruct (both_stops (shifts x' || shifts y') f (eval D G s x) (eval D G s y)) as [(a & b & Ha & Hb & Hp)|T].
    + destruct Ra as [(z & Hz & _)|T]; [left; eauto|right; apply stops_l; assumption].
    + destruct Rb as [(z & Hz & _)|T]; [left; eauto|right; apply stops_r; assumption].
    + rewrite (bind_ret _ _ _ _ _ Hp). cbn [fst snd].
      destruct Ra as [(a' & Ha' & Ix & Va)|T]; [|destruct (returns_not_stops _ _ _ _ Ha T)].
      destruct Rb as [(b' & Hb' & Iy & Vb)|T]; [|destruct (returns_not_stops _ _ _ _ Hb T)].
      assert (a' = a) by (unfold returns in *; congruence). assert (b' = b) by (unfold returns in *; congruence). subst a' b'.
      destruct (eval_relop_any D r ta tb 0 0 a b m0 Er) as (k & Kk). rewrite Kk. cbn [run].
      destruct (eval_relop_char false D r ta tb a b k Ta Tb Ix Iy Kk) as [A|T]; [left|right; left; exact T].
      destruct (emu_relop r ta tb _ _ a b k _ Ta Tb Sa Sb F Ix Iy (Cmp ta tb Eta Etb) Kk A) as (A1 & B1 & _).
      eexists. split; [exact A|]. apply (TH W K i r x' y' a b a b); auto using B_fits.
    + right. apply bind_stops. exact T.
  - intros Wx Wy w Hw. inversion Hw as [a b Ha Hb Ka Kb]; subst. pose proof (Fa Wx a Ha) as Rx. pose proof (Fb Wy b Hb) as Ry.
    destruct Ra as [(a' & Ha' & Ix & _)|T]; [|destruct (returns_not_stops _ _ _ _ Rx T)].
    destruct Rb as [(b' & Hb' & Iy & _)|T]; [|destruct (returns_not_stops _ _ _ _ Ry T)].
    assert (a' = a) by (unfold returns in *; congruence). assert (b' = b) by (unfold returns in *; congruence). subst a' b'.
    destruct (eval_relop_any D r ta tb 0 0 a b m0 Er) as (k & Kk).
    assert (Hp : returns (both f (eval D G s x) (eval D G s y)) (a, b)).
    { unfold both. destruct f.
      - rewrite (bind_ret _ _ _ _ _ Rx), (bind_ret _ _ _ _ _ Ry). reflexivity.
      - rewrite (bind_ret _ _ _ _ _ Ry), (bind_ret _ _ _ _ _ Rx). reflexivity. }
    rewrite (bind_ret _ _ _ _ _ Hp). cbn [fst snd]. rewrite Kk. cbn [run].
    eapply (relop_fits r ta tb (tkind_of W K x') (tkind_of W K y') a b k); eassumption.
Qed.

(** compound assignments *)
Lemma compound_parts : forall op tgt u x y m, compound D op tgt u x y = Some m ->
  exists rs m0 c0, eval_binop D op tgt u x y = Some (rs, m0) /\ convert D tgt (OSafe rs) 0 = Some c0
  /\ m = mbind m0 (fun z => run (convert D tgt (OSafe rs) z)).
Proof.
  intros op tgt u x y m H. unfold compound in H. destruct (eval_binop D op tgt u x y) as [[rs m0]|]; [|discriminate].
  destruct tgt as [T|s|T N P E]; [| |discriminate].
  - destruct (to_builtin D T rs 0) as [c0|] eqn:Ec; [|discriminate]. injection H as <-.
    exists rs, m0, c0. splits; auto.
  - destruct (construct D s (OSafe rs) 0) as [c0|] eqn:Ec; [|discriminate]. injection H as <-.
    exists rs, m0, c0. splits; auto.
Qed.
Lemma emu_compound : forall op v t l x y m, four op -> type_ok false D t -> stands_for D W t l -> fair W (K v) l ->
  holds D (G v) x -> holds D t y -> compound D (BA op) (G v) t x y = Some m ->
  ((exists z, returns m z /\ holds D (G v) z /\ op_becomes W (tresult W (K v) l) op x y z) \/ throws_arith m)
  /\ (in_kind W (tresult W (K v) l) x -> in_kind W (tresult W (K v) l) y -> (op = Div -> y <> 0) ->
      in_kind W (tresult W (K v) l) (exact op x y) -> holds D (G v) (exact op x y) -> returns m (exact op x y)).
Proof.
  intros op v t l x y m Hop Tt St F Hx Hy H.
  destruct (compound_parts (BA op) (G v) t x y m H) as (rs & m0 & c0 & Eb & Ec & ->). cbn [eval_binop] in Eb.
  destruct (emu_binary D W op (G v) t _ _ x y rs m0 O Hop (HG v) Tt (HK v) St F Hx Hy Eb) as (T0 & S0 & R0 & F0). split.
  - destruct R0 as [(z & A & B & C)|T]; [|right; apply mbind_throws; exact T].
    rewrite (bind_ret _ _ _ _ _ A). destruct (convert_any D (G v) (OSafe rs) 0 z c0 Ec) as (k & Kk). rewrite Kk. cbn [run].
    destruct (convert_returns (G v) (OSafe rs) (K v) z k (HG v) T0 (HK v) B Kk) as [(A' & B' & C')|T]; [left; eauto|right; exact T].
  - intros A B N C Hv. pose proof (F0 A B N C) as Rz. rewrite (bind_ret _ _ _ _ _ Rz).
    destruct (convert_any D (G v) (OSafe rs) 0 (exact op x y) c0 Ec) as (k & Kk). rewrite Kk. cbn [run].
    apply (convert_keeps false D (G v) (OSafe rs) (exact op x y) k (HG v) T0); [|exact Hv|exact Kk].
    destruct R0 as [(z & A' & B' & _)|T]; [|destruct (returns_not_throws _ _ _ Rz T)].
    assert (z = exact op x y) by (unfold returns in *; congruence). subst z. exact B'.
Qed.
Lemma emu_compound_bit : forall op v t l x y m, type_ok false D t -> stands_for D W t l -> fair W (K v) l ->
  holds D (G v) x -> holds D t y -> 0 <= x -> 0 <= y -> compound D (BB op) (G v) t x y = Some m ->
  ((returns m (bit_op op x y) /\ holds D (G v) (bit_op op x y)) \/ throws_arith m)
  /\ in_kind W (tresult W (K v) l) x /\ in_kind W (tresult W (K v) l) y
  /\ (holds D (G v) (bit_op op x y) -> returns m (bit_op op x y)).
Proof.
  intros op v t l x y m Tt St F Hx Hy X0 Y0 H.
  destruct (compound_parts (BB op) (G v) t x y m H) as (rs & m0 & c0 & Eb & Ec & ->). cbn [eval_binop] in Eb.
  destruct (emu_bitwise D W op (G v) t _ _ x y rs m0 O (HG v) Tt (HK v) St F Hx Hy X0 Y0 Eb) as (T0 & S0 & R0 & I0 & Kx & Ky).
  rewrite (bind_ret _ _ _ _ _ R0). destruct (convert_any D (G v) (OSafe rs) 0 (bit_op op x y) c0 Ec) as (k & Kk). rewrite Kk. cbn [run].
  refine (conj _ (conj Kx (conj Ky _))).
  - destruct (convert_char false D (G v) (OSafe rs) _ k (HG v) T0 I0 Kk) as [[A B]|T]; [left; auto|right; exact T].
  - intros Hv. exact (convert_keeps false D (G v) (OSafe rs) _ k (HG v) T0 I0 Hv Kk).
Qed.
Lemma emu_compound_shl : forall v e e' t l x y m, type_ok false D t -> stands_for D W t l -> type_of D G e = Some t -> fair W (K v) l ->
  shl_host D W G (EVar v) e (K v) l -> (not_negative D G e -> 0 <= y) ->
  holds D (G v) x -> holds D t y -> compound D (BA Shl) (G v) t x y = Some m ->
  0 <= x /\ ((returns m (x * 2 ^ y) /\ holds D (G v) (x * 2 ^ y) /\ 0 <= y < kbits W (tpromote W (K v))
    /\ in_kind W (tpromote W (K v)) (x * 2 ^ y)) \/ stops (shifts (TShl (TVar v) e')) m)
  /\ (0 <= y < value_bits W (tpromote W (K v)) -> in_kind W (tpromote W (K v)) (x * 2 ^ y) ->
      holds D (G v) (x * 2 ^ y) -> returns m (x * 2 ^ y)).
Proof.
  intros v e e' t l x y m Tt St Et F (Er & Na & HS0 & Hp & Hc) Yn Hx Hy H.
  destruct (compound_parts (BA Shl) (G v) t x y m H) as (rs & m0 & c0 & Eb & Ec & ->). cbn [eval_binop] in Eb.
  assert (X0 : 0 <= x). { destruct Na as [(o & z & E & _)|Na]; [discriminate|]. specialize (Na (G v) eq_refl). unfold holds in Hx. lia. }
  assert (HS : forall E, get_ep (G v) = Some E \/ get_ep t = Some E -> throws_shift E) by (intros E; exact (HS0 (G v) t E eq_refl Et)).
  assert (Cy : 0 <= y \/ value_bits W (tpromote W (K v)) <= lim_hi D t) by (destruct Hc as [A|A]; [left; auto|right; auto]).
  destruct (emu_shl D W (G v) t _ _ x y rs m0 O (HG v) Tt (HK v) St F Er HS (Hp (G v) eq_refl) Cy Hx Hy X0 Eb) as (T0 & S0 & R0 & F0).
  refine (conj X0 (conj _ _)).
  - destruct R0 as [(A & B & C & C')|T]; [|right; apply bind_stops; exact T].
    rewrite (bind_ret _ _ _ _ _ A). destruct (convert_any D (G v) (OSafe rs) 0 (x * 2 ^ y) c0 Ec) as (k & Kk). rewrite Kk. cbn [run].
    destruct (convert_char false D (G v) (OSafe rs) _ k (HG v) T0 B Kk) as [[A' B']|T]; [left|right; left; exact T].
    refine (conj B' (conj A' (conj C C'))).
  - intros A B Hv. pose proof (F0 A B) as Rz. rewrite (bind_ret _ _ _ _ _ Rz).
    destruct (convert_any D (G v) (OSafe rs) 0 (x * 2 ^ y) c0 Ec) as (k & Kk). rewrite Kk. cbn [run].
    destruct R0 as [(_ & B' & _)|T]; [|destruct (returns_not_stops _ _ _ _ Rz T)].
    exact (convert_keeps false D (G v) (OSafe rs) _ k (HG v) T0 B' Hv Kk).
Qed.
Lemma emu_compound_shr : forall v e e' t l x y m, type_ok false D t -> stands_for D W t l -> type_of D G e = Some t -> fair W (K v) l ->
  shr_host D W G (EVar v) e (K v) l ->
  holds D (G v) x -> holds D t y -> compound D (BA Shr) (G v) t x y = Some m ->
  0 <= x /\ ((returns m (x / 2 ^ y) /\ holds D (G v) (x / 2 ^ y) /\ 0 <= y < kbits W (tpromote W (K v)))
     \/ stops (shifts (TShr (TVar v) e')) m)
  /\ (0 <= y < kbits W (tpromote W (K v)) -> holds D (G v) (x / 2 ^ y) -> returns m (x / 2 ^ y)).
Proof.
  intros v e e' t l x y m Tt St Et F (Er & Na & HS0 & Hc) Hx Hy H.
  destruct (compound_parts (BA Shr) (G v) t x y m H) as (rs & m0 & c0 & Eb & Ec & ->). cbn [eval_binop] in Eb.
  assert (X0 : 0 <= x). { destruct Na as [(o & z & E & _)|Na]; [discriminate|]. specialize (Na (G v) eq_refl). unfold holds in Hx. lia. }
  assert (HS : forall E, get_ep (G v) = Some E \/ get_ep t = Some E -> throws_shift E) by (intros E; exact (HS0 (G v) t E eq_refl Et)).
  assert (Cy : ksigned (tpromote W (K v)) = true
      \/ (0 <= lim_lo D t /\ (lim_hi D t < kbits W (tpromote W (K v)) \/ kbits W (tpromote W (K v)) < lim_lo D t)))
    by (destruct Hc as [A|A]; [left; exact A|right; exact (A t Et)]).
  destruct (emu_shr D W (G v) t _ _ x y rs m0 O (HG v) Tt (HK v) St F Er HS Cy Hx Hy X0 Eb) as (T0 & S0 & R0 & F0).
  refine (conj X0 (conj _ _)).
  - destruct R0 as [(A & B & C)|T]; [|right; apply bind_stops; exact T].
    rewrite (bind_ret _ _ _ _ _ A). destruct (convert_any D (G v) (OSafe rs) 0 (x / 2 ^ y) c0 Ec) as (k & Kk). rewrite Kk. cbn [run].
    destruct (convert_char false D (G v) (OSafe rs) _ k (HG v) T0 B Kk) as [[A' B']|T]; [left|right; left; exact T].
    refine (conj B' (conj A' C)).
  - intros A Hv. pose proof (F0 A) as Rz. rewrite (bind_ret _ _ _ _ _ Rz).
    destruct (convert_any D (G v) (OSafe rs) 0 (x / 2 ^ y) c0 Ec) as (k & Kk). rewrite Kk. cbn [run].
    destruct R0 as [(_ & B' & _)|T]; [|destruct (returns_not_stops _ _ _ _ Rz T)].
    exact (convert_keeps false D (G v) (OSafe rs) _ k (HG v) T0 B' Hv Kk).
Qed.
(** v = a % b and v %= e *)
Lemma emu_put_rem : forall v a b t u k l x y rs m c0, type_ok false D t -> type_ok false D u -> stands_for D W t k -> stands_for D W u l ->
  fair W k l -> type_of D G a = Some t -> type_of D G b = Some u -> rem_host D W G v a b (tresult W k l) ->
  holds D t x -> holds D u y -> binary D Mod t u x y = Some (rs, m) -> convert D (G v) (OSafe rs) 0 = Some c0 ->
  let put := mbind m (fun z => run (convert D (G v) (OSafe rs) z)) in
  ((returns put (remainder x y) /\ holds D (G v) (remainder x y) /\ y <> 0 /\ in_kind W (tresult W k l) x /\ in_kind W (tresult W k l) y
    /\ in_kind W (tresult W k l) (Z.quot x y)) \/ throws_arith put)
  /\ (in_kind W (tresult W k l) x -> in_kind W (tresult W k l) y -> y <> 0 -> returns put (remainder x y)).
Proof.
  intros v a b t u k l x y rs m c0 Tt Tu St Su F Et Eu (Tk & Hm) Hx Hy H Ec put.
  destruct (emu_rem D W t u k l x y rs m O Tt Tu St Su F) as (SR & HE & C & B); auto.
  { destruct Hm as [A|A]; [left; exact A|right; exact (A t u Et Eu)]. }
  assert (Put : returns m (remainder x y) -> in_kind W (tresult W k l) (remainder x y) -> returns put (remainder x y)).
  { intros R I. unfold put. rewrite (bind_ret _ _ _ _ _ R).
    destruct (convert_any D (G v) (OSafe rs) 0 (remainder x y) c0 Ec) as (k0 & Kk). rewrite Kk. cbn [run].
    apply (convert_takes D (G v) rs (remainder x y) k0 (HG v) HE); [apply (in_kind_type D W _ _ _ SR); exact I|apply Tk; exact I|exact Kk]. }
  split.
  - destruct C as [(R & N & I1 & I2 & I3 & I4)|T]; [left; auto 10|right; apply mbind_throws; exact T].
  - intros A1 A2 N. pose proof (B A1 A2 N) as R. destruct C as [(_ & _ & _ & _ & _ & I4)|T]; [auto|destruct (returns_not_throws _ _ _ R T)].
Qed.
Lemma int_raw_ok : type_ok false D (ORaw Int).
Proof. split; [apply (wf_int_lit D 0); lia|]. split; intros; discriminate. Qed.
Lemma small_kind : forall k T, hosts D W k T -> in_kind W k 1.
Proof.
  intros k T H. apply (in_kind_type D W k T); [exact H|]. destruct D, T; vm_compute; split; congruence.
Qed.
Lemma int_hosts : forall v t x y m, (compound D (BA Add) (G v) t x y = Some m \/ compound D (BA Sub) (G v) t x y = Some m) ->
  get_pp t = None -> exists S, int_t_exact D (wint W) = Some S.
Proof.
  intros v t x y m H Hp.
  assert (exists op rs m0, binary D op (G v) t x y = Some (rs, m0)) as (op & rs & m0 & Eb).
  { destruct H as [H|H]; destruct (compound_parts _ (G v) t x y m H) as (rs & m0 & c0 & Eb & _); cbn [eval_binop] in Eb; eauto. }
  destruct (binary_inv _ _ _ _ _ _ _ _ Eb) as (P & E & R & ri & H1 & _ & H3 & _).
  assert (P = cpp_of W). { destruct (common_pp_in _ _ _ H1) as [A|A]; [|congruence]. destruct (proj2 (HK v)); congruence. }
  subst P. cbn [cpp_of result_base_type] in H3. unfold cpp_result in H3.
  destruct (int_t_exact D (wchar W)); [|discriminate]. destruct (int_t_exact D (wshort W)); [|discriminate].
  destruct (int_t_exact D (wint W)); [eauto|discriminate].
Qed.
Lemma step_fits : forall v op x, (op = Add \/ op = Sub) -> hosts D W (TK KInt true) (to_signed Int) \/ (exists S, int_t_exact D (wint W) = Some S) ->
  in_kind W (K v) x -> in_kind W (K v) (exact op x 1) ->
  in_kind W (tresult W (K v) (TK KInt true)) x /\ in_kind W (tresult W (K v) (TK KInt true)) 1
  /\ in_kind W (tresult W (K v) (TK KInt true)) (exact op x 1).
Proof.
  intros v op x Ho Hi Hx Hz. pose proof (stands_hosts _ _ _ _ (HK v)) as Hv.
  assert (exists T, hosts D W (TK KInt true) T) as [T HT].
  { destruct Hi as [A|(S & A)]; [eauto|]. exists S. exists S. split; [exact A|reflexivity]. }
  destruct (common_widths W (K v) (TK KInt true) O) as [L1 L2].
  pose proof (kbits_pos D W _ _ Hv) as P1. pose proof (kbits_pos D W _ _ HT) as P2.
  assert (S : ksigned (tresult W (K v) (TK KInt true)) = true \/ ksigned (K v) = false).
  { destruct (K v) as [r b]. destruct b; [left|right; reflexivity]. unfold tresult, tcommon, tpromote. cbn. destruct r; cbn; reflexivity. }
  assert (S' : forall z, in_kind W (K v) z -> ksigned (tresult W (K v) (TK KInt true)) = true \/ 0 <= z).
  { intros z Hk. destruct S as [A|A]; [left; exact A|]. right. unfold in_kind in Hk. rewrite A in Hk. lia. }
  split; [apply (kind_keeps W (K v)); auto|]. split; [|apply (kind_keeps W (K v)); auto].
  apply (kind_keeps W (TK KInt true)); auto; [eapply small_kind; exact HT|lia].
Qed.

Definition step_tcmd (op : aop) (v : nat) : tcmd := TAssign v (TBin op (TVar v) (TConst (TK KInt true) 1)).
Lemma emu_step : forall op s v i t s1, (op = Add \/ op = Sub) -> store_ok D G s i -> G v = OSafe t ->
  compound D (BA op) (OSafe t) (ORaw Int) 0 1 <> None ->
  finish s (mbind (read s v) (fun x => run (compound D (BA op) (OSafe t) (ORaw Int) x 1))) (fun z => upd s v (Some z)) = (s1, RDone) ->
  exists i1, store_ok D G s1 i1 /\ truns W K i (step_tcmd op v) i1.
Proof.
  intros op s v i t s1 Ho Hs Ev Nc H. destruct (Hs v) as [Er Iv]. unfold read in H. rewrite Er, mbind_ret in H.
  destruct (compound D (BA op) (OSafe t) (ORaw Int) 0 1) as [m0|] eqn:Ec; [|congruence].
  destruct (compound_any D (BA op) (OSafe t) (ORaw Int) 0 1 (i v) 1 m0 Ec) as (k & Kk). rewrite Kk in H. cbn [run] in H.
  rewrite <- Ev in Kk, Ec. assert (H1 : holds D (ORaw Int) 1) by (unfold holds; destruct D; vm_compute; split; congruence).
  destruct (compound_char false D (BA op) (G v) (ORaw Int) (i v) 1 k) as [(z & M1 & M2 & M3)|(e & _ & T)]; auto.
  - destruct Ho as [-> | ->]; unfold op_ok; auto.
  - apply int_raw_ok.
  - rewrite M2 in H. unfold finish in H. cbn in H. injection H as <-. exists (upd i v z). split; [apply store_ok_upd; assumption|].
    assert (Z : z = exact op (i v) 1) by (destruct Ho as [-> | ->]; injection M1 as <-; reflexivity). subst z.
    pose proof (holds_kind D W (G v) (K v) _ (HK v) (proj1 (HG v)) Iv) as K1.
    pose proof (holds_kind D W (G v) (K v) _ (HK v) (proj1 (HG v)) M3) as K2.
    assert (Hi : exists S, int_t_exact D (wint W) = Some S)
      by (apply (int_hosts v (ORaw Int) (i v) 1 k); [destruct Ho as [-> | ->]; auto|reflexivity]).
    destruct (step_fits v op (i v) Ho (or_intror Hi) K1 K2) as (A & B & C).
    assert (Hc : in_kind W (TK KInt true) 1). { destruct Hi as [S HS]. eapply small_kind. exists S. split; [exact HS|reflexivity]. }
    refine (TR_assign W K i v _ _ _ (TE_bin W K i op (TVar v) (TConst (TK KInt true) 1) (i v) 1 (i v) 1 _ _ (TE_var W K i v)
      (TE_const W K i _ _ Hc) (B_fits _ _ _ A) (B_fits _ _ _ B) _ (B_fits _ _ _ C)) (B_fits _ _ _ K2)).
    + unfold four. tauto.
    + intros _. lia.
  - rewrite T in H. unfold finish in H. cbn in H. discriminate.
Qed.

Lemma emu_exec : forall fuel c c', cmd_on_host D W G K c c' -> forall s i s1, compiles D G c = true ->
  store_ok D G s i -> exec fuel D G s c = Some (s1, RDone) -> exists i1, store_ok D G s1 i1 /\ truns W K i c' i1.
Proof.
  intros fuel c c' H. induction H as [|v e e' He|op v e e' Hop He F|op v e e' He F Nv Ne|v e e' He F Sh|v e e' He F Sh|v f a a' b b' Ha Hb F Sh|v e e' He F Sh|v|v|a a' b b' Ha IHa Hb IHb|r f x x' y y' a a' b b' Hx Hy F Cmp Ha IHa Hb IHb|r f x x' y y' a a' Hx Hy F Cmp Ha IHa];
    intros s i s1 Hc Hs H; cbn [exec compiles] in *.
  - injection H as <-. exists i. split; [assumption|constructor].
  - destruct (type_of D G e) as [t|] eqn:Et; [|discriminate].
    destruct (convert D (G v) t 0) as [m0|] eqn:Ec; [|discriminate].
    destruct (emu_expr s i Hs e e' He t Et) as (Te & Sa & [(z & Hz & Iz & Vz)|T0] & _).
    + rewrite (bind_ret _ _ _ _ _ Hz) in H. destruct (convert_any D (G v) t 0 z m0 Ec) as (k & Kk). rewrite Kk in H. cbn [run] in H.
      destruct (convert_returns (G v) t (K v) z k (HG v) Te (HK v) Iz Kk) as [(B & A & C)|(x & _ & T)].
      * rewrite B in H. unfold finish in H. cbn in H. injection H as <-. exists (upd i v z). split; [apply store_ok_upd; assumption|].
        eapply TR_assign; [exact Vz|exact C].
      * rewrite T in H. unfold finish in H. cbn in H. discriminate.
    + destruct (stops_throw _ _ _ T0) as (tr & ex & T). rewrite T in H. unfold finish in H. cbn in H. destruct tr; discriminate.
  - destruct (type_of D G e) as [t|] eqn:Et; [|discriminate].
    destruct (compound D (BA op) (G v) t 0 0) as [m0|] eqn:Ec; [|discriminate].
    destruct (emu_expr s i Hs e e' He t Et) as (Te & Sa & [(y & Hy & Iy & Vy)|T0] & _).
    2: { destruct (stops_throw _ _ _ T0) as (tr & ex & T). rewrite T in H. unfold finish in H. cbn in H. destruct tr; discriminate. }
    rewrite (bind_ret _ _ _ _ _ Hy) in H. destruct (Hs v) as [Ev Iv]. unfold read in H. rewrite Ev, mbind_ret in H.
    destruct (compound_any D (BA op) (G v) t 0 0 (i v) y m0 Ec) as (k & Kk). rewrite Kk in H. cbn [run] in H.
    destruct (emu_compound op v t _ (i v) y k Hop Te Sa F Iv Iy Kk) as [[(z & M2 & M3 & x' & y' & B1 & B2 & B3 & B4)|(x & _ & T)] _].
    2: { rewrite T in H. unfold finish in H. cbn in H. discriminate. }
    rewrite M2 in H. unfold finish in H. cbn in H. injection H as <-. exists (upd i v z). split; [apply store_ok_upd; assumption|].
    eapply TR_assign; [exact (TE_bin W K i op (TVar v) e' (i v) y x' y' z Hop (TE_var W K i v) Vy B1 B2 B3 B4)|].
    apply B_fits. eapply holds_kind; [apply HK|apply HG|exact M3].
  - destruct (type_of D G e) as [t|] eqn:Et; [|discriminate].
    destruct (compound D (BB op) (G v) t 0 0) as [m0|] eqn:Ec; [|discriminate].
    destruct (emu_expr s i Hs e e' He t Et) as (Te & Sa & [(y & Hy & Iy & Vy)|T0] & _).
    2: { destruct (stops_throw _ _ _ T0) as (tr & ex & T). rewrite T in H. unfold finish in H. cbn in H. destruct tr; discriminate. }
    rewrite (bind_ret _ _ _ _ _ Hy) in H. destruct (Hs v) as [Ev Iv]. unfold read in H. rewrite Ev, mbind_ret in H.
    destruct (compound_any D (BB op) (G v) t 0 0 (i v) y m0 Ec) as (k & Kk). rewrite Kk in H. cbn [run] in H.
    assert (X0 : 0 <= i v). { destruct Nv as [(o & z & E & _)|Nv]; [discriminate|]. specialize (Nv (G v) eq_refl). unfold holds in Iv. lia. }
    assert (Y0 : 0 <= y).
    { destruct Ne as [(o & z & -> & Z0)|Ne]; [cbn in Hy; unfold returns, mret in Hy; congruence|]. specialize (Ne t Et). unfold holds in Iy. lia. }
    destruct (emu_compound_bit op v t _ (i v) y k Te Sa F Iv Iy X0 Y0 Kk) as ([(M2 & M3)|(x & _ & T)] & B1 & B2 & _).
    2: { rewrite T in H. unfold finish in H. cbn in H. discriminate. }
    rewrite M2 in H. unfold finish in H. cbn in H. injection H as <-. exists (upd i v (bit_op op (i v) y)). split; [apply store_ok_upd; assumption|].
    eapply TR_assign; [exact (TE_bit W K i op (TVar v) e' (i v) y (i v) y (TE_var W K i v) Vy (B_fits _ _ _ B1) (B_fits _ _ _ B2) X0 Y0)|].
    apply B_fits. eapply holds_kind; [apply HK|apply HG|exact M3].
  - destruct (type_of D G e) as [t|] eqn:Et; [|discriminate].
    destruct (compound D (BA Shl) (G v) t 0 0) as [m0|] eqn:Ec; [|discriminate].
    destruct (emu_expr s i Hs e e' He t Et) as (Te & Sa & [(y & Hy & Iy & Vy)|T0] & _).
    2: { destruct (stops_throw _ _ _ T0) as (tr & ex & T). rewrite T in H. unfold finish in H. cbn in H. destruct tr; discriminate. }
    rewrite (bind_ret _ _ _ _ _ Hy) in H. destruct (Hs v) as [Ev Iv]. unfold read in H. rewrite Ev, mbind_ret in H.
    destruct (compound_any D (BA Shl) (G v) t 0 0 (i v) y m0 Ec) as (k & Kk). rewrite Kk in H. cbn [run] in H.
    destruct (emu_compound_shl v e e' t _ (i v) y k Te Sa Et F Sh (fun N => not_neg_value s e t y N Et Hy Iy) Iv Iy Kk) as (X0 & [(M2 & M3 & B1 & B2)|T0] & _).
    2: { destruct (stops_throw _ _ _ T0) as (tr & ex & T). rewrite T in H. unfold finish in H. cbn in H. destruct tr; discriminate. }
    rewrite M2 in H. unfold finish in H. cbn in H. injection H as <-. exists (upd i v (i v * 2 ^ y)). split; [apply store_ok_upd; assumption|].
    eapply TR_assign; [exact (TE_shl W K i (TVar v) e' (i v) y _ (TE_var W K i v) Vy X0 B1 (B_fits _ _ _ B2))|].
    apply B_fits. eapply holds_kind; [apply HK|apply HG|exact M3].
  - destruct (type_of D G e) as [t|] eqn:Et; [|discriminate].
    destruct (compound D (BA Shr) (G v) t 0 0) as [m0|] eqn:Ec; [|discriminate].
    destruct (emu_expr s i Hs e e' He t Et) as (Te & Sa & [(y & Hy & Iy & Vy)|T0] & _).
    2: { destruct (stops_throw _ _ _ T0) as (tr & ex & T). rewrite T in H. unfold finish in H. cbn in H. destruct tr; discriminate. }
    rewrite (bind_ret _ _ _ _ _ Hy) in H. destruct (Hs v) as [Ev Iv]. unfold read in H. rewrite Ev, mbind_ret in H.
    destruct (compound_any D (BA Shr) (G v) t 0 0 (i v) y m0 Ec) as (k & Kk). rewrite Kk in H. cbn [run] in H.
    destruct (emu_compound_shr v e e' t _ (i v) y k Te Sa Et F Sh Iv Iy Kk) as (X0 & [(M2 & M3 & B1)|T0] & _).
    2: { destruct (stops_throw _ _ _ T0) as (tr & ex & T). rewrite T in H. unfold finish in H. cbn in H. destruct tr; discriminate. }
    rewrite M2 in H. unfold finish in H. cbn in H. injection H as <-. exists (upd i v (i v / 2 ^ y)). split; [apply store_ok_upd; assumption|].
    eapply TR_assign; [exact (TE_shr W K i (TVar v) e' (i v) y (TE_var W K i v) Vy X0 B1)|].
    apply B_fits. eapply holds_kind; [apply HK|apply HG|exact M3].
  - cbn [type_of eval] in *. destruct (type_of D G a) as [ta|] eqn:Eta; [|discriminate]. destruct (type_of D G b) as [tb|] eqn:Etb; [|discriminate].
    destruct (eval_binop D (BA Mod) ta tb 0 0) as [[rs m0]|] eqn:Ebin; [|discriminate]. cbn [option_map fst] in *.
    destruct (convert D (G v) (OSafe rs) 0) as [c0|] eqn:Ec; [|discriminate].
    destruct (emu_expr s i Hs a a' Ha ta Eta) as (Ta & Sa & Ra & _). destruct (emu_expr s i Hs b b' Hb tb Etb) as (Tb & Sb & Rb & _).
    destruct (both_stops (shifts a' || shifts b') f (eval D G s a) (eval D G s b)) as [(x & y & Hx & Hy & Hp)|T0].
    + destruct Ra as [(x & Hx & _)|T]; [left; eauto|right; apply stops_l; assumption].
    + destruct Rb as [(y & Hy & _)|T]; [left; eauto|right; apply stops_r; assumption].
    + rewrite (bind_ret _ _ _ _ _ Hp) in H. cbn [fst snd] in H.
      destruct Ra as [(x' & Hx' & Ix & Vx)|T]; [|destruct (returns_not_stops _ _ _ _ Hx T)].
      destruct Rb as [(y' & Hy' & Iy & Vy)|T]; [|destruct (returns_not_stops _ _ _ _ Hy T)].
      assert (x' = x) by (unfold returns in *; congruence). assert (y' = y) by (unfold returns in *; congruence). subst x' y'.
      destruct (eval_binop_any D (BA Mod) ta tb 0 0 x y rs m0 Ebin) as (k & Kk). rewrite Kk in H. cbn [run_snd] in H. cbn [eval_binop] in Kk.
      destruct (emu_put_rem v a b ta tb _ _ x y rs k c0 Ta Tb Sa Sb F Eta Etb Sh Ix Iy Kk Ec) as [[(M2 & M3 & N & K1 & K2 & K3)|(ex & _ & T)] _].
      2: { cbv zeta in T. rewrite T in H. unfold finish in H. cbn in H. discriminate. }
      cbv zeta in M2. rewrite M2 in H. unfold finish in H. cbn in H. injection H as <-. exists (upd i v (remainder x y)). split; [apply store_ok_upd; assumption|].
      eapply TR_assign; [exact (TE_rem W K i a' b' x y x y Vx Vy (B_fits _ _ _ K1) (B_fits _ _ _ K2) N K3)|].
      apply B_fits. eapply holds_kind; [apply HK|apply HG|exact M3].
    + apply (bind_stops _ _ _ _ (fun p => run_snd (eval_binop D (BA Mod) ta tb (fst p) (snd p)))) in T0.
      destruct (stops_throw _ _ _ T0) as (tr & ex & T). rewrite T in H. unfold finish in H. cbn in H. destruct tr; discriminate.
  - destruct (type_of D G e) as [t|] eqn:Et; [|discriminate].
    destruct (compound D (BA Mod) (G v) t 0 0) as [m0|] eqn:Ec; [|discriminate].
    destruct (emu_expr s i Hs e e' He t Et) as (Te & Sa & [(y & Hy & Iy & Vy)|T0] & _).
    2: { destruct (stops_throw _ _ _ T0) as (tr & ex & T). rewrite T in H. unfold finish in H. cbn in H. destruct tr; discriminate. }
    rewrite (bind_ret _ _ _ _ _ Hy) in H. destruct (Hs v) as [Ev Iv]. unfold read in H. rewrite Ev, mbind_ret in H.
    destruct (compound_any D (BA Mod) (G v) t 0 0 (i v) y m0 Ec) as (k & Kk). rewrite Kk in H. cbn [run] in H.
    destruct (compound_parts (BA Mod) (G v) t (i v) y k Kk) as (rs & m1 & c0 & Eb & Ec' & ->). cbn [eval_binop] in Eb.
    destruct (emu_put_rem v (EVar v) e (G v) t _ _ (i v) y rs m1 c0 (HG v) Te (HK v) Sa F eq_refl Et Sh Iv Iy Eb Ec') as [[(M2 & M3 & N & K1 & K2 & K3)|(ex & _ & T)] _].
    2: { cbv zeta in T. rewrite T in H. unfold finish in H. cbn in H. discriminate. }
    cbv zeta in M2. rewrite M2 in H. unfold finish in H. cbn in H. injection H as <-. exists (upd i v (remainder (i v) y)). split; [apply store_ok_upd; assumption|].
    eapply TR_assign; [exact (TE_rem W K i (TVar v) e' (i v) y (i v) y (TE_var W K i v) Vy (B_fits _ _ _ K1) (B_fits _ _ _ K2) N K3)|].
    apply B_fits. eapply holds_kind; [apply HK|apply HG|exact M3].
  - destruct (G v) as [T|t|T N P E] eqn:Ev; try discriminate. injection H as H. unfold increment in *.
    apply (emu_step Add s v i t s1); auto. 
    intros N. destruct (compound D (BA Add) (OSafe t) (ORaw Int) 0 1); discriminate.
  - destruct (G v) as [T|t|T N P E] eqn:Ev; try discriminate. injection H as H. unfold decrement in *.
    apply (emu_step Sub s v i t s1); auto.
    intros N. destruct (compound D (BA Sub) (OSafe t) (ORaw Int) 0 1); discriminate.
  - apply andb_prop in Hc. destruct Hc as [C1 C2].
    destruct (exec fuel D G s a) as [[s2 r]|] eqn:E1; [|discriminate]. destruct r; try discriminate.
    destruct (IHa s i s2 C1 Hs E1) as (i2 & Hs2 & R1). destruct (IHb s2 i2 s1 C2 Hs2 H) as (i3 & Hs3 & R2).
    exists i3. split; [assumption|]. eapply TR_seq; eassumption.
  - apply andb_prop in Hc. destruct Hc as [Hc C2]. apply andb_prop in Hc. destruct Hc as [C0 C1].
    destruct (emu_cond s i r f x x' y y' Hs Hx Hy F Cmp C0) as [[(w & R0 & Th)|T0] _].
    2: { destruct (stops_throw _ _ _ T0) as (tr & ex & T). rewrite T in H. cbn in H. discriminate. }
    unfold returns in R0. rewrite R0 in H. cbn [snd] in H.
    destruct w; [destruct (IHa s i s1 C1 Hs H) as (i1 & A & B)|destruct (IHb s i s1 C2 Hs H) as (i1 & A & B)];
      (exists i1; split; [assumption|]; eapply TR_if; [exact Th|exact B]).
  - apply andb_prop in Hc. destruct Hc as [C0 C1].
    revert s i Hs H. generalize fuel at 2. intros n. induction n as [|n IHn]; intros s i Hs H; cbn [loop] in H; [discriminate|].
    destruct (emu_cond s i r f x x' y y' Hs Hx Hy F Cmp C0) as [[(w & R0 & Th)|T0] _].
    2: { destruct (stops_throw _ _ _ T0) as (tr & ex & T). rewrite T in H. cbn in H. discriminate. }
    unfold returns in R0. rewrite R0 in H. cbn [snd] in H. destruct w.
    + destruct (exec fuel D G s a) as [[s2 r2]|] eqn:E1; [|discriminate]. destruct r2; try discriminate.
      destruct (IHa s i s2 C1 Hs E1) as (i2 & Hs2 & B). destruct (IHn s2 i2 Hs2 H) as (i3 & A & B3).
      exists i3. split; [assumption|]. eapply TR_while; eassumption.
    + injection H as <-. exists i. split; [assumption|]. apply TR_while_end. exact Th.
Qed.
End Emu.

Lemma emu_type : forall D W op t u k l x y s m, ordered_widths W -> op <> Shl -> op <> Shr ->
  stands_for D W t k -> stands_for D W u l -> fair W k l ->
  binary D op t u x y = Some (s, m) -> stands_for D W (OSafe s) (tresult W k l).
Proof.
  intros D W op t u k l x y s m O _ _ St Su F H.
  destruct (binary_inv _ _ _ _ _ _ _ _ H) as (P & E & R & ri & H1 & H2 & H3 & H4 & Es & Km).
  pose proof (common_cpp D W t u k l P St Su H1) as EP. rewrite EP in H3. cbn [cpp_of result_base_type] in H3.
  assert (SR : hosts D W (tresult W k l) R).
  { refine (result_hosts D W k l _ _ R O F (stands_hosts _ _ _ _ St) (stands_hosts _ _ _ _ Su) _). exact H3. }
  rewrite Es. split; [destruct SR as (S & A & B); exists S; auto|right; cbn; congruence].
Qed.
Lemma C90_expr : forall D W G K s i e e' t, ordered_widths W ->
  (forall v, type_ok false D (G v)) -> (forall v, stands_for D W (G v) (K v)) ->
  store_ok D G s i -> on_host D W G K e e' -> type_of D G e = Some t ->
  stands_for D W t (tkind_of W K e')
  /\ ((exists z, returns (eval D G s e) z /\ tevals W K i e' z) \/ throws_arith (eval D G s e) \/ (shifts e' = true /\ throws_impl (eval D G s e))).
Proof.
  intros D W G K s i e e' t O HG HK Hs He Ht. destruct (emu_expr D W G K O HG HK s i Hs e e' He t Ht) as (_ & A & [(z & B & _ & C)|T] & _);
    (split; [exact A|]); [left; eauto|right; exact T].
Qed.
Lemma C90_expr_fits : forall D W G K s i e e' t z, ordered_widths W ->
  (forall v, type_ok false D (G v)) -> (forall v, stands_for D W (G v) (K v)) ->
  store_ok D G s i -> on_host D W G K e e' -> type_of D G e = Some t -> whole_casts D e ->
  tfits W K i e' z -> returns (eval D G s e) z.
Proof.
  intros D W G K s i e e' t z O HG HK Hs He Ht Hw. destruct (emu_expr D W G K O HG HK s i Hs e e' He t Ht) as (_ & _ & _ & F). exact (F Hw z).
Qed.
Lemma C90_exec : forall D W G K fuel c c' s i s1, ordered_widths W ->
  (forall v, type_ok false D (G v)) -> (forall v, stands_for D W (G v) (K v)) ->
  store_ok D G s i -> cmd_on_host D W G K c c' -> compiles D G c = true ->
  exec fuel D G s c = Some (s1, RDone) ->
  exists i1, truns W K i c' i1 /\ forall v, s1 v = Some (i1 v).
Proof.
  intros D W G K fuel c c' s i s1 O HG HK Hs Hc Hk H.
  destruct (emu_exec D W G K O HG HK fuel c c' Hc s i s1 Hk Hs H) as (i1 & A & B). exists i1. split; [exact B|]. apply A.
Qed.
Ltac tyok := unfold type_ok, throws_arithmetic; cbn; unfold in_type;
  repeat split; try (intros E [= <-]; auto); try (intros; discriminate); auto; vm_compute; congruence.
Lemma C90_unsigned_char : exists D W t k s m, ordered_widths W /\ stands_for D W t k /\ type_ok false D t
  /\ binary D Mul t t 255 255 = Some (s, m) /\ returns m 65025
  /\ forall K i z, ~ tevals W K i (TBin Mul (TConst k 255) (TConst k 255)) z.
Proof.
  exists LP64, (mkW 8 16 16 32 64), (OSafe (safe LP64 UChar (cpp_of (mkW 8 16 16 32 64)) default_exception_policy)), (TK KChar false).
  do 2 eexists. split; [vm_compute; intuition congruence|]. split; [split; [eexists; split; reflexivity|right; reflexivity]|].
  split; [tyok|]. split; [vm_compute; reflexivity|]. split; [vm_compute; reflexivity|].
  intros K i z H. inversion H as [| |op a b x y x' y' z' Ho Ha Hb Bx By Nz Bz| | | | |]; subst. inversion Ha; subst. inversion Hb; subst.
  cbn [tkind_of] in *. change (tresult _ _ _) with (TK KInt true) in *.
  assert (x' = 255) by (inversion Bx; [reflexivity|discriminate]). assert (y' = 255) by (inversion By; [reflexivity|discriminate]). subst.
  inversion Bz as [Hk|]; [|discriminate]. vm_compute in Hk. intuition congruence.
Qed.
Lemma C90_comparison : exists D W t u k l m, ordered_widths W /\ stands_for D W t k /\ stands_for D W u l
  /\ type_ok false D t /\ type_ok false D u /\ fair W k l /\ holds D t (-3) /\ holds D u 250
  /\ eval_relop D RLt t u (-3) 250 = Some m /\ returns m true
  /\ forall K i w, tholds W K i RLt (TConst k (-3)) (TConst l 250) w -> w = false.
Proof.
  exists LP64, (mkW 8 16 16 32 64), (OSafe (mkSafe Short (-5) 100 (cpp_of (mkW 8 16 16 32 64)) default_exception_policy)),
    (OSafe (mkSafe UShort 200 300 (cpp_of (mkW 8 16 16 32 64)) default_exception_policy)), (TK KInt true), (TK KInt false).
  eexists. split; [vm_compute; intuition congruence|].
  split; [split; [eexists; split; reflexivity|right; reflexivity]|]. split; [split; [eexists; split; reflexivity|right; reflexivity]|].
  split; [tyok|]. split; [tyok|]. split; [intros _; left; reflexivity|].
  split; [vm_compute; split; congruence|]. split; [vm_compute; split; congruence|].
  split; [vm_compute; reflexivity|]. split; [vm_compute; reflexivity|].
  intros K i w H. inversion H as [x y x' y' Ha Hb Bx By]; subst. inversion Ha; subst. inversion Hb; subst.
  cbn [tkind_of] in *. change (tresult _ _ _) with (TK KInt false) in *.
  assert (x' = 65533). { inversion Bx as [Hk|]; [vm_compute in Hk; intuition congruence|reflexivity]. }
  assert (y' = 250). { inversion By; reflexivity. } subst. reflexivity.
Qed.
Lemma C90_shift : exists D W t u k l s m, ordered_widths W /\ stands_for D W t k /\ stands_for D W u l
  /\ type_ok false D t /\ type_ok false D u /\ fair W k l
  /\ binary D Shl t u 1 20 = Some (s, m) /\ returns m (2 ^ 20)
  /\ forall K i z, ~ tevals W K i (TShl (TConst k 1) (TConst l 20)) z.
Proof.
  exists LP64, (mkW 8 16 16 32 64), (OSafe (safe LP64 Short (cpp_of (mkW 8 16 16 32 64)) default_exception_policy)),
    (OSafe (safe LP64 Int (cpp_of (mkW 8 16 16 32 64)) default_exception_policy)), (TK KInt true), (TK KLong true).
  do 2 eexists. split; [vm_compute; intuition congruence|].
  split; [split; [eexists; split; reflexivity|right; reflexivity]|]. split; [split; [eexists; split; reflexivity|right; reflexivity]|].
  split; [tyok|]. split; [tyok|]. split; [intros [H|H]; vm_compute in H; intuition congruence|].
  split; [vm_compute; reflexivity|]. split; [vm_compute; reflexivity|].
  intros K i z H. inversion H as [| | | |a b x y z' Ha Hb X0 Yk Bz| | |]; subst. inversion Hb; subst.
  cbn [tkind_of] in Yk. vm_compute in Yk. intuition congruence.
Qed.
Lemma C90_zero_shift : exists D W t k s m, ordered_widths W /\ stands_for D W t k /\ type_ok false D t
  /\ binary D Shl t t 0 15 = Some (s, m) /\ throws_impl m
  /\ forall K i, tevals W K i (TShl (TConst k 0) (TConst k 15)) 0.
Proof.
  exists LP64, (mkW 8 16 16 32 64), (OSafe (safe LP64 Short (cpp_of (mkW 8 16 16 32 64)) default_exception_policy)), (TK KInt true).
  do 2 eexists. split; [vm_compute; intuition congruence|]. split; [split; [eexists; split; reflexivity|right; reflexivity]|].
  split; [tyok|]. split; [vm_compute; reflexivity|]. split; [eexists; split; [|vm_compute; reflexivity]; unfold shift_err; auto|].
  intros K i. apply (TE_shl _ K i _ _ 0 15 0).
  - constructor. vm_compute. split; congruence.
  - constructor. vm_compute. split; congruence.
  - vm_compute. congruence.
  - vm_compute. split; congruence.
  - apply B_fits. vm_compute. split; congruence.
Qed.
