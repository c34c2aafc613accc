(** MotorStepFacts.v -- one turn of the stepper motor's loop. *)
From Coq Require Import ZArith Bool List Lia.
From Verif Require Import Base CType Spec CTypeFacts Utility UtilityFacts SafeCompare
  CheckedInteger CheckedIntegerFacts CheckedResultOps CheckedResultFacts Interval IntervalFacts
  ExceptionPolicy Promotion SafeBase SafeSpec SafeFacts SafeConvFacts Program ProgramFacts ValueFacts.
From Verif Require Import Motor MotorSpec MotorFacts.
Import ListNotations.
Local Open Scope Z_scope.

Ltac look := cbv [upd Nat.eqb motor_position m m2 d i c ccpr phase_ix new_position x phase t delay
  CCP1IE CCPR1H CCPR1L CCP1CON CCP2CON TMR1H TMR1L CCP2IE]; first [eassumption | reflexivity].

Ltac rng := first [ assumption | lia | fit; first [assumption | lia] | cbn; lia ].

(** evaluate an expression; the remaining goals are ranges *)
Ltac bin L s op a b :=
  let ta := eval vm_compute in (type_of LP64 types a) in
  let tb := eval vm_compute in (type_of LP64 types b) in
  match ta with Some ?ta' => match tb with Some ?tb' =>
    let sr := eval vm_compute in (op_type op ta' tb') in
    match sr with Some ?sr' => eapply (L s a b ta' tb' sr'); [vm_compute; reflexivity | vm_compute; reflexivity | | | | | | | vm_compute; reflexivity | ..] end end end.
Ltac binb L s op a b :=
  let ta := eval vm_compute in (type_of LP64 types a) in
  let tb := eval vm_compute in (type_of LP64 types b) in
  match ta with Some ?ta' => match tb with Some ?tb' =>
    let sr := eval vm_compute in (op_type op ta' tb') in
    match sr with Some ?sr' => eapply (L s a b ta' tb' sr'); [vm_compute; reflexivity | vm_compute; reflexivity | | | | | vm_compute; reflexivity | ..] end end end.
Ltac evs := lazymatch goal with
  | |- ev ?s (V ?v) _ => apply ev_var; look
  | |- ev ?s C0 _ => apply ev_const
  | |- ev ?s C_MIN _ => apply ev_const
  | |- ev ?s (literal _) _ => apply ev_const
  | |- ev ?s zero _ => apply ev_const
  | |- ev ?s (add ?a ?b) _ => bin ev_add s (BA Add) a b; [evs | evs | ..]
  | |- ev ?s (sub ?a ?b) _ => bin ev_sub s (BA Sub) a b; [evs | evs | ..]
  | |- ev ?s (mul ?a ?b) _ => bin ev_mul s (BA Mul) a b; [evs | evs | ..]
  | |- ev ?s (div ?a ?b) _ => bin ev_div s (BA Div) a b; [evs | evs | ..]
  | |- ev ?s (shl ?a ?b) _ => bin ev_shl s (BA Shl) a b; [evs | evs | ..]
  | |- ev ?s (shr ?a ?b) _ => bin ev_shr s (BA Shr) a b; [evs | evs | ..]
  | |- ev ?s (band ?a ?b) _ => binb ev_and s (BB And) a b; [evs | evs | ..]
  | |- ev ?s (bor ?a ?b) _ => binb ev_or s (BB Or) a b; [evs | evs | ..]
  end.
Ltac assign e :=
  let te := eval vm_compute in (type_of LP64 types e) in
  match te with Some ?te' => eapply (do_assign _ _ _ e te'); [vm_compute; reflexivity | vm_compute; reflexivity | evs | ..] end.

(** the assignments *)
Lemma set_ccpr : forall r s t0 c_, s ccpr = Some t0 -> s c = Some c_ -> 0 <= t0 < 2 ^ 24 -> c_min <= c_ <= c0 ->
  do (CAssign ccpr (band (literal 16777215) (add (V ccpr) (V c)))) (mkW r s)
  = (mkW r (upd s ccpr (Some ((t0 + c_) mod 2 ^ 24))), RDone).
Proof.
  intros r s t0 c_ Ht Hc Bt Bc. unfold c_min, c0 in Bc. change (2 ^ 24) with 16777216 in *.
  replace ((t0 + c_) mod 16777216) with (Z.land 16777215 (t0 + c_))
    by (rewrite Z.land_comm; exact (Z.land_ones (t0 + c_) 24 ltac:(lia))).
  pose proof (land_bounds (t0 + c_) 16777215 ltac:(lia)) as L. rewrite Z.land_comm in L.
  assign (band (literal 16777215) (add (V ccpr) (V c))); try rng.
Qed.

Lemma set_phase_ix : forall r s ph dir, s phase_ix = Some ph -> s d = Some dir -> 0 <= ph <= 3 -> -1 <= dir <= 1 ->
  do (CAssign phase_ix (band (add (V phase_ix) (V d)) (literal 3))) (mkW r s)
  = (mkW r (upd s phase_ix (Some ((ph + dir) mod 4))), RDone).
Proof.
  intros r s ph dir Hp Hd Bp Bd.
  replace ((ph + dir) mod 4) with (Z.land (ph + dir) 3) by (exact (Z.land_ones (ph + dir) 2 ltac:(lia))).
  pose proof (land_bounds (ph + dir) 3 ltac:(lia)) as L.
  assign (band (add (V phase_ix) (V d)) (literal 3)); try rng.
Qed.

Lemma first_phase_ix : forall r s dir, s d = Some dir -> -1 <= dir <= 1 ->
  do (CAssign phase_ix (band (V d) (literal 3))) (mkW r s)
  = (mkW r (upd s phase_ix (Some (dir mod 4))), RDone).
Proof.
  intros r s dir Hd Bd.
  replace (dir mod 4) with (Z.land dir 3) by (exact (Z.land_ones dir 2 ltac:(lia))).
  pose proof (land_bounds dir 3 ltac:(lia)) as L.
  assign (band (V d) (literal 3)); try rng.
Qed.

Ltac whole := split; vm_compute; discriminate.
Ltac condition s a b :=
  let ta := eval vm_compute in (type_of LP64 types a) in
  let tb := eval vm_compute in (type_of LP64 types b) in
  match ta with Some ?ta' => match tb with Some ?tb' =>
    let rr := eval vm_compute in (result_base_type LP64 pic16 PCmp ta' tb') in
    match rr with Some ?rr' =>
      match goal with |- eval_cond _ _ _ (Cond ?r0 _ _ _) = _ =>
        eapply (cond_value s a b ta' tb') with (r := r0) (R := rr') end;
      [vm_compute; reflexivity | vm_compute; reflexivity | evs | evs | vm_compute; reflexivity | vm_compute; reflexivity
      | vm_compute; reflexivity | vm_compute; reflexivity | vm_compute; reflexivity
      | vm_compute; intuition discriminate | vm_compute; intuition discriminate | ..] end end end.
Ltac rngs := try first [rng | match goal with |- holds _ _ _ => cbv [holds lim_lo lim_hi smin smax]; first [assumption | lia] end].

Lemma cond_d : forall s dir, s d = Some dir -> -1 <= dir <= 1 ->
  eval_cond LP64 types s (Cond RLt true (V d) zero) = mret (dir <? 0).
Proof. intros s dir Hd B. condition s (V d) zero; rngs. Qed.
Lemma cond_i_m : forall s i_ m_, s i = Some i_ -> s m = Some m_ -> 0 <= i_ <= 200000 -> 0 <= m_ <= 50000 ->
  eval_cond LP64 types s (Cond REq true (V i) (V m)) = mret (i_ =? m_).
Proof. intros s i_ m_ Hi Hm Bi Bm. condition s (V i) (V m); rngs. Qed.
Lemma cond_i_m2 : forall s i_ m_, s i = Some i_ -> s m2 = Some m_ -> 0 <= i_ <= 200000 -> 0 <= m_ <= 50000 ->
  eval_cond LP64 types s (Cond REq true (V i) (V m2)) = mret (i_ =? m_).
Proof. intros s i_ m_ Hi Hm Bi Bm. condition s (V i) (V m2); rngs. Qed.
Lemma cond_c_max : forall s c_, s c = Some c_ -> c_min <= c_ <= c0 ->
  eval_cond LP64 types s (Cond RLe true (V c) C0) = mret (negb (c0 <? c_)).
Proof. intros s c_ Hc B. unfold c_min, c0 in *. condition s (V c) C0; rngs. Qed.
Lemma cond_c_min : forall s c_, s c = Some c_ -> c_min <= c_ <= c0 ->
  eval_cond LP64 types s (Cond RGe true (V c) C_MIN) = mret (negb (c_ <? c_min)).
Proof. intros s c_ Hc B. unfold c_min, c0 in *. condition s (V c) C_MIN; rngs. Qed.
Lemma cond_c_lt : forall s c_, s c = Some c_ -> c_min <= c_ <= c0 ->
  eval_cond LP64 types s (Cond RLt true (V c) C_MIN) = mret (c_ <? c_min).
Proof. intros s c_ Hc B. unfold c_min, c0 in *. condition s (V c) C_MIN; rngs. Qed.
Lemma cond_x : forall s x_, s x = Some x_ -> 0 <= x_ <= 4294967295 ->
  eval_cond LP64 types s (Cond RGt true (V x) C0) = mret (c0 <? x_).
Proof. intros s x_ Hc B. unfold c0. condition s (V x) C0; rngs. Qed.
Lemma cond_forward : forall s p q, s new_position = Some p -> s motor_position = Some q ->
  0 <= p <= 50000 -> 0 <= q <= 50000 ->
  eval_cond LP64 types s (Cond RGt true (V new_position) (V motor_position)) = mret (q <? p).
Proof. intros s p q Hp Hq Bp Bq. condition s (V new_position) (V motor_position); rngs. Qed.
Lemma cond_backward : forall s p q, s new_position = Some p -> s motor_position = Some q ->
  0 <= p <= 50000 -> 0 <= q <= 50000 ->
  eval_cond LP64 types s (Cond RGt true (V motor_position) (V new_position)) = mret (p <? q).
Proof. intros s p q Hp Hq Bp Bq. condition s (V motor_position) (V new_position); rngs. Qed.

(** updates of the windings and of the compare registers *)
Lemma do_lookup : forall r s ph, s phase_ix = Some ph -> 0 <= ph <= 3 ->
  lookup (mkW r s) = (mkW r (upd s phase (Some (snd (windings ph) * 256 + fst (windings ph)))), RDone).
Proof.
  intros r s ph Hp Bp. unfold lookup. cbn [mem]. rewrite Hp.
  assert (C : ph = 0 \/ ph = 1 \/ ph = 2 \/ ph = 3) by lia.
  destruct C as [E|[E|[E|E]]]; rewrite E; reflexivity.
Qed.

Lemma windings_bounds : forall ph, 8 <= fst (windings ph) <= 9 /\ 8 <= snd (windings ph) <= 9.
Proof.
  intros ph. unfold windings. destruct (ph =? 0), (ph =? 1), (ph =? 2); cbn; lia.
Qed.

Lemma set_con1 : forall r s a b, s phase = Some (b * 256 + a) -> 0 <= a <= 255 -> 0 <= b <= 255 ->
  do (CAssign CCP1CON (band (V phase) (literal 255))) (mkW r s) = (mkW r (upd s CCP1CON (Some a)), RDone).
Proof.
  intros r s a b Hp Ba Bb.
  assert (E : a = Z.land (b * 256 + a) 255).
  { change 255 with (Z.ones 8). rewrite Z.land_ones by lia. change (2 ^ 8) with 256.
    rewrite Z.add_comm, Z.mod_add, Z.mod_small by lia. reflexivity. }
  pose proof (land_bounds (b * 256 + a) 255 ltac:(lia)) as L.
  remember (Z.land (b * 256 + a) 255) as z eqn:Ez. rewrite E, Ez. rewrite Ez in L. clear E Ez z.
  assign (band (V phase) (literal 255)); try rng.
Qed.

Lemma set_con2 : forall r s a b, s phase = Some (b * 256 + a) -> 0 <= a <= 255 -> 0 <= b <= 255 ->
  do (CAssign CCP2CON (shr (V phase) (literal 8))) (mkW r s) = (mkW r (upd s CCP2CON (Some b)), RDone).
Proof.
  intros r s a b Hp Ba Bb.
  assert (E : b = (b * 256 + a) / 2 ^ 8).
  { change (2 ^ 8) with 256. rewrite Z.add_comm, Z.div_add, Z.div_small by lia. reflexivity. }
  assert (B2 : 0 <= (b * 256 + a) / 2 ^ 8 <= 255) by lia.
  remember ((b * 256 + a) / 2 ^ 8) as z eqn:Ez. rewrite E, Ez. rewrite Ez in B2. clear E Ez z.
  assign (shr (V phase) (literal 8)); try rng.
  all: try (vm_compute; split; congruence). all: try exact Hp.
Qed.

Lemma set_high : forall r s t0, s ccpr = Some t0 -> 0 <= t0 < 2 ^ 24 ->
  do (CAssign CCPR1H (band (literal 255) (shr (V ccpr) (literal 8)))) (mkW r s)
  = (mkW r (upd s CCPR1H (Some ((t0 / 256) mod 256))), RDone).
Proof.
  intros r s t0 Ht Bt. change (2 ^ 24) with 16777216 in *.
  replace ((t0 / 256) mod 256) with (Z.land 255 (t0 / 2 ^ 8))
    by (rewrite Z.land_comm; exact (Z.land_ones (t0 / 256) 8 ltac:(lia))).
  pose proof (land_bounds (t0 / 2 ^ 8) 255 ltac:(lia)) as L. rewrite Z.land_comm in L.
  assert (B2 : 0 <= t0 / 2 ^ 8 <= 65535)
    by (split; [apply Z.div_pos; lia|apply Z.lt_succ_r, Z.div_lt_upper_bound; lia]).
  assign (band (literal 255) (shr (V ccpr) (literal 8))); try rng.
  all: try (vm_compute; split; congruence).
Qed.

Lemma set_low : forall r s t0, s ccpr = Some t0 -> 0 <= t0 < 2 ^ 24 ->
  do (CAssign CCPR1L (band (literal 255) (V ccpr))) (mkW r s)
  = (mkW r (upd s CCPR1L (Some (t0 mod 256))), RDone).
Proof.
  intros r s t0 Ht Bt. change (2 ^ 24) with 16777216 in *.
  replace (t0 mod 256) with (Z.land 255 t0) by (rewrite Z.land_comm; exact (Z.land_ones t0 8 ltac:(lia))).
  pose proof (land_bounds t0 255 ltac:(lia)) as L. rewrite Z.land_comm in L.
  assign (band (literal 255) (V ccpr)); try rng.
Qed.

(** the other assignments *)
Lemma set_lit : forall r s v n, (if construct LP64 (safe_of v) (OLit (lit_type n) n (Some pic16) None) 0 then true else false) = true ->
  in_type LP64 (lit_type n) n -> smin (safe_of v) <= n <= smax (safe_of v) ->
  do (CAssign v (literal n)) (mkW r s) = (mkW r (upd s v (Some n)), RDone).
Proof.
  intros r s v n Hc Hi Hn. apply (do_assign r s v (literal n) (OLit (lit_type n) n (Some pic16) None) n); auto.
  apply ev_const.
Qed.
Ltac setlit := apply set_lit; [vm_compute; reflexivity | vm_compute; split; discriminate | vm_compute; split; discriminate].

Lemma set_t : forall r s c_, s c = Some c_ -> c_min <= c_ <= c0 ->
  do (CAssign t (V c)) (mkW r s) = (mkW r (upd s t (Some c_)), RDone).
Proof. intros r s c_ Hc B. unfold c_min, c0 in B. assign (V c); try rng. Qed.
Lemma set_delay : forall r s t_, s t = Some t_ -> 0 <= t_ <= c0 ->
  do (CAssign delay (div (add (V t) (literal 128)) (literal 256))) (mkW r s)
  = (mkW r (upd s delay (Some ((t_ + 128) / 256))), RDone).
Proof.
  intros r s t_ Ht B. unfold c0 in B.
  assert (B2 : 0 <= (t_ + 128) / 256 <= 1280128) by (split; [apply Z.div_pos; lia|apply Z.div_le_upper_bound; lia]).
  assign (div (add (V t) (literal 128)) (literal 256)); try rng.
Qed.

Lemma set_x : forall r s c_ m_ i_, s c = Some c_ -> s m = Some m_ -> s i = Some i_ ->
  c_min <= c_ <= c0 -> 0 <= i_ < m_ -> m_ <= 50000 ->
  do (CAssign x (add (V c) (div (mul (literal 2) (V c)) (sub (mul (literal 4) (sub (V m) (V i))) (literal 1))))) (mkW r s)
  = (mkW r (upd s x (Some (c_ + 2 * c_ / (4 * (m_ - i_) - 1)))), RDone).
Proof.
  intros r s c_ m_ i_ Hc Hm Hi Bc Bi Bm. unfold c_min, c0 in *.
  assert (B2 : 0 <= 2 * c_ / (4 * (m_ - i_) - 1) <= 2560000)
    by (split; [apply Z.div_pos; lia|apply Z.div_le_upper_bound; nia]).
  assign (add (V c) (div (mul (literal 2) (V c)) (sub (mul (literal 4) (sub (V m) (V i))) (literal 1)))); try rng.
Qed.

Lemma set_c_x : forall r s x_, s x = Some x_ -> c_min <= x_ <= c0 ->
  do (CAssign c (V x)) (mkW r s) = (mkW r (upd s c (Some x_)), RDone).
Proof. intros r s x_ Hx B. assert (B2 := B). unfold c_min, c0 in B. assign (V x); try rng. Qed.

Lemma set_c_c0 : forall r s,
  do (CAssign c (ECast (OSafe temp_t) C0)) (mkW r s) = (mkW r (upd s c (Some c0)), RDone).
Proof. intros r s. reflexivity. Qed.

Lemma sub_c : forall r s c_ i_, s c = Some c_ -> s i = Some i_ -> 1 <= i_ <= 200000 -> c_min <= c_ <= c0 ->
  c_min <= c_ - 2 * c_ / (4 * i_ + 1) ->
  do (CCompound (BA Sub) c (div (mul (literal 2) (V c)) (add (mul (literal 4) (V i)) (literal 1)))) (mkW r s)
  = (mkW r (upd s c (Some (c_ - 2 * c_ / (4 * i_ + 1)))), RDone).
Proof.
  intros r s c_ i_ Hc Hi Bi Bc B. assert (Bc' := Bc). assert (B' := B). unfold c_min, c0 in Bc, B.
  assert (B2 : 0 <= 2 * c_ / (4 * i_ + 1) <= 2560000)
    by (split; [apply Z.div_pos; lia|apply Z.div_le_upper_bound; nia]).
  set (e := div (mul (literal 2) (V c)) (add (mul (literal 4) (V i)) (literal 1))).
  assert (Ee : ev s e (2 * c_ / (4 * i_ + 1))) by (unfold e; evs; try rng).
  unfold do. cbn [mem exec].
  let te := eval vm_compute in (type_of LP64 types e) in
  match te with Some ?te' =>
    let sr := eval vm_compute in (op_type (BA Sub) (types c) te') in
    match sr with Some ?sr' =>
      assert (K : run (compound LP64 (BA Sub) (types c) te' c_ (2 * c_ / (4 * i_ + 1))) = mret (c_ - 2 * c_ / (4 * i_ + 1)));
      [apply (compound_ok (BA Sub) c te' sr'); [vm_compute; reflexivity | vm_compute; reflexivity | | | ] |
       replace (type_of LP64 types e) with (Some te') by (vm_compute; reflexivity)]
    end
  end.
  - intros k Hk. apply (arith_value Sub Z.sub _ _ _ _ _ _ _ (or_intror (or_introl (conj eq_refl eq_refl))) Hk); rng.
  - rng.
  - change (smin (safe_of c)) with c_min. change (smax (safe_of c)) with c0. lia.
  - rewrite Ee, mbind_ret. unfold read. rewrite Hc, mbind_ret, K. reflexivity.
Qed.

Lemma do_incdec : forall (up : bool) v sr r s q, s v = Some q ->
  op_type (BA (if up then Add else Sub)) (types v) (ORaw Int) = Some sr ->
  (if construct LP64 (safe_of v) (OSafe sr) 0 then true else false) = true ->
  in_type LP64 (st (safe_of v)) q -> in_type LP64 (st sr) q -> in_type LP64 (st sr) 1 ->
  let q' := (if up then Z.add else Z.sub) q 1 in
  in_type LP64 (st sr) q' -> smin (safe_of v) <= q' <= smax (safe_of v) ->
  do (if up then CInc v else CDec v) (mkW r s) = (mkW r (upd s v (Some q')), RDone).
Proof.
  intros up v sr r s q Hv Ho Hc I1 I2 I3 q' I4 B.
  assert (K : run (compound LP64 (BA (if up then Add else Sub)) (types v) (ORaw Int) q 1) = mret q').
  { apply (compound_ok _ v _ sr); auto. intros k Hk. destruct up.
    - apply (arith_value Add Z.add _ _ _ _ _ _ _ (or_introl (conj eq_refl eq_refl)) Hk); auto. split; vm_compute; discriminate.
    - apply (arith_value Sub Z.sub _ _ _ _ _ _ _ (or_intror (or_introl (conj eq_refl eq_refl))) Hk); auto. split; vm_compute; discriminate. }
  rewrite types_safe in K.
  destruct up; unfold do; cbn [mem exec]; rewrite types_safe; unfold read; rewrite Hv, mbind_ret;
    unfold increment, decrement; rewrite K; reflexivity.
Qed.

Ltac incdec up v :=
  let sr := eval vm_compute in (op_type (BA (if up then Add else Sub)) (types v) (ORaw Int)) in
  match sr with Some ?sr' => apply (do_incdec up v sr'); [assumption | vm_compute; reflexivity | vm_compute; reflexivity | ..] end.
Lemma inc_position : forall r s q, s motor_position = Some q -> 0 <= q < 50000 ->
  do (CInc motor_position) (mkW r s) = (mkW r (upd s motor_position (Some (q + 1))), RDone).
Proof. intros r s q Hq B. incdec true motor_position; rng. Qed.
Lemma dec_position : forall r s q, s motor_position = Some q -> 0 < q <= 50000 ->
  do (CDec motor_position) (mkW r s) = (mkW r (upd s motor_position (Some (q - 1))), RDone).
Proof. intros r s q Hq B. incdec false motor_position; rng. Qed.
Lemma inc_i : forall r s q, s i = Some q -> 0 <= q < 200000 ->
  do (CInc i) (mkW r s) = (mkW r (upd s i (Some (q + 1))), RDone).
Proof. intros r s q Hq B. incdec true i; rng. Qed.

Lemma set_m2 : forall r s m_, s m = Some m_ -> 0 <= m_ <= 50000 ->
  do (CAssign m2 (div (V m) (literal 2))) (mkW r s) = (mkW r (upd s m2 (Some (m_ / 2))), RDone).
Proof.
  intros r s m_ Hm B.
  assert (B2 : 0 <= m_ / 2 <= 50000) by (split; [apply Z.div_pos; lia|apply Z.div_le_upper_bound; lia]).
  assign (div (V m) (literal 2)); try rng.
Qed.
Lemma set_m_forward : forall r s p q, s new_position = Some p -> s motor_position = Some q -> 0 <= q <= p -> p <= 50000 ->
  do (CAssign m (sub (V new_position) (V motor_position))) (mkW r s) = (mkW r (upd s m (Some (p - q))), RDone).
Proof. intros r s p q Hp Hq B1 B2. assign (sub (V new_position) (V motor_position)); try rng. Qed.
Lemma set_m_backward : forall r s p q, s new_position = Some p -> s motor_position = Some q -> 0 <= p <= q -> q <= 50000 ->
  do (CAssign m (sub (V motor_position) (V new_position))) (mkW r s) = (mkW r (upd s m (Some (q - p))), RDone).
Proof. intros r s p q Hp Hq B1 B2. assign (sub (V motor_position) (V new_position)); try rng. Qed.

Lemma lor_bytes : forall h l, 0 <= l <= 255 -> Z.lor (h * 2 ^ 8) l = h * 256 + l.
Proof.
  intros h l B. change 256 with (2 ^ 8). symmetry.
  rewrite <- Z.lxor_lor, Z.add_nocarry_lxor; try reflexivity.
  all: apply Z.bits_inj'; intros n Hn; rewrite Z.land_spec, Z.bits_0.
  all: destruct (Z.lt_ge_cases n 8); [rewrite Z.mul_pow2_bits_low by lia; reflexivity|].
  all: rewrite (Z.bits_above_log2 l n); [apply andb_false_r|lia|].
  all: destruct (Z.eq_dec l 0) as [->|]; [cbn; lia|].
  all: apply Z.log2_lt_pow2; [lia|]; apply Z.lt_le_trans with (2 ^ 8); [lia|apply Z.pow_le_mono_r; lia].
Qed.

Lemma first_ccpr : forall r s h l, s TMR1H = Some h -> s TMR1L = Some l -> 0 <= h <= 255 -> 0 <= l <= 255 ->
  do (CAssign ccpr (add (add (bor (shl (V TMR1H) (literal 8)) (V TMR1L)) C0) (literal 1000))) (mkW r s)
  = (mkW r (upd s ccpr (Some (h * 256 + l + c0 + 1000))), RDone).
Proof.
  intros r s h l Hh Hl Bh Bl. unfold c0.
  pose proof (lor_bytes h l Bl) as L. rewrite <- L.
  assign (add (add (bor (shl (V TMR1H) (literal 8)) (V TMR1L)) C0) (literal 1000)); try rng.
  all: try (rewrite L; rng). all: try (vm_compute; split; congruence).
  all: change (2 ^ 8) with 256; rng.
Qed.
