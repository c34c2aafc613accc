(** Motor2StepFacts.v -- the statements of the second stepper motor program. *)
From Coq Require Import ZArith Bool List Lia.
From Verif Require Import Base CType Spec CTypeFacts Utility UtilityFacts SafeCompare
  CheckedInteger CheckedIntegerFacts CheckedResultOps CheckedResultFacts Interval IntervalFacts
  ExceptionPolicy Promotion SafeBase SafeSpec SafeFacts SafeConvFacts Program ProgramFacts ValueFacts.
From Verif Require Import BoolConv Motor2 Motor2Spec Motor2Facts.
Import ListNotations.
Local Open Scope Z_scope.

Ltac look := cbv [upd Nat.eqb motor_pos pos_inc denom pos_new phase step_no step_down move midpt ccpr c t delay m
  phase_ix phase_inc run_flg CCP1IE CCP2IE PORTC TRISC T3CON T1CON INTCON CCPR2H CCPR2L CCPR1H CCPR1L CCP1CON CCP2CON
  TMR1H TMR1L]; first [eassumption | reflexivity].

Ltac rng := first [ assumption | lia | fit; first [assumption | lia] | cbn; lia ].

Section Neg.
  Variables (s : store) (a : expr) (ts sr : safe_t) (x : Z).
  Lemma ev_neg : type_of LP64 types a = Some (OSafe ts) -> ev s a x ->
    in_type LP64 (st ts) x -> in_type LP64 (st sr) x -> in_type LP64 (st sr) (- x) ->
    op_type (BA Sub) (ORaw Int) (OSafe ts) = Some sr -> ev s (ENeg a) (- x).
  Proof.
    intros Ta Ea Ix Jx Jz Ho. unfold ev in *. cbn [eval]. rewrite Ta, Ea, mbind_ret. unfold unary_minus.
    destruct (op_type_some (BA Sub) (ORaw Int) (OSafe ts) sr 0 x Ho) as (k & K).
    cbn [eval_binop] in K. rewrite K. cbn [run_snd].
    replace (- x) with (0 - x) in * by lia.
    apply (arith_value Sub Z.sub LP64 (ORaw Int) (OSafe ts) 0 x sr); auto using zero_in.
    right; left; auto.
  Qed.
End Neg.

(** evaluate an expression; the remaining goals are ranges *)
Ltac bin L s op a b :=
  let ta := eval vm_compute in (type_of LP64 types a) in
  let tb := eval vm_compute in (type_of LP64 types b) in
  match ta with Some ?ta' => match tb with Some ?tb' =>
    let sr := eval vm_compute in (op_type op ta' tb') in
    match sr with Some ?sr' => eapply (L s a b ta' tb' sr'); [vm_compute; reflexivity | vm_compute; reflexivity | | | | | | | vm_compute; reflexivity | ..] end end end.
Ltac binb L s op a b :=
  let ta := eval vm_compute in (type_of LP64 types a) in
  let tb := eval vm_compute in (type_of LP64 types b) in
  match ta with Some ?ta' => match tb with Some ?tb' =>
    let sr := eval vm_compute in (op_type op ta' tb') in
    match sr with Some ?sr' => eapply (L s a b ta' tb' sr'); [vm_compute; reflexivity | vm_compute; reflexivity | | | | | vm_compute; reflexivity | ..] end end end.
Ltac evs := lazymatch goal with
  | |- ev ?s (V ?v) _ => apply ev_var; look
  | |- ev ?s (K _) _ => apply ev_const
  | |- ev ?s (add ?a ?b) _ => bin ev_add s (BA Add) a b; [evs | evs | ..]
  | |- ev ?s (sub ?a ?b) _ => bin ev_sub s (BA Sub) a b; [evs | evs | ..]
  | |- ev ?s (mul ?a ?b) _ => bin ev_mul s (BA Mul) a b; [evs | evs | ..]
  | |- ev ?s (div ?a ?b) _ => bin ev_div s (BA Div) a b; [evs | evs | ..]
  | |- ev ?s (shl ?a ?b) _ => bin ev_shl s (BA Shl) a b; [evs | evs | ..]
  | |- ev ?s (shr ?a ?b) _ => bin ev_shr s (BA Shr) a b; [evs | evs | ..]
  | |- ev ?s (band ?a ?b) _ => binb ev_and s (BB And) a b; [evs | evs | ..]
  | |- ev ?s (ENeg ?a) _ =>
      let ta := eval vm_compute in (type_of LP64 types a) in
      match ta with Some (OSafe ?ts') =>
        let sr := eval vm_compute in (op_type (BA Sub) (ORaw Int) (OSafe ts')) in
        match sr with Some ?sr' => eapply (ev_neg s a ts' sr'); [vm_compute; reflexivity | evs | | | | vm_compute; reflexivity] end end
  end.
Ltac assign e :=
  let te := eval vm_compute in (type_of LP64 types e) in
  match te with Some ?te' => eapply (do_assign _ _ _ e te'); [vm_compute; reflexivity | vm_compute; reflexivity | evs | ..] end.
Ltac condition s a b :=
  let ta := eval vm_compute in (type_of LP64 types a) in
  let tb := eval vm_compute in (type_of LP64 types b) in
  match ta with Some ?ta' => match tb with Some ?tb' =>
    let rr := eval vm_compute in (result_base_type LP64 pic16 PCmp ta' tb') in
    match rr with Some ?rr' =>
      match goal with |- eval_cond _ _ _ (Cond ?r0 _ _ _) = _ =>
        eapply (cond_value s a b ta' tb') with (r := r0) (R := rr') end;
      [vm_compute; reflexivity | vm_compute; reflexivity | evs | evs | vm_compute; reflexivity | vm_compute; reflexivity
      | vm_compute; reflexivity | vm_compute; reflexivity | vm_compute; reflexivity
      | vm_compute; intuition discriminate | vm_compute; intuition discriminate | ..] end end end.
Ltac rngs := try first [rng | match goal with |- holds _ _ _ => cbv [holds lim_lo lim_hi smin smax]; first [assumption | lia] end].

(** compound assignment *)
Lemma do_compound : forall op r s v e tu sr x y z, type_of LP64 types e = Some tu ->
  op_type op (types v) tu = Some sr -> (if construct LP64 (safe_of v) (OSafe sr) 0 then true else false) = true ->
  ev s e y -> s v = Some x ->
  (forall k, eval_binop LP64 op (types v) tu x y = Some (sr, k) -> k = mret z) ->
  in_type LP64 (st sr) z -> smin (safe_of v) <= z <= smax (safe_of v) ->
  do (CCompound op v e) (mkW r s) = (mkW r (upd s v (Some z)), RDone).
Proof.
  intros op r s v e tu sr x y z Te Ho Hc Ee Hv Hk Hi Hz. unfold do. cbn [mem exec].
  rewrite Te, Ee, mbind_ret. unfold read. rewrite Hv, mbind_ret.
  rewrite (compound_ok op v tu sr x y z Ho Hc Hk Hi Hz). reflexivity.
Qed.
Ltac comp op v e :=
  let te := eval vm_compute in (type_of LP64 types e) in
  match te with Some ?te' =>
    let sr := eval vm_compute in (op_type op (types v) te') in
    match sr with Some ?sr' =>
      eapply (do_compound op _ _ v e te' sr'); [vm_compute; reflexivity | vm_compute; reflexivity | vm_compute; reflexivity | evs | eassumption | | | ] end end.
Ltac byadd Hk := apply (arith_value Add Z.add _ _ _ _ _ _ _ (or_introl (conj eq_refl eq_refl)) Hk).
Ltac bysub Hk := apply (arith_value Sub Z.sub _ _ _ _ _ _ _ (or_intror (or_introl (conj eq_refl eq_refl))) Hk).

Lemma add_ccpr : forall r s a b, s ccpr = Some a -> s c = Some b -> 0 <= a -> 0 <= b -> a + b <= 4294967295 ->
  do (CCompound (BA Add) ccpr (V c)) (mkW r s) = (mkW r (upd s ccpr (Some (a + b))), RDone).
Proof.
  intros r s a b Ha Hb B1 B2 B3. comp (BA Add) ccpr (V c); [intros k Hk; byadd Hk; rng|rng|].
  change (smin (safe_of ccpr)) with 0. change (smax (safe_of ccpr)) with 4294967295. lia.
Qed.
Lemma add_ccpr_1000 : forall r s a, s ccpr = Some a -> 0 <= a <= 65535 ->
  do (CCompound (BA Add) ccpr (K 1000)) (mkW r s) = (mkW r (upd s ccpr (Some (a + 1000))), RDone).
Proof.
  intros r s a Ha B1. comp (BA Add) ccpr (K 1000); [intros k Hk; byadd Hk; rng|rng|].
  change (smin (safe_of ccpr)) with 0. change (smax (safe_of ccpr)) with 4294967295. lia.
Qed.
Lemma add_denom : forall r s a, s denom = Some a -> -32768 <= a -> a + 4 <= 32767 ->
  do (CCompound (BA Add) denom (K 4)) (mkW r s) = (mkW r (upd s denom (Some (a + 4))), RDone).
Proof.
  intros r s a Ha B1 B2. comp (BA Add) denom (K 4); [intros k Hk; byadd Hk; rng|rng|].
  change (smin (safe_of denom)) with (-32768). change (smax (safe_of denom)) with 32767. lia.
Qed.
Lemma add_pos : forall r s a b, s motor_pos = Some a -> s pos_inc = Some b -> -32768 <= a <= 32767 -> -1 <= b <= 1 ->
  -32768 <= a + b <= 32767 ->
  do (CCompound (BA Add) motor_pos (V pos_inc)) (mkW r s) = (mkW r (upd s motor_pos (Some (a + b))), RDone).
Proof.
  intros r s a b Ha Hb B1 B2 B3. comp (BA Add) motor_pos (V pos_inc); [intros k Hk; byadd Hk; rng|rng|].
  change (smin (safe_of motor_pos)) with (-32768). change (smax (safe_of motor_pos)) with 32767. lia.
Qed.
Lemma sub_c : forall r s a b, s c = Some a -> s denom = Some b -> 0 <= a <= 1000000000 -> 3 <= b <= 32767 ->
  do (CCompound (BA Sub) c (div (shl (V c) (K 1)) (V denom))) (mkW r s)
  = (mkW r (upd s c (Some (a - a * 2 ^ 1 / b))), RDone).
Proof.
  intros r s a b Ha Hb B1 B2. change (2 ^ 1) with 2.
  assert (Q : 0 <= a * 2 / b <= a) by (split; [apply Z.div_pos; lia|apply Z.div_le_upper_bound; nia]).
  comp (BA Sub) c (div (shl (V c) (K 1)) (V denom)); try (intros k Hk; bysub Hk).
  all: change (2 ^ 1) with 2 in *; try rng.
Qed.
Lemma grow_c : forall r s a b, s c = Some a -> s denom = Some b -> 0 <= a <= 1000000000 -> -32768 <= b <= -3 ->
  do (CCompound (BA Add) c (div (shl (V c) (K 1)) (ENeg (V denom)))) (mkW r s)
  = (mkW r (upd s c (Some (a + a * 2 ^ 1 / (- b)))), RDone).
Proof.
  intros r s a b Ha Hb B1 B2. change (2 ^ 1) with 2.
  assert (Q : 0 <= a * 2 / (- b) <= a) by (split; [apply Z.div_pos; lia|apply Z.div_le_upper_bound; nia]).
  comp (BA Add) c (div (shl (V c) (K 1)) (ENeg (V denom))); try (intros k Hk; byadd Hk).
  all: change (2 ^ 1) with 2 in *; try rng.
Qed.

Lemma inc_step : forall r s a, s step_no = Some a -> 0 <= a < 65535 ->
  do (CInc step_no) (mkW r s) = (mkW r (upd s step_no (Some (a + 1))), RDone).
Proof.
  intros r s a Ha B. unfold do. cbn [mem exec]. rewrite types_safe. unfold read. rewrite Ha, mbind_ret.
  unfold increment.
  let sr := eval vm_compute in (op_type (BA Add) (types step_no) (ORaw Int)) in
  match sr with Some ?sr' =>
    pose proof (compound_ok (BA Add) step_no (ORaw Int) sr' a 1 (a + 1) ltac:(vm_compute; reflexivity) ltac:(vm_compute; reflexivity)) as Q end.
  rewrite types_safe in Q. rewrite Q; [reflexivity| |rng|rng].
  intros k Hk. byadd Hk; rng.
Qed.

(** plain assignments *)
Lemma set_k : forall r s v z, (if construct LP64 (safe_of v) (ORaw Int) 0 then true else false) = true ->
  in_type LP64 Int z -> smin (safe_of v) <= z <= smax (safe_of v) ->
  do (CAssign v (K z)) (mkW r s) = (mkW r (upd s v (Some z)), RDone).
Proof. intros r s v z Hc Hi Hn. apply (do_assign r s v (K z) (ORaw Int) z); auto. apply ev_const. Qed.
Ltac setk := apply set_k; [vm_compute; reflexivity | vm_compute; split; discriminate | vm_compute; split; discriminate].

Lemma set_t : forall r s a, s c = Some a -> 0 <= a <= 1000000000 ->
  do (CAssign t (V c)) (mkW r s) = (mkW r (upd s t (Some a)), RDone).
Proof. intros r s a Ha B. assign (V c); try rng. Qed.
Lemma set_delay : forall r s a, s t = Some a -> 0 <= a <= 1000000000 ->
  do (CAssign delay (div (add (V t) (K 128)) (K 256))) (mkW r s)
  = (mkW r (upd s delay (Some ((a + 128) / 256))), RDone).
Proof.
  intros r s a Ha B.
  assert (B2 : 0 <= (a + 128) / 256 <= 1000000000) by (split; [apply Z.div_pos; lia|apply Z.div_le_upper_bound; lia]).
  assign (div (add (V t) (K 128)) (K 256)); try rng.
Qed.
Lemma set_denom_mid : forall r s n k, s move = Some n -> s step_no = Some k -> 0 <= k <= n -> n <= 65535 -> (n - k) * 4 - 1 <= 32767 ->
  do (CAssign denom (sub (mul (sub (V move) (V step_no)) (K 4)) (K 1))) (mkW r s)
  = (mkW r (upd s denom (Some ((n - k) * 4 - 1))), RDone).
Proof. intros r s n k Hn Hk B1 B2 B3. assign (sub (mul (sub (V move) (V step_no)) (K 4)) (K 1)); try rng. Qed.
Lemma set_denom_max : forall r s n k, s move = Some n -> s step_no = Some k -> 0 <= k <= n -> n <= 65535 -> -32768 <= 5 - (n - k) * 4 ->
  do (CAssign denom (sub (K 5) (mul (sub (V move) (V step_no)) (K 4)))) (mkW r s)
  = (mkW r (upd s denom (Some (5 - (n - k) * 4))), RDone).
Proof. intros r s n k Hn Hk B1 B2 B3. assign (sub (K 5) (mul (sub (V move) (V step_no)) (K 4))); try rng. Qed.
Lemma set_step_down : forall r s n k, s move = Some n -> s step_no = Some k -> 0 <= k <= n -> n <= 65535 ->
  do (CAssign step_down (sub (V move) (V step_no))) (mkW r s) = (mkW r (upd s step_down (Some (n - k))), RDone).
Proof. intros r s n k Hn Hk B1 B2. assign (sub (V move) (V step_no)); try rng. Qed.
Lemma set_midpt : forall r s n, s move = Some n -> 1 <= n <= 65535 ->
  do (CAssign midpt (shr (sub (V move) (K 1)) (K 1))) (mkW r s) = (mkW r (upd s midpt (Some ((n - 1) / 2 ^ 1))), RDone).
Proof.
  intros r s n Hn B. assert (0 <= (n - 1) / 2 ^ 1 <= 65535) by (change (2 ^ 1) with 2; split; [apply Z.div_pos; lia|apply Z.div_le_upper_bound; lia]).
  assign (shr (sub (V move) (K 1)) (K 1)); try rng.
Qed.
Lemma set_move_back : forall r s p q, s motor_pos = Some p -> s pos_new = Some q -> -32768 <= p <= 32767 -> -32768 <= q <= 32767 ->
  0 <= p - q <= 32767 ->
  do (CAssign move (sub (V motor_pos) (V pos_new))) (mkW r s) = (mkW r (upd s move (Some (p - q))), RDone).
Proof. intros r s p q Hp Hq B1 B2 B3. assign (sub (V motor_pos) (V pos_new)); try rng. Qed.
Lemma set_move_fore : forall r s p q, s motor_pos = Some p -> s pos_new = Some q -> -32768 <= p <= 32767 -> -32768 <= q <= 32767 ->
  0 <= q - p <= 32767 ->
  do (CAssign move (sub (V pos_new) (V motor_pos))) (mkW r s) = (mkW r (upd s move (Some (q - p))), RDone).
Proof. intros r s p q Hp Hq B1 B2 B3. assign (sub (V pos_new) (V motor_pos)); try rng. Qed.
Lemma set_pos_new : forall r s q, s m = Some q -> -32768 <= q <= 32767 ->
  do (CAssign pos_new (V m)) (mkW r s) = (mkW r (upd s pos_new (Some q)), RDone).
Proof. intros r s q Hq B. assign (V m); try rng. Qed.

(** conditions *)
Lemma cond_mid : forall s a b, s step_no = Some a -> s midpt = Some b -> 0 <= a <= 65535 -> 0 <= b <= 65535 ->
  eval_cond LP64 types s (Cond REq true (V step_no) (V midpt)) = mret (a =? b).
Proof. intros s a b Ha Hb B1 B2. condition s (V step_no) (V midpt); rngs. Qed.
Lemma cond_beyond : forall s a b, s step_no = Some a -> s move = Some b -> 0 <= a <= 65535 -> 0 <= b <= 65535 ->
  eval_cond LP64 types s (Cond RGt true (V step_no) (V move)) = mret (b <? a).
Proof. intros s a b Ha Hb B1 B2. condition s (V step_no) (V move); rngs. Qed.
Lemma cond_last : forall s a b, s step_no = Some a -> s move = Some b -> 0 <= a <= 65535 -> 0 <= b <= 65535 ->
  eval_cond LP64 types s (Cond REq true (V step_no) (sub (V move) (K 1))) = mret (a =? b - 1).
Proof. intros s a b Ha Hb B1 B2. condition s (V step_no) (sub (V move) (K 1)); rngs. Qed.
Lemma cond_denom : forall s a, s denom = Some a -> -32768 <= a <= 32767 ->
  eval_cond LP64 types s (Cond RGt true (V denom) (K 0)) = mret (0 <? a).
Proof. intros s a Ha B. condition s (V denom) (K 0); rngs. Qed.
Lemma cond_least : forall s a, s c = Some a -> 0 <= a <= 2147483647 ->
  eval_cond LP64 types s (Cond RLe true (V c) (K least_delay)) = mret (negb (least_delay <? a)).
Proof. intros s a Ha B. unfold least_delay. condition s (V c) (K 640000); rngs. Qed.
Lemma cond_down : forall s a b, s step_no = Some a -> s step_down = Some b -> 0 <= a <= 65535 -> 0 <= b <= 65535 ->
  eval_cond LP64 types s (Cond REq true (V step_no) (V step_down)) = mret (a =? b).
Proof. intros s a b Ha Hb B1 B2. condition s (V step_no) (V step_down); rngs. Qed.
Lemma cond_back : forall s p q, s motor_pos = Some p -> s pos_new = Some q -> -32768 <= p <= 32767 -> -32768 <= q <= 32767 ->
  eval_cond LP64 types s (Cond RLt true (V pos_new) (V motor_pos)) = mret (q <? p).
Proof. intros s p q Hp Hq B1 B2. condition s (V pos_new) (V motor_pos); rngs. Qed.
Lemma cond_differ : forall s p q, s motor_pos = Some p -> s pos_new = Some q -> -32768 <= p <= 32767 -> -32768 <= q <= 32767 ->
  eval_cond LP64 types s (Cond RNe true (V pos_new) (V motor_pos)) = mret (negb (q =? p)).
Proof. intros s p q Hp Hq B1 B2. condition s (V pos_new) (V motor_pos); rngs. Qed.

Lemma test_even : forall s n, s move = Some n -> 0 <= n <= 65535 ->
  eval_test LP64 types s (TNot (TExpr (band (V move) (K 1)))) = mret (Z.even n).
Proof.
  intros s n Hn B. cbn [eval_test].
  pose proof (land_bounds n 1 ltac:(lia)) as L.
  assert (E : ev s (band (V move) (K 1)) (Z.land n 1)) by (evs; rng).
  let te := eval vm_compute in (type_of LP64 types (band (V move) (K 1))) in
  replace (type_of LP64 types (band (V move) (K 1))) with te by (vm_compute; reflexivity).
  rewrite E, mbind_ret. change 1 with (Z.ones 1) at 1. rewrite Z.land_ones by lia. change (2 ^ 1) with 2.
  rewrite Zmod_even. destruct (Z.even n); reflexivity.
Qed.

(** the compare registers. The declared range of ccpr >> 8 is [0,0], so that the conversion to
    the 8-bit register is not checked *)
Lemma high_unchecked : forall z te, type_of LP64 types (shr (V ccpr) (K 8)) = Some te ->
  run (convert LP64 (types CCPR1H) te z) = mret (conv LP64 UChar z).
Proof. intros z te H. vm_compute in H. injection H as <-. reflexivity. Qed.
Lemma set_high : forall r s a, s ccpr = Some a -> 0 <= a <= 4294967295 ->
  do (CAssign CCPR1H (shr (V ccpr) (K 8))) (mkW r s) = (mkW r (upd s CCPR1H (Some (a / 256 mod 256))), RDone).
Proof.
  intros r s a Ha B. unfold do. cbn [mem exec].
  assert (E : ev s (shr (V ccpr) (K 8)) (a / 2 ^ 8)) by (evs; rng).
  destruct (type_of LP64 types (shr (V ccpr) (K 8))) as [te|] eqn:Te; [|vm_compute in Te; discriminate].
  rewrite E, mbind_ret, (high_unchecked _ _ Te). change (2 ^ 8) with 256. reflexivity.
Qed.
Lemma set_low : forall r s a, s ccpr = Some a -> 0 <= a <= 4294967295 ->
  do (CAssign CCPR1L (band (V ccpr) (K 255))) (mkW r s) = (mkW r (upd s CCPR1L (Some (a mod 256))), RDone).
Proof.
  intros r s a Ha B. replace (a mod 256) with (Z.land a 255) by exact (Z.land_ones a 8 ltac:(lia)).
  pose proof (land_bounds a 255 ltac:(lia)) as L.
  assign (band (V ccpr) (K 255)); try rng.
Qed.
Lemma copy_reg : forall r s v v' a, types v = OSafe uint8 -> types v' = OSafe uint8 -> s v' = Some a -> 0 <= a <= 255 ->
  do (CAssign v (V v')) (mkW r s) = (mkW r (upd s v (Some a)), RDone).
Proof.
  intros r s v v' a T1 T2 Ha B. apply (do_assign r s v (V v') (OSafe uint8) a).
  - cbn [type_of V]. rewrite T2. reflexivity.
  - unfold safe_of. rewrite T1. vm_compute. reflexivity.
  - apply ev_var. assumption.
  - rng.
  - unfold safe_of. rewrite T1. cbn. lia.
Qed.
Lemma do_timer : forall r s a, s ccpr = Some a -> 0 <= a <= 4294967295 ->
  set_timer (mkW r s) = (mkW r (upd (upd (upd (upd s CCPR1H (Some (a / 256 mod 256))) CCPR2H (Some (a / 256 mod 256)))
    CCPR1L (Some (a mod 256))) CCPR2L (Some (a mod 256))), RDone).
Proof.
  intros r s a Ha B. unfold set_timer.
  pose proof (Z.mod_pos_bound a 256 ltac:(lia)). pose proof (Z.mod_pos_bound (a / 256) 256 ltac:(lia)).
  erewrite andthen_done; [|exact (set_high r s a Ha B)].
  erewrite andthen_done; [|apply (copy_reg r _ CCPR2H CCPR1H (a / 256 mod 256)); [reflexivity|reflexivity|look|lia]].
  erewrite andthen_done; [|apply (set_low r _ a); [look|lia]].
  apply (copy_reg r _ CCPR2L CCPR1L (a mod 256)); [reflexivity|reflexivity|look|lia].
Qed.

(** the phases *)
Lemma do_turn_phase : forall r s a b, s phase_ix = Some a -> s phase_inc = Some b -> 0 <= a <= 255 -> 0 <= b <= 255 ->
  turn_phase (mkW r s) = (mkW r (upd s phase_ix (Some ((a + b) mod 4))), RDone).
Proof.
  intros r s a b Ha Hb B1 B2. unfold turn_phase.
  replace ((a + b) mod 4) with (Z.land (a + b) 3) by exact (Z.land_ones (a + b) 2 ltac:(lia)).
  pose proof (land_bounds (a + b) 3 ltac:(lia)) as L.
  assign (band (add (V phase_ix) (V phase_inc)) (K 3)); try rng.
Qed.
Lemma do_lookup : forall r s a, s phase_ix = Some a -> 0 <= a <= 3 -> exists z,
  lookup (mkW r s) = (mkW r (upd s phase (Some z)), RDone) /\ 0 <= z <= 2313
  /\ Z.land z 255 = fst (coils a) /\ z / 2 ^ 8 = snd (coils a).
Proof.
  intros r s a Ha B. unfold lookup. cbn [mem ramp_sts]. rewrite Ha.
  assert (C : a = 0 \/ a = 1 \/ a = 2 \/ a = 3) by lia.
  destruct C as [E|[E|[E|E]]]; rewrite E;
  match goal with |- context [snd ?u] => let z := eval vm_compute in (snd u) in change (snd u) with z end;
  cbv iota beta; match goal with |- context [ccpPhase ?u] => let z := eval vm_compute in (ccpPhase u) in change (ccpPhase u) with z end;
  cbv iota beta; (eexists; split; [reflexivity|]); (split; [lia|split; reflexivity]).
Qed.
Lemma set_con1 : forall r s z, s phase = Some z -> 0 <= z <= 2313 ->
  do (CAssign CCP1CON (band (V phase) (K 255))) (mkW r s) = (mkW r (upd s CCP1CON (Some (Z.land z 255))), RDone).
Proof.
  intros r s z Hz B. pose proof (land_bounds z 255 ltac:(lia)) as L.
  assign (band (V phase) (K 255)); try rng.
Qed.
Lemma set_con2 : forall r s z, s phase = Some z -> 0 <= z <= 2313 ->
  do (CAssign CCP2CON (shr (V phase) (K 8))) (mkW r s) = (mkW r (upd s CCP2CON (Some (z / 2 ^ 8))), RDone).
Proof.
  intros r s z Hz B.
  assert (L : 0 <= z / 2 ^ 8 <= 255) by (change (2 ^ 8) with 256; split; [apply Z.div_pos; lia|apply Z.div_le_upper_bound; lia]).
  assign (shr (V phase) (K 8)); try rng.
Qed.
Lemma do_windings : forall r s a, s phase_ix = Some a -> 0 <= a <= 3 -> exists z1,
  windings (mkW r s) = (mkW r (upd (upd (upd s phase (Some z1)) CCP1CON (Some (fst (coils a)))) CCP2CON (Some (snd (coils a)))), RDone)
  /\ 0 <= z1 <= 65535 /\ 0 <= fst (coils a) <= 255 /\ 0 <= snd (coils a) <= 255.
Proof.
  intros r s a Ha B. unfold windings. destruct (do_lookup r s a Ha B) as (z & E & Bz & Z1 & Z2).
  exists z. rewrite <- Z1, <- Z2.
  pose proof (land_bounds z 255 ltac:(lia)) as L.
  assert (L2 : 0 <= z / 2 ^ 8 <= 255) by (change (2 ^ 8) with 256; split; [apply Z.div_pos; lia|apply Z.div_le_upper_bound; lia]).
  erewrite andthen_done; [|exact E].
  erewrite andthen_done; [|apply (set_con1 r _ z); [look|assumption]].
  split; [apply (set_con2 r _ z); [look|assumption]|lia].
Qed.

(** bits and booleans *)
Lemma do_clear : forall r s, s T1CON = Some 53 ->
  clear_bit T1CON 0 (mkW r s) = (mkW r (upd s T1CON (Some 52)), RDone).
Proof.
  intros r s Hz. unfold clear_bit, do. cbn [mem exec type_of K eval]. rewrite mbind_ret. unfold read.
  rewrite Hz, mbind_ret. reflexivity.
Qed.
Lemma do_set : forall r s, s T1CON = Some 52 ->
  set_bit T1CON 0 (mkW r s) = (mkW r (upd s T1CON (Some 53)), RDone).
Proof.
  intros r s Hz. unfold set_bit, do. cbn [mem exec type_of K eval]. rewrite mbind_ret. unfold read.
  rewrite Hz, mbind_ret. reflexivity.
Qed.
Lemma do_bool : forall r s b, assign_bool run_flg b (mkW r s) = (mkW r (upd s run_flg (Some (Z.b2z b))), RDone).
Proof. intros r s [|]; reflexivity. Qed.
Lemma flag_test : forall b, snd (run (to_bool LP64 (OSafe uint8) (Z.b2z b))) = Ret b.
Proof. intros [|]; reflexivity. Qed.

Lemma set_timer16 : forall r s, s TMR1H = Some 0 -> s TMR1L = Some 0 ->
  do (CAssign ccpr (make16 (V TMR1H) (V TMR1L))) (mkW r s) = (mkW r (upd s ccpr (Some 0)), RDone).
Proof.
  intros r s Hh Hl. unfold do. cbn [mem exec].
  assert (E : eval LP64 types s (make16 (V TMR1H) (V TMR1L)) = mret 0).
  { unfold make16, shl, add, V, K. cbn [eval]. unfold read. rewrite Hh, Hl. reflexivity. }
  rewrite E. reflexivity.
Qed.
