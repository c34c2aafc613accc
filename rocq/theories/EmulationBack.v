(** EmulationBack.v -- lemmas for PropsEmulation.v: programs in which every value fits raise nothing on the host. *)
From Coq Require Import ZArith List Bool Arith Lia.
From Verif Require Import Base CType Spec CTypeFacts Utility UtilityFacts SafeCompare
  CheckedInteger CheckedIntegerFacts CheckedResultOps CheckedResultFacts Interval IntervalFacts
  IntervalOpsFacts ExceptionPolicy Promotion SafeBase SafeSpec SafeFacts SafeDivFacts SafeShiftFacts
  SafeConvFacts SafeBitFacts SafeTraceFacts SafePortFacts PropsConvProofs Program ProgramSpec ProgramFacts
  LawFacts MulExactFacts EmulationSpec EmulationFacts EmulationExec.
Import ListNotations.
Local Open Scope Z_scope.

Lemma both_back : forall first ma mb x y, returns ma x -> returns mb y -> returns (both first ma mb) (x, y).
Proof.
  intros first ma mb x y Hx Hy. unfold both. destruct first.
  - rewrite (bind_ret _ _ _ _ _ Hx), (bind_ret _ _ _ _ _ Hy). reflexivity.
  - rewrite (bind_ret _ _ _ _ _ Hy), (bind_ret _ _ _ _ _ Hx). reflexivity.
Qed.
(** more fuel changes nothing *)
Lemma loop_more : forall cnd body body' n n' s r,
  (forall s r, body s = Some r -> body' s = Some r) -> (n <= n')%nat ->
  loop cnd body n s = Some r -> loop cnd body' n' s = Some r.
Proof.
  intros cnd body body' n. induction n as [|n IH]; intros n' s r Hb Hn H; [discriminate|].
  destruct n' as [|n']; [lia|]. cbn [loop] in *. destruct (snd (cnd s)) as [[|]| | |]; try exact H.
  destruct (body s) as [[s1 r1]|] eqn:E; [|discriminate]. rewrite (Hb _ _ E).
  destruct r1; try exact H. apply IH; [exact Hb|lia|exact H].
Qed.
Lemma exec_more : forall c f f' D G s r, (f <= f')%nat -> exec f D G s c = Some r -> exec f' D G s c = Some r.
Proof.
  induction c as [|v|v e|op v e|v|v|inc w v|a IHa b IHb|cd a IHa b IHb|cd a IHa|a IHa b IHb];
    intros f f' D G s r Hf H; cbn [exec] in *; try exact H.
  - destruct (exec f D G s a) as [[s1 r1]|] eqn:E; [|discriminate]. rewrite (IHa _ _ _ _ _ _ Hf E).
    destruct r1; try exact H. exact (IHb _ _ _ _ _ _ Hf H).
  - destruct (snd (eval_cond D G s cd)) as [[|]| | |]; try exact H; [exact (IHa _ _ _ _ _ _ Hf H)|exact (IHb _ _ _ _ _ _ Hf H)].
  - refine (loop_more _ _ _ f f' s r _ Hf H). intros s0 r0 H0. exact (IHa _ _ _ _ _ _ Hf H0).
  - destruct (exec f D G s a) as [[s1 r1]|] eqn:E; [|discriminate]. rewrite (IHa _ _ _ _ _ _ Hf E).
    destruct r1; try exact H. exact (IHb _ _ _ _ _ _ Hf H).
Qed.

(** the result type on the host, without [fair] *)
Lemma host_result : forall D W k l T U R, ordered_widths W -> hosts D W k T -> hosts D W l U ->
  cpp_result D (wchar W) (wshort W) (wint W) (wlong W) (wllong W) T U = Some R -> hosts D W (hcommon W (hpromote W k) (hpromote W l)) R.
Proof.
  intros D W k l T U R O H H' E. unfold cpp_result in E.
  destruct (int_t_exact D (wchar W)) eqn:E1; [|discriminate]. destruct (int_t_exact D (wshort W)) eqn:E2; [|discriminate].
  destruct (int_t_exact D (wint W)) as [li|] eqn:E3; [|discriminate]. destruct (int_t_exact D (wlong W)) eqn:E4; [|discriminate].
  destruct (int_t_exact D (wllong W)) eqn:E5; [|discriminate].
  assert (A : all_exact D W) by (intros []; cbn; eauto).
  exact (common_hosts D W _ _ _ _ R A O (promote_hosts D W k T li A O H E3) (promote_hosts D W l U li A O H' E3) E).
Qed.
Lemma host_widths : forall W k l, ordered_widths W -> ksigned l = true ->
  let h := hcommon W (hpromote W k) (hpromote W l) in
  (if ksigned h then (if ksigned k then kbits W k <= kbits W h else kbits W k < kbits W h) else kbits W k <= kbits W h)
  /\ (if ksigned h then (if ksigned l then kbits W l <= kbits W h else kbits W l < kbits W h) else kbits W l <= kbits W h)
  /\ (ksigned h = true \/ ksigned k = false).
Proof.
  intros W [r s] [r' s'] O S. cbn zeta. cbn [ksigned] in S. subst s'. unfold hcommon, hpromote, kbits, ordered_widths in *. cbn [krank ksigned] in *.
  destruct (Z.ltb_spec (wint W) (tbits W r)), (Z.ltb_spec (wint W) (tbits W r')), s; cbn in *;
    repeat match goal with
           | [ |- context [?a <? ?b] ] => destruct (Z.ltb_spec a b); cbn in *
           | [ |- context [?a <=? ?b] ] => destruct (Z.leb_spec a b); cbn in *
           end; (split; [lia|split; [lia|auto]]).
Qed.

Section Back.
Variables (D : dmodel) (W : widths) (G : tenv) (K : tkinds).
Hypothesis O : ordered_widths W.
Hypothesis HG : forall v, type_ok false D (G v).
Hypothesis HK : forall v, stands_for D W (G v) (K v).
Hypothesis Hw : forall v, whole D (G v).

Lemma kind_holds : forall v z, in_kind W (K v) z -> holds D (G v) z.
Proof. intros v z H. apply Hw. apply (in_kind_type D W (K v)); [apply stands_hosts, HK|exact H]. Qed.

Lemma step_returns : forall v op x m, (op = Add \/ op = Sub) -> (exists r, int_t_exact D (tbits W r) = Some Int) ->
  holds D (G v) x -> in_kind W (K v) (exact op x 1) ->
  compound D (BA op) (G v) (ORaw Int) x 1 = Some m -> returns m (exact op x 1).
Proof.
  intros v op x m Ho (r & Hr) Hx Hz H.
  assert (H1 : holds D (ORaw Int) 1) by (unfold holds; destruct D; vm_compute; split; congruence).
  assert (Hop : op_ok false (BA op)) by (destruct Ho as [-> | ->]; unfold op_ok; auto).
  pose proof (int_raw_ok D) as Ti.
  destruct (compound_parts D (BA op) (G v) (ORaw Int) x 1 m H) as (rs & m0 & c0 & Eb & Ec & ->).
  destruct (op_char false D (BA op) (G v) (ORaw Int) x 1 rs m0 Hop (HG v) Ti Hx H1 Eb) as [T0 C]. cbn [eval_binop] in Eb.
  pose proof (policy_throws false D op (G v) (ORaw Int) x 1 rs m0 (HG v) Ti Eb) as [HE _].
  destruct (binary_inv _ _ _ _ _ _ _ _ Eb) as (P & E & R & ri & P1 & _ & P3 & _ & Es & _).
  assert (EP : P = cpp_of W). { destruct (common_pp_in _ _ _ P1) as [A|A]; [|discriminate]. destruct (proj2 (HK v)); congruence. }
  rewrite EP in P3. cbn [cpp_of result_base_type base_ty] in P3.
  pose proof (stands_hosts _ _ _ _ (HK v)) as Hv.
  assert (HI : hosts D W (TK r true) Int) by (exists Int; split; [exact Hr|reflexivity]).
  pose proof (host_result D W (K v) (TK r true) _ _ R O Hv HI P3) as SR.
  destruct (host_widths W (K v) (TK r true) O eq_refl) as (L1 & L2 & S). cbn zeta in *.
  set (h := hcommon W (hpromote W (K v)) (hpromote W (TK r true))) in *.
  pose proof (kbits_pos D W _ _ Hv) as Q1. pose proof (kbits_pos D W _ _ HI) as Q2.
  pose proof (holds_kind D W (G v) (K v) x (HK v) (proj1 (HG v)) Hx) as Kx.
  assert (S' : forall z, in_kind W (K v) z -> ksigned h = true \/ 0 <= z).
  { intros z Hk. destruct S as [A|A]; [left; exact A|]. right. unfold in_kind in Hk. rewrite A in Hk. lia. }
  assert (F : in_type D (st rs) x /\ in_type D (st rs) 1 /\ in_type D (st rs) (exact op x 1)).
  { replace (st rs) with R by (rewrite Es; reflexivity).
    split; [|split]; apply (in_kind_type D W h R _ SR).
    - apply (kind_keeps W (K v)); auto.
    - apply (kind_keeps W (TK r true)); auto; [|lia]; apply (in_kind_type D W _ Int _ HI); clear; destruct D; vm_compute; split; congruence.
    - apply (kind_keeps W (K v)); auto. }
  pose proof (proj2 (proj1 (C38_exact_lemma op D (G v) (ORaw Int) x 1 rs m0 Ho (proj1 (HG v)) (proj1 Ti) Hx H1 Eb HE)) F) as R0.
  rewrite (bind_ret _ _ _ _ _ R0). destruct (convert_any D (G v) (OSafe rs) 0 (exact op x 1) c0 Ec) as (k & Kk). rewrite Kk. cbn [run].
  apply (convert_keeps false D (G v) (OSafe rs) (exact op x 1) k (HG v) T0); [|apply kind_holds; exact Hz|exact Kk].
  destruct C as [(z & _ & A & B)|T]; [|destruct (returns_not_throws _ _ _ R0 T)].
  assert (z = exact op x 1) by (unfold returns in *; congruence). subst z. exact B.
Qed.
Lemma finish_done : forall (A : Type) s (m : M A) (k : A -> store) a, returns m a -> finish s m k = (k a, RDone).
Proof. intros A s m k a H. unfold returns in H. rewrite H. reflexivity. Qed.
Lemma step_exec : forall op s v i t, (op = Add \/ op = Sub) -> store_ok D G s i -> G v = OSafe t ->
  (exists r, int_t_exact D (tbits W r) = Some Int) -> in_kind W (K v) (exact op (i v) 1) ->
  compound D (BA op) (OSafe t) (ORaw Int) 0 1 <> None ->
  finish s (mbind (read s v) (fun x => run (compound D (BA op) (OSafe t) (ORaw Int) x 1))) (fun z => upd s v (Some z))
  = (upd s v (Some (exact op (i v) 1)), RDone).
Proof.
  intros op s v i t Ho Hs Ev Hr Hz Nc. destruct (Hs v) as [Er Iv]. unfold read. rewrite Er, mbind_ret.
  destruct (compound D (BA op) (OSafe t) (ORaw Int) 0 1) as [m0|] eqn:Ec; [|congruence].
  destruct (compound_any D (BA op) (OSafe t) (ORaw Int) 0 1 (i v) 1 m0 Ec) as (k & Kk). rewrite Kk. cbn [run].
  rewrite <- Ev in Kk. rewrite (finish_done _ s k _ (exact op (i v) 1)); [reflexivity|]. eapply step_returns; eassumption.
Qed.

Lemma back_exec : forall i c' i1, tfits_run W K i c' i1 -> forall c s, cmd_on_host D W G K c c' -> whole_types D W c ->
  compiles D G c = true -> store_ok D G s i ->
  exists fuel s1, exec fuel D G s c = Some (s1, RDone) /\ store_ok D G s1 i1.
Proof.
  intros i c' i1 H. induction H as [i|i v e z He Hz|i a b i1 i2 Ha IHa Hb IHb|i r x y a b w i1 Hc Ha IHa|i r x y a Hc|i r x y a i1 i2 Hc Ha IHa Hb IHb];
    intros c s Hh Hwh Hk Hs.
  - inversion Hh; subst. exists 0%nat, s. split; [reflexivity|exact Hs].
  - assert (Upd : store_ok D G (upd s v (Some z)) (upd i v z)) by (apply store_ok_upd; [exact Hs|apply kind_holds; exact Hz]).
    inversion Hh; subst; cbn [compiles whole_types] in *.
    + destruct (type_of D G e0) as [t|] eqn:Et; [|discriminate].
      destruct (convert D (G v) t 0) as [m0|] eqn:Ec; [|discriminate].
      match goal with A : on_host D W G K e0 _ |- _ =>
        destruct (emu_expr D W G K O HG HK s i Hs e0 _ A t Et) as (Te & Sa & Rz & Fz) end. specialize (Fz Hwh z He).
      destruct Rz as [(z' & Hz' & Iz & _)|T]; [|destruct (returns_not_stops _ _ _ _ Fz T)].
      assert (z' = z) by (unfold returns in *; congruence). subst z'.
      exists 0%nat, (upd s v (Some z)). split; [|exact Upd]. cbn [exec]. rewrite Et.
      rewrite (bind_ret _ _ _ _ _ Fz). destruct (convert_any D (G v) t 0 z m0 Ec) as (k & Kk). rewrite Kk. cbn [run].
      rewrite (finish_done _ s k _ z); [reflexivity|]. eapply (convert_keeps false D (G v) t z k (HG v) Te Iz); [apply kind_holds; exact Hz|exact Kk].
    + destruct (type_of D G e0) as [t|] eqn:Et; [|discriminate].
      destruct (compound D (BA op) (G v) t 0 0) as [m0|] eqn:Ec; [|discriminate].
      inversion He as [| |op' a0 b0 x y Ho Hx Hy Kx Ky N Kz| | | | |]; subst. inversion Hx; subst.
      match goal with A : on_host D W G K e0 _ |- _ =>
        destruct (emu_expr D W G K O HG HK s i Hs e0 _ A t Et) as (Te & Sa & Rz & Fz) end. specialize (Fz Hwh y Hy).
      destruct Rz as [(z' & Hz' & Iz & _)|T]; [|destruct (returns_not_stops _ _ _ _ Fz T)].
      assert (z' = y) by (unfold returns in *; congruence). subst z'.
      exists 0%nat, (upd s v (Some (exact op (i v) y))). split; [|exact Upd]. cbn [exec]. rewrite Et.
      rewrite (bind_ret _ _ _ _ _ Fz). destruct (Hs v) as [Ev Iv]. unfold read. rewrite Ev, mbind_ret.
      destruct (compound_any D (BA op) (G v) t 0 0 (i v) y m0 Ec) as (k & Kk). rewrite Kk. cbn [run].
      rewrite (finish_done _ s k _ (exact op (i v) y)); [reflexivity|].
      match goal with F : fair W (K v) _ |- _ => destruct (emu_compound D W G K O HG HK op v t _ (i v) y k Ho Te Sa F Iv Iz Kk) as [_ B] end.
      apply B; auto. apply kind_holds. exact Hz.
    + destruct (type_of D G e0) as [t|] eqn:Et; [|discriminate].
      destruct (compound D (BB op) (G v) t 0 0) as [m0|] eqn:Ec; [|discriminate].
      inversion He as [| | |op' a0 b0 x y Hx Hy X0 Y0| | | |]; subst. inversion Hx; subst.
      match goal with A : on_host D W G K e0 _ |- _ =>
        destruct (emu_expr D W G K O HG HK s i Hs e0 _ A t Et) as (Te & Sa & Rz & Fz) end. specialize (Fz Hwh y Hy).
      destruct Rz as [(z' & Hz' & Iz & _)|T]; [|destruct (returns_not_stops _ _ _ _ Fz T)].
      assert (z' = y) by (unfold returns in *; congruence). subst z'.
      exists 0%nat, (upd s v (Some (bit_op op (i v) y))). split; [|exact Upd]. cbn [exec]. rewrite Et.
      rewrite (bind_ret _ _ _ _ _ Fz). destruct (Hs v) as [Ev Iv]. unfold read. rewrite Ev, mbind_ret.
      destruct (compound_any D (BB op) (G v) t 0 0 (i v) y m0 Ec) as (k & Kk). rewrite Kk. cbn [run].
      rewrite (finish_done _ s k _ (bit_op op (i v) y)); [reflexivity|].
      match goal with F : fair W (K v) _ |- _ => destruct (emu_compound_bit D W G K O HG HK op v t _ (i v) y k Te Sa F Iv Iz X0 Y0 Kk) as (_ & _ & _ & B) end.
      apply B. apply kind_holds. exact Hz.
    + destruct (type_of D G e0) as [t|] eqn:Et; [|discriminate].
      destruct (compound D (BA Shl) (G v) t 0 0) as [m0|] eqn:Ec; [|discriminate].
      inversion He as [| | | |a0 b0 x y Hx Hy X0 Y0 Kz| | |]; subst. inversion Hx; subst.
      match goal with A : on_host D W G K e0 _ |- _ =>
        destruct (emu_expr D W G K O HG HK s i Hs e0 _ A t Et) as (Te & Sa & Rz & Fz) end. specialize (Fz Hwh y Hy).
      destruct Rz as [(z' & Hz' & Iz & _)|T]; [|destruct (returns_not_stops _ _ _ _ Fz T)].
      assert (z' = y) by (unfold returns in *; congruence). subst z'.
      exists 0%nat, (upd s v (Some (i v * 2 ^ y))). split; [|exact Upd]. cbn [exec]. rewrite Et.
      rewrite (bind_ret _ _ _ _ _ Fz). destruct (Hs v) as [Ev Iv]. unfold read. rewrite Ev, mbind_ret.
      destruct (compound_any D (BA Shl) (G v) t 0 0 (i v) y m0 Ec) as (k & Kk). rewrite Kk. cbn [run].
      rewrite (finish_done _ s k _ (i v * 2 ^ y)); [reflexivity|].
      match goal with F : fair W (K v) _, Sh : shl_host D W G _ _ _ _ |- _ => destruct (emu_compound_shl D W G K O HG HK v e0 (TVar v) t _ (i v) y k Te Sa Et F Sh (fun N => not_neg_value D G s e0 t y N Et Fz Iz) Iv Iz Kk) as (_ & _ & B) end.
      apply B; auto. apply kind_holds. exact Hz.
    + destruct (type_of D G e0) as [t|] eqn:Et; [|discriminate].
      destruct (compound D (BA Shr) (G v) t 0 0) as [m0|] eqn:Ec; [|discriminate].
      inversion He as [| | | | |a0 b0 x y Hx Hy X0 Y0| |]; subst. inversion Hx; subst.
      match goal with A : on_host D W G K e0 _ |- _ =>
        destruct (emu_expr D W G K O HG HK s i Hs e0 _ A t Et) as (Te & Sa & Rz & Fz) end. specialize (Fz Hwh y Hy).
      destruct Rz as [(z' & Hz' & Iz & _)|T]; [|destruct (returns_not_stops _ _ _ _ Fz T)].
      assert (z' = y) by (unfold returns in *; congruence). subst z'.
      exists 0%nat, (upd s v (Some (i v / 2 ^ y))). split; [|exact Upd]. cbn [exec]. rewrite Et.
      rewrite (bind_ret _ _ _ _ _ Fz). destruct (Hs v) as [Ev Iv]. unfold read. rewrite Ev, mbind_ret.
      destruct (compound_any D (BA Shr) (G v) t 0 0 (i v) y m0 Ec) as (k & Kk). rewrite Kk. cbn [run].
      rewrite (finish_done _ s k _ (i v / 2 ^ y)); [reflexivity|].
      match goal with F : fair W (K v) _, Sh : shr_host D W G _ _ _ _ |- _ => destruct (emu_compound_shr D W G K O HG HK v e0 (TVar v) t _ (i v) y k Te Sa Et F Sh Iv Iz Kk) as (_ & _ & B) end.
      apply B; auto. apply kind_holds. exact Hz.
    + inversion He as [| | | | | |a0 b0 x y Hx Hy X0 Y0 N Kq|]; subst. cbn [type_of exec eval] in *.
      destruct (type_of D G a) as [ta|] eqn:Eta; [|discriminate]. destruct (type_of D G b) as [tb|] eqn:Etb; [|discriminate].
      destruct (eval_binop D (BA Mod) ta tb 0 0) as [[rs m0]|] eqn:Ebin; [|discriminate]. cbn [option_map fst] in *.
      destruct (convert D (G v) (OSafe rs) 0) as [c0|] eqn:Ec; [|discriminate]. cbn [whole_casts] in Hwh. destruct Hwh as [Wa Wb].
      match goal with A : on_host D W G K a _, B : on_host D W G K b _ |- _ =>
        destruct (emu_expr D W G K O HG HK s i Hs a _ A ta Eta) as (Ta & Sa & Ra & Fa);
        destruct (emu_expr D W G K O HG HK s i Hs b _ B tb Etb) as (Tb & Sb & Rb & Fb) end.
      specialize (Fa Wa x Hx). specialize (Fb Wb y Hy).
      destruct Ra as [(x' & Hx' & Ix & _)|T]; [|destruct (returns_not_stops _ _ _ _ Fa T)].
      destruct Rb as [(y' & Hy' & Iy & _)|T]; [|destruct (returns_not_stops _ _ _ _ Fb T)].
      assert (x' = x) by (unfold returns in *; congruence). assert (y' = y) by (unfold returns in *; congruence). subst x' y'.
      exists 0%nat, (upd s v (Some (remainder x y))). split; [|exact Upd]. cbn [exec type_of eval]. rewrite ?Eta, ?Etb, ?Ebin. cbn [option_map fst].
      rewrite (bind_ret _ _ _ _ _ (both_back f _ _ x y Fa Fb)). cbn [fst snd].
      destruct (eval_binop_any D (BA Mod) ta tb 0 0 x y rs m0 Ebin) as (k & Kk). rewrite Kk. cbn [run_snd]. cbn [eval_binop] in Kk.
      match goal with F : fair W _ _, Sh : rem_host D W G v a b _ |- _ =>
        destruct (emu_put_rem D W G O HG v a b ta tb _ _ x y rs k c0 Ta Tb Sa Sb F Eta Etb Sh Ix Iy Kk Ec) as [_ B] end.
      rewrite (finish_done _ s _ _ (remainder x y)); [reflexivity|]. apply B; assumption.
    + destruct (type_of D G e0) as [t|] eqn:Et; [|discriminate].
      destruct (compound D (BA Mod) (G v) t 0 0) as [m0|] eqn:Ec; [|discriminate].
      inversion He as [| | | | | |a0 b0 x y Hx Hy X0 Y0 N Kq|]; subst. inversion Hx; subst.
      match goal with A : on_host D W G K e0 _ |- _ =>
        destruct (emu_expr D W G K O HG HK s i Hs e0 _ A t Et) as (Te & Sa & Rz & Fz) end. specialize (Fz Hwh y Hy).
      destruct Rz as [(z' & Hz' & Iz & _)|T]; [|destruct (returns_not_stops _ _ _ _ Fz T)].
      assert (z' = y) by (unfold returns in *; congruence). subst z'.
      exists 0%nat, (upd s v (Some (remainder (i v) y))). split; [|exact Upd]. cbn [exec]. rewrite Et.
      rewrite (bind_ret _ _ _ _ _ Fz). destruct (Hs v) as [Ev Iv]. unfold read. rewrite Ev, mbind_ret.
      destruct (compound_any D (BA Mod) (G v) t 0 0 (i v) y m0 Ec) as (k & Kk). rewrite Kk. cbn [run].
      destruct (compound_parts D (BA Mod) (G v) t (i v) y k Kk) as (rs & m1 & c0 & Eb & Ec' & ->). cbn [eval_binop] in Eb.
      match goal with F : fair W (K v) _, Sh : rem_host D W G v _ _ _ |- _ =>
        destruct (emu_put_rem D W G O HG v (EVar v) e0 (G v) t _ _ (i v) y rs m1 c0 (HG v) Te (HK v) Sa F eq_refl Et Sh Iv Iz Eb Ec') as [_ B] end.
      rewrite (finish_done _ s _ _ (remainder (i v) y)); [reflexivity|]. apply B; assumption.
    + inversion He as [| |op' a0 b0 x y Ho Hx Hy Kx Ky N Kz| | | | |]; subst. inversion Hx; subst. inversion Hy; subst.
      destruct (G v) as [T|t|T N0 P E] eqn:Ev; try discriminate.
      exists 0%nat, (upd s v (Some (exact Add (i v) 1))). split; [|exact Upd]. cbn [exec]. rewrite Ev. unfold increment in *.
      rewrite (step_exec Add s v i t); auto. intros N1. destruct (compound D (BA Add) (OSafe t) (ORaw Int) 0 1); discriminate.
    + inversion He as [| |op' a0 b0 x y Ho Hx Hy Kx Ky N Kz| | | | |]; subst. inversion Hx; subst. inversion Hy; subst.
      destruct (G v) as [T|t|T N0 P E] eqn:Ev; try discriminate.
      exists 0%nat, (upd s v (Some (exact Sub (i v) 1))). split; [|exact Upd]. cbn [exec]. rewrite Ev. unfold decrement in *.
      rewrite (step_exec Sub s v i t); auto. intros N1. destruct (compound D (BA Sub) (OSafe t) (ORaw Int) 0 1); discriminate.
  - inversion Hh; subst. cbn [compiles whole_types] in *. apply andb_prop in Hk. destruct Hk as [K1 K2]. destruct Hwh as [W1 W2].
    match goal with A : cmd_on_host D W G K ?c1 a |- _ => destruct (IHa c1 s A W1 K1 Hs) as (f1 & s1 & E1 & S1) end.
    match goal with A : cmd_on_host D W G K ?c2 b |- _ => destruct (IHb c2 s1 A W2 K2 S1) as (f2 & s2 & E2 & S2) end.
    exists (max f1 f2), s2. split; [|exact S2]. cbn [exec].
    rewrite (exec_more _ f1 (max f1 f2) D G s _ (Nat.le_max_l f1 f2) E1). exact (exec_more _ f2 (max f1 f2) D G s1 _ (Nat.le_max_r f1 f2) E2).
  - inversion Hh; subst. cbn [compiles whole_types] in *. apply andb_prop in Hk. destruct Hk as [Hk K2].
    apply andb_prop in Hk. destruct Hk as [K0 K1]. destruct Hwh as (Wx & Wy & W1 & W2).
    match goal with F : fair W _ _, C : comparable D G ?x0 ?y0 _, A : on_host D W G K ?x0 x, B : on_host D W G K ?y0 y |- context [Cond r ?f0 _ _] =>
      destruct (emu_cond D W G K O HG HK s i r f0 x0 x y0 y Hs A B F C K0) as [_ Rc] end.
    specialize (Rc Wx Wy w Hc). unfold returns in Rc.
    destruct w.
    + match goal with A : cmd_on_host D W G K ?c1 a |- _ => destruct (IHa c1 s A W1 K1 Hs) as (f1 & s1 & E1 & S1) end.
      exists f1, s1. split; [|exact S1]. cbn [exec]. rewrite Rc. exact E1.
    + match goal with A : cmd_on_host D W G K ?c1 b |- _ => destruct (IHa c1 s A W2 K2 Hs) as (f1 & s1 & E1 & S1) end.
      exists f1, s1. split; [|exact S1]. cbn [exec]. rewrite Rc. exact E1.
  - inversion Hh; subst. cbn [compiles whole_types] in *. apply andb_prop in Hk. destruct Hk as [K0 K1]. destruct Hwh as (Wx & Wy & W1).
    match goal with F : fair W _ _, C : comparable D G ?x0 ?y0 _, A : on_host D W G K ?x0 x, B : on_host D W G K ?y0 y |- context [Cond r ?f0 _ _] =>
      destruct (emu_cond D W G K O HG HK s i r f0 x0 x y0 y Hs A B F C K0) as [_ Rc] end.
    specialize (Rc Wx Wy _ Hc). unfold returns in Rc.
    exists 1%nat, s. split; [|exact Hs]. cbn [exec loop]. rewrite Rc. reflexivity.
  - pose proof Hh as Hh'. inversion Hh; subst. pose proof Hwh as Hwh'. pose proof Hk as Hk'.
    cbn [compiles whole_types] in Hwh, Hk. apply andb_prop in Hk. destruct Hk as [K0 K1]. destruct Hwh as (Wx & Wy & W1).
    match goal with F : fair W _ _, C : comparable D G ?x0 ?y0 _, A : on_host D W G K ?x0 x, B : on_host D W G K ?y0 y |- context [Cond r ?f0 _ _] =>
      destruct (emu_cond D W G K O HG HK s i r f0 x0 x y0 y Hs A B F C K0) as [_ Rc] end.
    specialize (Rc Wx Wy _ Hc). unfold returns in Rc.
    match goal with A : cmd_on_host D W G K ?c1 a |- _ => destruct (IHa c1 s A W1 K1 Hs) as (f1 & s1 & E1 & S1) end.
    destruct (IHb _ s1 Hh' Hwh' Hk' S1) as (f2 & s2 & E2 & S2).
    exists (S (max f1 f2)), s2. split; [|exact S2]. cbn [exec] in *. cbn [loop]. rewrite Rc. cbn [snd].
    rewrite (exec_more _ f1 (S (max f1 f2)) D G s _ ltac:(lia) E1).
    refine (loop_more _ _ _ f2 (max f1 f2) s1 _ _ ltac:(lia) E2). intros s0 r0 H0. exact (exec_more _ f2 (S (max f1 f2)) D G s0 _ ltac:(lia) H0).
Qed.
End Back.
Lemma C90_back : forall D W G K c c' s i i1, ordered_widths W ->
  (forall v, type_ok false D (G v)) -> (forall v, stands_for D W (G v) (K v)) -> (forall v, whole D (G v)) ->
  store_ok D G s i -> cmd_on_host D W G K c c' -> whole_types D W c -> compiles D G c = true ->
  tfits_run W K i c' i1 ->
  exists fuel s1, exec fuel D G s c = Some (s1, RDone) /\ forall v, s1 v = Some (i1 v).
Proof.
  intros D W G K c c' s i i1 O HG HK Hw Hs Hc Ht Hk H.
  destruct (back_exec D W G K O HG HK Hw i c' i1 H c s Hc Ht Hk Hs) as (f & s1 & A & B). exists f, s1. split; [exact A|apply B].
Qed.
Lemma C90_negation : exists D W s k rs m, ordered_widths W /\ stands_for D W (OSafe s) k /\ type_ok false D (OSafe s)
  /\ k = TK KInt true /\ unary_minus D s (-32768) = Some (rs, m) /\ returns m 32768
  /\ forall K i z, ~ tevals W K i (TBin Sub (TConst k 0) (TConst k (-32768))) z.
Proof.
  exists LP64, (mkW 8 16 16 32 64), (safe LP64 Short (cpp_of (mkW 8 16 16 32 64)) default_exception_policy), (TK KInt true).
  do 2 eexists. split; [vm_compute; intuition congruence|]. split; [split; [eexists; split; reflexivity|right; reflexivity]|].
  split; [tyok|]. split; [reflexivity|]. split; [vm_compute; reflexivity|]. split; [vm_compute; reflexivity|].
  intros K i z H. inversion H as [| |op a b x y x' y' z' Ho Ha Hb Bx By Nz Bz| | | | |]; subst. inversion Ha; subst. inversion Hb; subst.
  cbn [tkind_of] in *. change (tresult _ _ _) with (TK KInt true) in *.
  assert (x' = 0) by (inversion Bx; [reflexivity|discriminate]). assert (y' = -32768) by (inversion By; [reflexivity|discriminate]). subst.
  inversion Bz as [Hk|]; [|discriminate]. vm_compute in Hk. intuition congruence.
Qed.
Lemma C90_increment : exists D W s k m, ordered_widths W /\ stands_for D W (OSafe s) k /\ type_ok false D (OSafe s)
  /\ holds D (OSafe s) (2 ^ 40) /\ increment D s (2 ^ 40) = Some m /\ throws_arith m
  /\ (forall K i, tfits W K i (TBin Add (TConst k (2 ^ 40)) (TConst (TK KInt true) 1)) (2 ^ 40 + 1)) /\ in_kind W k (2 ^ 40 + 1).
Proof.
  exists LP64, (mkW 8 16 16 64 64), (safe LP64 Long (cpp_of (mkW 8 16 16 64 64)) default_exception_policy), (TK KLong true).
  eexists. split; [vm_compute; intuition congruence|]. split; [split; [eexists; split; reflexivity|right; reflexivity]|].
  split; [tyok|]. split; [vm_compute; split; congruence|]. split; [vm_compute; reflexivity|].
  split; [eexists; split; [|reflexivity]; vm_compute; tauto|]. split; [|vm_compute; split; congruence].
  intros K i. refine (TF_bin _ K i Add (TConst (TK KLong true) (2 ^ 40)) (TConst (TK KInt true) 1) (2 ^ 40) 1 _ _ _ _ _ _ _).
  - unfold four; auto.
  - constructor. vm_compute. split; congruence.
  - constructor. vm_compute. split; congruence.
  - vm_compute. split; congruence.
  - vm_compute. split; congruence.
  - discriminate.
  - vm_compute. split; congruence.
Qed.
Lemma C90_literal : exists D W t k s m, ordered_widths W /\ stands_for D W t k /\ type_ok false D t /\ fair W k (TK KInt true)
  /\ binary D Sub t (ORaw Int) 0 1 = Some (s, m) /\ returns m (-1)
  /\ forall K i z, tevals W K i (TBin Sub (TConst k 0) (TConst (TK KInt true) 1)) z -> z = 65535.
Proof.
  exists LP64, (mkW 8 16 16 16 32), (OSafe (safe LP64 UShort (cpp_of (mkW 8 16 16 16 32)) default_exception_policy)), (TK KInt false).
  do 2 eexists. split; [vm_compute; intuition congruence|]. split; [split; [eexists; split; reflexivity|right; reflexivity]|].
  split; [tyok|]. split; [intros _; left; reflexivity|]. split; [vm_compute; reflexivity|]. split; [vm_compute; reflexivity|].
  intros K i z H. inversion H as [| |op a b x y x' y' z' Ho Ha Hb Bx By Nz Bz| | | | |]; subst. inversion Ha; subst. inversion Hb; subst.
  cbn [tkind_of] in *. change (tresult _ _ _) with (TK KInt false) in *.
  assert (x' = 0) by (inversion Bx; reflexivity). assert (y' = 1) by (inversion By; reflexivity). subst.
  inversion Bz as [Hk|]; [vm_compute in Hk; intuition congruence|reflexivity].
Qed.
