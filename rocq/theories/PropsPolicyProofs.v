(** PropsPolicyProofs.v -- proofs for PropsPolicy.v. *)
From Coq Require Import ZArith Bool List Lia.
From Verif Require Import Base CType Spec CTypeFacts Utility UtilityFacts SafeCompare
  CheckedInteger CheckedIntegerFacts CheckedResultOps CheckedResultFacts Interval IntervalFacts
  IntervalOpsFacts ExceptionPolicy Promotion SafeBase SafeSpec SafeFacts SafeDivFacts SafeShiftFacts
  SafeConvFacts SafeBitFacts SafeTraceFacts SafePortFacts PropsConvProofs.
Import ListNotations.
Local Open Scope Z_scope.

(** C36 *)
Lemma C36_arith : forall op D t u x y s m, op = Add \/ op = Sub \/ op = Mul ->
  wf_operand D t -> wf_operand D u -> holds D t x -> holds D u y -> traps (sE s) ->
  binary D op t u x y = Some (s, m) ->
  wf_operand D (OSafe s) /\ returns m (exact op x y) /\ smin s <= exact op x y <= smax s.
Proof.
  intros op D t u x y s m [-> |[-> | ->]] Ht Hu Hx Hy HE H; cbn [exact].
  - apply (arith_trap Add Z.add D t u x y s m); auto. left; auto.
  - apply (arith_trap Sub Z.sub D t u x y s m); auto. right; left; auto.
  - apply (arith_trap Mul Z.mul D t u x y s m); auto. right; right; auto.
Qed.
Lemma C36_silent : forall op D t u x y s m, traps (sE s) ->
  eval_binop D op t u x y = Some (s, m) -> silent m.
Proof.
  intros [op|b] D t u x y s m HE H; cbn [eval_binop] in H.
  - destruct (binary_trap D op t u x y s m HE H) as (P & ri & _ & _ & _ & _ & _ & _ & ->).
    apply unchecked_silent.
  - destruct (bitwise_inv _ _ _ _ _ _ _ _ H) as (mx & _ & _ & _ & _ & _ & _ & _ & ->).
    left. eexists. reflexivity.
Qed.
Lemma C36_construct : forall D s o x m,
  wf_operand D (OSafe s) -> wf_operand D o -> traps (sE s) -> holds D o x ->
  construct D s o x = Some m -> smin s <= x <= smax s /\ returns m x.
Proof.
  intros D s o x m (W1 & W2 & _) (V1 & V2 & _) HE Hx H. unfold construct in H.
  exact (validate_trap D (st s) (smin s) (smax s) (sE s) (base_ty o) (lim_lo D o) (lim_hi D o) x m
    W1 W2 V1 V2 HE Hx H).
Qed.
Lemma C36_to_builtin : forall D R s x m, in_type D (st s) x -> traps (sE s) ->
  to_builtin D R s x = Some m -> in_type D R x /\ returns m x.
Proof.
  intros D R s x m Hx HE H. unfold to_builtin in H.
  exact (validate_trap D R (lo D R) (hi D R) (sE s) (st s) (lo D (st s)) (hi D (st s)) x m
    (lo_in D R) (hi_in D R) (lo_in D (st s)) (hi_in D (st s)) HE Hx H).
Qed.
Lemma C36_compare : forall D t u x y,
  wf_operand D t -> wf_operand D u -> holds D t x -> holds D u y ->
  (forall E, get_ep t = Some E \/ get_ep u = Some E -> traps E) ->
  (forall m, s_lt D t u x y = Some m -> returns m (x <? y))
  /\ (forall m, s_gt D t u x y = Some m -> returns m (x >? y))
  /\ (forall m, s_le D t u x y = Some m -> returns m (x <=? y))
  /\ (forall m, s_ge D t u x y = Some m -> returns m (x >=? y))
  /\ (forall m, s_eq D t u x y = Some m -> returns m (x =? y))
  /\ (forall m, s_ne D t u x y = Some m -> returns m (negb (x =? y))).
Proof.
  intros D t u x y Ht Hu Hx Hy HE.
  assert (E1 : forall E, common_ep t u = Some E -> traps E)
    by (intros E H; apply HE, common_ep_in; assumption).
  assert (E2 : forall E, common_ep u t = Some E -> traps E)
    by (intros E H; apply HE; apply common_ep_in in H; tauto).
  assert (Gt : x >? y = (y <? x)) by (rewrite Z.gtb_ltb; reflexivity).
  assert (Ge : x >=? y = negb (x <? y)) by (rewrite Z.geb_leb, Z.leb_antisym; reflexivity).
  assert (Le : x <=? y = negb (y <? x)) by (rewrite Z.leb_antisym; reflexivity).
  unfold s_le, s_ge, s_ne, s_gt, s_lt, s_eq. rewrite Gt, Ge, Le.
  splits; intros m H.
  - exact (compare_trap D CLt t u x y m E1 Ht Hu Hx Hy H).
  - exact (compare_trap D CLt u t y x m E2 Hu Ht Hy Hx H).
  - destruct (compare D CLt u t y x) as [m0|] eqn:Hc; [|discriminate]. injection H as <-.
    rewrite (compare_trap D CLt u t y x m0 E2 Hu Ht Hy Hx Hc). reflexivity.
  - destruct (compare D CLt t u x y) as [m0|] eqn:Hc; [|discriminate]. injection H as <-.
    rewrite (compare_trap D CLt t u x y m0 E1 Ht Hu Hx Hy Hc). reflexivity.
  - exact (compare_trap D CEq t u x y m E1 Ht Hu Hx Hy H).
  - destruct (compare D CEq t u x y) as [m0|] eqn:Hc; [|discriminate]. injection H as <-.
    rewrite (compare_trap D CEq t u x y m0 E1 Ht Hu Hx Hy Hc). reflexivity.
Qed.

(** C40 *)
Lemma C40_lp64 : forall D op T U, D = LP64 \/ D = LP64u ->
  op <> PArith Shl -> op <> PArith Shr ->
  width D T >= width D Int \/ csigned D T = true ->
  width D U >= width D Int \/ csigned D U = true ->
  ~ (T = ULong /\ U = LLong) -> ~ (T = LLong /\ U = ULong) ->
  cpp_result D 8 16 (width D Int) (width D Long) (width D LLong) T U = Some (native_result D op T U).
Proof.
  intros D op T U HD H1 H2.
  replace (native_result D op T U) with (uac D T U)
    by (destruct op as [[]| |[]]; try reflexivity; congruence).
  clear H1 H2 op.
  destruct HD as [-> | ->]; destruct T, U; vm_compute; intros HT HU N1 N2;
  first [reflexivity | exfalso; intuition congruence].
Qed.
Lemma C40_signed : forall D op T U, D <> IP16 ->
  op <> PArith Shl -> op <> PArith Shr ->
  In T [SChar; Short; Int; LLong] -> In U [SChar; Short; Int; LLong] ->
  cpp_result D 8 16 (width D Int) (width D Long) (width D LLong) T U = Some (native_result D op T U).
Proof.
  intros D op T U HD H1 H2 HT HU.
  replace (native_result D op T U) with (uac D T U)
    by (destruct op as [[]| |[]]; try reflexivity; congruence).
  clear H1 H2 op. cbn in HT, HU.
  destruct D; try congruence; destruct HT as [<-|[<-|[<-|[<-|[]]]]]; destruct HU as [<-|[<-|[<-|[<-|[]]]]];
  vm_compute; reflexivity.
Qed.

(** C41 *)
Lemma C41_compare : forall D c t u x y m, operand_throws t -> operand_throws u ->
  compare D c t u x y = Some m -> one_report m.
Proof.
  intros D c t u x y m Ht Hu H. apply (compare_one D c t u x y m Ht Hu); [|assumption].
  intros E HE. exact (common_ep_throws t u E Ht Hu HE).
Qed.

(** C42 *)
Lemma C42_action : forall e, make_safe_numerics_action e = class_of e.
Proof. destruct e; reflexivity. Qed.
Lemma C42_lemma : forall e a, e <> precision_overflow_error ->
  (equivalent e a = true <-> class_of e = a).
Proof. intros e a He. destruct e, a; cbn; split; intros; try congruence; reflexivity. Qed.

(** C43 *)
Lemma C43_lemma : forall D op t u x y s m v, op = Add \/ op = Mul \/ op = Div ->
  wf_operand D t -> wf_operand D u -> holds D t x -> holds D u y ->
  binary D op t u x y = Some (s, m) -> sP s = Native -> ignores_arithmetic (sE s) ->
  in_type D (st s) x -> in_type D (st s) y ->
  built_in D op (base_ty t) (base_ty u) x y = Ok v -> snd m = Ret v.
Proof.
  intros D op t u x y s m v [->|[->| ->]] Ht Hu Hx Hy H HP HE Ix Iy Hb.
  - refine (ignore_value D Add Z.add t u x y s m v _ Ht Hu Hx Hy H HP HE Ix Iy _ Hb); [left; auto|left; discriminate].
  - refine (ignore_value D Mul Z.mul t u x y s m v _ Ht Hu Hx Hy H HP HE Ix Iy _ Hb); [right; right; auto|left; discriminate].
  - rewrite (ignore_div D t u x y s m v Ht Hu Hx Hy H HP Ix Iy Hb). reflexivity.
Qed.
Lemma C43_sub : forall D t u x y s m v,
  wf_operand D t -> wf_operand D u -> holds D t x -> holds D u y ->
  binary D Sub t u x y = Some (s, m) -> sP s = Native -> ignores_arithmetic (sE s) ->
  in_type D (st s) x -> in_type D (st s) y -> in_type D (st s) (x - y) ->
  built_in D Sub (base_ty t) (base_ty u) x y = Ok v -> snd m = Ret v.
Proof.
  intros D t u x y s m v Ht Hu Hx Hy H HP HE Ix Iy Is Hb.
  refine (ignore_value D Sub Z.sub t u x y s m v _ Ht Hu Hx Hy H HP HE Ix Iy _ Hb); [right; left; auto|right; assumption].
Qed.

Lemma C43_mod : forall D t u x y s m v,
  wf_operand D t -> wf_operand D u -> holds D t x -> holds D u y ->
  binary D Mod t u x y = Some (s, m) -> sP s = Native ->
  in_type D (st s) x -> in_type D (st s) y ->
  ~ (lo D (st s) < 0 /\ x = lo D (st s) /\ y = lo D (st s)) ->
  built_in D Mod (base_ty t) (base_ty u) x y = Ok v -> snd m = Ret v.
Proof.
  intros D t u x y s m v Ht Hu Hx Hy H HP Ix Iy Hn Hb.
  rewrite (ignore_mod D t u x y s m v Ht Hu Hx Hy H HP Ix Iy Hn Hb). reflexivity.
Qed.

(** C45 *)
Lemma C45_lemma : forall D D' t u t' u' op x y s m, op = Add \/ op = Sub \/ op = Mul ->
  corresponds D D' t t' -> corresponds D D' u u' ->
  wf_operand D t -> wf_operand D u -> wf_operand D' t' -> wf_operand D' u' ->
  holds D t x -> holds D u y ->
  binary D op t u x y = Some (s, m) -> sP s = Automatic -> throws_arithmetic (sE s) ->
  exists s', binary D' op t' u' x y = Some (s', m)
    /\ smin s' = smin s /\ smax s' = smax s
    /\ lo D (st s) = lo D' (st s') /\ hi D (st s) = hi D' (st s').
Proof.
  intros D D' t u t' u' op x y s m Hop Ct Cu Wt Wu Wt' Wu' Hx Hy H HP HE.
  assert (exists f, exact_op op f) as [f Hf].
  { destruct Hop as [->|[->| ->]]; eexists; [left|right; left|right; right]; split; reflexivity. }
  destruct (binary_same D D' t u t' u' Ct Cu Wt Wu Wt' Wu' op f x y s m Hf Hx Hy H HP HE)
    as (s' & A & B & C & [K1 K2] & _). exists s'. auto.
Qed.

(** C47 *)
Lemma C47_lemma : forall D op t u x y s m s' m', op = Add \/ op = Mul ->
  wf_operand D t -> wf_operand D u -> holds D t x -> holds D u y ->
  binary D op t u x y = Some (s, m) -> binary D op u t y x = Some (s', m') ->
  sP s = Native \/ sP s = Automatic -> throws_arithmetic (sE s) ->
  s = s' /\ ((exists v, returns m v /\ returns m' v) \/ (throws_arith m /\ throws_arith m')).
Proof.
  intros D op t u x y s m s' m' Hop Ht Hu Hx Hy H H' HP HE.
  destruct Hop as [->| ->].
  - apply (commute D Add Z.add t u x y s m s' m'); auto; [left; auto|left; auto|intros; lia].
  - apply (commute D Mul Z.mul t u x y s m s' m'); auto; [right; auto|right; right; auto|intros; lia].
Qed.

(** C48 *)
Lemma C48_lemma : forall s,
  match default_ctor s with
  | Some m => fst m = [(act_uninitialized_value, uninitialized_value)]
              /\ (on_uninitialized_value (sE s) = HThrow -> snd m = Throw uninitialized_value)
  | None => on_uninitialized_value (sE s) = HTrap
  end.
Proof.
  intros s. unfold default_ctor, dispatch_compiles, dispatch. cbn [make_safe_numerics_action policy_handler].
  destruct (on_uninitialized_value (sE s)); cbn.
  - auto.
  - split; [reflexivity|intros K; discriminate K].
  - reflexivity.
Qed.

(** C51 *)
Lemma C51_binop : forall op F D t u x y s m s' m' v,
  eval_binop D op t u x y = Some (s, m) ->
  eval_binop D op (with_policy F t) (with_policy F u) x y = Some (s', m') ->
  returns m v -> returns m' v /\ OSafe s' = with_policy F (OSafe s).
Proof.
  intros [op|b] F D t u x y s m s' m' v H H' Hr; cbn [eval_binop] in *.
  - exact (binary_with D op F t u x y s m s' m' v H H' Hr).
  - unfold bitwise in *.
    destruct (bitwise_type D b t u) as [s0|] eqn:Et; [|discriminate].
    assert (Et' : bitwise_type D b (with_policy F t) (with_policy F u)
       = Some (mkSafe (st s0) (smin s0) (smax s0) (sP s0) F)).
    { unfold bitwise_type in *. rewrite common_pp_with.
      destruct (common_pp t u) as [P|]; [|discriminate].
      destruct (common_ep t u) as [E|] eqn:Ec; [|discriminate]. rewrite (common_ep_with F t u E Ec).
      rewrite result_base_type_with, !lim_hi_with.
      destruct (result_base_type D P (PBit b) t u) as [R|]; [|discriminate]. cbv zeta in *.
      destruct (round_out D _ _) as [mx|]; [|discriminate].
      destruct (in_range D R mx); [|discriminate]. injection Et as <-. reflexivity. }
    rewrite Et' in H'. cbn [st] in H'. injection H as <- <-. injection H' as <- <-. auto.
Qed.
Lemma C51_construct : forall F D s o x m m' v,
  construct D s o x = Some m ->
  construct D (mkSafe (st s) (smin s) (smax s) (sP s) F) o x = Some m' ->
  returns m v -> returns m' v.
Proof.
  intros F D s o x m m' v H H' Hr. unfold construct in *. cbn [st smin smax sE] in H'.
  exact (validate_with _ _ _ _ _ _ _ _ _ _ _ _ _ H H' Hr).
Qed.
