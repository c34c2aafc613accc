(** ChainFacts.v -- proofs about ChainProgram.v. *)
From Coq Require Import ZArith Bool List Lia Arith.
From Verif Require Import Base CType Spec IntervalFacts ExceptionPolicy Promotion SafeBase SafeSpec SafeFacts SafePortFacts SafeTraceFacts PropsConvProofs
  Program ProgramSpec ProgramFacts ComposeSpec ComposeFacts BuiltinSpec BuiltinFacts ChainProgram ChainSpec.
Import ListNotations.
Local Open Scope Z_scope.

(** the two operands, in exact arithmetic: the variables and the value of the right one *)
Definition chain_pair (first : bool) (l r : asg) (i : nat -> Z) : option ((nat -> Z) * Z) :=
  match (if first then chain l i else chain r i) with
  | None => None
  | Some (i1, z1) =>
      match (if first then chain r i1 else chain l i1) with
      | Some (i2, z2) => Some (i2, if first then z2 else z1)
      | None => None
      end
  end.
Lemma chain_set : forall first l r i, chain (LSet first l r) i =
  match chain_pair first l r i, denotes_var l with
  | Some (i2, z), Some v => Some (upd i2 v z, z)
  | _, _ => None
  end.
Proof.
  intros. cbn [chain]. unfold chain_pair.
  destruct (if first then chain l i else chain r i) as [[i1 z1]|]; [|reflexivity].
  destruct (if first then chain r i1 else chain l i1) as [[i2 z2]|]; [|reflexivity]. reflexivity.
Qed.
Lemma chain_op : forall op first l r i, chain (LOp op first l r) i =
  match chain_pair first l r i, denotes_var l with
  | Some (i2, y), Some v => match math_op op (i2 v) y with Some z => Some (upd i2 v z, z) | None => None end
  | _, _ => None
  end.
Proof.
  intros. cbn [chain]. unfold chain_pair.
  destruct (if first then chain l i else chain r i) as [[i1 z1]|]; [|reflexivity].
  destruct (if first then chain r i1 else chain l i1) as [[i2 z2]|]; [|reflexivity]. reflexivity.
Qed.

Definition finished (D : dmodel) (G : tenv) (l : asg) (t : otype) (i : nat -> Z) (s' : store) (p : place)
  (i' : nat -> Z) (z : Z) : Prop :=
  chain l i = Some (i', z) /\ store_ok D G s' i' /\ content s' p = ([], Ret z) /\ holds D t z
  /\ (forall v, p = PVar v -> denotes_var l = Some v)
  /\ (still_object l = true -> exists v, denotes_var l = Some v /\ p = PVar v /\ t = G v /\ i' v = z)
  /\ (forall w, ~ chain_writes l w -> i' w = i w).
Definition stopped (errP : err -> Prop) (D : dmodel) (G : tenv) (l : asg) (i : nat -> Z) (s' : store) (e : err) : Prop :=
  errP e /\ exists i', store_ok D G s' i' /\ chain_stops l i i'.
Definition outcome_ok (tyP : otype -> Prop) (errP : err -> Prop) (D : dmodel) (G : tenv) (l : asg) (t : otype) (i : nat -> Z) (s' : store) (o : aout) : Prop :=
  tyP t
  /\ ((exists p i' z, o = APlace p /\ finished D G l t i s' p i' z)
      \/ exists e, o = AStop (RRaised e) /\ stopped errP D G l i s' e).

Lemma content_temp : forall D G s p z s' i i' w, content s p = ([], Ret z) -> store_ok D G s i -> store_ok D G s' i' ->
  (p = PVar w -> i' w = i w) -> (forall v, p = PVar v -> v = w) -> content s' p = ([], Ret z).
Proof.
  intros D G s p z s' i i' w H Hs Hs' Hw Hv. destruct p as [v|y]; [|exact H].
  rewrite (Hv v eq_refl) in *. cbn [content] in *. unfold read in *.
  destruct (Hs w) as [A _]. destruct (Hs' w) as [B _]. rewrite A in H. rewrite B, (Hw eq_refl). exact H.
Qed.

(** both operands *)
Lemma operands_char : forall tyP errP D G l r t u first s i k s' o,
  (forall s i s' o, store_ok D G s i -> asg_eval D G l s = (s', o) -> outcome_ok tyP errP D G l t i s' o) ->
  (forall s i s' o, store_ok D G s i -> asg_eval D G r s = (s', o) -> outcome_ok tyP errP D G r u i s' o) ->
  (first = false -> forall v, denotes_var r = Some v -> ~ chain_writes l v) ->
  still_object l = true -> store_ok D G s i ->
  operands first (asg_eval D G l) (asg_eval D G r) s k = (s', o) ->
  (exists e i', o = AStop (RRaised e) /\ errP e /\ store_ok D G s' i'
     /\ ((if first then chain_stops l i i' else chain_stops r i i')
        \/ (exists i1 z1, (if first then chain l i else chain r i) = Some (i1, z1)
            /\ (if first then chain_stops r i1 i' else chain_stops l i1 i'))))
  \/ (exists s2 i2 v q y, k s2 (PVar v) q = (s', o) /\ store_ok D G s2 i2 /\ chain_pair first l r i = Some (i2, y)
     /\ denotes_var l = Some v /\ t = G v /\ content s2 q = ([], Ret y) /\ holds D u y
     /\ (exists i1 z1, (if first then chain l i else chain r i) = Some (i1, z1)
          /\ exists z2, (if first then chain r i1 else chain l i1) = Some (i2, z2))
     /\ forall w, ~ chain_writes l w -> ~ chain_writes r w -> i2 w = i w).
Proof.
  intros tyP errP D G l r t u first s i k s' o Hl Hr Hcalm Hobj Hs H. unfold operands in H. destruct first.
  - destruct (asg_eval D G l s) as [s1 o1] eqn:E1.
    destruct (Hl s i s1 o1 Hs E1) as [Tt [(p & i1 & z1 & -> & C1 & S1 & P1 & I1 & V1 & O1 & F1)|(e & -> & Ae & i' & S1 & St)]].
    2:{ injection H as <- <-. left. exists e, i'. splits; auto. }
    destruct (O1 Hobj) as (v & Dv & -> & Tv & _).
    destruct (asg_eval D G r s1) as [s2 o2] eqn:E2.
    destruct (Hr s1 i1 s2 o2 S1 E2) as [Tu [(q & i2 & z2 & -> & C2 & S2 & P2 & I2 & V2 & O2 & F2)|(e & -> & Ae & i' & S2 & St)]].
    2:{ injection H as <- <-. left. exists e, i'. splits; auto. right. exists i1, z1. auto. }
    right. exists s2, i2, v, q, z2. splits; auto.
    + unfold chain_pair. rewrite C1, C2. reflexivity.
    + exists i1, z1. split; [assumption|]. exists z2. assumption.
    + intros w Wl Wr. rewrite (F2 w Wr). auto.
  - destruct (asg_eval D G r s) as [s1 o1] eqn:E1.
    destruct (Hr s i s1 o1 Hs E1) as [Tu [(q & i1 & z1 & -> & C1 & S1 & P1 & I1 & V1 & O1 & F1)|(e & -> & Ae & i' & S1 & St)]].
    2:{ injection H as <- <-. left. exists e, i'. splits; auto. }
    destruct (asg_eval D G l s1) as [s2 o2] eqn:E2.
    destruct (Hl s1 i1 s2 o2 S1 E2) as [Tt [(p & i2 & z2 & -> & C2 & S2 & P2 & I2 & V2 & O2 & F2)|(e & -> & Ae & i' & S2 & St)]].
    2:{ injection H as <- <-. left. exists e, i'. splits; auto. right. exists i1, z1. auto. }
    destruct (O2 Hobj) as (v & Dv & -> & Tv & _).
    right. exists s2, i2, v, q, z1. splits; auto.
    + unfold chain_pair. rewrite C1, C2. reflexivity.
    + destruct q as [w|y]; [|exact P1].
      apply (content_temp D G s1 (PVar w) z1 s2 i1 i2 w P1 S1 S2); [|intros ? K; injection K; auto].
      intros _. apply F2. apply Hcalm; auto.
    + exists i1, z1. split; [assumption|]. exists z2. assumption.
    + intros w Wl Wr. rewrite (F2 w Wl). auto.
Qed.

Lemma upd_same : forall (A : Type) (f : nat -> A) v z, upd f v z v = z.
Proof. intros. unfold upd. rewrite Nat.eqb_refl. reflexivity. Qed.
Lemma upd_other : forall (A : Type) (f : nat -> A) v z w, v <> w -> upd f v z w = f w.
Proof. intros. unfold upd. destruct (Nat.eqb_spec w v); congruence. Qed.

Lemma content_var : forall D G s i v, store_ok D G s i -> content s (PVar v) = ([], Ret (i v)).
Proof. intros D G s i v H. cbn. unfold read. destruct (H v) as [-> _]. reflexivity. Qed.

Lemma step_char : forall n D t inc x m, type_ok n D (OSafe t) -> holds D (OSafe t) x -> step_of D inc t x = Some m ->
  (returns m (if inc then x + 1 else x - 1) /\ holds D (OSafe t) (if inc then x + 1 else x - 1)) \/ throws_arith m.
Proof.
  intros n D t inc x m (W & P & _) Hx H. unfold step_of in H. destruct inc.
  - destruct (C32_increment D t x m W Hx (P _ eq_refl) H) as [[A B]|T]; auto.
  - destruct (C32_decrement D t x m W Hx (P _ eq_refl) H) as [[A B]|T]; auto.
Qed.
Lemma step_any : forall D t inc x y m, step_of D inc t x = Some m -> exists k, step_of D inc t y = Some k.
Proof.
  intros D t inc x y m H. unfold step_of, increment, decrement in *.
  destruct inc; eapply compound_any; eassumption.
Qed.

(** the conditions, with those on operators and expressions as parameters *)
Fixpoint asg_gen (pureP : expr -> Prop) (opP : binop -> otype -> otype -> Prop) (D : dmodel) (G : tenv) (l : asg) : Prop :=
  match l with
  | LVar _ => True
  | LPure e => pureP e
  | LSet _ l r => asg_gen pureP opP D G l /\ asg_gen pureP opP D G r
  | LOp op _ l r =>
      (forall t u, asg_type D G l = Some t -> asg_type D G r = Some u -> opP op t u)
      /\ asg_gen pureP opP D G l /\ asg_gen pureP opP D G r
  | LStep _ l => asg_gen pureP opP D G l
  end.
Definition throwsP (errP : err -> Prop) {A : Type} (m : M A) : Prop :=
  exists e a, errP e /\ m = ([(a, e)], Throw e).

Lemma chain_gen : forall (tyP : otype -> Prop) (errP : err -> Prop) (pureP : expr -> Prop) (opP : binop -> otype -> otype -> Prop) D G, (forall v, tyP (G v)) ->
  (forall s i e t, store_ok D G s i -> pureP e -> type_of D G e = Some t ->
     tyP t /\ ((exists z, value i e = Some z /\ returns (eval D G s e) z /\ holds D t z) \/ throwsP errP (eval D G s e))) ->
  (forall t u x m, tyP t -> tyP u -> holds D u x -> convert D t u x = Some m ->
     (holds D t x /\ returns m x) \/ throwsP errP m) ->
  (forall op t u x y m, opP op t u -> tyP t -> tyP u -> holds D t x -> holds D u y -> compound D op t u x y = Some m ->
     (exists z, math_op op x y = Some z /\ returns m z /\ holds D t z) \/ throwsP errP m) ->
  (forall t inc x m, tyP (OSafe t) -> holds D (OSafe t) x -> step_of D inc t x = Some m ->
     (returns m (if inc then x + 1 else x - 1) /\ holds D (OSafe t) (if inc then x + 1 else x - 1)) \/ throwsP errP m) ->
  forall l t s i s' o, asg_gen pureP opP D G l -> asg_type D G l = Some t -> keeps_targets l -> calm l ->
  store_ok D G s i -> asg_eval D G l s = (s', o) -> outcome_ok tyP errP D G l t i s' o.
Proof.
  intros tyP errP pureP opP D G HG Hpure Hconv Hcomp Hstep. induction l as [v|e|first l IHl r IHr|op first l IHl r IHr|inc l IHl];
  intros t s i s' o Hok Ht Hk Hc Hs H; cbn [asg_gen asg_type keeps_targets calm asg_eval] in *.
  - injection Ht as <-. injection H as <- <-. split; [apply HG|]. left. exists (PVar v), i, (i v).
    split; [reflexivity|]. unfold finished. splits; auto; try apply (proj2 (Hs v)).
    + apply (content_var D G). assumption.
    + intros w K. injection K as <-. reflexivity.
    + intros _. exists v. auto.
  - destruct (Hpure s i e t Hs Hok Ht) as [Te [(z & Vz & Rz & Iz)|(er & ac & Ae & T)]]; (split; [assumption|]).
    + rewrite Rz in H. cbn in H. injection H as <- <-. left. exists (PTemp z), i, z.
      split; [reflexivity|]. unfold finished. splits; auto.
      * cbn [chain]. rewrite Vz. reflexivity.
      * intros v K. discriminate.
      * intros K. discriminate.
    + rewrite T in H. cbn in H. injection H as <- <-. right. exists er. split; [reflexivity|].
      split; [assumption|]. exists i. split; [assumption|reflexivity].
  - destruct Hok as [Ol Or]. destruct Hk as (Hobj & Kl & Kr). destruct Hc as (Hcalm & Cl & Cr).
    destruct (asg_type D G l) as [tl|] eqn:El; [|discriminate]. destruct (asg_type D G r) as [u|] eqn:Er; [|discriminate].
    destruct (lvalue l || is_safe tl); [|discriminate].
    destruct (convert D tl u 0) as [m0|] eqn:Ec; [|discriminate]. injection Ht as <-.
    assert (TT : tyP tl /\ tyP u).
    { destruct (asg_eval D G l s) as [sa oa] eqn:Ea. destruct (asg_eval D G r s) as [sb ob] eqn:Eb.
      split; [exact (proj1 (IHl tl s i sa oa Ol eq_refl Kl Cl Hs Ea))|exact (proj1 (IHr u s i sb ob Or eq_refl Kr Cr Hs Eb))]. }
    destruct TT as [Ttl Tu]. split; [assumption|].
    destruct (operands_char tyP errP D G l r tl u first s i _ s' o
      (fun s i s' o Hs He => IHl tl s i s' o Ol eq_refl Kl Cl Hs He)
      (fun s i s' o Hs He => IHr u s i s' o Or eq_refl Kr Cr Hs He) Hcalm Hobj Hs H)
      as [(e & i' & -> & Ae & S' & St)|(s2 & i2 & v & q & y & Hw & S2 & Cp & Dv & -> & Cq & Iy & Mid & Fr)].
    + right. exists e. split; [reflexivity|]. split; [assumption|]. exists i'. split; [assumption|].
      cbn [chain_stops]. destruct St as [St|(i1 & z1 & C1 & St)]; [auto|right]. exists i1, z1. auto.
    + rewrite (bind_ret _ _ _ _ _ Cq) in Hw. destruct (convert_any D (G v) u 0 y m0 Ec) as (k & K). rewrite K in Hw. cbn [run] in Hw.
      destruct (Hconv (G v) u y k (HG v) Tu Iy K) as [[A ->]|(e & ac & Ae & ->)]; cbn in Hw; injection Hw as <- <-.
      * left. exists (PVar v), (upd i2 v y), y. split; [reflexivity|]. unfold finished. splits; auto using store_ok_upd.
        -- rewrite chain_set, Cp, Dv. reflexivity.
        -- cbn. unfold read. rewrite upd_same. reflexivity.
        -- intros w E. injection E as <-. exact Dv.
        -- intros _. exists v. splits; auto. apply upd_same.
        -- intros w Nw. cbn [chain_writes] in Nw. rewrite upd_other by (intros ->; auto). apply Fr; auto.
      * right. exists e. split; [reflexivity|]. split; [assumption|]. exists i2. split; [assumption|].
        cbn [chain_stops]. right. destruct Mid as (i1 & z1 & C1 & z2 & C2). exists i1, z1. split; [assumption|]. right. exists z2. assumption.
  - destruct Hok as (Hop & Ol & Or). destruct Hk as (Hobj & Kl & Kr). destruct Hc as (Hcalm & Cl & Cr).
    destruct (asg_type D G l) as [tl|] eqn:El; [|discriminate]. destruct (asg_type D G r) as [u|] eqn:Er; [|discriminate].
    destruct (lvalue l); [|discriminate].
    destruct (compound D op tl u 0 0) as [m0|] eqn:Ec; [|discriminate]. injection Ht as <-.
    assert (TT : tyP tl /\ tyP u).
    { destruct (asg_eval D G l s) as [sa oa] eqn:Ea. destruct (asg_eval D G r s) as [sb ob] eqn:Eb.
      split; [exact (proj1 (IHl tl s i sa oa Ol eq_refl Kl Cl Hs Ea))|exact (proj1 (IHr u s i sb ob Or eq_refl Kr Cr Hs Eb))]. }
    destruct TT as [Ttl Tu]. split; [assumption|].
    destruct (operands_char tyP errP D G l r tl u first s i _ s' o
      (fun s i s' o Hs He => IHl tl s i s' o Ol eq_refl Kl Cl Hs He)
      (fun s i s' o Hs He => IHr u s i s' o Or eq_refl Kr Cr Hs He) Hcalm Hobj Hs H)
      as [(e & i' & -> & Ae & S' & St)|(s2 & i2 & v & q & y & Hw & S2 & Cp & Dv & -> & Cq & Iy & Mid & Fr)].
    + right. exists e. split; [reflexivity|]. split; [assumption|]. exists i'. split; [assumption|].
      cbn [chain_stops]. destruct St as [St|(i1 & z1 & C1 & St)]; [auto|right]. exists i1, z1. auto.
    + rewrite (bind_ret _ _ _ _ _ Cq) in Hw.
      rewrite (bind_ret _ _ _ _ _ (content_var D G s2 i2 v S2)) in Hw.
      destruct (compound_any D op (G v) u 0 0 (i2 v) y m0 Ec) as (k & K). rewrite K in Hw. cbn [run] in Hw.
      destruct (Hcomp op (G v) u (i2 v) y k (Hop _ _ eq_refl eq_refl) (HG v) Tu (proj2 (S2 v)) Iy K)
        as [(z & M1 & -> & A)|(e & ac & Ae & ->)]; cbn in Hw; injection Hw as <- <-.
      * left. exists (PTemp z), (upd i2 v z), z. split; [reflexivity|]. unfold finished. splits; auto using store_ok_upd.
        -- rewrite chain_op, Cp, Dv, M1. reflexivity.
        -- intros w E. discriminate.
        -- intros E. discriminate.
        -- intros w Nw. cbn [chain_writes] in Nw. rewrite upd_other by (intros ->; auto). apply Fr; auto.
      * right. exists e. split; [reflexivity|]. split; [assumption|]. exists i2. split; [assumption|].
        cbn [chain_stops]. right. destruct Mid as (i1 & z1 & C1 & z2 & C2). exists i1, z1. split; [assumption|]. right. exists z2. assumption.
  - destruct Hk as [Hobj Kl].
    destruct (asg_type D G l) as [[T|ts|T N P E]|] eqn:El; try discriminate.
    destruct (step_of D inc ts 0) as [m0|] eqn:Ec; [|discriminate]. injection Ht as <-.
    destruct (asg_eval D G l s) as [s1 o1] eqn:E1.
    destruct (IHl _ s i s1 o1 Hok eq_refl Kl Hc Hs E1)
      as [Tt [(p & i1 & z1 & -> & C1 & S1 & P1 & I1 & V1 & O1 & F1)|(e & -> & Ae & i' & S1 & St)]]; (split; [assumption|]).
    2:{ injection H as <- <-. right. exists e. split; [reflexivity|]. split; [assumption|]. exists i'. split; [assumption|].
        cbn [chain_stops]. auto. }
    destruct (O1 Hobj) as (v & Dv & -> & Tv & Ez). subst z1.
    rewrite (bind_ret _ _ _ _ _ P1) in H. destruct (step_any D ts inc 0 (i1 v) m0 Ec) as (k & K). rewrite K in H. cbn [run] in H.
    destruct (Hstep ts inc (i1 v) k Tt I1 K) as [[-> A]|(e & ac & Ae & ->)]; cbn in H; injection H as <- <-.
    + left. exists (PVar v), (upd i1 v (if inc then i1 v + 1 else i1 v - 1)), (if inc then i1 v + 1 else i1 v - 1).
      split; [reflexivity|]. unfold finished. splits; auto.
      * cbn [chain]. rewrite C1, Dv. reflexivity.
      * apply store_ok_upd; [assumption|]. rewrite <- Tv. exact A.
      * cbn. unfold read. rewrite upd_same. reflexivity.
      * intros _. exists v. splits; auto. apply upd_same.
      * intros w Nw. cbn [chain_writes] in Nw. rewrite upd_other by (intros ->; auto). apply F1; auto.
    + right. exists e. split; [reflexivity|]. split; [assumption|]. exists i1. split; [assumption|].
      cbn [chain_stops]. right. exists (i1 v). assumption.
Qed.

Lemma arith_throwsP : forall A (m : M A), throws_arith m -> throwsP arithmetic_err m.
Proof. intros A m (e & H & K). exists e, arithmetic_error. auto. Qed.
Lemma fails_throwsP : forall A (m : M A), fails m -> throwsP (fun e => arithmetic_err e \/ shift_err e) m.
Proof.
  intros A m [(e & H & K)|(e & H & K)]; [exists e, arithmetic_error|exists e, implementation_defined_behavior]; auto.
Qed.

Lemma asg_ok_gen : forall n D G l, asg_ok n D l -> asg_gen (expr_ok n D) (fun op _ _ => op_ok n op) D G l.
Proof. induction l; cbn [asg_ok asg_gen]; intuition auto. Qed.
Lemma asg_fine_gen : forall n D G l, asg_fine n D G l ->
  asg_gen (expr_fine n D G None) (fun op t u => operator_fine n D (Some t) op t u) D G l.
Proof. induction l; cbn [asg_fine asg_gen]; intuition auto. Qed.

Lemma chain_char : forall n D G l t s i s' o, (forall v, type_ok n D (G v)) -> asg_ok n D l ->
  asg_type D G l = Some t -> keeps_targets l -> calm l ->
  store_ok D G s i -> asg_eval D G l s = (s', o) ->
  outcome_ok (type_ok n D) arithmetic_err D G l t i s' o.
Proof.
  intros n D G l t s i s' o HG Hok Ht Hk Hc Hs H.
  refine (chain_gen (type_ok n D) arithmetic_err (expr_ok n D) (fun op _ _ => op_ok n op) D G HG _ _ _ _
            l t s i s' o (asg_ok_gen n D G l Hok) Ht Hk Hc Hs H).
  - intros s0 i0 e t0 Hs0 He Et. destruct (expr_char n D G s0 i0 e t0 HG Hs0 He Et) as [A [B|B]]; auto using arith_throwsP.
  - intros t0 u x m Tt Tu Hx Hm. destruct (convert_char n D t0 u x m Tt Tu Hx Hm) as [A|A]; auto using arith_throwsP.
  - intros op t0 u x y m Ho Tt Tu Hx Hy Hm.
    destruct (compound_char n D op t0 u x y m Ho Tt Tu Hx Hy Hm) as [A|A]; auto using arith_throwsP.
  - intros t0 inc x m Tt Hx Hm. destruct (step_char n D t0 inc x m Tt Hx Hm) as [A|A]; auto using arith_throwsP.
Qed.
Lemma chain_char2 : forall n D G l t s i s' o, (forall v, type_fine n D (G v)) -> asg_fine n D G l ->
  asg_type D G l = Some t -> keeps_targets l -> calm l ->
  store_ok D G s i -> asg_eval D G l s = (s', o) ->
  outcome_ok (type_fine n D) (fun e => arithmetic_err e \/ shift_err e) D G l t i s' o.
Proof.
  intros n D G l t s i s' o HG Hok Ht Hk Hc Hs H.
  assert (AA : forall A (m : M A), throws_arith m -> throwsP (fun e => arithmetic_err e \/ shift_err e) m)
    by (intros A m K; apply fails_throwsP; left; exact K).
  refine (chain_gen (type_fine n D) (fun e => arithmetic_err e \/ shift_err e) (expr_fine n D G None)
            (fun op t u => operator_fine n D (Some t) op t u) D G HG _ _ _ _
            l t s i s' o (asg_fine_gen n D G l Hok) Ht Hk Hc Hs H).
  - intros s0 i0 e t0 Hs0 He Et.
    destruct (outcome_none n D t0 _ _ (expr_char2 n D G s0 i0 e None t0 HG Hs0 He Et)) as [A [B|B]];
    auto using fails_throwsP.
  - intros t0 u x m [Tt _] [Tu _] Hx Hm. destruct (convert_char n D t0 u x m Tt Tu Hx Hm) as [A|A]; auto.
  - intros op t0 u x y m Ho Tt Tu Hx Hy Hm.
    destruct (compound_char2 n D op t0 u x y m Ho Tt Tu Hx Hy Hm) as [A|A]; auto using fails_throwsP.
  - intros t0 inc x m [Tt _] Hx Hm. destruct (step_char n D t0 inc x m Tt Hx Hm) as [A|A]; auto.
Qed.

(** ------------------------------------------------------------------ *)
(** C99 *)
Lemma C99_chain : forall n D G l t s i s' o, (forall v, type_ok n D (G v)) -> store_ok D G s i -> asg_ok n D l ->
  asg_type D G l = Some t -> keeps_targets l -> calm l -> asg_eval D G l s = (s', o) ->
  (exists p i' z, o = APlace p /\ chain l i = Some (i', z) /\ store_ok D G s' i' /\ returns (content s' p) z /\ holds D t z
      /\ (still_object l = true -> exists v, denotes_var l = Some v /\ p = PVar v))
  \/ (exists e i', o = AStop (RRaised e) /\ arithmetic_err e /\ chain_stops l i i' /\ store_ok D G s' i').
Proof.
  intros n D G l t s i s' o HG Hs Hok Ht Hk Hc H.
  destruct (chain_char n D G l t s i s' o HG Hok Ht Hk Hc Hs H)
    as [_ [(p & i' & z & -> & C & S & P & I & _ & O & _)|(e & -> & A & i' & S & St)]].
  - left. exists p, i', z. splits; auto. intros K. destruct (O K) as (v & A & B & _). exists v. auto.
  - right. exists e, i'. splits; auto.
Qed.
Lemma C99_chain2 : forall n D G l t s i s' o, (forall v, type_fine n D (G v)) -> store_ok D G s i -> asg_fine n D G l ->
  asg_type D G l = Some t -> keeps_targets l -> calm l -> asg_eval D G l s = (s', o) ->
  (exists p i' z, o = APlace p /\ chain l i = Some (i', z) /\ store_ok D G s' i' /\ returns (content s' p) z /\ holds D t z
      /\ (still_object l = true -> exists v, denotes_var l = Some v /\ p = PVar v))
  \/ (exists e i', o = AStop (RRaised e) /\ (arithmetic_err e \/ shift_err e) /\ chain_stops l i i' /\ store_ok D G s' i').
Proof.
  intros n D G l t s i s' o HG Hs Hok Ht Hk Hc H.
  destruct (chain_char2 n D G l t s i s' o HG Hok Ht Hk Hc Hs H)
    as [_ [(p & i' & z & -> & C & S & P & I & _ & O & _)|(e & -> & A & i' & S & St)]].
  - left. exists p, i', z. splits; auto. intros K. destruct (O K) as (v & A & B & _). exists v. auto.
  - right. exists e, i'. splits; auto.
Qed.

(** what is not the object any more is a temporary *)
Lemma operands_place : forall first f g s k s' p, operands first f g s k = (s', APlace p) ->
  exists s0 s2 p1 q, (if first then f s0 = (s2, APlace p1) \/ (exists s1, f s0 = (s1, APlace p1) /\ g s1 = (s2, APlace q))
                      else exists s1, f s1 = (s2, APlace p1)) /\ k s2 p1 q = (s', APlace p).
Proof.
  intros first f g s k s' p H. unfold operands in H. destruct first.
  - destruct (f s) as [s1 [p1|r1]] eqn:E1; [|discriminate]. destruct (g s1) as [s2 [p2|r2]] eqn:E2; [|discriminate].
    exists s, s2, p1, p2. split; [right; exists s1; auto|assumption].
  - destruct (g s) as [s1 [p1|r1]] eqn:E1; [|discriminate]. destruct (f s1) as [s2 [p2|r2]] eqn:E2; [|discriminate].
    exists s, s2, p2, p1. split; [exists s1; auto|assumption].
Qed.
Lemma write_temp : forall s z m copy s' o, write_to s (PTemp z) m copy = (s', o) -> s' = s.
Proof. intros s z [l [y|e| |]] copy s' o H; cbn in H; congruence. Qed.
Lemma write_place : forall s p m copy s' p', write_to s p m copy = (s', APlace p') -> copy = true \/ (exists z, p = PTemp z) ->
  exists z, p' = PTemp z.
Proof.
  intros s p [l [y|e| |]] copy s' p' H [->|(z & ->)]; unfold write_to in H; cbn [snd] in H; try discriminate.
  - destruct (put s p y) as [a b]. injection H as <- <-. eauto.
  - cbn in H. injection H as <- <-. destruct copy; eauto.
Qed.
Lemma temp_place : forall D G l s s' p, still_object l = false -> asg_eval D G l s = (s', APlace p) -> exists z, p = PTemp z.
Proof.
  intros D G. induction l as [v|e|first l IHl r IHr|op first l IHl r IHr|inc l IHl]; intros s s' p Ho H; cbn [still_object asg_eval] in *.
  - discriminate.
  - destruct (eval D G s e) as [tr [z|x| |]]; cbn in H; try discriminate. injection H as <- <-. eauto.
  - destruct (asg_type D G l) as [t|]; [|discriminate]. destruct (asg_type D G r) as [u|]; [|discriminate].
    destruct (operands_place _ _ _ _ _ _ _ H) as (s0 & s2 & p1 & q & E & K).
    apply (write_place _ _ _ _ _ _ K). right. destruct first.
    + destruct E as [E|(s1 & E & _)]; exact (IHl _ _ _ Ho E).
    + destruct E as (s1 & E). exact (IHl _ _ _ Ho E).
  - destruct (asg_type D G l) as [t|]; [|discriminate]. destruct (asg_type D G r) as [u|]; [|discriminate].
    destruct (operands_place _ _ _ _ _ _ _ H) as (s0 & s2 & p1 & q & E & K).
    apply (write_place _ _ _ _ _ _ K). left. reflexivity.
  - destruct (asg_type D G l) as [[T|t|T N P E]|]; try discriminate.
    destruct (asg_eval D G l s) as [s1 [p1|r1]] eqn:E1; [|discriminate].
    apply (write_place _ _ _ _ _ _ H). right. exact (IHl _ _ _ Ho E1).
Qed.

Lemma C99_lost_step : forall D G inc l s s' o, still_object l = false -> asg_type D G (LStep inc l) <> None ->
  asg_eval D G (LStep inc l) s = (s', o) -> s' = fst (asg_eval D G l s).
Proof.
  intros D G inc l s s' o Ho Ht H. cbn [asg_type asg_eval] in *.
  destruct (asg_type D G l) as [[T|t|T N P E]|]; try congruence.
  destruct (asg_eval D G l s) as [s1 [p1|r1]] eqn:E1; cbn [fst].
  - destruct (temp_place D G l s s1 p1 Ho E1) as (z & ->). exact (write_temp _ _ _ _ _ _ H).
  - congruence.
Qed.
Lemma C99_lost_set : forall D G first l e s s' p, still_object l = false -> asg_type D G (LSet first l (LPure e)) <> None ->
  asg_eval D G (LSet first l (LPure e)) s = (s', APlace p) -> s' = fst (asg_eval D G l s).
Proof.
  intros D G first l e s s' p Ho Ht H. cbn [asg_type asg_eval] in *.
  destruct (asg_type D G l) as [t|]; [|congruence]. destruct (type_of D G e) as [u|]; [|congruence].
  unfold operands in H. destruct first.
  - destruct (asg_eval D G l s) as [s1 [p1|r1]] eqn:E1; [|discriminate]. cbn [fst].
    destruct (temp_place D G l s s1 p1 Ho E1) as (z & ->).
    destruct (eval D G s1 e) as [tr [y|x| |]]; cbn [snd] in H; try discriminate. exact (write_temp _ _ _ _ _ _ H).
  - destruct (eval D G s e) as [tr [y|x| |]]; cbn [snd] in H; try discriminate.
    destruct (asg_eval D G l s) as [s1 [p1|r1]] eqn:E1; [|discriminate]. cbn [fst].
    destruct (temp_place D G l s s1 p1 Ho E1) as (z & ->). exact (write_temp _ _ _ _ _ _ H).
Qed.

(** ------------------------------------------------------------------ *)
(** without conditions on the nesting *)
Definition place_ok (D : dmodel) (G : tenv) (t : otype) (s : store) (i : nat -> Z) (p : place) : Prop :=
  holds D t (place_value i p) /\ forall v, p = PVar v -> t = G v.
Definition actually (tyP : otype -> Prop) (errP : err -> Prop) (D : dmodel) (G : tenv) (l : asg) (t : otype)
  (i : nat -> Z) (s' : store) (o : aout) : Prop :=
  tyP t
  /\ ((exists p i', o = APlace p /\ actual l i = Some (i', p) /\ store_ok D G s' i' /\ place_ok D G t s' i' p)
      \/ exists e i', o = AStop (RRaised e) /\ errP e /\ store_ok D G s' i' /\ actual_stops l i i').

Lemma content_place : forall D G s i p, store_ok D G s i -> content s p = ([], Ret (place_value i p)).
Proof. intros D G s i [v|z] H; [apply (content_var D G); assumption|reflexivity]. Qed.

(** a temporary or a variable keeps a value of its type, whatever happens to the variables *)
Lemma place_ok_later : forall D G t s i s' i' p, place_ok D G t s i p -> store_ok D G s' i' -> place_ok D G t s' i' p.
Proof.
  intros D G t s i s' i' [v|z] [A B] H; split; auto. cbn. rewrite (B v eq_refl). apply H.
Qed.

Lemma put_place : forall D G t s i p z, store_ok D G s i -> place_ok D G t s i p -> holds D t z ->
  exists s' p' i', put s p z = (s', p') /\ place_set i p z = (i', p') /\ store_ok D G s' i' /\ place_ok D G t s' i' p'.
Proof.
  intros D G t s i [v|y] z Hs [A B] Hz; cbn [put place_set].
  - exists (upd s v (Some z)), (PVar v), (upd i v z). splits; auto.
    + apply store_ok_upd; [assumption|]. rewrite <- (B v eq_refl). assumption.
    + split; [cbn; rewrite upd_same; assumption|assumption].
  - exists s, (PTemp z), i. splits; auto. split; [exact Hz|intros; discriminate].
Qed.

Lemma operands_actual : forall tyP errP D G l r t u first s i k s' o,
  (forall s i s' o, store_ok D G s i -> asg_eval D G l s = (s', o) -> actually tyP errP D G l t i s' o) ->
  (forall s i s' o, store_ok D G s i -> asg_eval D G r s = (s', o) -> actually tyP errP D G r u i s' o) ->
  store_ok D G s i ->
  operands first (asg_eval D G l) (asg_eval D G r) s k = (s', o) ->
  (exists e i', o = AStop (RRaised e) /\ errP e /\ store_ok D G s' i'
     /\ ((if first then actual_stops l i i' else actual_stops r i i')
        \/ (exists i1 z1, (if first then actual l i else actual r i) = Some (i1, z1)
            /\ (if first then actual_stops r i1 i' else actual_stops l i1 i'))))
  \/ (exists s2 i2 p q, k s2 p q = (s', o) /\ store_ok D G s2 i2
     /\ both_places first (actual l) (actual r) i = Some (i2, p, q)
     /\ place_ok D G t s2 i2 p /\ place_ok D G u s2 i2 q).
Proof.
  intros tyP errP D G l r t u first s i k s' o Hl Hr Hs H. unfold operands in H. destruct first.
  - destruct (asg_eval D G l s) as [s1 o1] eqn:E1.
    destruct (Hl s i s1 o1 Hs E1) as [Tt [(p & i1 & -> & C1 & S1 & P1)|(e & i' & -> & Ae & S1 & St)]].
    2:{ injection H as <- <-. left. exists e, i'. splits; auto. }
    destruct (asg_eval D G r s1) as [s2 o2] eqn:E2.
    destruct (Hr s1 i1 s2 o2 S1 E2) as [Tu [(q & i2 & -> & C2 & S2 & P2)|(e & i' & -> & Ae & S2 & St)]].
    2:{ injection H as <- <-. left. exists e, i'. splits; auto. right. exists i1, p. auto. }
    right. exists s2, i2, p, q. splits; auto.
    + unfold both_places. rewrite C1, C2. reflexivity.
    + exact (place_ok_later D G t s1 i1 s2 i2 p P1 S2).
  - destruct (asg_eval D G r s) as [s1 o1] eqn:E1.
    destruct (Hr s i s1 o1 Hs E1) as [Tu [(q & i1 & -> & C1 & S1 & P1)|(e & i' & -> & Ae & S1 & St)]].
    2:{ injection H as <- <-. left. exists e, i'. splits; auto. }
    destruct (asg_eval D G l s1) as [s2 o2] eqn:E2.
    destruct (Hl s1 i1 s2 o2 S1 E2) as [Tt [(p & i2 & -> & C2 & S2 & P2)|(e & i' & -> & Ae & S2 & St)]].
    2:{ injection H as <- <-. left. exists e, i'. splits; auto. right. exists i1, q. auto. }
    right. exists s2, i2, p, q. splits; auto.
    + unfold both_places. rewrite C1, C2. reflexivity.
    + exact (place_ok_later D G u s1 i1 s2 i2 q P1 S2).
Qed.

Lemma actual_gen : forall (tyP : otype -> Prop) (errP : err -> Prop) (pureP : expr -> Prop) (opP : binop -> otype -> otype -> Prop) D G,
  (forall v, tyP (G v)) ->
  (forall s i e t, store_ok D G s i -> pureP e -> type_of D G e = Some t ->
     tyP t /\ ((exists z, value i e = Some z /\ returns (eval D G s e) z /\ holds D t z) \/ throwsP errP (eval D G s e))) ->
  (forall t u x m, tyP t -> tyP u -> holds D u x -> convert D t u x = Some m ->
     (holds D t x /\ returns m x) \/ throwsP errP m) ->
  (forall op t u x y m, opP op t u -> tyP t -> tyP u -> holds D t x -> holds D u y -> compound D op t u x y = Some m ->
     (exists z, math_op op x y = Some z /\ returns m z /\ holds D t z) \/ throwsP errP m) ->
  (forall t inc x m, tyP (OSafe t) -> holds D (OSafe t) x -> step_of D inc t x = Some m ->
     (returns m (if inc then x + 1 else x - 1) /\ holds D (OSafe t) (if inc then x + 1 else x - 1)) \/ throwsP errP m) ->
  forall l t s i s' o, asg_gen pureP opP D G l -> asg_type D G l = Some t ->
  store_ok D G s i -> asg_eval D G l s = (s', o) -> actually tyP errP D G l t i s' o.
Proof.
  intros tyP errP pureP opP D G HG Hpure Hconv Hcomp Hstep.
  induction l as [v|e|first l IHl r IHr|op first l IHl r IHr|inc l IHl];
  intros t s i s' o Hok Ht Hs H; cbn [asg_gen asg_type asg_eval] in *.
  - injection Ht as <-. injection H as <- <-. split; [apply HG|]. left. exists (PVar v), i.
    splits; auto. split; [apply Hs|]. intros w E. injection E as <-. reflexivity.
  - destruct (Hpure s i e t Hs Hok Ht) as [Te [(z & Vz & Rz & Iz)|(er & ac & Ae & T)]]; (split; [assumption|]).
    + rewrite Rz in H. cbn in H. injection H as <- <-. left. exists (PTemp z), i. splits; auto.
      * cbn [actual]. rewrite Vz. reflexivity.
      * split; [exact Iz|intros; discriminate].
    + rewrite T in H. cbn in H. injection H as <- <-. right. exists er, i. splits; auto. reflexivity.
  - destruct Hok as [Ol Or].
    destruct (asg_type D G l) as [tl|] eqn:El; [|discriminate]. destruct (asg_type D G r) as [u|] eqn:Er; [|discriminate].
    destruct (lvalue l || is_safe tl); [|discriminate].
    destruct (convert D tl u 0) as [m0|] eqn:Ec; [|discriminate]. injection Ht as <-.
    assert (TT : tyP tl /\ tyP u).
    { destruct (asg_eval D G l s) as [sa oa] eqn:Ea. destruct (asg_eval D G r s) as [sb ob] eqn:Eb.
      split; [exact (proj1 (IHl tl s i sa oa Ol eq_refl Hs Ea))|exact (proj1 (IHr u s i sb ob Or eq_refl Hs Eb))]. }
    destruct TT as [Ttl Tu]. split; [assumption|].
    destruct (operands_actual tyP errP D G l r tl u first s i _ s' o
      (fun s i s' o Hs He => IHl tl s i s' o Ol eq_refl Hs He)
      (fun s i s' o Hs He => IHr u s i s' o Or eq_refl Hs He) Hs H)
      as [(e & i' & -> & Ae & S' & St)|(s2 & i2 & p & q & Hw & S2 & Cp & Pp & Pq)].
    + right. exists e, i'. splits; auto. cbn [actual_stops]. destruct St as [St|St]; auto.
    + rewrite (bind_ret _ _ _ _ _ (content_place D G s2 i2 q S2)) in Hw.
      destruct (convert_any D tl u 0 (place_value i2 q) m0 Ec) as (k & K). rewrite K in Hw. cbn [run] in Hw.
      destruct (Hconv tl u _ k Ttl Tu (proj1 Pq) K) as [[A ->]|(e & ac & Ae & ->)]; unfold write_to in Hw; cbn [snd] in Hw.
      * destruct (put_place D G tl s2 i2 p _ S2 Pp A) as (s3 & p' & i3 & E1 & E2 & S3 & P3).
        rewrite E1 in Hw. injection Hw as <- <-. left. exists p', i3. splits; auto.
        cbn [actual]. rewrite Cp, E2. reflexivity.
      * injection Hw as <- <-. right. exists e, i2. splits; auto. cbn [actual_stops]. right. right. exists p, q. assumption.
  - destruct Hok as (Hop & Ol & Or).
    destruct (asg_type D G l) as [tl|] eqn:El; [|discriminate]. destruct (asg_type D G r) as [u|] eqn:Er; [|discriminate].
    destruct (lvalue l); [|discriminate].
    destruct (compound D op tl u 0 0) as [m0|] eqn:Ec; [|discriminate]. injection Ht as <-.
    assert (TT : tyP tl /\ tyP u).
    { destruct (asg_eval D G l s) as [sa oa] eqn:Ea. destruct (asg_eval D G r s) as [sb ob] eqn:Eb.
      split; [exact (proj1 (IHl tl s i sa oa Ol eq_refl Hs Ea))|exact (proj1 (IHr u s i sb ob Or eq_refl Hs Eb))]. }
    destruct TT as [Ttl Tu]. split; [assumption|].
    destruct (operands_actual tyP errP D G l r tl u first s i _ s' o
      (fun s i s' o Hs He => IHl tl s i s' o Ol eq_refl Hs He)
      (fun s i s' o Hs He => IHr u s i s' o Or eq_refl Hs He) Hs H)
      as [(e & i' & -> & Ae & S' & St)|(s2 & i2 & p & q & Hw & S2 & Cp & Pp & Pq)].
    + right. exists e, i'. splits; auto. cbn [actual_stops]. destruct St as [St|St]; auto.
    + rewrite (bind_ret _ _ _ _ _ (content_place D G s2 i2 q S2)) in Hw.
      rewrite (bind_ret _ _ _ _ _ (content_place D G s2 i2 p S2)) in Hw.
      destruct (compound_any D op tl u 0 0 (place_value i2 p) (place_value i2 q) m0 Ec) as (k & K). rewrite K in Hw. cbn [run] in Hw.
      destruct (Hcomp op tl u _ _ k (Hop _ _ eq_refl eq_refl) Ttl Tu (proj1 Pp) (proj1 Pq) K)
        as [(z & M1 & -> & A)|(e & ac & Ae & ->)]; unfold write_to in Hw; cbn [snd] in Hw.
      * destruct (put_place D G tl s2 i2 p _ S2 Pp A) as (s3 & p' & i3 & E1 & E2 & S3 & P3).
        rewrite E1 in Hw. injection Hw as <- <-. left. exists (PTemp z), i3. splits; auto.
        -- cbn [actual]. rewrite Cp, M1, E2. reflexivity.
        -- split; [exact A|intros; discriminate].
      * injection Hw as <- <-. right. exists e, i2. splits; auto. cbn [actual_stops]. right. right. exists p, q. assumption.
  - destruct (asg_type D G l) as [[T|ts|T N P E]|] eqn:El; try discriminate.
    destruct (step_of D inc ts 0) as [m0|] eqn:Ec; [|discriminate]. injection Ht as <-.
    destruct (asg_eval D G l s) as [s1 o1] eqn:E1.
    destruct (IHl _ s i s1 o1 Hok eq_refl Hs E1) as [Tt [(p & i1 & -> & C1 & S1 & P1)|(e & i' & -> & Ae & S1 & St)]]; (split; [assumption|]).
    2:{ injection H as <- <-. right. exists e, i'. splits; auto. cbn [actual_stops]. auto. }
    rewrite (bind_ret _ _ _ _ _ (content_place D G s1 i1 p S1)) in H.
    destruct (step_any D ts inc 0 (place_value i1 p) m0 Ec) as (k & K). rewrite K in H. cbn [run] in H.
    destruct (Hstep ts inc _ k Tt (proj1 P1) K) as [[-> A]|(e & ac & Ae & ->)]; unfold write_to in H; cbn [snd] in H.
    + destruct (put_place D G (OSafe ts) s1 i1 p _ S1 P1 A) as (s3 & p' & i3 & F1 & F2 & S3 & P3).
      rewrite F1 in H. injection H as <- <-. left. exists p', i3. splits; auto. cbn [actual]. rewrite C1, F2. reflexivity.
    + injection H as <- <-. right. exists e, i1. splits; auto. cbn [actual_stops]. right. exists p. assumption.
Qed.

Lemma C99_actual : forall n D G l t s i s' o, (forall v, type_ok n D (G v)) -> store_ok D G s i -> asg_ok n D l ->
  asg_type D G l = Some t -> asg_eval D G l s = (s', o) ->
  (exists p i', o = APlace p /\ actual l i = Some (i', p) /\ store_ok D G s' i' /\ holds D t (place_value i' p))
  \/ (exists e i', o = AStop (RRaised e) /\ arithmetic_err e /\ actual_stops l i i' /\ store_ok D G s' i').
Proof.
  intros n D G l t s i s' o HG Hs Hok Ht H.
  destruct (actual_gen (type_ok n D) arithmetic_err (expr_ok n D) (fun op _ _ => op_ok n op) D G HG) with (6 := Ht) (7 := Hs) (8 := H)
    as [_ [(p & i' & A & B & C & E & _)|(e & i' & A & B & C & E)]].
  - intros s0 i0 e t0 Hs0 He Et. destruct (expr_char n D G s0 i0 e t0 HG Hs0 He Et) as [A [B|B]]; auto using arith_throwsP.
  - intros t0 u x m Tt Tu Hx Hm. destruct (convert_char n D t0 u x m Tt Tu Hx Hm) as [A|A]; auto using arith_throwsP.
  - intros op t0 u x y m Ho Tt Tu Hx Hy Hm.
    destruct (compound_char n D op t0 u x y m Ho Tt Tu Hx Hy Hm) as [A|A]; auto using arith_throwsP.
  - intros t0 inc x m Tt Hx Hm. destruct (step_char n D t0 inc x m Tt Hx Hm) as [A|A]; auto using arith_throwsP.
  - exact (asg_ok_gen n D G l Hok).
  - left. exists p, i'. auto.
  - right. exists e, i'. auto.
Qed.
Lemma C99_actual2 : forall n D G l t s i s' o, (forall v, type_fine n D (G v)) -> store_ok D G s i -> asg_fine n D G l ->
  asg_type D G l = Some t -> asg_eval D G l s = (s', o) ->
  (exists p i', o = APlace p /\ actual l i = Some (i', p) /\ store_ok D G s' i' /\ holds D t (place_value i' p))
  \/ (exists e i', o = AStop (RRaised e) /\ (arithmetic_err e \/ shift_err e) /\ actual_stops l i i' /\ store_ok D G s' i').
Proof.
  intros n D G l t s i s' o HG Hs Hok Ht H.
  assert (AA : forall A (m : M A), throws_arith m -> throwsP (fun e => arithmetic_err e \/ shift_err e) m)
    by (intros A m K; apply fails_throwsP; left; exact K).
  destruct (actual_gen (type_fine n D) (fun e => arithmetic_err e \/ shift_err e) (expr_fine n D G None)
            (fun op t u => operator_fine n D (Some t) op t u) D G HG) with (6 := Ht) (7 := Hs) (8 := H)
    as [_ [(p & i' & A & B & C & E & _)|(e & i' & A & B & C & E)]].
  - intros s0 i0 e t0 Hs0 He Et.
    destruct (outcome_none n D t0 _ _ (expr_char2 n D G s0 i0 e None t0 HG Hs0 He Et)) as [A [B|B]];
    auto using fails_throwsP.
  - intros t0 u x m [Tt _] [Tu _] Hx Hm. destruct (convert_char n D t0 u x m Tt Tu Hx Hm) as [A|A]; auto.
  - intros op t0 u x y m Ho Tt Tu Hx Hy Hm.
    destruct (compound_char2 n D op t0 u x y m Ho Tt Tu Hx Hy Hm) as [A|A]; auto using fails_throwsP.
  - intros t0 inc x m [Tt _] Hx Hm. destruct (step_char n D t0 inc x m Tt Hx Hm) as [A|A]; auto.
  - exact (asg_fine_gen n D G l Hok).
  - left. exists p, i'. auto.
  - right. exists e, i'. auto.
Qed.

(** ------------------------------------------------------------------ *)
(** no false alarm *)
Definition silent_done (D : dmodel) (G : tenv) (t : otype) (r : store * aout) (p : place) (i' : nat -> Z) : Prop :=
  exists s', r = (s', APlace p) /\ store_ok D G s' i' /\ type_ok true D t /\ place_ok D G t s' i' p.

Lemma operands_silent : forall D G l r t u first s i k i2 p q,
  (forall s i i' p, store_ok D G s i -> actual_lossless D G l i = Some (i', p) -> silent_done D G t (asg_eval D G l s) p i') ->
  (forall s i i' p, store_ok D G s i -> actual_lossless D G r i = Some (i', p) -> silent_done D G u (asg_eval D G r s) p i') ->
  store_ok D G s i -> both_places first (actual_lossless D G l) (actual_lossless D G r) i = Some (i2, p, q) ->
  exists s2, operands first (asg_eval D G l) (asg_eval D G r) s k = k s2 p q /\ store_ok D G s2 i2
  /\ type_ok true D t /\ type_ok true D u /\ place_ok D G t s2 i2 p /\ place_ok D G u s2 i2 q.
Proof.
  intros D G l r t u first s i k i2 p q Hl Hr Hs H. unfold both_places in H. unfold operands. destruct first.
  - destruct (actual_lossless D G l i) as [[i1 p1]|] eqn:E1; [|discriminate].
    destruct (actual_lossless D G r i1) as [[i3 q1]|] eqn:E2; [|discriminate]. injection H as -> -> ->.
    destruct (Hl s i i1 p Hs E1) as (s1 & -> & S1 & T1 & P1). destruct (Hr s1 i1 i2 q S1 E2) as (s2 & -> & S2 & T2 & P2).
    exists s2. splits; auto. exact (place_ok_later D G t s1 i1 s2 i2 p P1 S2).
  - destruct (actual_lossless D G r i) as [[i1 q1]|] eqn:E1; [|discriminate].
    destruct (actual_lossless D G l i1) as [[i3 p1]|] eqn:E2; [|discriminate]. injection H as -> -> ->.
    destruct (Hr s i i1 q Hs E1) as (s1 & -> & S1 & T1 & P1). destruct (Hl s1 i1 i2 p S1 E2) as (s2 & -> & S2 & T2 & P2).
    exists s2. splits; auto. exact (place_ok_later D G u s1 i1 s2 i2 q P1 S2).
Qed.

Lemma silent_char : forall D G, (forall v, type_ok true D (G v)) ->
  forall l t s i i' p, asg_ok true D l -> asg_type D G l = Some t -> store_ok D G s i ->
  actual_lossless D G l i = Some (i', p) -> silent_done D G t (asg_eval D G l s) p i'.
Proof.
  intros D G HG. induction l as [v|e|first l IHl r IHr|op first l IHl r IHr|inc l IHl];
  intros t s i i' p Hok Ht Hs H; cbn [asg_ok asg_type asg_eval actual_lossless] in *.
  - injection Ht as <-. injection H as <- <-. exists s. splits; auto. split; [apply Hs|].
    intros w E. injection E as <-. reflexivity.
  - destruct (lossless D G i e) as [z|] eqn:El; [|discriminate]. injection H as <- <-.
    pose proof (lossless_char D G s i HG Hs e t z Hok Ht El) as R.
    destruct (expr_holds D G s i e t z HG Hs Hok Ht R) as [Tt Hz]. rewrite R. exists s. splits; auto.
    split; [exact Hz|intros; discriminate].
  - destruct Hok as [Ol Or].
    destruct (asg_type D G l) as [tl|] eqn:El; [|discriminate]. destruct (asg_type D G r) as [u|] eqn:Er; [|discriminate].
    destruct (lvalue l || is_safe tl); [|discriminate].
    destruct (convert D tl u 0) as [m0|] eqn:Ec; [|discriminate]. injection Ht as <-.
    destruct (both_places first (actual_lossless D G l) (actual_lossless D G r) i) as [[[i2 p1] q]|] eqn:Eb; [|discriminate].
    destruct (operands_silent D G l r tl u first s i
        (fun s p q => write_to s p (mbind (content s q) (fun y => run (convert D tl u y))) false) i2 p1 q
        (fun s i i' p Hs K => IHl tl s i i' p Ol eq_refl Hs K) (fun s i i' p Hs K => IHr u s i i' p Or eq_refl Hs K) Hs Eb)
      as (s2 & -> & S2 & Tt & Tu & Pp & Pq).
    destruct (fits_type D tl (place_value i2 q)) as [z|] eqn:Ef; [|discriminate]. apply fits_some in Ef. destruct Ef as [-> Hz].
    rewrite (bind_ret _ _ _ _ _ (content_place D G s2 i2 q S2)).
    destruct (convert_any D tl u 0 (place_value i2 q) m0 Ec) as (k & K). rewrite K. cbn [run].
    rewrite (convert_lossless D tl u _ k Tt Tu (proj1 Pq) Hz K). unfold write_to. cbn [snd].
    destruct (put_place D G tl s2 i2 p1 _ S2 Pp Hz) as (s3 & p' & i3 & E1 & E2 & S3 & P3). rewrite E1.
    cbn [option_map] in H. rewrite E2 in H. injection H as -> ->. exists s3. splits; auto.
  - destruct Hok as (Hop & Ol & Or).
    destruct (asg_type D G l) as [tl|] eqn:El; [|discriminate]. destruct (asg_type D G r) as [u|] eqn:Er; [|discriminate].
    destruct (lvalue l); [|discriminate].
    destruct (compound D op tl u 0 0) as [m0|] eqn:Ec; [|discriminate]. injection Ht as <-.
    destruct (both_places first (actual_lossless D G l) (actual_lossless D G r) i) as [[[i2 p1] q]|] eqn:Eb; [|discriminate].
    destruct (operands_silent D G l r tl u first s i
        (fun s p q => write_to s p (mbind (content s q) (fun y => mbind (content s p) (fun x => run (compound D op tl u x y)))) true) i2 p1 q
        (fun s i i' p Hs K => IHl tl s i i' p Ol eq_refl Hs K) (fun s i i' p Hs K => IHr u s i i' p Or eq_refl Hs K) Hs Eb)
      as (s2 & -> & S2 & Tt & Tu & Pp & Pq).
    destruct (op_ok_four _ _ Hop) as (o & -> & Ho).
    destruct (lossless_op D (BA o) (base_ty tl) (base_ty u) (place_value i2 p1) (place_value i2 q)) as [z|] eqn:Lz; [|discriminate].
    cbn [obind] in H. destruct (fits_type D tl z) as [z'|] eqn:Fz; [|discriminate].
    rewrite (bind_ret _ _ _ _ _ (content_place D G s2 i2 q S2)), (bind_ret _ _ _ _ _ (content_place D G s2 i2 p1 S2)).
    destruct (compound_any D (BA o) tl u 0 0 (place_value i2 p1) (place_value i2 q) m0 Ec) as (k & K). rewrite K. cbn [run].
    destruct (compound_lossless D o tl u (base_ty u) _ _ z z' k Ho Tt Tu (proj1 Pp) (proj1 Pq) eq_refl K Lz Fz) as (-> & R & Hz).
    rewrite R. unfold write_to. cbn [snd].
    destruct (put_place D G tl s2 i2 p1 _ S2 Pp Hz) as (s3 & p' & i3 & E1 & E2 & S3 & P3). rewrite E1.
    cbn [option_map] in H. rewrite E2 in H. injection H as <- <-. exists s3. splits; auto. split; [exact Hz|intros; discriminate].
  - destruct (asg_type D G l) as [[T|ts|T N P E]|] eqn:El; try discriminate.
    destruct (step_of D inc ts 0) as [m0|] eqn:Ec; [|discriminate]. injection Ht as <-.
    destruct (actual_lossless D G l i) as [[i1 p1]|] eqn:E0; [|discriminate].
    destruct (IHl _ s i i1 p1 Hok eq_refl Hs E0) as (s1 & -> & S1 & Tt & P1).
    destruct (lossless_op D (BA (if inc then Add else Sub)) (base_ty (OSafe ts)) Int (place_value i1 p1) 1) as [z|] eqn:Lz; [|discriminate].
    cbn [obind] in H. destruct (fits_type D (OSafe ts) z) as [z'|] eqn:Fz; [|discriminate].
    rewrite (bind_ret _ _ _ _ _ (content_place D G s1 i1 p1 S1)).
    destruct (step_any D ts inc 0 (place_value i1 p1) m0 Ec) as (k & K). rewrite K. cbn [run].
    assert (K' : compound D (BA (if inc then Add else Sub)) (OSafe ts) (ORaw Int) (place_value i1 p1) 1 = Some k)
      by (destruct inc; exact K).
    assert (Ho : four (if inc then Add else Sub)) by (destruct inc; unfold four; auto).
    destruct (compound_lossless D _ (OSafe ts) (ORaw Int) Int _ 1 z z' k Ho Tt (int_ok _ _) (proj1 P1) (int_one _) eq_refl K' Lz Fz) as (-> & R & Hz).
    rewrite R. unfold write_to. cbn [snd].
    destruct (put_place D G (OSafe ts) s1 i1 p1 _ S1 P1 Hz) as (s3 & p' & i3 & E1 & E2 & S3 & P3). rewrite E1.
    cbn [option_map] in H. rewrite E2 in H. injection H as -> ->. exists s3. splits; auto.
Qed.
Lemma C99_silent : forall D G l t s i i' p, (forall v, type_ok true D (G v)) -> store_ok D G s i -> asg_ok true D l ->
  asg_type D G l = Some t -> actual_lossless D G l i = Some (i', p) ->
  exists s', asg_eval D G l s = (s', APlace p) /\ store_ok D G s' i' /\ actual l i = Some (i', p).
Proof.
  intros D G l t s i i' p HG Hs Hok Ht H.
  destruct (silent_char D G HG l t s i i' p Hok Ht Hs H) as (s' & E & S & _ & _). exists s'. splits; auto.
  clear Hs E. revert t i i' p Hok Ht H S. revert s'.
  assert (K : forall l t i i' p, asg_type D G l = Some t -> actual_lossless D G l i = Some (i', p) -> actual l i = Some (i', p)).
  { clear. assert (L : forall e i z, lossless D G i e = Some z -> value i e = Some z).
    { induction e as [o z|v|op first a IHa b IHb|a IHa|a IHa|o a IHa]; intros i w H; cbn [lossless value] in *; auto.
      - apply obind_some in H. destruct H as (x & Hx & H). apply obind_some in H. destruct H as (y & Hy & H).
        rewrite (IHa i x Hx), (IHb i y Hy). apply lossless_op_some in H. tauto.
      - apply obind_some in H. destruct H as (x & Hx & H). rewrite (IHa i x Hx). apply keep_some in H. destruct H as [-> _]. reflexivity.
      - apply obind_some in H. destruct H as (x & Hx & H). rewrite (IHa i x Hx). apply fits_some in H. destruct H as [-> _]. reflexivity. }
    assert (B : forall first f g f' g' i r, (forall i x, f i = Some x -> f' i = Some x) -> (forall i x, g i = Some x -> g' i = Some x) ->
              both_places first f g i = Some r -> both_places first f' g' i = Some r).
    { intros first f g f' g' i r Hf Hg H. unfold both_places in *. destruct first.
      - destruct (f i) as [[i1 p1]|] eqn:E1; [|discriminate]. rewrite (Hf _ _ E1). destruct (g i1) as [[i2 q]|] eqn:E2; [|discriminate]. rewrite (Hg _ _ E2). exact H.
      - destruct (g i) as [[i1 p1]|] eqn:E1; [|discriminate]. rewrite (Hg _ _ E1). destruct (f i1) as [[i2 q]|] eqn:E2; [|discriminate]. rewrite (Hf _ _ E2). exact H. }
    induction l as [v|e|first l IHl r IHr|op first l IHl r IHr|inc l IHl]; intros t i i' p Ht H; cbn [asg_type actual_lossless actual] in *.
    - exact H.
    - destruct (lossless D G i e) as [z|] eqn:E; [|discriminate]. rewrite (L e i z E). exact H.
    - destruct (asg_type D G l) as [tl|]; [|discriminate]. destruct (asg_type D G r) as [u|]; [|discriminate].
      destruct (both_places first (actual_lossless D G l) (actual_lossless D G r) i) as [[[i2 p1] q]|] eqn:Eb; [|discriminate].
      erewrite (B first _ _ (actual l) (actual r)); [|intros i0 [i3 p3] K; exact (IHl tl i0 i3 p3 eq_refl K)|intros i0 [i3 p3] K; exact (IHr u i0 i3 p3 eq_refl K)|exact Eb].
      destruct (fits_type D tl (place_value i2 q)) as [z|] eqn:Ef; [|discriminate]. apply fits_some in Ef. destruct Ef as [-> _]. exact H.
    - destruct (asg_type D G l) as [tl|]; [|discriminate]. destruct (asg_type D G r) as [u|]; [|discriminate].
      destruct (both_places first (actual_lossless D G l) (actual_lossless D G r) i) as [[[i2 p1] q]|] eqn:Eb; [|discriminate].
      erewrite (B first _ _ (actual l) (actual r)); [|intros i0 [i3 p3] K; exact (IHl tl i0 i3 p3 eq_refl K)|intros i0 [i3 p3] K; exact (IHr u i0 i3 p3 eq_refl K)|exact Eb].
      destruct (lossless_op D op (base_ty tl) (base_ty u) (place_value i2 p1) (place_value i2 q)) as [z|] eqn:Lz; [|discriminate].
      apply lossless_op_some in Lz. destruct Lz as (_ & _ & -> & _). cbn [obind] in H.
      destruct (fits_type D tl z) as [z'|] eqn:Fz; [|discriminate]. apply fits_some in Fz. destruct Fz as [-> _]. exact H.
    - destruct (asg_type D G l) as [tl|] eqn:El; [|discriminate].
      destruct (actual_lossless D G l i) as [[i1 p1]|] eqn:E0; [|discriminate]. rewrite (IHl tl i i1 p1 eq_refl E0).
      destruct (lossless_op D (BA (if inc then Add else Sub)) (base_ty tl) Int (place_value i1 p1) 1) as [z|] eqn:Lz; [|discriminate].
      apply lossless_op_some in Lz. destruct Lz as (_ & _ & M & _). cbn [obind] in H.
      destruct (fits_type D tl z) as [z'|] eqn:Fz; [|discriminate]. apply fits_some in Fz. destruct Fz as [-> _].
      destruct inc; cbn [math_op exact] in M; injection M as <-; exact H. }
  intros s' t i i' p _ Ht H _. exact (K l t i i' p Ht H).
Qed.
