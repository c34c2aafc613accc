(** IntervalFacts.v -- facts about minmax and intervals. Proofs only. *)
From Coq Require Import ZArith Bool List Lia.
From Verif Require Import Base CType Spec CTypeFacts Utility UtilityFacts SafeCompare
  CheckedInteger CheckedIntegerFacts CheckedResultOps CheckedResultFacts Interval.
Import ListNotations.
Local Open Scope Z_scope.

Ltac splits := repeat match goal with |- _ /\ _ => split end.

(** a value or an overflow *)
Definition num (c : checked) : Prop :=
  match c with
  | CVal _ => True
  | CErr positive_overflow_error | CErr negative_overflow_error => True
  | CErr _ => False
  end.

Lemma num_dec : forall c, {num c} + {~ num c}.
Proof. intros [v|e]; [left; exact I|destruct e; cbn; auto]. Qed.

(** the order of values extended with the two overflows as infinities *)
Definition cle (a b : checked) : Prop :=
  match a, b with
  | CErr negative_overflow_error, _ => True
  | _, CErr positive_overflow_error => True
  | CVal x, CVal y => x <= y
  | _, _ => False
  end.

Lemma cle_refl : forall a, num a -> cle a a.
Proof. intros [v|e]; cbn; [lia|]. destruct e; cbn; tauto. Qed.
Lemma cle_trans : forall a b c, num a -> num b -> num c -> cle a b -> cle b c -> cle a c.
Proof.
  intros [v|e] [w|f] [x|g]; cbn; try destruct e; try destruct f; try destruct g; cbn; try tauto; lia.
Qed.
Lemma cle_total : forall a b, num a -> num b -> cle a b \/ cle b a.
Proof.
  intros [v|e] [w|f]; cbn; try destruct e; try destruct f; cbn; try tauto; lia.
Qed.

Lemma cle_dec : forall a b, {cle a b} + {~ cle a b}.
Proof.
  intros [v|e] [w|f]; cbn; try (destruct e; cbn; auto; fail); try (destruct f; cbn; auto; fail).
  - destruct (Z_le_dec v w); auto.
  - destruct e; destruct f; cbn; auto.
Qed.

Lemma cr_lt_num : forall D R a b, cr_ok D R a -> cr_ok D R b -> num a -> num b ->
  (tri_bool (cr_lt D R a b) = true <-> ~ cle b a).
Proof.
  intros D R [v|e] [w|f] Ha Hb Na Nb.
  - cbn in Ha, Hb. rewrite cr_lt_val by assumption. cbn [cle].
    destruct (Z.ltb_spec v w); cbn; split; intros; try discriminate; try lia; reflexivity.
  - destruct f; cbn in Nb; try tauto; cbn; split; intros; try discriminate; tauto.
  - destruct e; cbn in Na; try tauto; cbn; split; intros; try discriminate; tauto.
  - destruct e; cbn in Na; try tauto; destruct f; cbn in Nb; try tauto; cbn; split; intros; try discriminate; tauto.
Qed.

Lemma cr_lt_not_num : forall D R a b, ~ num a \/ ~ num b -> cr_lt D R a b = TInd.
Proof.
  intros D R [v|e] [w|f] H; cbn in H; try tauto;
  try destruct e; try destruct f; cbn in H; try tauto; reflexivity.
Qed.

Lemma minmax_loop_head : forall D R l h, ~ num h -> minmax_loop D R l h h = (h, h).
Proof.
  induction l as [|c l IH]; intros h Hh; [reflexivity|].
  cbn [minmax_loop]. rewrite (cr_lt_not_num D R c h), (cr_lt_not_num D R h c) by auto. cbn. auto.
Qed.

Lemma minmax_loop_spec : forall D R l mn mx mn' mx',
  Forall (cr_ok D R) l -> cr_ok D R mn -> cr_ok D R mx -> num mn -> num mx -> cle mn mx ->
  minmax_loop D R l mn mx = (mn', mx') ->
  num mn' /\ num mx' /\ cr_ok D R mn' /\ cr_ok D R mx' /\ cle mn' mx'
  /\ cle mn' mn /\ cle mx mx'
  /\ (forall c, In c l -> num c -> cle mn' c /\ cle c mx')
  /\ (mn' = mn \/ In mn' l) /\ (mx' = mx \/ In mx' l).
Proof.
  induction l as [|c l IH]; intros mn mx mn' mx' Hl Hmn Hmx Nmn Nmx Hle.
  - cbn [minmax_loop]. intros H. injection H as <- <-.
    splits; auto using cle_refl. intros c [].
  - apply Forall_cons_iff in Hl. destruct Hl as [Hc Hl]. cbn [minmax_loop].
    destruct (num_dec c) as [Nc|Nc].
    + destruct (tri_bool (cr_lt D R c mn)) eqn:E1.
      * apply cr_lt_num in E1; try assumption.
        assert (Hcm : cle c mn) by (destruct (cle_total c mn Nc Nmn); tauto).
        assert (Hcx : cle c mx) by (apply cle_trans with mn; assumption).
        intros H. destruct (IH c mx mn' mx' Hl Hc Hmx Nc Nmx Hcx H)
          as (A1 & A2 & A3 & A4 & A5 & A6 & A7 & A8 & A9 & A10).
        splits; auto.
        -- apply cle_trans with c; assumption.
        -- intros c0 [<-|Hi] N0; [|apply A8; assumption].
           split; [assumption|apply cle_trans with mx; assumption].
        -- right. destruct A9 as [->|]; [left; reflexivity|right; assumption].
        -- destruct A10 as [->|]; [left; reflexivity|right; right; assumption].
      * assert (Hmc : cle mn c).
        { destruct (cle_dec mn c) as [|Hx]; [assumption|].
          apply (cr_lt_num D R c mn) in Hx; try assumption. congruence. }
        destruct (tri_bool (cr_lt D R mx c)) eqn:E2.
        -- apply cr_lt_num in E2; try assumption.
           assert (Hxc : cle mx c) by (destruct (cle_total mx c Nmx Nc); tauto).
           intros H. destruct (IH mn c mn' mx' Hl Hmn Hc Nmn Nc Hmc H)
             as (A1 & A2 & A3 & A4 & A5 & A6 & A7 & A8 & A9 & A10).
           splits; auto.
           ++ apply cle_trans with c; assumption.
           ++ intros c0 [<-|Hi] N0; [|apply A8; assumption].
              split; [apply cle_trans with mn; assumption|assumption].
           ++ destruct A9 as [->|]; [left; reflexivity|right; right; assumption].
           ++ right. destruct A10 as [->|]; [left; reflexivity|right; assumption].
        -- assert (Hcx : cle c mx).
           { destruct (cle_dec c mx) as [|Hx]; [assumption|].
             apply (cr_lt_num D R mx c) in Hx; try assumption. congruence. }
           intros H. destruct (IH mn mx mn' mx' Hl Hmn Hmx Nmn Nmx Hle H)
             as (A1 & A2 & A3 & A4 & A5 & A6 & A7 & A8 & A9 & A10).
           splits; auto.
           ++ intros c0 [<-|Hi] N0; [|apply A8; assumption].
              split; [apply cle_trans with mn; assumption|apply cle_trans with mx; assumption].
           ++ destruct A9 as [->|]; [left; reflexivity|right; right; assumption].
           ++ destruct A10 as [->|]; [left; reflexivity|right; right; assumption].
    + rewrite (cr_lt_not_num D R c mn), (cr_lt_not_num D R mx c) by auto. cbn [tri_bool].
      intros H. destruct (IH mn mx mn' mx' Hl Hmn Hmx Nmn Nmx Hle H)
        as (A1 & A2 & A3 & A4 & A5 & A6 & A7 & A8 & A9 & A10).
      splits; auto.
      * intros c0 [<-|Hi] N0; [tauto|apply A8; assumption].
      * destruct A9 as [->|]; [left; reflexivity|right; right; assumption].
      * destruct A10 as [->|]; [left; reflexivity|right; right; assumption].
Qed.

(** minmax of a list: if its first element is neither a value nor an overflow
    the answer is that element; otherwise it bounds all values and overflows. *)
Lemma minmax_spec : forall D R h l, Forall (cr_ok D R) (h :: l) ->
  exists i, minmax D R (h :: l) = Ok i /\
    ((~ num h /\ i = mkI h h)
     \/ (num (il i) /\ num (iu i) /\ cr_ok D R (il i) /\ cr_ok D R (iu i) /\ cle (il i) (iu i)
         /\ In (il i) (h :: l) /\ In (iu i) (h :: l) /\ num h
         /\ (forall c, In c (h :: l) -> num c -> cle (il i) c /\ cle c (iu i)))).
Proof.
  intros D R h l Hl. unfold minmax.
  destruct (minmax_loop D R (h :: l) h h) as [a b] eqn:E. eexists; split; [reflexivity|].
  destruct (num_dec h) as [Nh|Nh].
  - right. assert (Hh : cr_ok D R h) by (inversion Hl; assumption).
    destruct (minmax_loop_spec D R (h :: l) h h a b Hl Hh Hh Nh Nh (cle_refl h Nh) E)
      as (A1 & A2 & A3 & A4 & A5 & A6 & A7 & A8 & A9 & A10). cbn [il iu].
    splits; auto.
    + destruct A9 as [->|]; [left; reflexivity|assumption].
    + destruct A10 as [->|]; [left; reflexivity|assumption].
  - left. rewrite minmax_loop_head in E by assumption. injection E as <- <-. auto.
Qed.

Lemma seq_res_ok : forall (A : Type) (ms : list (res A)) (vs : list A),
  Forall2 (fun m v => m = Ok v) ms vs -> seq_res ms = Ok vs.
Proof.
  intros A ms vs H. induction H as [|m v ms vs Hm H IH]; [reflexivity|].
  subst m. cbn [seq_res rbind]. rewrite IH. reflexivity.
Qed.

Lemma seq_res_inv : forall (A : Type) (ms : list (res A)) (vs : list A),
  seq_res ms = Ok vs -> Forall2 (fun m v => m = Ok v) ms vs.
Proof.
  induction ms as [|m ms IH]; intros vs H.
  - cbn in H. injection H as <-. constructor.
  - cbn [seq_res] in H. destruct m as [a|]; [|discriminate]. cbn [rbind] in H.
    destruct (seq_res ms) as [r|] eqn:E; [|discriminate]. cbn [rbind] in H. injection H as <-.
    constructor; auto.
Qed.

(** constraints transport along the order *)
Lemma at_least_cle : forall D R a b z, cr_ok D R a -> num a -> cle a b -> num b -> at_least D R b z -> at_least D R a z.
Proof.
  intros D R [v|e] [w|f] z Ha Na Hle Nb Hb; cbn in *; try destruct e; try destruct f; cbn in *; try tauto; unfold in_type in *; lia.
Qed.
Lemma at_most_cle : forall D R a b z, cr_ok D R b -> num b -> cle a b -> num a -> at_most D R a z -> at_most D R b z.
Proof.
  intros D R [v|e] [w|f] z Ha Na Hle Nb Hb; cbn in *; try destruct e; try destruct f; cbn in *; try tauto; unfold in_type in *; lia.
Qed.

(** weak rounding: the way an exact result z is reported *)
Definition rnd (D : dmodel) (R : ctype) (c : checked) (z : Z) : Prop :=
  match c with
  | CVal v => z = v
  | CErr positive_overflow_error => z >= hi D R
  | CErr negative_overflow_error => z <= lo D R
  | CErr _ => False
  end.
Definition rnd_strict (D : dmodel) (R : ctype) (c : checked) (z : Z) : Prop :=
  match c with
  | CVal v => z = v
  | CErr positive_overflow_error => z > hi D R
  | CErr negative_overflow_error => z < lo D R
  | CErr _ => False
  end.
Lemma rnd_num : forall D R c z, rnd D R c z -> num c.
Proof. intros D R [v|e] z; cbn; [trivial|destruct e; cbn; tauto]. Qed.
Lemma rnd_strict_rnd : forall D R c z, rnd_strict D R c z -> rnd D R c z.
Proof. intros D R [v|e] z; cbn; [trivial|destruct e; cbn; lia]. Qed.

Lemma rnd_above : forall D R a c z w, cr_ok D R a -> num a -> rnd D R c z -> cle a c -> z <= w -> above a w.
Proof.
  intros D R [v|e] [x|f] z w Ha Na Hr Hc Hz; cbn in *; trivial; [lia|].
  destruct f; cbn in *; try tauto; unfold in_type in *; lia.
Qed.
Lemma rnd_below : forall D R a c z w, cr_ok D R a -> num a -> rnd D R c z -> cle c a -> w <= z -> below a w.
Proof.
  intros D R [v|e] [x|f] z w Ha Na Hr Hc Hz; cbn in *; trivial; [lia|].
  destruct f; cbn in *; try tauto; unfold in_type in *; lia.
Qed.
Lemma rnd_at_least : forall D R c z w, rnd_strict D R c z -> z <= w -> at_least D R c w.
Proof. intros D R [v|e] z w Hr Hz; cbn in *; [lia|]. destruct e; cbn in *; try tauto; lia. Qed.
Lemma rnd_at_most : forall D R c z w, rnd_strict D R c z -> w <= z -> at_most D R c w.
Proof. intros D R [v|e] z w Hr Hz; cbn in *; [lia|]. destruct e; cbn in *; try tauto; lia. Qed.

Lemma rnd_strict_of_eoo : forall D R z r, exact_or_overflow D R z r ->
  exists c, r = Ok c /\ cr_ok D R c /\ rnd_strict D R c z.
Proof.
  intros D R z r H. destruct (eoo_cases _ _ _ _ H) as [[Hi ->]|[[Hi ->]|[Hi ->]]];
  eexists; (split; [reflexivity|split; cbn; auto]).
Qed.

(** ------------------------------------------------------------------ *)
(** corner lemma for functions monotone in each argument *)

Definition mono_on (g : Z -> Z) (a b : Z) : Prop :=
  (forall x1 x2, a <= x1 -> x1 <= x2 -> x2 <= b -> g x1 <= g x2)
  \/ (forall x1 x2, a <= x1 -> x1 <= x2 -> x2 <= b -> g x2 <= g x1).

Lemma corner_bounds : forall (f : Z -> Z -> Z) a b c d x y,
  a <= x <= b -> c <= y <= d ->
  (forall y0, c <= y0 <= d -> mono_on (fun x0 => f x0 y0) a b) ->
  (forall x0, a <= x0 <= b -> mono_on (f x0) c d) ->
  exists p q p' q', (p = a \/ p = b) /\ (q = c \/ q = d) /\ (p' = a \/ p' = b) /\ (q' = c \/ q' = d)
    /\ f p q <= f x y <= f p' q'.
Proof.
  intros f a b c d x y Hx Hy H1 H2.
  assert (Hpx : exists p p', (p = a \/ p = b) /\ (p' = a \/ p' = b) /\ f p y <= f x y <= f p' y).
  { destruct (H1 y Hy) as [Hm|Hm]; [exists a, b|exists b, a];
    (repeat split; [tauto|tauto| |]); apply Hm; lia. }
  destruct Hpx as (p & p' & Hp & Hp' & Hl & Hu).
  assert (Hin : a <= p <= b) by lia. assert (Hin' : a <= p' <= b) by lia.
  assert (Hq : exists q, (q = c \/ q = d) /\ f p q <= f p y).
  { destruct (H2 p Hin) as [Hm|Hm]; [exists c|exists d]; (split; [tauto|apply Hm; lia]). }
  assert (Hq' : exists q, (q = c \/ q = d) /\ f p' y <= f p' q).
  { destruct (H2 p' Hin') as [Hm|Hm]; [exists d|exists c]; (split; [tauto|apply Hm; lia]). }
  destruct Hq as (q & ? & ?), Hq' as (q' & ? & ?). exists p, q, p', q'.
  repeat split; try assumption; lia.
Qed.

(** An interval computed by minmax from the corners of f contains f x y (weak
    reading), whenever each corner reports the exact value of f. *)
Lemma minmax_corners : forall D R (g : checked -> checked -> res checked) (f : Z -> Z -> Z) a b c d k,
  a <= b -> c <= d ->
  (forall p q r, (p = a \/ p = b) -> (q = c \/ q = d) -> g (CVal p) (CVal q) = Ok r ->
     cr_ok D R r /\ rnd D R r (f p q)) ->
  (forall y0, c <= y0 <= d -> mono_on (fun x0 => f x0 y0) a b) ->
  (forall x0, a <= x0 <= b -> mono_on (f x0) c d) ->
  minmax_of D R (corners g (mkI (CVal a) (CVal b)) (mkI (CVal c) (CVal d))) = Ok k ->
  num (il k) /\ num (iu k) /\ cr_ok D R (il k) /\ cr_ok D R (iu k) /\
  forall x y, a <= x <= b -> c <= y <= d -> above (il k) (f x y) /\ below (iu k) (f x y).
Proof.
  intros D R g f a b c d k Hab Hcd Hg H1 H2 Hk.
  unfold minmax_of in Hk. destruct (seq_res _) as [vs|] eqn:Es; [|discriminate]. cbn [rbind] in Hk.
  apply seq_res_inv in Es. unfold corners in Es. cbn [il iu] in Es.
  inversion Es as [|? r1 ? ? E1 Es1]; subst. inversion Es1 as [|? r2 ? ? E2 Es2]; subst.
  inversion Es2 as [|? r3 ? ? E3 Es3]; subst. inversion Es3 as [|? r4 ? ? E4 Es4]; subst.
  inversion Es4; subst.
  destruct (Hg _ _ _ (or_introl eq_refl) (or_introl eq_refl) E1) as [O1 R1].
  destruct (Hg _ _ _ (or_introl eq_refl) (or_intror eq_refl) E2) as [O2 R2].
  destruct (Hg _ _ _ (or_intror eq_refl) (or_introl eq_refl) E3) as [O3 R3].
  destruct (Hg _ _ _ (or_intror eq_refl) (or_intror eq_refl) E4) as [O4 R4].
  assert (Hall : Forall (cr_ok D R) [r1; r2; r3; r4]) by (repeat constructor; assumption).
  destruct (minmax_spec D R r1 [r2; r3; r4] Hall) as (i & Hi & Hs).
  rewrite Hi in Hk. injection Hk as <-.
  destruct Hs as [[Hn _]|(N1 & N2 & K1 & K2 & _ & _ & _ & _ & Hin)];
    [apply rnd_num in R1; tauto|].
  splits; try assumption. intros x y Hx Hy.
  destruct (corner_bounds f a b c d x y Hx Hy H1 H2)
    as (p & q & p' & q' & Hp & Hq & Hp' & Hq' & Hlo & Hup).
  assert (Hc : forall p q, (p = a \/ p = b) -> (q = c \/ q = d) ->
     exists r, In r [r1; r2; r3; r4] /\ rnd D R r (f p q)) by
   (intros p0 q0 [->| ->] [->| ->];
    [exists r1|exists r2|exists r3|exists r4]; (split; [cbn; tauto|assumption])).
  split.
  - destruct (Hc p q Hp Hq) as (r & Hr & Rr). 
    destruct (Hin r Hr (rnd_num _ _ _ _ Rr)) as [Hle _].
    apply (rnd_above D R (il i) r (f p q)); assumption.
  - destruct (Hc p' q' Hp' Hq') as (r & Hr & Rr). 
    destruct (Hin r Hr (rnd_num _ _ _ _ Rr)) as [_ Hle].
    apply (rnd_below D R (iu i) r (f p' q')); assumption.
Qed.

Lemma rnd_strict_num : forall D R c z, rnd_strict D R c z -> num c.
Proof. intros D R [v|e] z; cbn; [trivial|destruct e; cbn; tauto]. Qed.

(** An interval computed by minmax from the corners of f contains f x y (strong
    reading), whenever each corner reports the exact value of f. *)
Lemma minmax_corners_strict : forall D R (g : checked -> checked -> res checked) (f : Z -> Z -> Z) a b c d k,
  a <= b -> c <= d ->
  (forall p q r, (p = a \/ p = b) -> (q = c \/ q = d) -> g (CVal p) (CVal q) = Ok r ->
     cr_ok D R r /\ rnd_strict D R r (f p q)) ->
  (forall y0, c <= y0 <= d -> mono_on (fun x0 => f x0 y0) a b) ->
  (forall x0, a <= x0 <= b -> mono_on (f x0) c d) ->
  minmax_of D R (corners g (mkI (CVal a) (CVal b)) (mkI (CVal c) (CVal d))) = Ok k ->
  num (il k) /\ num (iu k) /\ cr_ok D R (il k) /\ cr_ok D R (iu k) /\
  forall x y, a <= x <= b -> c <= y <= d -> at_least D R (il k) (f x y) /\ at_most D R (iu k) (f x y).
Proof.
  intros D R g f a b c d k Hab Hcd Hg H1 H2 Hk.
  unfold minmax_of in Hk. destruct (seq_res _) as [vs|] eqn:Es; [|discriminate]. cbn [rbind] in Hk.
  apply seq_res_inv in Es. unfold corners in Es. cbn [il iu] in Es.
  inversion Es as [|? r1 ? ? E1 Es1]; subst. inversion Es1 as [|? r2 ? ? E2 Es2]; subst.
  inversion Es2 as [|? r3 ? ? E3 Es3]; subst. inversion Es3 as [|? r4 ? ? E4 Es4]; subst.
  inversion Es4; subst.
  destruct (Hg _ _ _ (or_introl eq_refl) (or_introl eq_refl) E1) as [O1 R1].
  destruct (Hg _ _ _ (or_introl eq_refl) (or_intror eq_refl) E2) as [O2 R2].
  destruct (Hg _ _ _ (or_intror eq_refl) (or_introl eq_refl) E3) as [O3 R3].
  destruct (Hg _ _ _ (or_intror eq_refl) (or_intror eq_refl) E4) as [O4 R4].
  assert (Hall : Forall (cr_ok D R) [r1; r2; r3; r4]) by (repeat constructor; assumption).
  destruct (minmax_spec D R r1 [r2; r3; r4] Hall) as (i & Hi & Hs).
  rewrite Hi in Hk. injection Hk as <-.
  destruct Hs as [[Hn _]|(N1 & N2 & K1 & K2 & _ & _ & _ & _ & Hin)];
    [apply rnd_strict_num in R1; tauto|].
  splits; try assumption. intros x y Hx Hy.
  destruct (corner_bounds f a b c d x y Hx Hy H1 H2)
    as (p & q & p' & q' & Hp & Hq & Hp' & Hq' & Hlo & Hup).
  assert (Hc : forall p q, (p = a \/ p = b) -> (q = c \/ q = d) ->
     exists r, In r [r1; r2; r3; r4] /\ rnd_strict D R r (f p q)) by
   (intros p0 q0 [->| ->] [->| ->];
    [exists r1|exists r2|exists r3|exists r4]; (split; [cbn; tauto|assumption])).
  split.
  - destruct (Hc p q Hp Hq) as (r & Hr & Rr). 
    destruct (Hin r Hr (rnd_strict_num _ _ _ _ Rr)) as [Hle _].
    apply (at_least_cle D R (il i) r); try assumption; [apply (rnd_strict_num _ _ _ _ Rr)|].
    apply (rnd_at_least D R r (f p q)); assumption.
  - destruct (Hc p' q' Hp' Hq') as (r & Hr & Rr). 
    destruct (Hin r Hr (rnd_strict_num _ _ _ _ Rr)) as [_ Hle].
    apply (at_most_cle D R r (iu i)); try assumption; [apply (rnd_strict_num _ _ _ _ Rr)|].
    apply (rnd_at_most D R r (f p' q')); assumption.
Qed.
