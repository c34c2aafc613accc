(** OrderFacts.v -- the order of evaluation does not matter. Proofs only. *)
From Coq Require Import ZArith List Bool Lia.
From Verif Require Import Base CType Spec ExceptionPolicy Promotion SafeBase SafeSpec Program ProgramSpec OrderSpec
  PropsProgramProofs ComposeSpec ComposeFacts.
Import ListNotations.
Local Open Scope Z_scope.

Definition alike {A : Type} (o o' : outcome A) : Prop :=
  match o, o' with
  | Ret a, Ret b => a = b
  | Ret _, _ | _, Ret _ => False
  | _, _ => True
  end.
Lemma alike_refl : forall A (o : outcome A), alike o o.
Proof. intros A []; cbn; auto. Qed.
Lemma snd_bind : forall A B (m : M A) (k : A -> M B),
  snd (mbind m k) = match snd m with Ret a => snd (k a) | Throw e => Throw e | Undef => Undef | Trapped => Trapped end.
Proof. intros A B [tr []] k; cbn; try reflexivity. destruct (k a). reflexivity. Qed.
Lemma alike_bind : forall A B (m m' : M A) (k : A -> M B), alike (snd m) (snd m') ->
  alike (snd (mbind m k)) (snd (mbind m' k)).
Proof.
  intros A B m m' k H. rewrite !snd_bind. destruct (snd m), (snd m'); cbn in *; try tauto. subst. apply alike_refl.
Qed.
Lemma alike_both : forall f f' a a' b b', alike (snd a) (snd a') -> alike (snd b) (snd b') ->
  alike (snd (both f a b)) (snd (both f' a' b')).
Proof.
  intros f f' a a' b b' Ha Hb. unfold both.
  destruct f, f'; rewrite !snd_bind; destruct (snd a) eqn:Ea, (snd a') eqn:Ea', (snd b) eqn:Eb, (snd b') eqn:Eb';
    cbn in Ha, Hb; try contradiction; subst; rewrite ?snd_bind, ?Ea, ?Ea', ?Eb, ?Eb'; cbn; auto.
Qed.

Lemma same_type : forall D G e e', same_expr e e' -> type_of D G e = type_of D G e'.
Proof.
  intros D G e e' H. induction H; cbn [type_of]; try reflexivity;
  repeat match goal with IH : type_of _ _ _ = _ |- _ => rewrite IH; clear IH end; reflexivity.
Qed.
Lemma same_eval : forall D G s e e', same_expr e e' -> alike (snd (eval D G s e)) (snd (eval D G s e')).
Proof.
  intros D G s e e' H. induction H; cbn [eval]; try apply alike_refl.
  - rewrite (same_type D G a a'), (same_type D G b b') by assumption.
    destruct (type_of D G a') as [t|]; [|apply alike_refl]. destruct (type_of D G b') as [u|]; [|apply alike_refl].
    apply alike_bind, alike_both; assumption.
  - rewrite (same_type D G a a') by assumption. destruct (type_of D G a') as [[]|]; try apply alike_refl.
    apply alike_bind; assumption.
  - rewrite (same_type D G a a') by assumption. destruct (type_of D G a') as [[]|]; try apply alike_refl.
    apply alike_bind; assumption.
  - rewrite (same_type D G a a') by assumption. destruct (type_of D G a') as [t|]; try apply alike_refl.
    apply alike_bind; assumption.
Qed.
Lemma same_eval_cond : forall D G s c c', same_cond c c' -> alike (snd (eval_cond D G s c)) (snd (eval_cond D G s c')).
Proof.
  intros D G s c c' H. destruct H as [r f f' a a' b b' Ha Hb]. cbn [eval_cond].
  rewrite (same_type D G a a'), (same_type D G b b') by assumption.
  destruct (type_of D G a') as [t|]; [|apply alike_refl]. destruct (type_of D G b') as [u|]; [|apply alike_refl].
  apply alike_bind, alike_both; apply same_eval; assumption.
Qed.

(** the second run ends undefined, or as the first *)
Definition follows (o o' : option (store * result)) : Prop :=
  match o with
  | Some (s, r) => r <> RUndef -> exists s' r', o' = Some (s', r') /\ (r' = RUndef \/ (s' = s /\ same_end r r'))
  | None => True
  end.
Lemma follows_refl : forall o, follows o o.
Proof.
  intros [[s r]|]; cbn; [|trivial]. intros N. exists s, r. split; [reflexivity|].
  right. split; [reflexivity|]. unfold same_end. destruct r; eauto 8. congruence.
Qed.
Lemma follows_undef : forall o s, follows o (Some (s, RUndef)).
Proof. intros [[s r]|] s'; [|exact I]. intros _. exists s', RUndef. auto. Qed.
Lemma follows_raised : forall s e e', follows (Some (s, RRaised e)) (Some (s, RRaised e')).
Proof. intros s e e' _. exists s, (RRaised e'). split; [reflexivity|]. right. split; [reflexivity|]. right. eauto. Qed.
Lemma follows_finish : forall A s (m m' : M A) w, alike (snd m) (snd m') -> follows (Some (finish s m w)) (Some (finish s m' w)).
Proof.
  intros A s m m' w H. unfold finish. destruct (snd m), (snd m'); cbn in *; try contradiction; subst;
    intros N; try congruence; do 2 eexists; (split; [reflexivity|]); auto; right; (split; [reflexivity|]);
    unfold same_end; eauto 8.
Qed.
Lemma follows_bind : forall o o' (k k' : store -> result -> option (store * result)),
  follows o o' ->
  (forall s r r', same_end r r' -> follows (k s r) (k' s r')) ->
  (forall s, k s RUndef = Some (s, RUndef)) -> (forall s, k' s RUndef = Some (s, RUndef)) ->
  follows (match o with Some (s, r) => k s r | None => None end) (match o' with Some (s, r) => k' s r | None => None end).
Proof.
  intros o o' k k' H Hk U U'. destruct o as [[s r]|]; [|exact I].
  destruct (match r with RUndef => true | _ => false end) eqn:E.
  - destruct r; try discriminate. rewrite U. cbn. congruence.
  - assert (N : r <> RUndef) by (intros ->; discriminate).
    destruct (H N) as (s' & r' & -> & [->|[-> Hr]]).
    + rewrite U'. unfold follows. destruct (k s r) as [[s2 r2]|]; [|exact I]. eauto 8.
    + apply Hk. assumption.
Qed.
Lemma seq_form : forall fuel D G s a b, exec fuel D G s (CSeq a b) =
  match exec fuel D G s a with
  | Some (s1, r) => match r with RDone => exec fuel D G s1 b | _ => Some (s1, r) end
  | None => None end.
Proof. intros. cbn [exec]. destruct (exec fuel D G s a) as [[? []]|]; reflexivity. Qed.
Lemma try_form : forall fuel D G s a b, exec fuel D G s (CTry a b) =
  match exec fuel D G s a with
  | Some (s1, r) => match r with RRaised _ => exec fuel D G s1 b | _ => Some (s1, r) end
  | None => None end.
Proof. intros. cbn [exec]. destruct (exec fuel D G s a) as [[? []]|]; reflexivity. Qed.

Lemma same_loop : forall cnd cnd' body body',
  (forall s, alike (snd (cnd s)) (snd (cnd' s))) -> (forall s, follows (body s) (body' s)) ->
  forall n s, follows (loop cnd body n s) (loop cnd' body' n s).
Proof.
  intros cnd cnd' body body' Hc Hb n. induction n as [|n IH]; intros s; cbn [loop]; [exact I|].
  specialize (Hc s). destruct (snd (cnd s)) as [[]| | |], (snd (cnd' s)) as [[]| | |]; cbn in Hc; try contradiction; try discriminate;
    try (intros N; congruence); try apply follows_undef; try apply follows_raised; try apply follows_refl.
  specialize (Hb s). destruct (body s) as [[s1 r]|]; [|exact I].
  destruct r as [|e|]; [|intros N|intros N; congruence].
  - destruct (Hb ltac:(discriminate)) as (s' & r' & -> & [->|[-> [[_ ->]|(e & e' & C & _)]]]); [|apply IH|discriminate].
    unfold follows. destruct (loop cnd body n s1) as [[s2 r2]|]; [|exact I]. eauto 8.
  - destruct (Hb N) as (s' & r' & -> & [->|[-> [[C _]|(e0 & e' & _ & ->)]]]); [eauto 8|discriminate|].
    do 2 eexists. split; [reflexivity|]. right. split; [reflexivity|]. unfold same_end. eauto 8.
Qed.

Lemma same_exec : forall D G fuel c c', same_cmd c c' -> forall s, follows (exec fuel D G s c) (exec fuel D G s c').
Proof.
  intros D G fuel c c' H. induction H; intros s; try apply follows_refl.
  - cbn [exec]. rewrite (same_type D G e e') by assumption. destruct (type_of D G e') as [t|]; [|apply follows_refl].
    apply follows_finish, alike_bind, same_eval. assumption.
  - cbn [exec]. rewrite (same_type D G e e') by assumption. destruct (type_of D G e') as [t|]; [|apply follows_refl].
    apply follows_finish, alike_bind, same_eval. assumption.
  - rewrite !seq_form. apply (follows_bind _ _ (fun s1 r => match r with RDone => exec fuel D G s1 b | _ => Some (s1, r) end)
      (fun s1 r => match r with RDone => exec fuel D G s1 b' | _ => Some (s1, r) end)); auto.
    intros s1 r r' [[-> ->]|(e & e' & -> & ->)]; [auto|].
    intros _. do 2 eexists. split; [reflexivity|]. right. split; [reflexivity|]. unfold same_end. eauto 8.
  - cbn [exec]. pose proof (same_eval_cond D G s c c' H) as Hc.
    destruct (snd (eval_cond D G s c)) as [[]| | |], (snd (eval_cond D G s c')) as [[]| | |];
      cbn in Hc; try contradiction; try discriminate; auto; try (intros N; congruence); try apply follows_undef; try apply follows_raised; try apply follows_refl.
  - cbn [exec]. apply same_loop; [intros; apply same_eval_cond; assumption|assumption].
  - rewrite !try_form. apply (follows_bind _ _ (fun s1 r => match r with RRaised _ => exec fuel D G s1 b | _ => Some (s1, r) end)
      (fun s1 r => match r with RRaised _ => exec fuel D G s1 b' | _ => Some (s1, r) end)); auto.
    intros s1 r r' [[-> ->]|(e & e' & -> & ->)]; [|auto].
    intros _. do 2 eexists. split; [reflexivity|]. right. split; [reflexivity|]. unfold same_end. eauto 8.
Qed.

Lemma order_expr : forall D G s e e' z, same_expr e e' ->
  (snd (eval D G s e) = Ret z <-> snd (eval D G s e') = Ret z).
Proof.
  intros D G s e e' z H. pose proof (same_eval D G s e e' H) as A.
  destruct (snd (eval D G s e)), (snd (eval D G s e')); cbn in A; try contradiction; subst; intuition congruence.
Qed.
Lemma order_cmd : forall D G fuel c c' s s1 r, same_cmd c c' ->
  exec fuel D G s c = Some (s1, r) -> r <> RUndef ->
  exists s2 r', exec fuel D G s c' = Some (s2, r') /\ (r' = RUndef \/ (s2 = s1 /\ same_end r r')).
Proof.
  intros D G fuel c c' s s1 r H E N. pose proof (same_exec D G fuel c c' H s) as F. rewrite E in F. apply F. assumption.
Qed.

(** the programs of C33 *)
Lemma same_sym_expr : forall e e', same_expr e e' -> same_expr e' e.
Proof. intros e e' H. induction H; constructor; assumption. Qed.
Lemma same_expr_ok : forall nat D e e', same_expr e e' -> expr_ok nat D e -> expr_ok nat D e'.
Proof. intros nat D e e' H. induction H; cbn [expr_ok]; tauto. Qed.
Lemma same_cond_ok : forall nat D c c', same_cond c c' -> cond_ok nat D c -> cond_ok nat D c'.
Proof. intros nat D c c' H. destruct H. cbn. intros [A B]. eauto using same_expr_ok. Qed.
Lemma same_cmd_ok : forall nat D G c c', same_cmd c c' -> cmd_ok nat D G c -> cmd_ok nat D G c'.
Proof.
  intros nat D G c c' H. induction H; cbn [cmd_ok]; try tauto; eauto using same_expr_ok.
  - intros [A B]. eauto using same_expr_ok.
  - intros (A & B & C). pose proof (same_cond_ok nat D c c' H A). auto.
  - intros (A & B). pose proof (same_cond_ok nat D c c' H A). auto.
Qed.
Lemma same_cond_compiles : forall D G c c', same_cond c c' -> cond_compiles D G c = cond_compiles D G c'.
Proof.
  intros D G c c' H. destruct H. cbn [cond_compiles].
  rewrite (same_type D G a a'), (same_type D G b b') by assumption. reflexivity.
Qed.
Lemma same_compiles : forall D G c c', same_cmd c c' -> compiles D G c = compiles D G c'.
Proof.
  intros D G c c' H. induction H; cbn [compiles]; try reflexivity;
  try (rewrite (same_type D G e e') by assumption; reflexivity);
  try (rewrite (same_cond_compiles D G c c') by assumption);
  repeat match goal with IH : compiles _ _ _ = _ |- _ => rewrite IH; clear IH end; reflexivity.
Qed.

Lemma order_programs : forall nat D G fuel c c' s i s1 r,
  (forall v, type_ok nat D (G v)) -> store_ok D G s i -> cmd_ok nat D G c -> compiles D G c = true ->
  same_cmd c c' -> exec fuel D G s c = Some (s1, r) ->
  exists r', exec fuel D G s c' = Some (s1, r') /\ same_end r r'.
Proof.
  intros nat D G fuel c c' s i s1 r HG Hs Hc Hm Hcc E.
  destruct (C33_lemma nat D G fuel c s i s1 r HG Hs Hc Hm E) as (i' & _ & Hr).
  destruct (order_cmd D G fuel c c' s s1 r Hcc E) as (s2 & r' & E' & Hr').
  { destruct Hr as [[-> _]|(e & -> & _)]; discriminate. }
  assert (N : r' <> RUndef).
  { rewrite (same_compiles D G c c' Hcc) in Hm.
    destruct (C33_lemma nat D G fuel c' s i s2 r' HG Hs (same_cmd_ok nat D G c c' Hcc Hc) Hm E') as (i2 & _ & H2).
    destruct H2 as [[-> _]|(e & -> & _)]; discriminate. }
  destruct Hr' as [C|[-> S]]; [contradiction|]. eauto.
Qed.

(** the programs of C73 *)
Lemma same_expr_fine : forall nat D G e e', same_expr e e' -> forall tgt, expr_fine nat D G tgt e -> expr_fine nat D G tgt e'.
Proof.
  intros nat D G e e' H. induction H; intros tgt; cbn [expr_fine]; auto.
  - rewrite (same_type D G a a'), (same_type D G b b') by assumption. intros (A & B & C). auto.
  - intros [A B]. auto.
Qed.
Lemma same_cond_fine : forall nat D G c c', same_cond c c' -> cond_fine nat D G c -> cond_fine nat D G c'.
Proof. intros nat D G c c' H. destruct H. cbn. intros [A B]. eauto using same_expr_fine. Qed.
Lemma same_cmd_fine : forall nat D G c c', same_cmd c c' -> cmd_fine nat D G c -> cmd_fine nat D G c'.
Proof.
  intros nat D G c c' H. induction H; cbn [cmd_fine]; try tauto; eauto using same_expr_fine.
  - rewrite (same_type D G e e') by assumption. intros [A B]. eauto using same_expr_fine.
  - intros (A & B & C). pose proof (same_cond_fine nat D G c c' H A). auto.
  - intros (A & B). pose proof (same_cond_fine nat D G c c' H A). auto.
Qed.
Lemma order_all_operators : forall nat D G fuel c c' s i s1 r,
  (forall v, type_fine nat D (G v)) -> store_ok D G s i -> cmd_fine nat D G c -> compiles D G c = true ->
  same_cmd c c' -> exec fuel D G s c = Some (s1, r) ->
  exists r', exec fuel D G s c' = Some (s1, r') /\ same_end r r'.
Proof.
  intros nat D G fuel c c' s i s1 r HG Hs Hc Hm Hcc E.
  destruct (C73_cmd nat D G fuel c s i s1 r HG Hs Hc Hm E) as (i' & _ & Hr).
  destruct (order_cmd D G fuel c c' s s1 r Hcc E) as (s2 & r' & E' & Hr').
  { destruct Hr as [[-> _]|(e & -> & _)]; discriminate. }
  assert (N : r' <> RUndef).
  { rewrite (same_compiles D G c c' Hcc) in Hm.
    destruct (C73_cmd nat D G fuel c' s i s2 r' HG Hs (same_cmd_fine nat D G c c' Hcc Hc) Hm E') as (i2 & _ & H2).
    destruct H2 as [[-> _]|(e & -> & _)]; discriminate. }
  destruct Hr' as [C|[-> S]]; [contradiction|]. eauto.
Qed.
