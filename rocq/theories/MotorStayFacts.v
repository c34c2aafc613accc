(** MotorStayFacts.v -- initialize() and calls that ask for no move. *)
From Coq Require Import ZArith Bool List Lia.
From Verif Require Import Base CType Spec CTypeFacts Utility UtilityFacts SafeCompare
  CheckedInteger CheckedIntegerFacts CheckedResultOps CheckedResultFacts Interval IntervalFacts
  ExceptionPolicy Promotion SafeBase SafeSpec SafeFacts SafeConvFacts Program ProgramFacts ValueFacts.
From Verif Require Import Motor MotorSpec MotorFacts MotorStepFacts MotorRunFacts.
Import ListNotations.
Local Open Scope Z_scope.
Local Open Scope motor_scope.

Lemma initialized : forall w, exists w', initialize w = (w', RDone)
  /\ mem w' motor_position = Some 0 /\ mem w' CCP1IE = Some 0 /\ mem w' CCP2IE = Some 0 /\ ramp_sts w' = ramp_sts w
  /\ forall v, v <> motor_position -> v <> CCP1IE -> v <> CCP2IE -> mem w' v = mem w v.
Proof.
  intros [r s]. eexists. split.
  - unfold initialize. erewrite andthen_done by setlit. erewrite andthen_done by setlit. setlit.
  - cbn [mem]. splits; try look; try reflexivity.
    intros v H1 H2 H3. unfold upd.
    rewrite !(proj2 (Nat.eqb_neq _ _)) by congruence. reflexivity.
Qed.

Lemma stayed : forall w h l p, mem w motor_position = Some p -> 0 <= p <= 50000 ->
  exists w1, motor_run (call p h l w) = (w1, RDone) /\ busy w1 = false
    /\ mem w1 d = Some 0 /\ mem w1 m = Some 0
    /\ (forall v, v <> d -> v <> m -> v <> new_position -> v <> TMR1H -> v <> TMR1L -> mem w1 v = mem w v)
    /\ forall k, move k p h l w = Some (w1, RDone).
Proof.
  intros [r s] h l p Hp Bp. cbn [mem] in Hp.
  assert (E : exists s1, motor_run (call p h l (mkW r s)) = (mkW ramp_idle s1, RDone)
     /\ s1 = upd (upd (mem (call p h l (mkW r s))) d (Some 0)) m (Some 0)).
  { eexists. split; [|reflexivity]. unfold motor_run, call. cbn [mem ramp_sts].
    erewrite branch_value by (eapply cond_forward; cbn [mem]; [look|look|lia|lia]).
    rewrite Z.ltb_irrefl.
    erewrite branch_value by (eapply cond_backward; cbn [mem]; [look|look|lia|lia]).
    rewrite Z.ltb_irrefl.
    erewrite andthen_done by setlit. erewrite andthen_done by setlit. reflexivity. }
  destruct E as (s1 & E & S1). exists (mkW ramp_idle s1). splits; try reflexivity; try exact E.
  - cbn [mem]. subst s1. look.
  - cbn [mem]. subst s1. look.
  - intros v H1 H2 H3 H4 H5. cbn [mem]. subst s1. unfold call. cbn [mem]. unfold upd.
    rewrite !(proj2 (Nat.eqb_neq _ _)) by congruence. reflexivity.
  - intros k. unfold move. rewrite E. destruct k; reflexivity.
Qed.
