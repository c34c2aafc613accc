(** PropsToldMore.v -- property C100 for programs that switch streams between bases and for
    assignments that are operands of assignments. *)
From Coq Require Import ZArith List Bool.
From Verif Require Import Base CType ExceptionPolicy Promotion SafeBase SafeSpec Program Stream BaseStream BaseProgram
  ChainProgram ToldSpec ToldMoreSpec ToldMoreFacts.
Import ListNotations.
Local Open Scope Z_scope.

Theorem C100_base_programs : forall n D G c p p' e, bp_exec n D G p c = Some (p', RRaised e) ->
  exists E, occurs_base G c E /\ answers E e HThrow.
Proof. exact bp_raised. Qed.
Print Assumptions C100_base_programs.

Theorem C100_assignments : forall D G l s s' e, asg_eval D G l s = (s', AStop (RRaised e)) ->
  exists E, occurs_asg G l E /\ answers E e HThrow.
Proof. exact asg_raised. Qed.
Print Assumptions C100_assignments.

(** v0 has a policy that ignores every error, v1 the default one; both have the range 0..100 and
    the value 100, v2 is an int. ++(v1 = v0) raises; reading "g" with std::hex raises for v1 and
    not for v0 *)
Example C100_more_nonvacuous :
  let G := fun v : nat => match v with
    | O => OSafe (mkSafe Int 0 100 Native (mkEP HIgnore HIgnore HIgnore HIgnore))
    | S O => OSafe (mkSafe Int 0 100 Native default_exception_policy) | _ => ORaw Int end in
  let s := fun _ : nat => Some 100 in
  let t := (BDec, mkIs [103] false false) in
  (exists s', asg_eval LP64 G (LSet true (LVar 1) (LSet true (LVar 0) (LVar 2))) s = (s', APlace (PVar 1)))
  /\ (exists s', asg_eval LP64 G (LStep true (LSet true (LVar 1) (LVar 0))) s
        = (s', AStop (RRaised positive_overflow_error)))
  /\ (exists p, bp_exec 1 LP64 G (s, t, (BDec, [])) (BPSeq (BPIn BHex) (BPRead 0)) = Some (p, RDone))
  /\ (exists p, bp_exec 1 LP64 G (s, t, (BDec, [])) (BPSeq (BPIn BHex) (BPRead 1)) = Some (p, RRaised domain_error)).
Proof. cbv zeta. repeat split; eexists; vm_compute; reflexivity. Qed.
