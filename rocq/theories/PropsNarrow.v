(** PropsNarrow.v -- C84: declaring a narrower range never costs more. *)
From Coq Require Import ZArith List Bool Lia.
From Verif Require Import Base CType Spec ExceptionPolicy Promotion SafeBase SafeSpec StaticSpec NarrowSpec NarrowFacts.
Import ListNotations.
Local Open Scope Z_scope.

(** With a promotion policy that goes by the underlying types, the type of the result does
    not depend on the declared ranges, and a sum, difference or product that needs no check
    at run time needs none after the ranges of the operands are narrowed *)
Theorem C84_checks : forall D op t t' u u' oi oi', op = Add \/ op = Sub \/ op = Mul ->
  wf_operand D t -> wf_operand D u -> wf_operand D t' -> wf_operand D u' ->
  narrowed t t' -> narrowed u u' ->
  op_static D op t u = Some oi -> op_static D op t' u' = Some oi' -> by_type (sP (oi_type oi)) ->
  st (oi_type oi') = st (oi_type oi) /\ (oi_checked oi = false -> oi_checked oi' = false).
Proof. exact C84_checks_lemma. Qed.
Print Assumptions C84_checks.

(** likewise for quotients and remainders of operands whose values are values of the type of
    the result *)
Theorem C84_checks_division : forall D op t t' u u' oi oi', op = Div \/ op = Mod ->
  wf_operand D t -> wf_operand D u -> wf_operand D t' -> wf_operand D u' ->
  narrowed t t' -> narrowed u u' ->
  op_static D op t u = Some oi -> op_static D op t' u' = Some oi' -> by_type (sP (oi_type oi)) ->
  (forall x, holds D t x -> in_type D (st (oi_type oi)) x) -> (forall y, holds D u y -> in_type D (st (oi_type oi)) y) ->
  oi_checked oi = false -> oi_checked oi' = false.
Proof. exact C84_division_lemma. Qed.
Print Assumptions C84_checks_division.

(** and for shifts of values that are not negative, by counts that are not negative *)
Theorem C84_checks_shifts : forall D op t t' u u' oi oi', op = Shl \/ op = Shr ->
  wf_operand D t -> wf_operand D u -> wf_operand D t' -> wf_operand D u' ->
  narrowed t t' -> narrowed u u' -> 0 <= lim_lo D t -> 0 <= lim_lo D u ->
  op_static D op t u = Some oi -> op_static D op t' u' = Some oi' -> by_type (sP (oi_type oi)) ->
  oi_checked oi = false -> oi_checked oi' = false.
Proof. exact C84_shifts_lemma. Qed.
Print Assumptions C84_checks_shifts.

(** so an expression that compiles under a trap policy still does *)
Theorem C84_trap : forall D op t t' u u' x y x' y' s m, op = Add \/ op = Sub \/ op = Mul ->
  wf_operand D t -> wf_operand D u -> wf_operand D t' -> wf_operand D u' ->
  narrowed t t' -> narrowed u u' ->
  binary D op t u x y = Some (s, m) -> traps (sE s) -> by_type (sP s) ->
  exists s' m', binary D op t' u' x' y' = Some (s', m').
Proof. exact narrow_trap. Qed.
Print Assumptions C84_trap.

(** The declared range of the result lies inside the one before, provided the operation is
    possible at all for some values of the narrowed ranges *)
Theorem C84_range : forall D op t t' u u' oi oi' x0 y0, op = Add \/ op = Sub \/ op = Mul ->
  wf_operand D t -> wf_operand D u -> wf_operand D t' -> wf_operand D u' ->
  narrowed t t' -> narrowed u u' ->
  op_static D op t u = Some oi -> op_static D op t' u' = Some oi' -> sP (oi_type oi) = Native ->
  holds D t' x0 -> holds D u' y0 -> meaningful D op (base_ty t) (base_ty u) x0 y0 ->
  range_inside (oi_type oi') (oi_type oi).
Proof. exact narrow_range. Qed.
Print Assumptions C84_range.

Definition exn := strict_exception_policy.
Definition rn (T : ctype) (a b : Z) := OSafe (mkSafe T a b Native exn).
Definition ra (T : ctype) (a b : Z) := OSafe (mkSafe T a b Automatic exn).

(** [0,50] * [-4,4] inside [0,100] * [-9,9], both unchecked; and under a trap policy *)
Example C84_nonvacuous :
  let t := rn Int 0 100 in let u := rn Int (-9) 9 in let t' := rn Int 0 50 in let u' := rn Int (-4) 4 in
  let trap a b := OSafe (mkSafe Int a b Native strict_trap_policy) in
  (wf_operand LP64 t /\ wf_operand LP64 u /\ wf_operand LP64 t' /\ wf_operand LP64 u')
  /\ (narrowed t t' /\ narrowed u u')
  /\ op_static LP64 Mul t u = Some (mkInfo exn Int (mkSafe Int (-900) 900 Native exn) false)
  /\ op_static LP64 Mul t' u' = Some (mkInfo exn Int (mkSafe Int (-200) 200 Native exn) false)
  /\ (holds LP64 t' 7 /\ holds LP64 u' (-2) /\ meaningful LP64 Mul Int Int 7 (-2))
  /\ (exists s m, binary LP64 Mul (trap 0 100) (trap (-9) 9) 7 (-2) = Some (s, m) /\ traps (sE s) /\ by_type (sP s))
  /\ (narrowed (trap 0 100) (trap 0 50) /\ narrowed (trap (-9) 9) (trap (-4) 4)).
Proof.
  cbv zeta. repeat match goal with |- _ /\ _ => split end.
  all: try (right; do 7 eexists; (split; [reflexivity|split; [reflexivity|lia]])).
  all: try (do 2 eexists; split; [vm_compute; reflexivity|split; [reflexivity|discriminate]]).
  all: vm_compute; intuition congruence.
Qed.

Example C84_division_nonvacuous :
  let t := rn Int 0 100 in let u := rn Int 3 9 in let t' := rn Int 20 50 in let u' := rn Int 5 5 in
  (wf_operand LP64 t /\ wf_operand LP64 u /\ wf_operand LP64 t' /\ wf_operand LP64 u')
  /\ (forall op, op = Div \/ op = Mod \/ op = Shl \/ op = Shr ->
        option_map oi_checked (op_static LP64 op t u) = Some false
        /\ option_map oi_checked (op_static LP64 op t' u') = Some false
        /\ option_map (fun oi => st (oi_type oi)) (op_static LP64 op t u) = Some Int).
Proof.
  cbv zeta. repeat match goal with |- _ /\ _ => split end; lazymatch goal with
    | |- forall _, _ => intros op [->|[->|[->| ->]]]; vm_compute; auto
    | _ => vm_compute; intuition congruence
    end.
Qed.

(** Where no value of the narrowed ranges can be added, the declared range of the result
    gets wider *)
Theorem C84_range_refuted : exists D t t' u u' oi oi',
  wf_operand D t /\ wf_operand D u /\ wf_operand D t' /\ wf_operand D u' /\ narrowed t t' /\ narrowed u u'
  /\ op_static D Add t u = Some oi /\ op_static D Add t' u' = Some oi'
  /\ smin (oi_type oi) = 0 /\ smin (oi_type oi') = -2147483648.
Proof. exact C84_range_refuted_lemma. Qed.
Print Assumptions C84_range_refuted.

(** For / and % the declared range of the result may get wider even then: [0,100] / [-5,5] is
    in [-100,100] but [0,100] / [0,5] is any int; [0,10] % 7 is in [0,3] but [0,6] % 7 in [0,6] *)
Theorem C84_range_division_refuted : exists D op t t' u u' oi oi', (op = Div \/ op = Mod) /\
  wf_operand D t /\ wf_operand D u /\ wf_operand D t' /\ wf_operand D u' /\ narrowed t t' /\ narrowed u u'
  /\ op_static D op t u = Some oi /\ op_static D op t' u' = Some oi' /\ sP (oi_type oi) = Native
  /\ (exists x y, holds D t' x /\ holds D u' y /\ meaningful D op (base_ty t) (base_ty u) x y)
  /\ ~ range_inside (oi_type oi') (oi_type oi).
Proof. exact C84_range_division_refuted_lemma. Qed.
Print Assumptions C84_range_division_refuted.

(** With automatic promotion narrower ranges may bring in a check and an exception:
    [0,200] - [0,200] is exact, but [100,200] - [100,200] is computed in signed char *)
Theorem C84_automatic_refuted : exists D t t' u u' x y s m s' e,
  wf_operand D t /\ wf_operand D u /\ wf_operand D t' /\ wf_operand D u' /\ narrowed t t' /\ narrowed u u'
  /\ holds D t' x /\ holds D u' y
  /\ binary D Sub t u x y = Some (s, m) /\ sP s = Automatic /\ returns m (x - y)
  /\ binary D Sub t' u' x y = Some (s', ([(arithmetic_error, e)], Throw e)).
Proof. exact C84_automatic_refuted_lemma. Qed.
Print Assumptions C84_automatic_refuted.

(** and so they may for >> with counts that may be negative *)
Theorem C84_shift_refuted : exists D t t' u oi oi',
  wf_operand D t /\ wf_operand D t' /\ wf_operand D u /\ narrowed t t'
  /\ op_static D Shr t u = Some oi /\ op_static D Shr t' u = Some oi' /\ sP (oi_type oi) = Native
  /\ oi_checked oi = false /\ oi_checked oi' = true.
Proof. exact C84_shift_refuted_lemma. Qed.
Print Assumptions C84_shift_refuted.
