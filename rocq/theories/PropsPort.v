(** PropsPort.v -- property C45 for the comparisons, / and %, and what is false
    of it. *)
From Coq Require Import ZArith Bool List Lia.
From Verif Require Import Base CType Spec ExceptionPolicy Promotion SafeBase SafeSpec
  PortProofs.
Import ListNotations.
Local Open Scope Z_scope.

Definition po_ep : ep := mkEP HThrow HThrow HThrow HThrow.
Definition po (mn mx : Z) (T : ctype) : otype := OSafe (mkSafe T mn mx Automatic po_ep).

(** < > <= >= == != under automatic promotion give the same answer (or the same
    exception) on every data model *)
Theorem C45_comparisons : forall D D' t u t' u' x y m,
  corresponds D D' t t' -> corresponds D D' u u' ->
  wf_operand D t -> wf_operand D u -> wf_operand D' t' -> wf_operand D' u' ->
  holds D t x -> holds D u y ->
  common_pp t u = Some Automatic -> operand_throws t -> operand_throws u ->
  (s_lt D t u x y = Some m -> s_lt D' t' u' x y = Some m)
  /\ (s_gt D t u x y = Some m -> s_gt D' t' u' x y = Some m)
  /\ (s_le D t u x y = Some m -> s_le D' t' u' x y = Some m)
  /\ (s_ge D t u x y = Some m -> s_ge D' t' u' x y = Some m)
  /\ (s_eq D t u x y = Some m -> s_eq D' t' u' x y = Some m)
  /\ (s_ne D t u x y = Some m -> s_ne D' t' u' x y = Some m).
Proof. exact port_comparisons. Qed.
Print Assumptions C45_comparisons.

(** / for result types that contain the ranges of both operands (missing: the
    others, for which it is false) *)
Theorem C45_division_partial : forall D D' t u t' u' x y s m,
  corresponds D D' t t' -> corresponds D D' u u' ->
  wf_operand D t -> wf_operand D u -> wf_operand D' t' -> wf_operand D' u' ->
  holds D t x -> holds D u y ->
  binary D Div t u x y = Some (s, m) -> sP s = Automatic -> throws_arithmetic (sE s) ->
  fits_in D (st s) t -> fits_in D (st s) u ->
  exists s', binary D' Div t' u' x y = Some (s', m)
    /\ smin s' = smin s /\ smax s' = smax s
    /\ lo D (st s) = lo D' (st s') /\ hi D (st s) = hi D' (st s').
Proof. exact port_division. Qed.
Print Assumptions C45_division_partial.

(** % likewise, without MIN % MIN and MIN % -1 (for which it is false) *)
Theorem C45_modulus_partial : forall D D' t u t' u' x y s m,
  corresponds D D' t t' -> corresponds D D' u u' ->
  wf_operand D t -> wf_operand D u -> wf_operand D' t' -> wf_operand D' u' ->
  holds D t x -> holds D u y ->
  binary D Mod t u x y = Some (s, m) -> sP s = Automatic -> throws_arithmetic (sE s) ->
  fits_in D (st s) t -> fits_in D (st s) u ->
  ~ (x = lo D (st s) /\ (y = lo D (st s) \/ y = -1)) ->
  exists s', binary D' Mod t' u' x y = Some (s', m)
    /\ smin s' = smin s /\ smax s' = smax s
    /\ lo D (st s) = lo D' (st s') /\ hi D (st s) = hi D' (st s').
Proof. exact port_modulus. Qed.
Print Assumptions C45_modulus_partial.

(** range<-32768,0> / range<5,65535>: the division is made in a 16-bit signed
    type, in which 65535 is -1: -32768 on LP64 (int is 32 bits), undefined where
    int is 16 bits; the quotient is 0 *)
Theorem C45_division_refuted : exists D D' t u x y s s',
  corresponds D D' t t /\ corresponds D D' u u
  /\ wf_operand D t /\ wf_operand D u /\ wf_operand D' t /\ wf_operand D' u
  /\ holds D t x /\ holds D u y
  /\ binary D Div t u x y = Some (s, ([], Ret (-32768)))
  /\ throws_arithmetic (sE s) /\ sP s = Automatic
  /\ binary D' Div t u x y = Some (s', ([], Undef)) /\ Z.quot x y = 0.
Proof.
  exists LP64, IP16, (po (-32768) 0 Short), (po 5 65535 UShort), (-32768), 65535.
  do 2 eexists. vm_compute. intuition congruence.
Qed.
Print Assumptions C45_division_refuted.

(** the same range stored in a 32-bit or in a 64-bit type: MIN % MIN is MIN or 0 *)
Theorem C45_modulus_refuted : exists D t u t' u' x y s s',
  corresponds D D t t' /\ corresponds D D u u'
  /\ wf_operand D t /\ wf_operand D u /\ wf_operand D t' /\ wf_operand D u'
  /\ holds D t x /\ holds D u y
  /\ binary D Mod t u x y = Some (s, ([], Ret x))
  /\ throws_arithmetic (sE s) /\ sP s = Automatic
  /\ fits_in D (st s) t /\ fits_in D (st s) u
  /\ binary D Mod t' u' x y = Some (s', ([], Ret 0)) /\ x <> 0.
Proof.
  exists LP64, (po (-2147483648) 5 Int), (po (-2147483648) 1073741825 Int),
    (po (-2147483648) 5 Long), (po (-2147483648) 1073741825 Long), (-2147483648), (-2147483648),
    (mkSafe Int (-2147483648) 5 Automatic po_ep), (mkSafe Int (-2147483648) 5 Automatic po_ep).
  vm_compute. intuition congruence.
Qed.
Print Assumptions C45_modulus_refuted.

(** range<0,0> << range<0,20> is 0 where int has 32 bits and a shift by more than
    the width of int, which is undefined, where it has 16 *)
Theorem C45_left_shift_refuted : exists D D' t u x y s s',
  corresponds D D' t t /\ corresponds D D' u u
  /\ wf_operand D t /\ wf_operand D u /\ wf_operand D' t /\ wf_operand D' u
  /\ holds D t x /\ holds D u y
  /\ binary D Shl t u x y = Some (s, ([], Ret 0))
  /\ throws_arithmetic (sE s) /\ throws_shift (sE s) /\ sP s = Automatic
  /\ binary D' Shl t u x y = Some (s', ([], Undef)).
Proof.
  exists LP64, IP16, (po 0 0 UChar), (po 0 20 UChar), 0, 20.
  do 2 eexists. vm_compute. intuition congruence.
Qed.
Print Assumptions C45_left_shift_refuted.

(** uint16 >> range<0,16> compiles where int has 32 bits and not where it has 16 *)
Theorem C45_right_shift_refuted : exists D D' t u x y s,
  corresponds D D' t t /\ corresponds D D' u u
  /\ wf_operand D t /\ wf_operand D u /\ wf_operand D' t /\ wf_operand D' u
  /\ holds D t x /\ holds D u y
  /\ binary D Shr t u x y = Some (s, ([], Ret 0))
  /\ throws_arithmetic (sE s) /\ throws_shift (sE s) /\ sP s = Automatic
  /\ binary D' Shr t u x y = None.
Proof.
  exists LP64, IP16, (po 0 65535 UShort), (po 0 16 UShort), 65535, 16.
  eexists. vm_compute. intuition congruence.
Qed.
Print Assumptions C45_right_shift_refuted.

(** -1 | 5 with a signed and an unsigned 16-bit type: -1 or 65535 *)
Theorem C45_bitwise_refuted : exists D D' t u x y s s',
  corresponds D D' t t /\ corresponds D D' u u
  /\ wf_operand D t /\ wf_operand D u /\ wf_operand D' t /\ wf_operand D' u
  /\ holds D t x /\ holds D u y
  /\ bitwise D Or t u x y = Some (s, ([], Ret (-1)))
  /\ throws_arithmetic (sE s) /\ sP s = Automatic
  /\ bitwise D' Or t u x y = Some (s', ([], Ret 65535)).
Proof.
  exists LP64, IP16, (po (-1) 5 Short), (po 0 5 UShort), (-1), 5.
  do 2 eexists. vm_compute. intuition congruence.
Qed.
Print Assumptions C45_bitwise_refuted.

(** 32-bit ranges held in int on LP64 and in long on the 16-bit model *)
Example C45_more_nonvacuous :
  corresponds LP64 IP16 (po (-5) 100000 Int) (po (-5) 100000 Long)
  /\ wf_operand LP64 (po (-5) 100000 Int) /\ wf_operand IP16 (po (-5) 100000 Long)
  /\ common_pp (po (-5) 100000 Int) (po (-5) 100000 Int) = Some Automatic
  /\ s_lt LP64 (po (-5) 100000 Int) (po (-5) 100000 Int) (-5) 99999 = Some ([], Ret true)
  /\ s_lt IP16 (po (-5) 100000 Long) (po (-5) 100000 Long) (-5) 99999 = Some ([], Ret true)
  /\ (exists s, binary LP64 Div (po (-5) 100000 Int) (po (-5) 100000 Int) 99999 (-5)
                = Some (s, ([], Ret (-19999))) /\ fits_in LP64 (st s) (po (-5) 100000 Int))
  /\ (exists s, binary IP16 Div (po (-5) 100000 Long) (po (-5) 100000 Long) 99999 (-5)
                = Some (s, ([], Ret (-19999))))
  /\ (exists s, binary LP64 Mod (po (-2147483648) 5 Int) (po (-2147483648) 1073741825 Int) (-7) 5
                = Some (s, ([], Ret (-2))) /\ sP s = Automatic
                /\ fits_in LP64 (st s) (po (-2147483648) 5 Int)).
Proof.
  repeat (split; [vm_compute; intuition congruence|]).
  split; [exists (mkSafe Int (-100000) 100000 Automatic po_ep); vm_compute; intuition congruence|].
  split; [eexists; vm_compute; reflexivity|].
  exists (mkSafe Int (-2147483648) 5 Automatic po_ep); vm_compute; intuition congruence.
Qed.
