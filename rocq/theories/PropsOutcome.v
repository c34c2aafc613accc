(** PropsOutcome.v -- complete descriptions for C24-C27: every outcome of / % << and >>
    between safe numbers, and when the library decides that no check is needed. *)
From Coq Require Import ZArith Bool List.
From Verif Require Import Base CType Spec CheckedInteger Interval ExceptionPolicy Promotion SafeBase SafeSpec
  OutcomeSpec ShrOutcomeFacts ShlOutcomeFacts DivOutcomeFacts.
Import ListNotations.
Local Open Scope Z_scope.

Definition exo : ep := default_exception_policy.
Definition os (T : ctype) : otype := OSafe (safe LP64 T Native exo).
Definition orng (T : ctype) (mn mx : Z) : otype := OSafe (mkSafe T mn mx Native exo).

(** C24: quotients. A checked division is carried out in a type W and its quotient
    converted to the type of the result; an unchecked one converts the operands first. *)
Theorem C24_outcome : forall D t u x y s m oi,
  wf_operand D t -> wf_operand D u -> holds D t x -> holds D u y ->
  binary D Div t u x y = Some (s, m) -> throws_arithmetic (sE s) ->
  op_static D Div t u = Some oi ->
  let R := st s in
  (oi_checked oi = true -> exists W, div_work D R (base_ty t) (base_ty u) W
     /\ let good := in_type D W x /\ in_type D W y /\ y <> 0 /\ in_type D W (Z.quot x y) in
        (good -> returns m (conv D R (Z.quot x y))) /\ (~ good -> throws_arith m))
  /\ (oi_checked oi = false ->
        let x' := conv D R x in let y' := conv D R y in
        let good := y' <> 0 /\ in_type D (promote D R) (Z.quot x' y') in
        (good -> returns m (conv D R (Z.quot x' y'))) /\ (~ good -> m = ([], Undef))).
Proof. exact div_outcome. Qed.
Print Assumptions C24_outcome.

(** When all values of the operands are values of the type of the result, a division goes
    unchecked exactly when the divisor is never 0 and the quotient never overflows *)
Theorem C24_when_checked : forall D t u oi, wf_operand D t -> wf_operand D u ->
  op_static D Div t u = Some oi ->
  let R := oi_R oi in
  in_type D R (lim_lo D t) -> in_type D R (lim_hi D t) -> in_type D R (lim_lo D u) -> in_type D R (lim_hi D u) ->
  (oi_checked oi = false <->
   (0 < lim_lo D u \/ lim_hi D u < 0) /\ ~ (lo D R < 0 /\ lim_lo D t = lo D R /\ lim_hi D u = -1)).
Proof. exact div_checked_iff. Qed.
Print Assumptions C24_when_checked.

(** safe<int> by a negative range is checked, safe<unsigned> by a positive one is not *)
Example C24_outcome_nonvacuous :
  let n := orng Int (-9) (-1) in let p := orng Int 1 9 in
  wf_operand LP64 (os Int) /\ wf_operand LP64 n /\ wf_operand LP64 p
  /\ (holds LP64 (os Int) (-2147483648) /\ holds LP64 n (-1) /\ holds LP64 p 2)
  /\ option_map oi_checked (op_static LP64 Div (os Int) n) = Some true
  /\ option_map snd (binary LP64 Div (os Int) n 7 (-2)) = Some ([], Ret (-3))
  /\ option_map snd (binary LP64 Div (os Int) n (-2147483648) (-1))
     = Some ([(arithmetic_error, positive_overflow_error)], Throw positive_overflow_error)
  /\ option_map oi_checked (op_static LP64 Div (os UInt) p) = Some false
  /\ option_map snd (binary LP64 Div (os UInt) p 7 2) = Some ([], Ret 3)
  /\ option_map oi_R (op_static LP64 Div (os UInt) p) = Some UInt
  /\ (in_type LP64 UInt 4294967295 /\ in_type LP64 UInt 1 /\ in_type LP64 UInt 9).
Proof. vm_compute. intuition congruence. Qed.

Example C24_work_nonvacuous : div_work LP64 Int Short ULong Long.
Proof.
  unfold div_work. split; [reflexivity|]. split.
  - right. intros W'; destruct W'; vm_compute; congruence.
  - intros W'; destruct W'; vm_compute; congruence.
Qed.

(** C25: remainders *)
Theorem C25_outcome : forall D t u x y s m oi,
  wf_operand D t -> wf_operand D u -> holds D t x -> holds D u y ->
  binary D Mod t u x y = Some (s, m) -> throws_arithmetic (sE s) ->
  op_static D Mod t u = Some oi ->
  let R := st s in
  (oi_checked oi = true -> exists W, div_work D R (base_ty t) (base_ty u) W
     /\ let good := in_type D W x /\ in_type D W y /\ y <> 0 in
        let both_lowest := lo D W < 0 /\ x = lo D W /\ y = lo D W in
        (good -> ~ both_lowest -> returns m (conv D R (remainder x y)))
        /\ (good -> both_lowest -> returns m (conv D R x))
        /\ (~ good -> throws_arith m))
  /\ (oi_checked oi = false ->
        let x' := conv D R x in let y' := conv D R y in
        let good := y' <> 0 /\ in_type D (promote D R) (Z.quot x' y') in
        (good -> returns m (remainder x' y')) /\ (~ good -> m = ([], Undef))).
Proof. exact mod_outcome. Qed.
Print Assumptions C25_outcome.

Theorem C25_when_checked : forall D t u oi, wf_operand D t -> wf_operand D u ->
  op_static D Mod t u = Some oi ->
  let R := oi_R oi in
  in_type D R (lim_lo D t) -> in_type D R (lim_hi D t) -> in_type D R (lim_lo D u) -> in_type D R (lim_hi D u) ->
  (oi_checked oi = false <-> 0 < lim_lo D u \/ lim_hi D u < 0).
Proof. exact mod_checked_iff. Qed.
Print Assumptions C25_when_checked.

(** the two defects: the lowest value by itself leaves the lowest value, and an unchecked
    remainder of the lowest int by -1 is undefined *)
Example C25_outcome_nonvacuous :
  let n := orng Int (-9) (-1) in
  wf_operand LP64 (os Int) /\ wf_operand LP64 n
  /\ holds LP64 (os Int) (-2147483648) /\ holds LP64 n (-1)
  /\ option_map oi_checked (op_static LP64 Mod (os Int) (os Int)) = Some true
  /\ option_map snd (binary LP64 Mod (os Int) (os Int) (-17) 5) = Some ([], Ret (-2))
  /\ option_map snd (binary LP64 Mod (os Int) (os Int) (-17) 0)
     = Some ([(arithmetic_error, domain_error)], Throw domain_error)
  /\ option_map snd (binary LP64 Mod (os Int) (os Int) (-2147483648) (-2147483648)) = Some ([], Ret (-2147483648))
  /\ option_map oi_checked (op_static LP64 Mod (os Int) n) = Some false
  /\ option_map snd (binary LP64 Mod (os Int) n 7 (-2)) = Some ([], Ret 1)
  /\ option_map snd (binary LP64 Mod (os Int) n (-2147483648) (-1)) = Some ([], Undef).
Proof. vm_compute. intuition congruence. Qed.

(** C26: left shifts *)
Theorem C26_outcome : forall D t u x y s m oi,
  wf_operand D t -> wf_operand D u -> holds D t x -> holds D u y ->
  binary D Shl t u x y = Some (s, m) -> throws_arithmetic (sE s) -> throws_shift (sE s) ->
  op_static D Shl t u = Some oi ->
  let R := st s in let P := promote D R in
  (oi_checked oi = true ->
     (~ (in_type D R x /\ in_type D R y) -> throws_arith m)
     /\ (in_type D R x /\ in_type D R y ->
         let good := y = 0 \/ (0 < y < digits D R /\ 0 <= x /\ x * 2 ^ y <= hi D R) in
         (good -> returns m (x * 2 ^ y)) /\ (~ good -> throws_impl m)))
  /\ (oi_checked oi = false ->
     (0 <= x -> 0 <= y < width D P -> returns m (x * 2 ^ y) /\ in_type D R (x * 2 ^ y))
     /\ (x < 0 -> m = ([], Undef))
     /\ (0 <= x -> ~ 0 <= y < width D P ->
         let x' := conv D R x in let y' := conv D R y in
         let runs := 0 <= y' < width D P /\ (csigned D P = true -> 0 <= x' /\ x' * 2 ^ y' <= hi D (to_unsigned P)) in
         (runs -> returns m (conv D R (x' * 2 ^ y'))) /\ (~ runs -> m = ([], Undef)))).
Proof. exact shl_outcome. Qed.
Print Assumptions C26_outcome.

Theorem C26_when_checked : forall D t u oi, wf_operand D t -> wf_operand D u ->
  op_static D Shl t u = Some oi -> 0 <= lim_lo D t -> 0 <= lim_lo D u ->
  (oi_checked oi = false <-> lim_hi D t = 0 \/ lim_hi D t * 2 ^ lim_hi D u <= hi D (oi_R oi)).
Proof. exact shl_checked_iff. Qed.
Print Assumptions C26_when_checked.

Example C26_outcome_nonvacuous :
  let t := orng Int 0 7 in let g := orng Int (-7) 7 in let u := orng Int 0 9 in let c := orng Int (-3) 9 in
  wf_operand LP64 t /\ wf_operand LP64 g /\ wf_operand LP64 u /\ wf_operand LP64 c
  /\ (holds LP64 t 5 /\ holds LP64 g (-5) /\ holds LP64 u 3 /\ holds LP64 c (-3))
  /\ option_map oi_checked (op_static LP64 Shl t u) = Some false
  /\ option_map snd (binary LP64 Shl t u 5 3) = Some ([], Ret 40)
  /\ option_map oi_checked (op_static LP64 Shl g u) = Some false
  /\ option_map snd (binary LP64 Shl g u (-5) 3) = Some ([], Undef)
  /\ option_map oi_checked (op_static LP64 Shl t c) = Some false
  /\ option_map snd (binary LP64 Shl t c 5 (-3)) = Some ([], Undef)
  /\ option_map oi_checked (op_static LP64 Shl (os Int) (os Int)) = Some true
  /\ option_map snd (binary LP64 Shl (os Int) (os Int) 5 3) = Some ([], Ret 40)
  /\ option_map snd (binary LP64 Shl (os Int) (os Int) (-5) 3)
     = Some ([(implementation_defined_behavior, negative_shift)], Throw negative_shift).
Proof. vm_compute. intuition congruence. Qed.

(** C27: right shifts *)
Theorem C27_outcome : forall D t u x y s m,
  wf_operand D t -> wf_operand D u -> holds D t x -> holds D u y ->
  binary D Shr t u x y = Some (s, m) -> throws_arithmetic (sE s) -> throws_shift (sE s) ->
  let R := st s in let bits := width D (promote D R) in
  (shr_unchecked D R t u ->
     let x' := conv D R x in let y' := conv D R y in
     (0 <= y' < bits -> returns m (x' / 2 ^ y')) /\ (~ 0 <= y' < bits -> m = ([], Undef)))
  /\ (~ shr_unchecked D R t u ->
      (~ (in_type D R x /\ in_type D R y) -> throws_arith m)
      /\ (in_type D R x /\ in_type D R y ->
          (x < 0 \/ y < 0 \/ digits D R < y -> throws_impl m)
          /\ (0 <= x -> 0 <= y <= digits D R -> y < bits -> returns m (x / 2 ^ y))
          /\ (0 <= x -> 0 <= y <= digits D R -> bits <= y -> m = ([], Undef)))).
Proof. exact shr_outcome. Qed.
Print Assumptions C27_outcome.

Theorem C27_when_checked : forall D t u oi, wf_operand D t -> wf_operand D u ->
  op_static D Shr t u = Some oi -> (oi_checked oi = false <-> shr_unchecked D (oi_R oi) t u).
Proof. exact shr_checked_iff. Qed.
Print Assumptions C27_when_checked.

Example C27_outcome_nonvacuous :
  let c := orng Int (-2) 2 in
  wf_operand LP64 (os UInt) /\ wf_operand LP64 c /\ holds LP64 (os UInt) 5 /\ holds LP64 c (-2)
  /\ shr_unchecked LP64 UInt (os UInt) c
  /\ option_map snd (binary LP64 Shr (os UInt) c 5 2) = Some ([], Ret 1)
  /\ option_map snd (binary LP64 Shr (os UInt) c 5 (-2)) = Some ([], Undef)
  /\ ~ shr_unchecked LP64 Int (os Int) (os Int)
  /\ option_map snd (binary LP64 Shr (os Int) (os Int) 5 2) = Some ([], Ret 1)
  /\ option_map snd (binary LP64 Shr (os Int) (os Int) (-5) 2)
     = Some ([(implementation_defined_behavior, negative_value_shift)], Throw negative_value_shift)
  /\ option_map snd (binary LP64 Shr (os UInt) (os Int) 5 32) = Some ([], Undef).
Proof. vm_compute. intuition congruence. Qed.
