(** PropsQuot.v -- the declared ranges of results: the tightest possible (C61), and how those of
    quotients move when the ranges of the operands shrink (C84). *)
From Coq Require Import ZArith.
From Verif Require Import Base CType Spec ExceptionPolicy Promotion SafeBase SafeSpec NarrowSpec QuotFacts.
Local Open Scope Z_scope.

(** C61: when the values of the operands are values of the type of the result (and, for /, 0 is not an end
    of the declared range of the divisor), the declared range of the result runs from the least to the
    greatest exact result, cut at the limits of the type; provided some result is a value of the type. *)
Theorem C61_exact_ranges : forall D op t u oi x0 y0, op = Add \/ op = Sub \/ op = Mul \/ op = Div ->
  wf_operand D t -> wf_operand D u -> op_static D op t u = Some oi ->
  let s := oi_type oi in
  (forall x, holds D t x -> in_type D (st s) x) -> (forall y, holds D u y -> in_type D (st s) y) ->
  (op = Div -> lim_lo D u <> 0 /\ lim_hi D u <> 0) ->
  holds D t x0 -> holds D u y0 -> (op = Div -> y0 <> 0) -> in_type D (st s) (exact op x0 y0) ->
  exists p q p' q', holds D t p /\ holds D u q /\ holds D t p' /\ holds D u q' /\ (op = Div -> q <> 0 /\ q' <> 0)
    /\ smin s = Z.max (lo D (st s)) (exact op p q) /\ smax s = Z.min (hi D (st s)) (exact op p' q')
    /\ (forall x y, holds D t x -> holds D u y -> (op = Div -> y <> 0) -> exact op p q <= exact op x y <= exact op p' q').
Proof. exact tight_lemma. Qed.
Print Assumptions C61_exact_ranges.

(** [-10,100] / [-3,4] is in [-100,100]; [MIN,7] / [-3,-1] is in [-7,MAX] *)
Example C61_exact_ranges_nonvacuous :
  exists oi oi', op_static LP64 Div (qs Int (-10) 100) (qs Int (-3) 4) = Some oi
    /\ op_static LP64 Div (qs Int (-2147483648) 7) (qs Int (-3) (-1)) = Some oi'
    /\ smin (oi_type oi) = -100 /\ smax (oi_type oi) = 100
    /\ smin (oi_type oi') = -7 /\ smax (oi_type oi') = 2147483647.
Proof. exact quot_nonvacuous_lemma. Qed.

(** With 0 as an end of the range of the divisor the declared range is not tight at all:
    [0,100] / [0,5] is declared to be any int, though every quotient lies in [0,100] *)
Theorem C61_quotients_zero_refuted :
  exists D t u oi, wf_operand D t /\ wf_operand D u /\ op_static D Div t u = Some oi
    /\ (forall x, holds D t x -> in_type D (st (oi_type oi)) x) /\ (forall y, holds D u y -> in_type D (st (oi_type oi)) y)
    /\ smin (oi_type oi) = -2147483648
    /\ (forall x y, holds D t x -> holds D u y -> y <> 0 -> 0 <= Z.quot x y <= 100).
Proof. exact quot_zero_end_lemma. Qed.
Print Assumptions C61_quotients_zero_refuted.

(** C84, for /: narrower operands give a declared range inside the one before, when 0 is not an end of the
    narrowed range of the divisor (C84_range_division_refuted is about a range that ends in 0) *)
Theorem C84_range_division_partial : forall D t t' u u' oi oi' x0 y0,
  wf_operand D t -> wf_operand D u -> wf_operand D t' -> wf_operand D u' ->
  narrowed t t' -> narrowed u u' ->
  op_static D Div t u = Some oi -> op_static D Div t' u' = Some oi' -> by_type (sP (oi_type oi)) ->
  (forall x, holds D t x -> in_type D (st (oi_type oi)) x) -> (forall y, holds D u y -> in_type D (st (oi_type oi)) y) ->
  lim_lo D u' <> 0 -> lim_hi D u' <> 0 ->
  holds D t' x0 -> holds D u' y0 -> y0 <> 0 -> in_type D (st (oi_type oi)) (Z.quot x0 y0) ->
  range_inside (oi_type oi') (oi_type oi).
Proof. exact narrow_range_division. Qed.
Print Assumptions C84_range_division_partial.

Example C84_range_division_nonvacuous :
  exists oi oi', op_static LP64 Div (qs Int (-10) 100) (qs Int (-3) 4) = Some oi
    /\ op_static LP64 Div (qs Int 5 50) (qs Int 2 4) = Some oi'
    /\ narrowed (qs Int (-10) 100) (qs Int 5 50) /\ narrowed (qs Int (-3) 4) (qs Int 2 4)
    /\ smin (oi_type oi') = 1 /\ smax (oi_type oi') = 25.
Proof. exact quot_narrow_nonvacuous_lemma. Qed.
