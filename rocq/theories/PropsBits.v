(** PropsBits.v -- property C28, exactly: when the result of a bitwise operator whose type is
    signed is inside the range its type declares. *)
From Coq Require Import ZArith Bool List.
From Verif Require Import Base CType Spec ExceptionPolicy Promotion SafeBase SafeSpec BitExactFacts.
Import ListNotations.
Local Open Scope Z_scope.

(** a | b: exactly when no operand is negative *)
Theorem C28_or_exact : forall D t u x y s m,
  wf_operand D t -> wf_operand D u -> holds D t x -> holds D u y ->
  bitwise D Or t u x y = Some (s, m) -> sP s = Native \/ sP s = Automatic -> csigned D (st s) = true ->
  returns m (Z.lor x y) /\ (smin s <= Z.lor x y <= smax s <-> 0 <= x /\ 0 <= y).
Proof. exact C28_or_lemma. Qed.
Print Assumptions C28_or_exact.

(** every operator: exactly when the result is not negative and has no more bits than the
    greater (for &: the lesser) upper limit of the operands; by C28_sign, an | of a negative
    operand, an & of two, and a ^ of different signs are outside *)
Theorem C28_range_exact : forall D b t u x y s m,
  wf_operand D t -> wf_operand D u -> holds D t x -> holds D u y -> 0 <= lim_hi D t -> 0 <= lim_hi D u ->
  bitwise D b t u x y = Some (s, m) -> sP s = Native \/ sP s = Automatic -> csigned D (st s) = true ->
  returns m (bit_op b x y)
  /\ exists k, 0 < k
     /\ (match b with And => Z.min (lim_hi D t) (lim_hi D u) | _ => Z.max (lim_hi D t) (lim_hi D u) end) < 2 ^ k
     /\ 2 ^ (k - 1) <= Z.max 1 (match b with And => Z.min (lim_hi D t) (lim_hi D u) | _ => Z.max (lim_hi D t) (lim_hi D u) end)
     /\ (smin s <= bit_op b x y <= smax s <-> 0 <= bit_op b x y < 2 ^ k).
Proof. exact C28_range_exact_lemma. Qed.
Print Assumptions C28_range_exact.

Theorem C28_sign : forall b x y, (bit_op b x y < 0 <->
  match b with
  | Or => x < 0 \/ y < 0
  | And => x < 0 /\ y < 0
  | Xor => (x < 0 /\ 0 <= y) \/ (0 <= x /\ y < 0)
  end).
Proof. exact bit_sign. Qed.
Print Assumptions C28_sign.

(** ~a: exactly when a is negative *)
Theorem C28_complement_exact : forall D s x m rs,
  wf_operand D (OSafe s) -> holds D (OSafe s) x -> csigned D (promote D (st s)) = true ->
  sP s = Native \/ sP s = Automatic -> complement D s x = Some (rs, m) ->
  returns m (- x - 1) /\ smin rs = 0 /\ smax rs = hi D (promote D (st s))
  /\ (smin rs <= - x - 1 <= smax rs <-> x < 0).
Proof. exact C28_complement_lemma. Qed.
Print Assumptions C28_complement_exact.

(** -9 | 4 and 12 | 3; 100 & -1 in [0,127] and in [0,63]; ~5 and ~(-6); ~ of an unsigned char
    is negative *)
Definition ex_ep : ep := strict_exception_policy.
Definition ex_s (T : ctype) : safe_t := safe LP64 T Native ex_ep.
Definition ex_r (a b : Z) : otype := OSafe (mkSafe Int a b Native ex_ep).
Example C28_exact_example :
  wf_operand LP64 (OSafe (ex_s Int)) /\ wf_operand LP64 (ex_r (-40) 40) /\ wf_operand LP64 (OSafe (ex_s UChar))
  /\ holds LP64 (ex_r (-40) 40) (-9) /\ csigned LP64 (promote LP64 UChar) = true
  /\ bitwise LP64 Or (OSafe (ex_s Int)) (ex_r (-40) 40) 4 (-9) = Some (mkSafe Int 0 2147483647 Native ex_ep, mret (-9))
  /\ bitwise LP64 Or (ex_r (-40) 40) (ex_r (-40) 40) 12 3 = Some (mkSafe Int 0 63 Native ex_ep, mret 15)
  /\ bitwise LP64 And (ex_r (-1) 100) (ex_r (-1) 100) 100 (-1) = Some (mkSafe Int 0 127 Native ex_ep, mret 100)
  /\ bitwise LP64 And (ex_r (-1) 100) (ex_r (-40) 40) 100 (-1) = Some (mkSafe Int 0 63 Native ex_ep, mret 100)
  /\ complement LP64 (ex_s Int) 5 = Some (mkSafe Int 0 2147483647 Native ex_ep, mret (-6))
  /\ complement LP64 (ex_s Int) (-6) = Some (mkSafe Int 0 2147483647 Native ex_ep, mret 5)
  /\ complement LP64 (ex_s UChar) 5 = Some (mkSafe Int 0 2147483647 Native ex_ep, mret (-6)).
Proof. vm_compute. intuition congruence. Qed.
