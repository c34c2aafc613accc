(** PropsLimits.v -- properties C75 and C76: std::numeric_limits of safe types, and
    the text that shows a value together with its range. *)
From Coq Require Import ZArith Bool List Lia.
From Verif Require Import Base CType Spec CheckedInteger CheckedResultOps Interval ExceptionPolicy
  Promotion SafeBase SafeSpec IntervalFacts Stream StreamSpec Limits LimitsSpec LimitsFacts.
Import ListNotations.
Local Open Scope Z_scope.

(** C75: numeric_limits<S>::min(), max() and lowest() of a safe type S describe
    exactly the values an object of type S can be given: a value between them is
    stored unchanged and every other value is rejected. *)
Theorem C75_min_max : forall D s o x,
  wf_operand D (OSafe s) -> wf_operand D o -> throws_arithmetic (sE s) -> holds D o x ->
  let L := limits_of D (OSafe s) in
  nl_lowest L = nl_min L
  /\ match construct D s o x with
     | Some m => (nl_min L <= x <= nl_max L /\ returns m x) \/ (~ (nl_min L <= x <= nl_max L) /\ throws_arith m)
     | None => ~ (nl_min L <= x <= nl_max L)
     end.
Proof. exact C75_min_max_lemma. Qed.
Print Assumptions C75_min_max.

(** and the limits of the type of a sum, difference or product bound its value *)
Theorem C75_result : forall D op t u x y s m z, op = Add \/ op = Sub \/ op = Mul ->
  wf_operand D t -> wf_operand D u -> holds D t x -> holds D u y ->
  binary D op t u x y = Some (s, m) -> throws_arithmetic (sE s) -> returns m z ->
  nl_min (limits_of D (OSafe s)) <= z <= nl_max (limits_of D (OSafe s)).
Proof. exact C75_result_lemma. Qed.
Print Assumptions C75_result.

(** safe_signed_range<-10, 100> times itself under automatic promotion: [-1000, 10000] *)
Example C75_example :
  let s := mkSafe SChar (-10) 100 Automatic strict_exception_policy in
  let r := mkSafe Short (-1000) 10000 Automatic strict_exception_policy in
  let L := limits_of LP64 (OSafe r) in
  wf_operand LP64 (OSafe s)
  /\ (exists m, binary LP64 Mul (OSafe s) (OSafe s) 100 (-10) = Some (r, m) /\ returns m (-1000))
  /\ (nl_min L, nl_max L, nl_lowest L) = (-1000, 10000, -1000)
  /\ (exists m, construct LP64 s (ORaw Int) 101 = Some m /\ throws_arith m).
Proof.
  intros s r L. split; [vm_compute; intuition congruence|]. splits.
  - eexists. split; vm_compute; reflexivity.
  - reflexivity.
  - eexists. split; [vm_compute; reflexivity|].
    exists positive_overflow_error. split; [left; reflexivity|reflexivity].
Qed.

(** digits and digits10: for safe<T> with the whole range of T, every number of
    that many binary or decimal digits is a value of the type. Missing: types with
    a smaller range, where it is false, see below. *)
Theorem C75_digits_partial : forall D s x, smin s = lo D (st s) -> smax s = hi D (st s) ->
  let L := limits_of D (OSafe s) in
  (0 <= x < nl_radix L ^ nl_digits L -> nl_min L <= x <= nl_max L)
  /\ (Z.abs x < 10 ^ nl_digits10 L -> (nl_signed L = true \/ 0 <= x) -> nl_min L <= x <= nl_max L).
Proof. exact C75_digits_lemma. Qed.
Print Assumptions C75_digits_partial.

Example C75_digits_example :
  let s := mkSafe Int (-2147483648) 2147483647 Native strict_exception_policy in
  smin s = lo LP64 (st s) /\ smax s = hi LP64 (st s)
  /\ nl_digits (limits_of LP64 (OSafe s)) = 31 /\ nl_digits10 (limits_of LP64 (OSafe s)) = 9.
Proof. vm_compute. intuition congruence. Qed.

(** safe_unsigned_range<0, 10> claims 8 binary and 2 decimal digits: 99 has two
    decimal digits and is rejected *)
Theorem C75_digits_refuted : exists D s x m,
  wf_operand D (OSafe s) /\ throws_arithmetic (sE s)
  /\ 0 <= x < nl_radix (limits_of D (OSafe s)) ^ nl_digits (limits_of D (OSafe s))
  /\ 0 <= x < 10 ^ nl_digits10 (limits_of D (OSafe s))
  /\ construct D s (ORaw Int) x = Some m /\ throws_arith m.
Proof.
  exists LP64, (mkSafe UChar 0 10 Native strict_exception_policy), 99. eexists.
  do 4 (split; [vm_compute; intuition congruence|]). split; [vm_compute; reflexivity|].
  exists positive_overflow_error. split; [left; reflexivity|reflexivity].
Qed.
Print Assumptions C75_digits_refuted.

(** is_modulo: "the type handles overflows modulo the number of its values". It is
    true for safe<unsigned>, and max() + 1 throws instead of giving 0 *)
Theorem C75_modulo_refuted : exists D s r m,
  wf_operand D (OSafe s) /\ throws_arithmetic (sE s)
  /\ nl_modulo (limits_of D (OSafe s)) = true
  /\ binary D Add (OSafe s) (OSafe s) (nl_max (limits_of D (OSafe s))) 1 = Some (r, m)
  /\ throws_arith m.
Proof.
  exists LP64, (mkSafe UInt 0 4294967295 Native strict_exception_policy). do 2 eexists.
  splits; [vm_compute; intuition congruence|reflexivity|reflexivity|vm_compute; reflexivity|].
  exists positive_overflow_error. split; [left; reflexivity|reflexivity].
Qed.
Print Assumptions C75_modulo_refuted.

(** The other members, for safe, literal and built-in types: min(), max() and lowest() are the
    declared bounds, the type is an exact and bounded integer type of radix 2, and it is
    signed if it has negative values, and only then if its range begins where that of the
    underlying type does *)
Theorem C75_members : forall D o, wf_operand D o ->
  let L := limits_of D o in
  nl_min L = lim_lo D o /\ nl_max L = lim_hi D o /\ nl_lowest L = lim_lo D o
  /\ nl_integer L = true /\ nl_exact L = true /\ nl_bounded L = true /\ nl_radix L = 2
  /\ (lim_lo D o < 0 -> nl_signed L = true)
  /\ (lim_lo D o = lo D (base_ty o) -> nl_signed L = true -> lim_lo D o < 0).
Proof. exact C75_flags_lemma. Qed.
Print Assumptions C75_members.

(** a literal, and a range of a signed type without negative values *)
Example C75_members_example :
  wf_operand LP64 (OLit SChar 7 None None) /\ nl_max (limits_of LP64 (OLit SChar 7 None None)) = 7
  /\ nl_signed (limits_of LP64 (OSafe (mkSafe SChar 0 10 Native strict_exception_policy))) = true
  /\ nl_signed (limits_of LP64 (OSafe (mkSafe UChar 0 255 Native strict_exception_policy))) = false.
Proof. vm_compute. intuition congruence. Qed.

(** C76: the text that make_range_value prints for a safe value is its declared
    minimum and maximum in brackets, then the value, in decimal; for every
    underlying type, the character types too *)
Theorem C76_range_value : forall D s x, wf_operand D (OSafe s) -> holds D (OSafe s) x ->
  range_text decimal_text (range_value D false (OSafe s) x) (smin s) (smax s) x.
Proof. exact C76_range_value_lemma. Qed.
Print Assumptions C76_range_value.

(** so that two values that print alike have the same range and value, even on
    different platforms *)
Theorem C76_range_value_readable : forall D D' s s' x x',
  wf_operand D (OSafe s) -> holds D (OSafe s) x -> wf_operand D' (OSafe s') -> holds D' (OSafe s') x' ->
  range_value D false (OSafe s) x = range_value D' false (OSafe s') x' ->
  smin s = smin s' /\ smax s = smax s' /\ x = x'.
Proof. exact C76_readable_lemma. Qed.
Print Assumptions C76_range_value_readable.

(** make_result_display: range and value in hexadecimal, as std::hex prints them,
    then the value in decimal in parentheses; the stream is decimal afterwards. The
    hexadecimal numbers are the range and the value if no value is negative.
    Missing: ranges with negative values, see below. *)
Theorem C76_result_display_partial : forall D s x, wf_operand D (OSafe s) -> holds D (OSafe s) x ->
  exists h d, result_display D (OSafe s) x = (h ++ [40] ++ d ++ [41], false)
  /\ decimal_text d x
  /\ range_text (fun cs z => hex_denotes cs (z mod 2 ^ width D (uac D Int (st s)))) h (smin s) (smax s) x
  /\ (0 <= smin s -> range_text hex_denotes h (smin s) (smax s) x).
Proof. exact C76_result_display_lemma. Qed.
Print Assumptions C76_result_display_partial.

Theorem C76_result_display_readable : forall D D' s s' x x',
  wf_operand D (OSafe s) -> holds D (OSafe s) x -> wf_operand D' (OSafe s') -> holds D' (OSafe s') x' ->
  result_display D (OSafe s) x = result_display D' (OSafe s') x' -> x = x'.
Proof. exact C76_result_readable_lemma. Qed.
Print Assumptions C76_result_display_readable.

(** safe_signed_range<-100, 100>, value 65: "[-100,100]65"; safe_unsigned_range<0, 255>,
    value 171: "[0,ff]ab(171)" *)
Example C76_example :
  let s := mkSafe SChar (-100) 100 Native strict_exception_policy in
  let u := mkSafe UChar 0 255 Native strict_exception_policy in
  wf_operand LP64 (OSafe s) /\ holds LP64 (OSafe s) 65 /\ wf_operand LP64 (OSafe u) /\ holds LP64 (OSafe u) 171
  /\ range_value LP64 false (OSafe s) 65 = [91; 45; 49; 48; 48; 44; 49; 48; 48; 93; 54; 53]
  /\ fst (result_display LP64 (OSafe u) 171) = [91; 48; 44; 102; 102; 93; 97; 98; 40; 49; 55; 49; 41].
Proof. vm_compute. intuition congruence. Qed.

(** safe<int>: "[80000000,7fffffff]ffffffff(-1)": the minimum shown is the number
    2147483648, greater than the maximum shown *)
Theorem C76_hex_refuted : exists D s x h d mn mx z,
  wf_operand D (OSafe s) /\ holds D (OSafe s) x
  /\ result_display D (OSafe s) x = (h ++ [40] ++ d ++ [41], false)
  /\ range_text hex_denotes h mn mx z /\ mn > mx /\ z <> x.
Proof.
  set (s := mkSafe Int (-2147483648) 2147483647 Native strict_exception_policy).
  exists LP64, s, (-1).
  assert (W : wf_operand LP64 (OSafe s)) by (vm_compute; intuition congruence).
  assert (H : holds LP64 (OSafe s) (-1)) by (vm_compute; intuition congruence).
  destruct (C76_result_display_lemma LP64 s (-1) W H) as (h & d & E & _ & R & _).
  exists h, d, 2147483648, 2147483647, 4294967295.
  splits; [exact W|exact H|exact E|exact R|vm_compute; reflexivity|congruence].
Qed.
Print Assumptions C76_hex_refuted.

(** built-in signed char: the range is printed in numbers and the value as a
    character, "[-128,127]A" *)
Theorem C76_char_refuted : exists D T x t a b,
  holds D (ORaw T) x /\ range_value D false (ORaw T) x = [91] ++ a ++ [44] ++ b ++ [93] ++ t
  /\ decimal_text a (lo D T) /\ decimal_text b (hi D T)
  /\ ~ decimal_text t x.
Proof.
  exists LP64, SChar, 65, [65], (put_int (-128)), (put_int 127).
  split; [vm_compute; intuition congruence|]. splits; [vm_compute; reflexivity|apply put_int_decimal..|].
  intros K. destruct (decimal_chars _ _ 65 K); [left; reflexivity|lia|lia].
Qed.
Print Assumptions C76_char_refuted.

(** built-in types: intervals are printed in numbers for every type but char, whose
    bounds are printed as characters *)
Theorem C76_built_in_interval : forall D T l u, T <> Char -> in_type D T l -> in_type D T u ->
  (exists a b, insert_interval D false (ORaw T) (l, u) = [91] ++ a ++ [44] ++ b ++ [93]
     /\ decimal_text a l /\ decimal_text b u)
  /\ (exists a b, insert_interval D true (ORaw T) (l, u) = [91] ++ a ++ [44] ++ b ++ [93]
     /\ hex_denotes a (l mod 2 ^ (if width D T =? 8 then width D Int else width D T))
     /\ hex_denotes b (u mod 2 ^ (if width D T =? 8 then width D Int else width D T))).
Proof. exact C76_built_in_interval_lemma. Qed.
Print Assumptions C76_built_in_interval.

(** and make_range_value and make_result_display print the range and value of every
    built-in type that is not a character type *)
Theorem C76_built_in : forall D T x, T <> Char -> T <> SChar -> T <> UChar -> in_type D T x ->
  range_text decimal_text (range_value D false (ORaw T) x) (lo D T) (hi D T) x
  /\ exists h, result_display D (ORaw T) x = (h ++ [40] ++ put_int x ++ [41], false)
     /\ decimal_text (put_int x) x
     /\ range_text (fun cs z => hex_denotes cs (z mod 2 ^ width D T)) h (lo D T) (hi D T) x.
Proof. exact C76_built_in_lemma. Qed.
Print Assumptions C76_built_in.

(** interval<signed char>(-5, 10): "[-5,10]", in hexadecimal "[fffffffb,a]"; short 7:
    "[-32768,32767]7" *)
Example C76_built_in_nonvacuous :
  in_type LP64 SChar (-5) /\ in_type LP64 SChar 10 /\ in_type LP64 Short 7
  /\ insert_interval LP64 false (ORaw SChar) (-5, 10) = [91; 45; 53; 44; 49; 48; 93]
  /\ insert_interval LP64 true (ORaw SChar) (-5, 10) = [91; 102; 102; 102; 102; 102; 102; 102; 98; 44; 97; 93]
  /\ range_value LP64 false (ORaw Short) 7 = [91; 45; 51; 50; 55; 54; 56; 44; 51; 50; 55; 54; 55; 93; 55].
Proof. vm_compute. intuition congruence. Qed.
