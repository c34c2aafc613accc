(** PropsConv.v -- properties C28-C32 and C46: bitwise operators, comparisons,
    construction and assignment, conversion to built-in types, unary operators
    and literals. *)
From Coq Require Import ZArith Bool List.
From Verif Require Import Base CType Spec CheckedInteger CheckedResultOps Interval ExceptionPolicy
  Promotion SafeBase SafeSpec PropsConvProofs.
Import ListNotations.
Local Open Scope Z_scope.

(** types used in the examples *)
Definition ex_ep : ep := default_exception_policy.
Definition ex_s (T : ctype) : safe_t := safe LP64 T Native ex_ep.
Definition ex_safe (T : ctype) : otype := OSafe (ex_s T).
Definition ex_auto (T : ctype) : otype := OSafe (safe LP64 T Automatic ex_ep).
Definition ex_sr (mn mx : Z) (T : ctype) (P : pp) : otype := OSafe (mkSafe T mn mx P ex_ep).

(** C28, the value: under native and automatic promotion | & ^ return what the
    built-in operator returns, in its type *)
Theorem C28_bitwise_value : forall D b t u x y s m,
  bitwise D b t u x y = Some (s, m) -> sP s = Native \/ sP s = Automatic ->
  st s = uac D (base_ty t) (base_ty u)
  /\ returns m (built_in_bit D b (base_ty t) (base_ty u) x y)
  /\ in_type D (st s) (built_in_bit D b (base_ty t) (base_ty u) x y).
Proof. exact SafeBitFacts.bitwise_value. Qed.
Print Assumptions C28_bitwise_value.

(** C28, the declared range, for non-negative operand values (missing: negative
    operand values, for which it is false) *)
Theorem C28_bitwise_range_partial : forall D b t u x y s m,
  wf_operand D t -> wf_operand D u -> holds D t x -> holds D u y ->
  bitwise D b t u x y = Some (s, m) -> sP s = Native \/ sP s = Automatic -> 0 <= x -> 0 <= y ->
  wf_operand D (OSafe s)
  /\ returns m (bit_op b x y) /\ smin s <= bit_op b x y <= smax s.
Proof. exact C28_range. Qed.
Print Assumptions C28_bitwise_range_partial.

(** C28, ~a for an unsigned type not changed by promotion (missing: signed types
    and types narrower than int, for which it is false) *)
Theorem C28_complement_partial : forall D s x m rs,
  wf_operand D (OSafe s) -> holds D (OSafe s) x ->
  csigned D (st s) = false -> promote D (st s) = st s -> sP s = Native \/ sP s = Automatic ->
  complement D s x = Some (rs, m) ->
  wf_operand D (OSafe rs) /\ st rs = st s
  /\ returns m (hi D (st s) - x) /\ smin rs <= hi D (st s) - x <= smax rs.
Proof. exact SafeBitFacts.complement_unsigned. Qed.
Print Assumptions C28_complement_partial.

(** safe<int>(-1) | safe<int>(0) is -1 in a type that declares [0, INT_MAX], and
    so is ~safe<int>(5) = -6 *)
Theorem C28_bitwise_refuted : exists D t x y s m s' m' r,
  wf_operand D (OSafe t) /\ holds D (OSafe t) x /\ holds D (OSafe t) y
  /\ bitwise D Or (OSafe t) (OSafe t) x y = Some (s, m)
  /\ returns m (-1) /\ ~ (smin s <= -1 <= smax s)
  /\ complement D t 5 = Some (s', m') /\ returns m' r /\ ~ (smin s' <= r <= smax s').
Proof.
  exists LP64, (ex_s Int), (-1), 0. do 5 eexists.
  vm_compute. intuition congruence.
Qed.
Print Assumptions C28_bitwise_refuted.

Example C28_nonvacuous :
  wf_operand LP64 (ex_safe UInt) /\ holds LP64 (ex_safe UInt) 12 /\ 0 <= 12
  /\ bitwise LP64 Or (ex_safe UInt) (ex_sr 0 100 SChar Native) 12 10
     = Some (mkSafe UInt 0 4294967295 Native ex_ep, ([], Ret 14))
  /\ bitwise LP64 And (ex_safe Int) (ex_sr 0 100 SChar Native) 12 10
     = Some (mkSafe Int 0 127 Native ex_ep, ([], Ret 8))
  /\ bitwise LP64 Xor (ex_auto Long) (ORaw UInt) 12 10
     = Some (mkSafe Long 0 9223372036854775807 Automatic ex_ep, ([], Ret 6))
  /\ complement LP64 (ex_s UInt) 5 = Some (mkSafe UInt 0 4294967295 Native ex_ep, ([], Ret 4294967290)).
Proof. vm_compute. intuition congruence. Qed.

(** C29 *)
Theorem C29_comparisons : forall D t u x y,
  wf_operand D t -> wf_operand D u -> holds D t x -> holds D u y ->
  (forall E, get_ep t = Some E \/ get_ep u = Some E -> throws_arithmetic E) ->
  (forall m, s_lt D t u x y = Some m -> returns m (x <? y) \/ throws_arith m)
  /\ (forall m, s_gt D t u x y = Some m -> returns m (x >? y) \/ throws_arith m)
  /\ (forall m, s_le D t u x y = Some m -> returns m (x <=? y) \/ throws_arith m)
  /\ (forall m, s_ge D t u x y = Some m -> returns m (x >=? y) \/ throws_arith m)
  /\ (forall m, s_eq D t u x y = Some m -> returns m (x =? y) \/ throws_arith m)
  /\ (forall m, s_ne D t u x y = Some m -> returns m (negb (x =? y)) \/ throws_arith m).
Proof. exact C29_lemma. Qed.
Print Assumptions C29_comparisons.

(** C29, when < and == cannot throw: native promotion, and the usual arithmetic
    conversions keep both values *)
Theorem C29_native_answers : forall D t u x y m,
  wf_operand D t -> wf_operand D u -> holds D t x -> holds D u y ->
  (forall E, get_ep t = Some E \/ get_ep u = Some E -> throws_arithmetic E) ->
  (forall P, get_pp t = Some P \/ get_pp u = Some P -> P = Native) ->
  s_lt D t u x y = Some m \/ s_eq D t u x y = Some m ->
  in_type D (uac D (base_ty t) (base_ty u)) x -> in_type D (uac D (base_ty t) (base_ty u)) y ->
  ~ throws_arith m.
Proof. exact C29_native_lemma. Qed.
Print Assumptions C29_native_answers.

(** automatic promotion, and a 64-bit type holds both declared ranges *)
Theorem C29_automatic_answers : forall D t u x y m,
  wf_operand D t -> wf_operand D u -> holds D t x -> holds D u y ->
  (forall E, get_ep t = Some E \/ get_ep u = Some E -> throws_arithmetic E) ->
  (forall P, get_pp t = Some P \/ get_pp u = Some P -> P = Automatic) ->
  fits_in D (widest D Add t u) t -> fits_in D (widest D Add t u) u ->
  s_lt D t u x y = Some m \/ s_eq D t u x y = Some m ->
  ~ throws_arith m.
Proof. exact C29_automatic_lemma. Qed.
Print Assumptions C29_automatic_answers.

Example C29_nonvacuous :
  s_lt LP64 (ex_safe Int) (ex_safe UInt) (-1) 1
    = Some ([(arithmetic_error, domain_error)], Throw domain_error)
  /\ s_lt LP64 (ex_auto Int) (ex_auto UInt) (-1) 1 = Some ([], Ret true)
  /\ s_ge LP64 (ex_safe Int) (ORaw Long) 7 8 = Some ([], Ret false)
  /\ s_ne LP64 (ex_sr 0 10 SChar Native) (ex_sr 20 30 SChar Native) 5 25 = Some ([], Ret true)
  /\ s_le LP64 (ex_sr 0 10 SChar Native) (OLit SChar 20 None None) 5 20 = Some ([], Ret true)
  /\ fits_in LP64 (widest LP64 Add (ex_auto Int) (ex_auto UInt)) (ex_auto UInt)
  /\ uac LP64 Int Long = Long.
Proof. vm_compute. intuition congruence. Qed.

(** C30: construction and assignment. When the program does not compile the
    value could not have been admitted. *)
Theorem C30_construction : forall D s o x,
  wf_operand D (OSafe s) -> wf_operand D o -> throws_arithmetic (sE s) -> holds D o x ->
  match construct D s o x with
  | Some m => (smin s <= x <= smax s /\ returns m x) \/ (~ (smin s <= x <= smax s) /\ throws_arith m)
  | None => ~ (smin s <= x <= smax s)
  end.
Proof. exact C30_lemma. Qed.
Print Assumptions C30_construction.

Example C30_nonvacuous :
  wf_operand LP64 (OSafe (ex_s SChar)) /\ throws_arithmetic ex_ep
  /\ construct LP64 (ex_s SChar) (ORaw Int) 127 = Some ([], Ret 127)
  /\ construct LP64 (ex_s SChar) (ORaw Int) 128
     = Some ([(arithmetic_error, positive_overflow_error)], Throw positive_overflow_error)
  /\ construct LP64 (ex_s SChar) (ex_sr (-5) 100 Int Native) 100 = Some ([], Ret 100)
  /\ construct LP64 (ex_s UInt) (ORaw Int) (-1)
     = Some ([(arithmetic_error, domain_error)], Throw domain_error)
  /\ construct LP64 (mkSafe SChar 10 20 Native ex_ep) (ORaw Int) 9
     = Some ([(arithmetic_error, negative_overflow_error)], Throw negative_overflow_error)
  /\ construct LP64 (ex_s SChar) (ex_sr 500 600 Int Native) 550 = None.
Proof. vm_compute. intuition congruence. Qed.

(** C31: x is any value the object may hold, even outside its declared range *)
Theorem C31_conversion : forall D R s x,
  throws_arithmetic (sE s) -> in_type D (st s) x ->
  exists m, to_builtin D R s x = Some m
  /\ ((in_type D R x /\ returns m x) \/ (~ in_type D R x /\ throws_arith m)).
Proof. exact C31_lemma. Qed.
Print Assumptions C31_conversion.

Example C31_nonvacuous :
  in_type LP64 Long 70000
  /\ to_builtin LP64 Short (ex_s Long) 70000
     = Some ([(arithmetic_error, positive_overflow_error)], Throw positive_overflow_error)
  /\ to_builtin LP64 Short (ex_s Long) (-700) = Some ([], Ret (-700))
  /\ to_builtin LP64 UInt (ex_s Int) (-1) = Some ([(arithmetic_error, domain_error)], Throw domain_error)
  /\ to_builtin LP64 Long (ex_s Int) (-1) = Some ([], Ret (-1)).
Proof. vm_compute. intuition congruence. Qed.

(** C32 *)
Theorem C32_unary_minus : forall D s x rs m,
  wf_operand D (OSafe s) -> holds D (OSafe s) x -> throws_arithmetic (sE s) ->
  unary_minus D s x = Some (rs, m) ->
  wf_operand D (OSafe rs) /\ exact_or_throws m (smin rs) (smax rs) (- x).
Proof. exact C32_minus. Qed.
Print Assumptions C32_unary_minus.

Theorem C32_pre_increment : forall D s x m,
  wf_operand D (OSafe s) -> holds D (OSafe s) x -> throws_arithmetic (sE s) ->
  increment D s x = Some m -> exact_or_throws m (smin s) (smax s) (x + 1).
Proof. exact C32_increment. Qed.
Print Assumptions C32_pre_increment.

Theorem C32_pre_decrement : forall D s x m,
  wf_operand D (OSafe s) -> holds D (OSafe s) x -> throws_arithmetic (sE s) ->
  decrement D s x = Some m -> exact_or_throws m (smin s) (smax s) (x - 1).
Proof. exact C32_decrement. Qed.
Print Assumptions C32_pre_decrement.

(** the pair is (value of the expression, new value of the variable); that a
    throwing step leaves the variable unchanged is C34 *)
Theorem C32_post_forms : forall D s x m,
  wf_operand D (OSafe s) -> holds D (OSafe s) x -> throws_arithmetic (sE s) ->
  (post_increment D s x = Some m ->
     (returns m (x, x + 1) /\ smin s <= x + 1 <= smax s) \/ throws_arith m)
  /\ (post_decrement D s x = Some m ->
     (returns m (x, x - 1) /\ smin s <= x - 1 <= smax s) \/ throws_arith m).
Proof. exact C32_post. Qed.
Print Assumptions C32_post_forms.

Example C32_nonvacuous :
  unary_minus LP64 (ex_s Int) 5 = Some (mkSafe Int (-2147483648) 2147483647 Native ex_ep, ([], Ret (-5)))
  /\ unary_minus LP64 (ex_s Int) (-2147483648)
     = Some (mkSafe Int (-2147483648) 2147483647 Native ex_ep,
             ([(arithmetic_error, positive_overflow_error)], Throw positive_overflow_error))
  /\ increment LP64 (mkSafe SChar 0 10 Native ex_ep) 9 = Some ([], Ret 10)
  /\ increment LP64 (mkSafe SChar 0 10 Native ex_ep) 10
     = Some ([(arithmetic_error, positive_overflow_error)], Throw positive_overflow_error)
  /\ decrement LP64 (ex_s UChar) 0
     = Some ([(arithmetic_error, domain_error)], Throw domain_error)
  /\ post_decrement LP64 (ex_s UChar) 7 = Some ([], Ret (7, 6)).
Proof. vm_compute. intuition congruence. Qed.

(** C46: every N has a literal type, holding exactly N *)
Theorem C46_signed_literal : forall D N P E, in_type D (intmax D) N ->
  exists T, safe_signed_literal D N P E = Some (OLit T N P E) /\ in_type D T N.
Proof. exact C46_exists_signed. Qed.
Print Assumptions C46_signed_literal.

Theorem C46_unsigned_literal : forall D N P E, in_type D (uintmax D) N ->
  exists T, safe_unsigned_literal D N P E = Some (OLit T N P E) /\ in_type D T N.
Proof. exact C46_exists_unsigned. Qed.
Print Assumptions C46_unsigned_literal.

Theorem C46_literal_conversion : forall D R T N E, in_type D T N ->
  (forall E0, E = Some E0 -> throws_arithmetic E0) ->
  (in_type D R N -> exists m, lit_to_builtin D R T N E = Some m /\ returns m N)
  /\ (~ in_type D R N -> forall m, lit_to_builtin D R T N E = Some m -> throws_arith m).
Proof. exact C46_lemma. Qed.
Print Assumptions C46_literal_conversion.

Theorem C46_literal_minus : forall D T N v, in_type D T N ->
  (lit_minus D T N = Some v <-> v = - N /\ in_type D T (- N)).
Proof. exact C46_minus_lemma. Qed.
Print Assumptions C46_literal_minus.

Theorem C46_literal_not : forall D T N v, in_type D T N ->
  lit_not D T N = Some v -> v = (if lo D T =? 0 then hi D T - N else - N - 1) /\ in_type D T v.
Proof. exact C46_not_lemma. Qed.
Print Assumptions C46_literal_not.

Example C46_nonvacuous :
  safe_signed_literal LP64 1000 None None = Some (OLit Short 1000 None None)
  /\ in_type LP64 Short 1000
  /\ lit_to_builtin LP64 UInt Short 1000 None = Some ([], Ret 1000)
  /\ lit_to_builtin LP64 SChar Short 1000 None = None
  /\ lit_to_builtin LP64 UInt SChar (-3) (Some ex_ep) = Some ([(arithmetic_error, domain_error)], Throw domain_error)
  /\ lit_minus LP64 Short 1000 = Some (-1000)
  /\ lit_minus LP64 UShort 1000 = None
  /\ lit_not LP64 Short 1000 = Some (-1001)
  /\ lit_not LP64 UInt 1000 = Some 4294966295.
Proof. vm_compute. intuition congruence. Qed.
