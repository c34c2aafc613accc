(** PropsStatic.v -- C56-C63: full-range types, mixed policies, the predefined
    policies, and the exactness of the decisions made at compile time. *)
From Coq Require Import ZArith List Bool.
From Verif Require Import Base CType Utility Spec ExceptionPolicy Promotion SafeBase SafeSpec StaticSpec PropsStaticProofs.
Import ListNotations.
Local Open Scope Z_scope.

(** C56: for safe<T> with native promotion (and a policy that throws), combined
    with another safe<U> or with a built-in U, every operator compiles, its result
    is stored in the type of the built-in expression, and for every pair of values
    the outcome is the one given here. *)
Theorem C56_arithmetic : forall D E op T U t u x y, op = Add \/ op = Sub \/ op = Mul \/ op = Div ->
  plain D E T t -> plain D E U u -> is_safe t = true \/ is_safe u = true ->
  throws_arithmetic E -> throws_shift E -> in_type D T x -> in_type D U y ->
  exists s m, binary D op t u x y = Some (s, m) /\ st s = built_in_type D op T U
    /\ (meaningful D op T U x y -> returns m (exact op x y))
    /\ (~ meaningful D op T U x y -> throws_arith m).
Proof. exact C56_arithmetic_lemma. Qed.
Print Assumptions C56_arithmetic.

(** % : the remainder, except for MIN % MIN, which gives MIN *)
Theorem C56_modulus_partial : forall D E T U t u x y,
  plain D E T t -> plain D E U u -> is_safe t = true \/ is_safe u = true ->
  throws_arithmetic E -> throws_shift E -> in_type D T x -> in_type D U y ->
  let R := built_in_type D Mod T U in
  exists s m, binary D Mod t u x y = Some (s, m) /\ st s = R
    /\ (meaningful D Mod T U x y ->
        returns m (if (lo D R <? 0) && (x =? lo D R) && (y =? lo D R) then lo D R else remainder x y))
    /\ (~ meaningful D Mod T U x y -> throws_arith m).
Proof. exact C56_modulus_lemma. Qed.
Print Assumptions C56_modulus_partial.

Theorem C56_left_shift : forall D E T U t u x y,
  plain D E T t -> plain D E U u -> is_safe t = true \/ is_safe u = true ->
  throws_arithmetic E -> throws_shift E -> in_type D T x -> in_type D U y ->
  exists s m, binary D Shl t u x y = Some (s, m) /\ st s = promote D T
    /\ (meaningful D Shl T U x y -> returns m (x * 2 ^ y))
    /\ (~ meaningful D Shl T U x y -> throws_arith m \/ throws_impl m).
Proof. exact C56_left_shift_lemma. Qed.
Print Assumptions C56_left_shift.

(** >> : undefined when the promoted type is unsigned and the count is its width *)
Theorem C56_right_shift_partial : forall D E T U t u x y,
  plain D E T t -> plain D E U u -> is_safe t = true \/ is_safe u = true ->
  throws_arithmetic E -> throws_shift E -> in_type D T x -> in_type D U y ->
  let R := promote D T in
  exists s m, binary D Shr t u x y = Some (s, m) /\ st s = R
    /\ (meaningful D Shr T U x y -> ~ (lo D R = 0 /\ y = digits D R) -> returns m (x / 2 ^ y))
    /\ (meaningful D Shr T U x y -> lo D R = 0 /\ y = digits D R -> m = ([], Undef))
    /\ (~ meaningful D Shr T U x y -> throws_arith m \/ throws_impl m).
Proof. exact C56_right_shift_lemma. Qed.
Print Assumptions C56_right_shift_partial.

Theorem C56_bitwise : forall D E b T U t u x y,
  plain D E T t -> plain D E U u -> is_safe t = true \/ is_safe u = true ->
  exists s m, bitwise D b t u x y = Some (s, m) /\ st s = uac D T U /\ returns m (built_in_bit D b T U x y).
Proof. exact C56_bitwise_lemma. Qed.
Print Assumptions C56_bitwise.

Theorem C56_comparisons : forall D E T U t u x y,
  plain D E T t -> plain D E U u -> is_safe t = true \/ is_safe u = true ->
  throws_arithmetic E -> in_type D T x -> in_type D U y ->
  exists lt gt le ge eq ne,
    s_lt D t u x y = Some lt /\ s_gt D t u x y = Some gt /\ s_le D t u x y = Some le
    /\ s_ge D t u x y = Some ge /\ s_eq D t u x y = Some eq /\ s_ne D t u x y = Some ne
    /\ (in_type D (uac D T U) x /\ in_type D (uac D T U) y ->
        returns lt (x <? y) /\ returns gt (y <? x) /\ returns le (x <=? y)
        /\ returns ge (y <=? x) /\ returns eq (x =? y) /\ returns ne (negb (x =? y)))
    /\ (~ (in_type D (uac D T U) x /\ in_type D (uac D T U) y) ->
        throws_arith lt /\ throws_arith gt /\ throws_arith le
        /\ throws_arith ge /\ throws_arith eq /\ throws_arith ne).
Proof. exact C56_comparison_lemma. Qed.
Print Assumptions C56_comparisons.

(** the exceptions are real: a wrong remainder and undefined behaviour *)
Theorem C56_refuted : exists D E t u s m s' m',
  plain D E Int t /\ plain D E Int u /\ throws_arithmetic E /\ throws_shift E
  /\ binary D Mod t u (lo D Int) (lo D Int) = Some (s, m) /\ returns m (lo D Int) /\ remainder (lo D Int) (lo D Int) = 0
  /\ binary D Shr (OSafe (safe D UInt Native E)) u 1 32 = Some (s', m') /\ m' = ([], Undef).
Proof. exact C56_refuted_lemma. Qed.
Print Assumptions C56_refuted.

Example C56_nonvacuous :
  let E := strict_exception_policy in
  let t := OSafe (safe LP64 Int Native E) in
  plain LP64 E Int t /\ plain LP64 E UInt (ORaw UInt) /\ throws_arithmetic E /\ throws_shift E
  /\ meaningful LP64 Add Int UInt 5 7 /\ ~ meaningful LP64 Add Int UInt (-5) 7
  /\ meaningful LP64 Div Int Int 7 (-2) /\ ~ meaningful LP64 Div Int Int (- 2 ^ 31) (-1)
  /\ meaningful LP64 Shl Int Int 5 3 /\ ~ meaningful LP64 Shl Int Int 5 31
  /\ meaningful LP64 Mod Int Int 7 2 /\ meaningful LP64 Shr Int Int 9 2.
Proof. exact C56_nonvacuous_lemma. Qed.

(** C57: an expression whose operands have different exception policies or
    different promotion policies does not compile, nor does one without any policy
    (two literals); otherwise the result has the policies of the operands. *)
Theorem C57_operators : forall D op t u x y s m, eval_binop D op t u x y = Some (s, m) ->
  (forall E, get_ep t = Some E \/ get_ep u = Some E -> sE s = E)
  /\ (forall P, get_pp t = Some P \/ get_pp u = Some P -> sP s = P)
  /\ (exists E, get_ep t = Some E \/ get_ep u = Some E)
  /\ (exists P, get_pp t = Some P \/ get_pp u = Some P).
Proof. exact C57_operators_lemma. Qed.
Print Assumptions C57_operators.

Theorem C57_comparisons : forall D c t u x y m, compare D c t u x y = Some m ->
  (forall E F, get_ep t = Some E -> get_ep u = Some F -> E = F)
  /\ (forall P Q, get_pp t = Some P -> get_pp u = Some Q -> P = Q).
Proof. exact C57_comparisons_lemma. Qed.
Print Assumptions C57_comparisons.

Example C57_nonvacuous :
  let t := OSafe (safe LP64 Int Native loose_exception_policy) in
  let u := OSafe (safe LP64 Int Native strict_exception_policy) in
  let v := OSafe (safe LP64 Int Automatic strict_exception_policy) in
  binary LP64 Add t u 1 2 = None /\ binary LP64 Add u v 1 2 = None
  /\ s_lt LP64 t u 1 2 = None /\ bitwise LP64 Or u v 1 2 = None
  /\ binary LP64 Add (OLit SChar 1 None None) (OLit SChar 2 None None) 1 2 = None
  /\ (exists s m, eval_binop LP64 (BA Add) v (OLit SChar 2 None None) 1 2 = Some (s, m) /\ sP s = Automatic)
  /\ exists m, compare LP64 CLt u u 1 2 = Some m.
Proof. exact C57_nonvacuous_lemma. Qed.

(** C58: what the predefined policies do with each class of errors *)
Theorem C58_predefined_policies : forall e,
  (arithmetic_err e ->
     dispatch loose_exception_policy e = ([(arithmetic_error, e)], Throw e)
     /\ dispatch strict_exception_policy e = ([(arithmetic_error, e)], Throw e)
     /\ dispatch default_exception_policy e = ([(arithmetic_error, e)], Throw e)
     /\ dispatch_compiles loose_trap_policy e = false /\ dispatch_compiles strict_trap_policy e = false)
  /\ (shift_err e ->
     dispatch loose_exception_policy e = ([(implementation_defined_behavior, e)], Ret tt)
     /\ dispatch strict_exception_policy e = ([(implementation_defined_behavior, e)], Throw e)
     /\ dispatch default_exception_policy e = ([(implementation_defined_behavior, e)], Throw e)
     /\ dispatch loose_trap_policy e = ([(implementation_defined_behavior, e)], Ret tt)
     /\ dispatch_compiles loose_exception_policy e = true /\ dispatch_compiles loose_trap_policy e = true
     /\ dispatch_compiles strict_trap_policy e = false).
Proof. exact C58_lemma. Qed.
Print Assumptions C58_predefined_policies.

Theorem C58_uninitialized : forall T mn mx P,
  default_ctor (mkSafe T mn mx P strict_trap_policy) = None
  /\ default_ctor (mkSafe T mn mx P loose_exception_policy) = Some ([(act_uninitialized_value, uninitialized_value)], Ret tt)
  /\ default_ctor (mkSafe T mn mx P loose_trap_policy) = Some ([(act_uninitialized_value, uninitialized_value)], Ret tt)
  /\ default_ctor (mkSafe T mn mx P strict_exception_policy) = Some ([(act_uninitialized_value, uninitialized_value)], Ret tt).
Proof. exact C58_uninitialized_lemma. Qed.
Print Assumptions C58_uninitialized.

(** "If you want to be sure that all errors are trapped ... strict: throw at
    runtime on any kind of error": not for uninitialized values; and the loose
    policy goes on to execute the undefined shift it was told about *)
Theorem C58_refuted :
  (exists s, sE s = strict_exception_policy
     /\ default_ctor s = Some ([(act_uninitialized_value, uninitialized_value)], Ret tt))
  /\ exists t x y s, t = OSafe (safe LP64 Int Native loose_exception_policy)
     /\ binary LP64 Shl t (ORaw Int) x y
        = Some (s, ([(implementation_defined_behavior, shift_too_large)], Undef)).
Proof. exact C58_refuted_lemma. Qed.
Print Assumptions C58_refuted.

Example C58_nonvacuous : arithmetic_err domain_error /\ shift_err negative_shift.
Proof. exact C58_nonvacuous_lemma. Qed.

(** C59: which constructions and conversions compile. Under a trap policy exactly
    those that cannot fail; under a throwing policy all but those that always fail. *)
Theorem C59_trap_construction : forall D s o x, wf_operand D (OSafe s) -> wf_operand D o -> traps (sE s) ->
  ((exists m, construct D s o x = Some m) <-> smin s <= lim_lo D o /\ lim_hi D o <= smax s).
Proof. exact C59_trap_lemma. Qed.
Print Assumptions C59_trap_construction.

Theorem C59_throwing_construction_partial : forall D s o x,
  wf_operand D (OSafe s) -> wf_operand D o -> throws_arithmetic (sE s) ->
  (construct D s o x = None -> forall z, holds D o z -> ~ (smin s <= z <= smax s))
  /\ (csigned D (st s) = true \/ 0 <= lim_hi D o ->
      (forall z, holds D o z -> ~ (smin s <= z <= smax s)) -> construct D s o x = None).
Proof. exact C59_throw_lemma. Qed.
Print Assumptions C59_throwing_construction_partial.

(** a negative range to an unsigned range always fails, but only at run time *)
Theorem C59_throwing_construction_refuted : exists D s o,
  wf_operand D (OSafe s) /\ wf_operand D o /\ throws_arithmetic (sE s)
  /\ (forall z, holds D o z -> ~ (smin s <= z <= smax s)) /\ construct D s o (-1) <> None.
Proof. exact C59_refuted_lemma. Qed.
Print Assumptions C59_throwing_construction_refuted.

(** conversion to a built-in type: the declared range of the object is not used *)
Theorem C59_trap_conversion_partial : forall D R s x, traps (sE s) ->
  ((exists m, to_builtin D R s x = Some m) <-> lo D R <= lo D (st s) /\ hi D (st s) <= hi D R).
Proof. exact C59_conversion_lemma. Qed.
Print Assumptions C59_trap_conversion_partial.

Theorem C59_trap_conversion_refuted : exists D R s,
  wf_operand D (OSafe s) /\ traps (sE s) /\ fits_in D R (OSafe s) /\ to_builtin D R s (smin s) = None.
Proof. exact C59_conversion_refuted_lemma. Qed.
Print Assumptions C59_trap_conversion_refuted.

Example C59_nonvacuous :
  let E := strict_exception_policy in
  let F := strict_trap_policy in
  (exists m, construct LP64 (mkSafe Int 0 10 Native F) (OSafe (mkSafe Int 2 5 Native F)) 3 = Some m)
  /\ construct LP64 (mkSafe Int 0 10 Native F) (OSafe (mkSafe Int 2 15 Native F)) 3 = None
  /\ construct LP64 (mkSafe Int 0 10 Native E) (OSafe (mkSafe Int 20 30 Native E)) 25 = None
  /\ (exists m, construct LP64 (mkSafe Int 0 10 Native E) (OSafe (mkSafe Int 2 15 Native E)) 3 = Some m)
  /\ exists m, to_builtin LP64 Long (mkSafe Int 0 10 Native F) 3 = Some m.
Proof. exact C59_nonvacuous_lemma. Qed.

(** C60: a trap policy rejects an operation only if some values of the operands'
    declared ranges would make it fail: it compiles under a trap policy if and
    only if the same expression under a throwing policy returns for all values. *)
Theorem C60_trap_exact : forall op F D t u x0 y0 s m, op = Add \/ op = Sub \/ op = Mul ->
  wf_operand D t -> wf_operand D u ->
  binary D op t u x0 y0 = Some (s, m) -> throws_arithmetic (sE s) -> traps F ->
  ((exists s' m', binary D op (with_policy F t) (with_policy F u) x0 y0 = Some (s', m'))
   <-> (forall x y, holds D t x -> holds D u y ->
          exists k, binary D op t u x y = Some (s, k) /\ returns k (exact op x y))).
Proof. exact C60_arith_lemma. Qed.
Print Assumptions C60_trap_exact.

Theorem C60_trap_exact_division : forall F D t u x0 y0 s m,
  wf_operand D t -> wf_operand D u ->
  binary D Div t u x0 y0 = Some (s, m) -> throws_arithmetic (sE s) -> traps F -> result_large_enough D s t u ->
  ((exists s' m', binary D Div (with_policy F t) (with_policy F u) x0 y0 = Some (s', m'))
   <-> (forall x y, holds D t x -> holds D u y ->
          exists k, binary D Div t u x y = Some (s, k) /\ returns k (Z.quot x y))).
Proof. exact C60_div_lemma. Qed.
Print Assumptions C60_trap_exact_division.

(** a run-time check is made only if some values fail it *)
Theorem C60_check_can_fail : forall op D t u oi x0 y0 s m0, op = Add \/ op = Sub \/ op = Mul ->
  wf_operand D t -> wf_operand D u ->
  op_static D op t u = Some oi -> oi_checked oi = true -> throws_arithmetic (oi_E oi) ->
  binary D op t u x0 y0 = Some (s, m0) ->
  exists x y m, holds D t x /\ holds D u y /\ binary D op t u x y = Some (s, m) /\ throws_arith m.
Proof. exact C60_check_lemma. Qed.
Print Assumptions C60_check_can_fail.

(** not so for comparisons: this one is decided at compile time, never fails under
    a throwing policy, and does not compile under a trap policy *)
Theorem C60_comparison_refuted : exists D F t u,
  wf_operand D t /\ wf_operand D u /\ traps F
  /\ (forall x y, holds D t x -> holds D u y -> exists m, s_lt D t u x y = Some m /\ returns m (x <? y))
  /\ forall x y, s_lt D (with_policy F t) (with_policy F u) x y = None.
Proof. exact C60_comparison_refuted_lemma. Qed.
Print Assumptions C60_comparison_refuted.

Example C60_nonvacuous :
  let E := strict_exception_policy in
  let F := strict_trap_policy in
  let t := OSafe (mkSafe Int 0 100 Native E) in
  let u := OSafe (mkSafe Int 1 (2 ^ 31 - 1) Native E) in
  (exists s m, binary LP64 Add t t 1 2 = Some (s, m)) /\ (exists s m, binary LP64 Add t u 1 2 = Some (s, m))
  /\ (exists s m, binary LP64 Add (with_policy F t) (with_policy F t) 1 2 = Some (s, m))
  /\ binary LP64 Add (with_policy F t) (with_policy F u) 1 2 = None
  /\ (exists s m, binary LP64 Div (with_policy F t) (with_policy F u) 1 2 = Some (s, m))
  /\ binary LP64 Div (with_policy F t) (with_policy F t) 1 2 = None.
Proof. exact C60_nonvacuous_lemma. Qed.

(** C61: the declared range of a sum, difference or product is the tightest
    possible: each bound is the result for some operands, or is the bound of the
    underlying type because results beyond it are possible. *)
Theorem C61_tight_ranges : forall op D t u oi, op = Add \/ op = Sub \/ op = Mul -> wf_operand D t -> wf_operand D u ->
  op_static D op t u = Some oi ->
  let s := oi_type oi in
  (smin s = lo D (st s) \/ exists a b, holds D t a /\ holds D u b /\ exact op a b = smin s)
  /\ (smax s = hi D (st s) \/ exists a b, holds D t a /\ holds D u b /\ exact op a b = smax s)
  /\ (oi_checked oi = false ->
      (exists a b, holds D t a /\ holds D u b /\ exact op a b = smin s)
      /\ (exists a b, holds D t a /\ holds D u b /\ exact op a b = smax s)).
Proof. exact C61_lemma. Qed.
Print Assumptions C61_tight_ranges.

Example C61_nonvacuous :
  let E := strict_exception_policy in
  let t := OSafe (mkSafe Int (-3) 5 Native E) in
  exists oi, op_static LP64 Mul t t = Some oi /\ oi_checked oi = false
    /\ smin (oi_type oi) = -15 /\ smax (oi_type oi) = 25.
Proof. exact C61_nonvacuous_lemma. Qed.

(** C62: under native promotion the declared ranges change which checks are made
    but never the outcome: it is the same for any operand types with the same
    underlying built-in types. *)
Theorem C62_ranges_irrelevant : forall D op t u t' u' x y s m s' m',
  op = Add \/ op = Sub \/ op = Mul \/ op = Div ->
  base_ty t = base_ty t' -> base_ty u = base_ty u' ->
  wf_operand D t -> wf_operand D u -> wf_operand D t' -> wf_operand D u' ->
  holds D t x -> holds D u y -> holds D t' x -> holds D u' y ->
  binary D op t u x y = Some (s, m) -> binary D op t' u' x y = Some (s', m') ->
  sP s = Native -> sP s' = Native -> throws_arithmetic (sE s) -> throws_arithmetic (sE s') ->
  st s = st s' /\ m = m'.
Proof. exact C62_lemma. Qed.
Print Assumptions C62_ranges_irrelevant.

(** ... namely the exact value when operands and value are representable in the
    type of the built-in expression, and an exception otherwise *)
Theorem C62_native_outcome : forall D op t u x y s m, op = Add \/ op = Sub \/ op = Mul \/ op = Div ->
  wf_operand D t -> wf_operand D u -> holds D t x -> holds D u y ->
  binary D op t u x y = Some (s, m) -> sP s = Native -> throws_arithmetic (sE s) ->
  (meaningful D op (base_ty t) (base_ty u) x y -> returns m (exact op x y))
  /\ (~ meaningful D op (base_ty t) (base_ty u) x y -> throws_arith m).
Proof. exact C62_complete_lemma. Qed.
Print Assumptions C62_native_outcome.

Example C62_nonvacuous :
  let E := strict_exception_policy in
  let t := OSafe (mkSafe Int 0 100 Native E) in
  let t' := OSafe (safe LP64 Int Native E) in
  (exists s m, binary LP64 Mul t t 9 8 = Some (s, m) /\ m = ([], Ret 72) /\ smax s = 10000)
  /\ (exists s m, binary LP64 Mul t' t 9 8 = Some (s, m) /\ m = ([], Ret 72) /\ smax s = 2 ^ 31 - 1)
  /\ meaningful LP64 Mul Int Int 9 8 /\ ~ meaningful LP64 Mul Int Int (2 ^ 30) 2.
Proof. exact C62_nonvacuous_lemma. Qed.

(** C63: a comparison whose operand ranges are representable in the type of the
    built-in comparison (native) or in the widest type of the same signedness
    (automatic) always compiles, never throws and gives the mathematical answer,
    whatever the exception policy does. *)
Theorem C63_native : forall D t u x y E, wf_operand D t -> wf_operand D u -> holds D t x -> holds D u y ->
  is_safe t = true \/ is_safe u = true ->
  get_pp t = Some Native \/ get_pp u = Some Native -> get_ep t = Some E \/ get_ep u = Some E ->
  (forall Q, get_pp t = Some Q \/ get_pp u = Some Q -> Q = Native) ->
  (forall F, get_ep t = Some F \/ get_ep u = Some F -> F = E) ->
  fits_in D (uac D (base_ty t) (base_ty u)) t -> fits_in D (uac D (base_ty t) (base_ty u)) u ->
  s_lt D t u x y = Some (mret (x <? y)) /\ s_gt D t u x y = Some (mret (y <? x))
  /\ s_le D t u x y = Some (mret (x <=? y)) /\ s_ge D t u x y = Some (mret (y <=? x))
  /\ s_eq D t u x y = Some (mret (x =? y)) /\ s_ne D t u x y = Some (mret (negb (x =? y))).
Proof. exact C63_native_lemma. Qed.
Print Assumptions C63_native.

Theorem C63_automatic : forall D t u x y E, wf_operand D t -> wf_operand D u -> holds D t x -> holds D u y ->
  is_safe t = true \/ is_safe u = true ->
  get_pp t = Some Automatic \/ get_pp u = Some Automatic -> get_ep t = Some E \/ get_ep u = Some E ->
  (forall Q, get_pp t = Some Q \/ get_pp u = Some Q -> Q = Automatic) ->
  (forall F, get_ep t = Some F \/ get_ep u = Some F -> F = E) ->
  fits_in D (widest D Add t u) t -> fits_in D (widest D Add t u) u ->
  s_lt D t u x y = Some (mret (x <? y)) /\ s_gt D t u x y = Some (mret (y <? x))
  /\ s_le D t u x y = Some (mret (x <=? y)) /\ s_ge D t u x y = Some (mret (y <=? x))
  /\ s_eq D t u x y = Some (mret (x =? y)) /\ s_ne D t u x y = Some (mret (negb (x =? y))).
Proof. exact C63_automatic_lemma. Qed.
Print Assumptions C63_automatic.

(** in particular two objects of the same type, or of types that differ only in
    their ranges *)
Theorem C63_same_type : forall D s s' x y, st s = st s' -> sP s = sP s' -> sE s = sE s' ->
  sP s = Native \/ sP s = Automatic ->
  wf_operand D (OSafe s) -> wf_operand D (OSafe s') -> holds D (OSafe s) x -> holds D (OSafe s') y ->
  let t := OSafe s in let u := OSafe s' in
  s_lt D t u x y = Some (mret (x <? y)) /\ s_gt D t u x y = Some (mret (y <? x))
  /\ s_le D t u x y = Some (mret (x <=? y)) /\ s_ge D t u x y = Some (mret (y <=? x))
  /\ s_eq D t u x y = Some (mret (x =? y)) /\ s_ne D t u x y = Some (mret (negb (x =? y))).
Proof. exact C63_same_lemma. Qed.
Print Assumptions C63_same_type.

Example C63_nonvacuous :
  let s := safe LP64 UInt Native strict_trap_policy in
  wf_operand LP64 (OSafe s) /\ holds LP64 (OSafe s) 7
  /\ s_lt LP64 (OSafe s) (OSafe s) 7 9 = Some (mret true)
  /\ s_lt LP64 (OSafe s) (ORaw Int) 7 9 = None.
Proof. exact C63_nonvacuous_lemma. Qed.
