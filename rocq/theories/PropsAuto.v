(** PropsAuto.v -- property C71, C38 for differences, C24 and C25: the result types
    of automatic promotion. *)
From Coq Require Import ZArith Bool List.
From Verif Require Import Base CType Spec ExceptionPolicy Promotion SafeBase SafeSpec AutoFacts AutoDivFacts.
Import ListNotations.
Local Open Scope Z_scope.

Definition au_sr (mn mx : Z) (T : ctype) : otype := OSafe (mkSafe T mn mx Automatic default_exception_policy).

(** C38 for a - b with a, b of the same type whose range includes 0 (missing: see
    C38_automatic_refuted) *)
Theorem C38_automatic_sub_partial : forall D t x y s m,
  wf_operand D t -> holds D t x -> holds D t y ->
  binary D Sub t t x y = Some (s, m) -> throws_arithmetic (sE s) -> sP s = Automatic ->
  holds D t 0 -> (forall a b, holds D t a -> holds D t b -> in_type D (intmax D) (a - b)) ->
  returns m (x - y).
Proof. exact auto_sub_same. Qed.
Print Assumptions C38_automatic_sub_partial.

(** unsigned operands: 3 - 200 is -197 *)
Example C38_sub_nonvacuous :
  wf_operand LP64 (au_sr 0 200 UChar) /\ holds LP64 (au_sr 0 200 UChar) 3 /\ holds LP64 (au_sr 0 200 UChar) 200
  /\ holds LP64 (au_sr 0 200 UChar) 0
  /\ binary LP64 Sub (au_sr 0 200 UChar) (au_sr 0 200 UChar) 3 200
     = Some (mkSafe Short (-200) 200 Automatic default_exception_policy, ([], Ret (-197))).
Proof. vm_compute. intuition congruence. Qed.

(** C71: + - * under automatic promotion. The result type is signed unless both
    operands are unsigned and the operator is + or *. It holds every result that the
    widest type of that signedness holds. No narrower type of that signedness holds
    all results (if the widest type holds the values of the operands). *)
Theorem C71_narrowest_type : forall op D t u x0 y0 s m, op = Add \/ op = Sub \/ op = Mul ->
  wf_operand D t -> wf_operand D u ->
  binary D op t u x0 y0 = Some (s, m) -> sP s = Automatic ->
  csigned D (st s) = csigned D (widest D op t u)
  /\ (forall x y, holds D t x -> holds D u y -> in_type D (widest D op t u) x -> in_type D (widest D op t u) y ->
      in_type D (widest D op t u) (exact op x y) -> in_type D (st s) (exact op x y))
  /\ (fits_in D (widest D op t u) t -> fits_in D (widest D op t u) u ->
      forall Q, csigned D Q = csigned D (widest D op t u) ->
        (forall x y, holds D t x -> holds D u y -> in_type D Q (exact op x y)) ->
        width D (st s) <= width D Q).
Proof. exact auto_narrowest. Qed.
Print Assumptions C71_narrowest_type.

(** 100 + 27 fits signed char, 100 + 28 needs a short, and 64 bits are needed when a
    32-bit square can be 2^62 *)
Example C71_nonvacuous :
  binary LP64 Add (au_sr (-100) 100 SChar) (au_sr 0 27 SChar) 100 27
    = Some (mkSafe SChar (-100) 127 Automatic default_exception_policy, ([], Ret 127))
  /\ binary LP64 Add (au_sr (-100) 100 SChar) (au_sr 0 28 SChar) 100 28
    = Some (mkSafe Short (-100) 128 Automatic default_exception_policy, ([], Ret 128))
  /\ binary LP64 Mul (au_sr 0 65535 UShort) (au_sr 0 65537 UInt) 65535 65537
    = Some (mkSafe UInt 0 4294967295 Automatic default_exception_policy, ([], Ret 4294967295))
  /\ binary LP64 Mul (au_sr (-2147483648) 0 Int) (au_sr (-2147483648) 0 Int) (-2147483648) (-2147483648)
    = Some (mkSafe Long 0 4611686018427387904 Automatic default_exception_policy, ([], Ret 4611686018427387904))
  /\ wf_operand LP64 (au_sr (-100) 100 SChar) /\ fits_in LP64 (intmax LP64) (au_sr (-100) 100 SChar).
Proof. vm_compute. intuition congruence. Qed.

(** C24 under automatic promotion, for divisors whose declared range includes zero
    and operands that the widest type holds: the quotient is returned, and it is in
    the declared range of the result, or (only INTMAX_MIN / -1) an exception is
    thrown; a zero divisor throws. No width of the operands makes a difference
    (missing: divisors whose range excludes zero, see C24_safe_divide_refuted and
    C24_safe_divide_partial). *)
Theorem C24_automatic_partial : forall D t u x y s m,
  wf_operand D t -> wf_operand D u -> holds D t x -> holds D u y ->
  binary D Div t u x y = Some (s, m) -> throws_arithmetic (sE s) -> sP s = Automatic ->
  fits_in D (widest D Div t u) t -> fits_in D (widest D Div t u) u -> holds D u 0 ->
  wf_operand D (OSafe s)
  /\ (y = 0 -> throws_arith m)
  /\ (y <> 0 -> in_type D (widest D Div t u) (Z.quot x y) ->
      returns m (Z.quot x y) /\ holds D (OSafe s) (Z.quot x y))
  /\ (y <> 0 -> ~ in_type D (widest D Div t u) (Z.quot x y) -> throws_arith m).
Proof. exact C24_auto. Qed.
Print Assumptions C24_automatic_partial.

(** the result is a signed char, the divisor an int *)
Example C24_automatic_nonvacuous :
  wf_operand LP64 (au_sr (-10) 10 SChar) /\ wf_operand LP64 (au_sr (-60000) 60000 Int)
  /\ fits_in LP64 (widest LP64 Div (au_sr (-10) 10 SChar) (au_sr (-60000) 60000 Int)) (au_sr (-10) 10 SChar)
  /\ fits_in LP64 (widest LP64 Div (au_sr (-10) 10 SChar) (au_sr (-60000) 60000 Int)) (au_sr (-60000) 60000 Int)
  /\ holds LP64 (au_sr (-60000) 60000 Int) 0 /\ holds LP64 (au_sr (-60000) 60000 Int) 50000
  /\ binary LP64 Div (au_sr (-10) 10 SChar) (au_sr (-60000) 60000 Int) 9 (-2)
     = Some (mkSafe SChar (-10) 10 Automatic default_exception_policy, ([], Ret (-4)))
  /\ binary LP64 Div (au_sr (-10) 10 SChar) (au_sr (-60000) 60000 Int) 9 50000
     = Some (mkSafe SChar (-10) 10 Automatic default_exception_policy, ([], Ret 0))
  /\ binary LP64 Div (au_sr (-10) 10 SChar) (au_sr (-60000) 60000 Int) 9 0
     = Some (mkSafe SChar (-10) 10 Automatic default_exception_policy,
             ([(arithmetic_error, domain_error)], Throw domain_error)).
Proof. vm_compute. intuition congruence. Qed.

(** C25 under automatic promotion, in the same case: the value returned is the
    remainder if the type of the result can hold it, and in general the remainder
    reduced modulo 2^width of that type; a zero divisor throws (missing: results
    inside the declared range, which is false, see below; MIN % MIN for the minimum
    of a signed type; divisors whose range excludes zero). *)
Theorem C25_automatic_partial : forall D t u x y s m,
  wf_operand D t -> wf_operand D u -> holds D t x -> holds D u y ->
  binary D Mod t u x y = Some (s, m) -> throws_arithmetic (sE s) -> sP s = Automatic ->
  fits_in D (widest D Mod t u) t -> fits_in D (widest D Mod t u) u -> holds D u 0 ->
  (y = 0 -> throws_arith m)
  /\ (y <> 0 -> ~ (exists T, csigned D T = true /\ x = lo D T /\ y = lo D T) ->
      exists v, returns m v /\ in_type D (st s) v /\ (v - remainder x y) mod 2 ^ width D (st s) = 0
      /\ (in_type D (st s) (remainder x y) -> v = remainder x y)).
Proof. exact C25_auto. Qed.
Print Assumptions C25_automatic_partial.

(** a divisor of 16 bits, a result of 8 bits *)
Example C25_automatic_nonvacuous :
  wf_operand LP64 (au_sr 0 1000 Short) /\ wf_operand LP64 (au_sr (-500) 500 Short)
  /\ fits_in LP64 (widest LP64 Mod (au_sr 0 1000 Short) (au_sr (-500) 500 Short)) (au_sr 0 1000 Short)
  /\ fits_in LP64 (widest LP64 Mod (au_sr 0 1000 Short) (au_sr (-500) 500 Short)) (au_sr (-500) 500 Short)
  /\ holds LP64 (au_sr (-500) 500 Short) 0
  /\ binary LP64 Mod (au_sr 0 1000 Short) (au_sr (-500) 500 Short) 905 (-200)
     = Some (mkSafe SChar (-2) 0 Automatic default_exception_policy, ([], Ret 105)).
Proof. vm_compute. intuition congruence. Qed.

(** C25 is false under automatic promotion: range<0,1000>(499) % range<-500,500>(500)
    returns -13, and range<0,1000>(499) % range<100,500>(500) returns -1. *)
Theorem C25_automatic_refuted : exists D t u u' x y s s' v v',
  wf_operand D t /\ wf_operand D u /\ wf_operand D u' /\ holds D t x /\ holds D u y /\ holds D u' y /\ y <> 0
  /\ binary D Mod t u x y = Some (s, ([], Ret v)) /\ binary D Mod t u' x y = Some (s', ([], Ret v'))
  /\ throws_arithmetic (sE s) /\ throws_arithmetic (sE s')
  /\ remainder x y = 499 /\ v = -13 /\ v' = -1.
Proof.
  exists LP64, (au_sr 0 1000 Short), (au_sr (-500) 500 Short), (au_sr 100 500 Short), 499, 500.
  exists (mkSafe SChar (-2) 0 Automatic default_exception_policy),
    (mkSafe SChar 0 99 Automatic default_exception_policy), (-13), (-1).
  vm_compute. intuition congruence.
Qed.
Print Assumptions C25_automatic_refuted.
