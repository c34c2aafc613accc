(** PropsIntervalMod.v -- properties C17 and C25: what range the remainder operator
    computes, and the exact condition under which it is right for a constant divisor. *)
From Coq Require Import ZArith Bool List.
From Verif Require Import Base CType Spec CheckedInteger CheckedResultOps Interval ExceptionPolicy
  Promotion SafeBase SafeSpec IntervalModFacts.
Import ListNotations.
Local Open Scope Z_scope.

(** C17: the computed interval is the smallest one that contains the four remainders of
    the end points, nothing more (missing: the remainders of the other points) *)
Theorem C17_end_points_partial : forall D R a b c d,
  in_type D R a -> in_type D R b -> in_type D R c -> in_type D R d -> a <= b -> c <= d ->
  0 < c \/ d < 0 -> ~ (lo D R < 0 /\ a = lo D R /\ c = lo D R) ->
  exists l u, i_mod D R (mkI (CVal a) (CVal b)) (mkI (CVal c) (CVal d)) = Ok (mkI (CVal l) (CVal u))
    /\ In l [remainder a c; remainder a d; remainder b c; remainder b d]
    /\ In u [remainder a c; remainder a d; remainder b c; remainder b d]
    /\ (forall z, In z [remainder a c; remainder a d; remainder b c; remainder b d] -> l <= z <= u).
Proof. exact i_mod_hull. Qed.
Print Assumptions C17_end_points_partial.

Example C17_end_points_nonvacuous :
  i_mod LP64 Int (mkI (CVal (-17)) (CVal 23)) (mkI (CVal 5) (CVal 9)) = Ok (mkI (CVal (-8)) (CVal 5)).
Proof. vm_compute. reflexivity. Qed.

(** C17 for a constant positive divisor and a non-negative dividend: the interval is
    [min(a % c, b % c), max(a % c, b % c)], and it contains every remainder exactly when
    the dividend does not cross a multiple of c, or begins and ends at opposite ends of
    a period. *)
Theorem C17_constant_divisor : forall D R a b c,
  in_type D R a -> in_type D R b -> in_type D R c -> 0 <= a <= b -> 0 < c ->
  exists l u, i_mod D R (mkI (CVal a) (CVal b)) (mkI (CVal c) (CVal c)) = Ok (mkI (CVal l) (CVal u))
    /\ l = Z.min (a mod c) (b mod c) /\ u = Z.max (a mod c) (b mod c)
    /\ ((forall x, a <= x <= b -> l <= x mod c <= u)
        <-> a / c = b / c \/ (a mod c = 0 /\ b mod c = c - 1) \/ (a mod c = c - 1 /\ b mod c = 0)).
Proof. exact C17_constant. Qed.
Print Assumptions C17_constant_divisor.

(** [0, 99] % 10 is right; [0, 100] % 7 loses 3 .. 6 *)
Example C17_constant_right :
  i_mod LP64 Int (mkI (CVal 0) (CVal 99)) (mkI (CVal 10) (CVal 10)) = Ok (mkI (CVal 0) (CVal 9))
  /\ 0 mod 10 = 0 /\ 99 mod 10 = 10 - 1.
Proof. vm_compute. auto. Qed.
Example C17_constant_wrong :
  i_mod LP64 Int (mkI (CVal 0) (CVal 100)) (mkI (CVal 7) (CVal 7)) = Ok (mkI (CVal 0) (CVal 2))
  /\ 6 mod 7 = 6.
Proof. vm_compute. auto. Qed.

(** C25 for a constant positive divisor and a non-negative dividend whose values fit the
    result type: the value is always x mod c, and the declared range of the result
    contains every possible value exactly under the condition above (missing: the other
    divisors and dividends). *)
Theorem C25_constant_divisor_partial : forall D t u x0 y0 s m0 c, wf_operand D t -> wf_operand D u ->
  binary D Mod t u x0 y0 = Some (s, m0) -> fits_in D (st s) t -> fits_in D (st s) u ->
  0 <= lim_lo D t -> 0 < c -> lim_lo D u = c -> lim_hi D u = c ->
  (forall x, holds D t x -> exists m, binary D Mod t u x c = Some (s, m) /\ returns m (x mod c))
  /\ ((forall x, holds D t x -> smin s <= x mod c <= smax s)
      <-> lim_lo D t / c = lim_hi D t / c
          \/ (lim_lo D t mod c = 0 /\ lim_hi D t mod c = c - 1)
          \/ (lim_lo D t mod c = c - 1 /\ lim_hi D t mod c = 0)).
Proof. exact C25_constant. Qed.
Print Assumptions C25_constant_divisor_partial.

(** safe_unsigned_range<0, 99> % literal 10: type [0, 9] *)
Example C25_constant_nonvacuous :
  let t := OSafe (mkSafe UChar 0 99 Native default_exception_policy) in
  let u := OLit SChar 10 None None in
  wf_operand LP64 t /\ wf_operand LP64 u
  /\ binary LP64 Mod t u 57 10 = Some (mkSafe Int 0 9 Native default_exception_policy, ([], Ret 7))
  /\ fits_in LP64 Int t /\ fits_in LP64 Int u
  /\ lim_lo LP64 u = 10 /\ lim_hi LP64 u = 10.
Proof. vm_compute. intuition congruence. Qed.

(** safe_unsigned_range<0, 100> % literal 7: type [0, 2] though 6 % 7 is 6 *)
Example C25_constant_wrong :
  binary LP64 Mod (OSafe (mkSafe UChar 0 100 Native default_exception_policy)) (OLit SChar 7 None None) 6 7
  = Some (mkSafe Int 0 2 Native default_exception_policy, ([], Ret 6)).
Proof. vm_compute. reflexivity. Qed.
