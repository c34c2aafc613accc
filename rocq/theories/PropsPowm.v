(** C97 -- modular powers and tests of bits over safe<unsigned>. *)
From Coq Require Import ZArith List Bool.
From Verif Require Import Base CType Spec ExceptionPolicy SafeBase Program Powm PowmFacts.
Import ListNotations.
Local Open Scope Z_scope.

(** powm(a, b, c) is the power a^b modulo c, for all values of unsigned: no intermediate result throws.
    It ends after at most as many turns as b has binary digits. *)
Theorem C97_powm : forall n D a b c,
  0 <= a <= hi D UInt -> 0 <= b <= hi D UInt -> 0 < c <= hi D UInt -> b < 2 ^ Z.of_nat n ->
  powm (S n) D a b c = Some (Ret (a ^ b mod c)).
Proof. intros n D. exact (powm_lemma D n). Qed.
Print Assumptions C97_powm.
(** powm(a, b, 0) throws *)
Theorem C97_powm_zero : forall n D a b, 0 <= a <= hi D UInt -> 0 <= b <= hi D UInt ->
  exists e, powm (S n) D a b 0 = Some (Throw e).
Proof. intros n D. exact (powm_zero_lemma D n). Qed.
Print Assumptions C97_powm_zero.
(** bit_test(val, index) answers whether the bit is set. Missing: bits that are set, except bit 0 *)
Theorem C97_bit_test_partial : forall D val index,
  0 <= val <= hi D UInt -> 0 <= index <= hi D UInt -> index = 0 \/ Z.testbit val index = false ->
  bit_test D val index = Ret (Z.testbit val index).
Proof. exact bit_test_value. Qed.
Print Assumptions C97_bit_test_partial.
(** it throws for each other bit that is set *)
Theorem C97_bit_test_refuted : forall D val index,
  0 <= val <= hi D UInt -> 0 < index <= hi D UInt -> Z.testbit val index = true ->
  bit_test D val index = Throw positive_overflow_error.
Proof. exact bit_test_throws. Qed.
Print Assumptions C97_bit_test_refuted.

Example C97_nonvacuous :
  powm 40 LP64 3 4294967295 4294967291 = Some (Ret 243) /\ powm 40 LP64 4294967295 4294967295 4294967294 = Some (Ret 1)
  /\ powm 4 LP64 2 10 1000 = None /\ powm 5 LP64 2 10 1000 = Some (Ret 24)
  /\ powm 17 IP16 65534 65535 65521 = Some (Ret 19808)
  /\ powm 3 LP64 7 0 0 = Some (Throw domain_error)
  /\ map (bit_test LP64 5) [0; 1; 2; 3; 32] = [Ret true; Ret false; Throw positive_overflow_error; Ret false; Ret false].
Proof. vm_compute. repeat split. Qed.
