(** PropsLaws.v -- C81 (order), C82 (algebra), and complete characterisations for C38,
    C40 and C47. *)
From Coq Require Import ZArith Bool List Sorted.
From Verif Require Import Base CType Spec CheckedInteger Interval ExceptionPolicy Promotion SafeBase SafeSpec
  Program ProgramSpec LawSpec LawFacts LawProgFacts MulExactFacts.
Import ListNotations.
Local Open Scope Z_scope.

Definition exl : ep := default_exception_policy.
Definition ls (T : ctype) : otype := OSafe (safe LP64 T Native exl).

(** C38: for every promotion policy, a sum or difference returns exactly when the
    operands and the exact result are values of the type of the result, and throws
    otherwise. (For automatic promotion: the only obstacle left is the cast of the
    operands to the result type.) *)
Theorem C38_add_sub_exact : forall op D t u x y s m, op = Add \/ op = Sub ->
  wf_operand D t -> wf_operand D u -> holds D t x -> holds D u y ->
  binary D op t u x y = Some (s, m) -> throws_arithmetic (sE s) ->
  (returns m (exact op x y) <-> in_type D (st s) x /\ in_type D (st s) y /\ in_type D (st s) (exact op x y))
  /\ (throws_arith m <-> ~ (in_type D (st s) x /\ in_type D (st s) y /\ in_type D (st s) (exact op x y))).
Proof. exact C38_exact_lemma. Qed.
Print Assumptions C38_add_sub_exact.

Example C38_exact_nonvacuous :
  let t := OSafe (mkSafe Short 100 200 Automatic exl) in
  wf_operand LP64 t /\ holds LP64 t 200 /\ holds LP64 t 100
  /\ binary LP64 Sub t t 120 100 = Some (mkSafe SChar (-128) 127 Automatic exl, ([], Ret 20))
  /\ binary LP64 Sub t t 200 100
     = Some (mkSafe SChar (-128) 127 Automatic exl,
             ([(arithmetic_error, positive_overflow_error)], Throw positive_overflow_error))
  /\ ~ in_type LP64 SChar 200.
Proof. vm_compute. intuition congruence. Qed.

(** C40: cpp with the widths of a host with 64-bit long gives the type of the built-in
    expression, unless that is int and an operand is of an unsigned type narrower
    than int, or the operands are unsigned long and long long *)
Theorem C40_exact_64_bit_long : forall D T U, D = LP64 \/ D = LP64u ->
  (cpp_result D 8 16 (width D Int) (width D Long) (width D LLong) T U = Some (uac D T U)
   <-> ~ (uac D T U = Int
          /\ (csigned D T = false /\ width D T < width D Int \/ csigned D U = false /\ width D U < width D Int))
       /\ ~ (T = ULong /\ U = LLong) /\ ~ (T = LLong /\ U = ULong)).
Proof. exact C40_exact_64_lemma. Qed.
Print Assumptions C40_exact_64_bit_long.

(** 32-bit long: the same with long besides int, and any long type with any long long
    type, and unsigned int with long *)
Theorem C40_exact_32_bit_long : forall D T U, D = LLP64 \/ D = ILP32 ->
  (cpp_result D 8 16 (width D Int) (width D Long) (width D LLong) T U = Some (uac D T U)
   <-> ~ ((csigned D T = false /\ width D T < width D Int) /\ In (uac D T U) [Int; Long])
       /\ ~ ((csigned D U = false /\ width D U < width D Int) /\ In (uac D T U) [Int; Long])
       /\ ~ (In T [Long; ULong] /\ In U [LLong; ULLong]) /\ ~ (In T [LLong; ULLong] /\ In U [Long; ULong])
       /\ ~ (T = UInt /\ U = Long) /\ ~ (T = Long /\ U = UInt)).
Proof. exact C40_exact_32_lemma. Qed.
Print Assumptions C40_exact_32_bit_long.

(** 16-bit int: it fails for all pairs of types of lower rank than int (their sum is a
    short type), for int with an unsigned type of lower rank, and for int with the long types *)
Theorem C40_exact_16_bit_int : forall T U,
  (cpp_result IP16 8 16 (width IP16 Int) (width IP16 Long) (width IP16 LLong) T U = Some (uac IP16 T U)
   <-> ~ (In T [SChar; UChar; Char; Short; UShort] /\ In U [SChar; UChar; Char; Short; UShort])
       /\ ~ (In T [UChar; UShort] /\ U = Int) /\ ~ (T = Int /\ In U [UChar; UShort])
       /\ ~ (In T [Int; UInt] /\ In U [Long; ULong; LLong; ULLong])
       /\ ~ (In T [Long; ULong; LLong; ULLong] /\ In U [Int; UInt])).
Proof. exact C40_exact_16_lemma. Qed.
Print Assumptions C40_exact_16_bit_int.
(** there the sum of an int and a long has type int, which does not hold the long *)
Theorem C40_int_long_refuted :
  cpp_result IP16 8 16 16 32 64 Int Long = Some Int /\ uac IP16 Int Long = Long /\ hi IP16 Int < hi IP16 Long.
Proof. vm_compute. auto. Qed.
Print Assumptions C40_int_long_refuted.

Example C40_exact_nonvacuous :
  cpp_result LP64 8 16 32 64 64 UShort Short = Some UInt /\ uac LP64 UShort Short = Int
  /\ cpp_result LP64 8 16 32 64 64 UShort Long = Some Long /\ uac LP64 UShort Long = Long.
Proof. vm_compute. intuition congruence. Qed.

(** C47, every promotion policy: + and * commute whenever the two orders have results of
    the same underlying type *)
Theorem C47_same_result_type : forall D op t u x y s m s' m', op = Add \/ op = Mul ->
  wf_operand D t -> wf_operand D u -> holds D t x -> holds D u y ->
  binary D op t u x y = Some (s, m) -> binary D op u t y x = Some (s', m') ->
  st s = st s' -> throws_arithmetic (sE s) ->
  s = s' /\ ((exists v, returns m v /\ returns m' v) \/ (throws_arith m /\ throws_arith m')).
Proof. exact C47_same_lemma. Qed.
Print Assumptions C47_same_result_type.

(** so they do under cpp<...> with the widths of the host *)
Theorem C47_cpp_host_widths : forall D op t u x y s m s' m', op = Add \/ op = Mul ->
  wf_operand D t -> wf_operand D u -> holds D t x -> holds D u y ->
  binary D op t u x y = Some (s, m) -> binary D op u t y x = Some (s', m') ->
  sP s = Cpp 8 16 (width D Int) (width D Long) (width D LLong) -> throws_arithmetic (sE s) ->
  s = s' /\ ((exists v, returns m v /\ returns m' v) \/ (throws_arith m /\ throws_arith m')).
Proof. exact C47_cpp_lemma. Qed.
Print Assumptions C47_cpp_host_widths.

Example C47_cpp_nonvacuous :
  let t := OSafe (safe LP64 Int (Cpp 8 16 32 64 64) exl) in
  let u := OSafe (safe LP64 Long (Cpp 8 16 32 64 64) exl) in
  wf_operand LP64 t /\ wf_operand LP64 u
  /\ option_map snd (binary LP64 Add t u 5 3000000000) = Some ([], Ret 3000000005)
  /\ option_map snd (binary LP64 Add u t 3000000000 5) = Some ([], Ret 3000000005).
Proof. vm_compute. intuition congruence. Qed.

(** C81: comparisons that return, of objects of any types, are consistent *)
Theorem C81_transitive : forall D t u v x y z m1 m2 m3 b,
  wf_operand D t -> wf_operand D u -> wf_operand D v -> holds D t x -> holds D u y -> holds D v z ->
  (forall E, get_ep t = Some E \/ get_ep u = Some E \/ get_ep v = Some E -> throws_arithmetic E) ->
  s_lt D t u x y = Some m1 -> s_lt D u v y z = Some m2 -> s_lt D t v x z = Some m3 ->
  returns m1 true -> returns m2 true -> returns m3 b -> b = true.
Proof. exact C81_transitive_lemma. Qed.
Print Assumptions C81_transitive.

Theorem C81_equal_objects_compare_alike : forall D t u v x y z m1 m2 m3 b c,
  wf_operand D t -> wf_operand D u -> wf_operand D v -> holds D t x -> holds D u y -> holds D v z ->
  (forall E, get_ep t = Some E \/ get_ep u = Some E \/ get_ep v = Some E -> throws_arithmetic E) ->
  s_eq D t u x y = Some m1 -> s_lt D u v y z = Some m2 -> s_lt D t v x z = Some m3 ->
  returns m1 true -> returns m2 b -> returns m3 c -> b = c.
Proof. exact C81_equal_lemma. Qed.
Print Assumptions C81_equal_objects_compare_alike.

(** exactly one of a < b, a > b, a == b; the others are their negations *)
Theorem C81_trichotomy : forall D t u x y lt gt le ge eq ne a b c d e f,
  wf_operand D t -> wf_operand D u -> holds D t x -> holds D u y ->
  (forall E, get_ep t = Some E \/ get_ep u = Some E -> throws_arithmetic E) ->
  s_lt D t u x y = Some lt -> s_gt D t u x y = Some gt -> s_le D t u x y = Some le ->
  s_ge D t u x y = Some ge -> s_eq D t u x y = Some eq -> s_ne D t u x y = Some ne ->
  returns lt a -> returns gt b -> returns le c -> returns ge d -> returns eq e -> returns ne f ->
  (a = true /\ b = false /\ e = false \/ a = false /\ b = true /\ e = false \/ a = false /\ b = false /\ e = true)
  /\ c = negb b /\ d = negb a /\ f = negb e.
Proof. exact C81_consistent_lemma. Qed.
Print Assumptions C81_trichotomy.

(** a sequence of objects of one safe type is in order according to the type exactly when
    the numbers are (comparing them never throws: C63_same_type) *)
Theorem C81_sorted : forall D s l, sP s = Native \/ sP s = Automatic -> wf_operand D (OSafe s) ->
  Forall (holds D (OSafe s)) l -> (ordered D (OSafe s) l <-> Sorted Z.le l).
Proof. exact C81_sorted_lemma. Qed.
Print Assumptions C81_sorted.

Example C81_nonvacuous :
  s_lt LP64 (ls Int) (ls UChar) (-5) 3 = Some ([], Ret true)
  /\ s_lt LP64 (ls UChar) (ls UInt) 3 4000000000 = Some ([], Ret true)
  /\ s_lt LP64 (ls Int) (ls UInt) 5 4000000000 = Some ([], Ret true)
  /\ ordered LP64 (ls UInt) [0; 7; 7; 4000000000]
  /\ s_lt LP64 (ls UInt) (ls UInt) 3 7 = Some ([], Ret true)
  /\ ~ ordered LP64 (ls UInt) [7; 3].
Proof.
  split; [vm_compute; reflexivity|]. split; [vm_compute; reflexivity|]. split; [vm_compute; reflexivity|].
  split; [cbn [ordered]; repeat split; vm_compute; reflexivity|]. split; [vm_compute; reflexivity|].
  cbn [ordered]. intros [H _]. vm_compute in H. discriminate H.
Qed.

(** C82: two expressions with the same mathematical value (because of an algebraic law, say)
    cannot return different results, whatever the types of their variables, their
    policies and the platforms *)
Theorem C82_algebraic_laws : forall nat nat' D D' G G' s s' i i' e e' t t' a b,
  (forall v, type_ok nat D (G v)) -> store_ok D G s i -> expr_ok nat D e -> type_of D G e = Some t ->
  (forall v, type_ok nat' D' (G' v)) -> store_ok D' G' s' i' -> expr_ok nat' D' e' -> type_of D' G' e' = Some t' ->
  value i e = value i' e' ->
  returns (eval D G s e) a -> returns (eval D' G' s' e') b -> a = b.
Proof. exact C82_lemma. Qed.
Print Assumptions C82_algebraic_laws.

(** quotient and remainder fit together, but for MIN and MIN *)
Theorem C82_quotient_and_remainder_partial : forall D t u x y s s' m m' q r,
  wf_operand D t -> wf_operand D u -> holds D t x -> holds D u y ->
  binary D Div t u x y = Some (s, m) -> binary D Mod t u x y = Some (s', m') ->
  sP s = Native -> sP s' = Native -> throws_arithmetic (sE s) -> throws_arithmetic (sE s') ->
  ~ (lo D (st s') < 0 /\ x = lo D (st s') /\ y = lo D (st s')) ->
  returns m q -> returns m' r -> q * y + r = x.
Proof. exact C82_division_lemma. Qed.
Print Assumptions C82_quotient_and_remainder_partial.

Theorem C82_quotient_and_remainder_refuted : exists D t u x y s s' m m' q r,
  wf_operand D t /\ wf_operand D u /\ holds D t x /\ holds D u y
  /\ binary D Div t u x y = Some (s, m) /\ binary D Mod t u x y = Some (s', m')
  /\ sP s = Native /\ sP s' = Native /\ throws_arithmetic (sE s) /\ throws_arithmetic (sE s')
  /\ returns m q /\ returns m' r /\ q * y + r <> x.
Proof.
  exists LP64, (ls Int), (ls Int), (-2147483648), (-2147483648).
  exists (mkSafe Int (-2147483648) 2147483647 Native exl), (mkSafe Int (-2147483648) 2147483647 Native exl).
  exists ([], Ret 1), ([], Ret (-2147483648)), 1, (-2147483648).
  split; [vm_compute; intuition congruence|]. split; [vm_compute; intuition congruence|].
  split; [vm_compute; intuition congruence|]. split; [vm_compute; intuition congruence|].
  split; [vm_compute; reflexivity|]. split; [vm_compute; reflexivity|].
  repeat split. discriminate.
Qed.
Print Assumptions C82_quotient_and_remainder_refuted.

(** x * (y + z) and x * y + x * z over safe<int>; here both return *)
Definition law_G : tenv := fun v => ls Int.
Definition law_i (v : nat) : Z := match v with O => -3 | S O => 1000 | _ => 24 end.
Definition law_l : expr := EBin (BA Mul) true (EVar 0) (EBin (BA Add) false (EVar 1) (EVar 2)).
Definition law_r : expr :=
  EBin (BA Add) true (EBin (BA Mul) true (EVar 0) (EVar 1)) (EBin (BA Mul) true (EVar 0) (EVar 2)).
Example C82_nonvacuous :
  (forall i, value i law_l = value i law_r)
  /\ expr_ok true LP64 law_l /\ expr_ok true LP64 law_r
  /\ type_of LP64 law_G law_l = Some (ls Int) /\ type_of LP64 law_G law_r = Some (ls Int)
  /\ eval LP64 law_G (fun v => Some (law_i v)) law_l = ([], Ret (-3072))
  /\ eval LP64 law_G (fun v => Some (law_i v)) law_r = ([], Ret (-3072))
  /\ option_map snd (binary LP64 Div (ls Int) (ls Short) (-17) 5) = Some ([], Ret (-3))
  /\ option_map snd (binary LP64 Mod (ls Int) (ls Short) (-17) 5) = Some ([], Ret (-2)).
Proof.
  split; [intros i; cbn; f_equal; ring|]. split; [cbn; unfold op_ok; tauto|]. split; [cbn; unfold op_ok; tauto|].
  repeat split; vm_compute; reflexivity.
Qed.

(** C38: a product returns exactly when the operands and the exact product are values of
    the type of the result, or when the range of an operand is {0} and the type of the
    result is signed or neither range has negative values; it throws otherwise *)
Theorem C38_mul_exact : forall D t u x y s m,
  wf_operand D t -> wf_operand D u -> holds D t x -> holds D u y ->
  binary D Mul t u x y = Some (s, m) -> throws_arithmetic (sE s) ->
  let fits := (in_type D (st s) x /\ in_type D (st s) y /\ in_type D (st s) (x * y))
    \/ ((lim_lo D t = 0 /\ lim_hi D t = 0 \/ lim_lo D u = 0 /\ lim_hi D u = 0)
        /\ (csigned D (st s) = true \/ (0 <= lim_lo D t /\ 0 <= lim_lo D u))) in
  (returns m (x * y) <-> fits) /\ (throws_arith m <-> ~ fits).
Proof. exact mul_exact_lemma. Qed.
Print Assumptions C38_mul_exact.

(** negative factors with a positive product; a range {0} with a factor that is not a value
    of the type of the result, signed char; and one with a negative factor and a result of
    an unsigned type *)
Example C38_mul_exact_nonvacuous :
  let t := OSafe (mkSafe Short (-9) (-3) Automatic exl) in
  let z := OSafe (mkSafe Short 0 0 Automatic exl) in
  let w := OSafe (mkSafe Short 200 900 Automatic exl) in
  let n := OSafe (mkSafe Int (-9) (-3) Native exl) in
  let zn := OSafe (mkSafe UInt 0 0 Native exl) in
  wf_operand LP64 t /\ wf_operand LP64 z /\ wf_operand LP64 w /\ wf_operand LP64 n /\ wf_operand LP64 zn
  /\ (holds LP64 t (-4) /\ holds LP64 z 0 /\ holds LP64 w 800 /\ holds LP64 n (-4) /\ holds LP64 zn 0)
  /\ binary LP64 Mul t t (-4) (-5) = Some (mkSafe SChar 9 81 Automatic exl, ([], Ret 20))
  /\ (binary LP64 Mul z w 0 800 = Some (mkSafe SChar 0 0 Automatic exl, ([], Ret 0)) /\ ~ in_type LP64 SChar 800)
  /\ binary LP64 Mul zn n 0 (-4)
     = Some (mkSafe UInt 0 4294967295 Native exl, ([(arithmetic_error, domain_error)], Throw domain_error)).
Proof. vm_compute. intuition congruence. Qed.
