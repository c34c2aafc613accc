(** ConformanceMisc.v -- expectations stated by the project's examples and by its
    smaller tests, compared with what the model computes. These are checks of the
    model by evaluation, not properties of the library. The data model is LP64 and
    the policies are the default ones unless an example says otherwise. *)
From Coq Require Import ZArith List Bool.
From Verif Require Import Base CType Utility CheckedInteger CheckedResultOps
  Interval ExceptionPolicy Promotion SafeBase Stream ConformanceDefs.
Import ListNotations.
Local Open Scope Z_scope.

Definition sf (T : ctype) : safe_t := safe D T Native E.
Definition returns (v : Z) (m : option (M Z)) : Prop := exists l, m = Some (l, Ret v).
Definition throws {A : Type} (m : option (M A)) : Prop := exists l e, m = Some (l, Throw e).
Definition value (m : option (safe_t * M Z)) : option (M Z) := option_map snd m.
Definition rng (m : option (safe_t * M Z)) : option (Z * Z) :=
  option_map (fun p => (smin (fst p), smax (fst p))) m.

Ltac ok := first [eexists; vm_compute; reflexivity | eexists; eexists; vm_compute; reflexivity].

(** example/example1.cpp:40, safe<int8_t> x = INT_MAX throws *)
Example example1 : throws (construct D (sf SChar) (ORaw Int) 2147483647). Proof. ok. Qed.
(** example/example2.cpp:40, ++x at INT_MAX throws *)
Example example2 : throws (increment D (sf Int) 2147483647). Proof. ok. Qed.
(** example/example3.cpp:42, --x at 0 throws for safe<unsigned int> *)
Example example3 : throws (decrement D (sf UInt) 0). Proof. ok. Qed.
(** example/example4.cpp:44, safe<int>(-1) < safe<unsigned>(1) throws *)
Example example4 : throws (s_lt D (OSafe (sf Int)) (OSafe (sf UInt)) (-1) 1). Proof. ok. Qed.
(** example/example5.cpp:47-50, an index of type safe_unsigned_range<0, 36> *)
Example example5 : exists s, safe_unsigned_range D 0 36 Native E = Some s
  /\ returns 36 (construct D s (ORaw Int) 36) /\ throws (construct D s (ORaw Int) 43).
Proof. eexists. split; [vm_compute; reflexivity|]. split; ok. Qed.
(** example/example6.cpp:34-48, reading "12317289372189 1231287389217389217893"
    into a safe<int> throws *)
Example example6 : exists i v l e,
  input D (sf Int) (mkIs (map (fun d => 48 + d) [1;2;3;1;7;2;8;9;3;7;2;1;8;9]) false false) None
  = Some (i, v, (l, Throw e)).
Proof. do 4 eexists. vm_compute. reflexivity. Qed.
(** example/example7.cpp:33-34, 60-93: hours_t(17) * 60 + minutes_t(m) *)
Definition hours_t := match safe_unsigned_range D 0 23 Native E with Some s => s | None => sf Int end.
Definition minutes_t := match safe_unsigned_range D 0 59 Native E with Some s => s | None => sf Int end.
Example example7_rejects : throws (construct D minutes_t (ORaw UInt) 83). Proof. ok. Qed.
Example example7_total : exists s l1,
  eval_binop D (BA Mul) (OSafe hours_t) (ORaw Int) 17 60 = Some (s, (l1, Ret 1020))
  /\ returns 1030 (value (eval_binop D (BA Add) (OSafe s) (OSafe minutes_t) 1020 10)).
Proof. do 2 eexists. split; [vm_compute; reflexivity|ok]. Qed.
(** example/example8.cpp:42, 2 - 127 throws for safe<unsigned int> *)
Example example8 : throws (value (eval_binop D (BA Sub) (OSafe (sf UInt)) (OSafe (sf UInt)) 2 127)).
Proof. ok. Qed.
(** example/example10.cpp:18-23, 42-43 *)
Example example10 :
  returns 10000 (value (eval_binop D (BA Mul) (OSafe (sf UInt)) (OSafe (sf SChar)) 100 100))
  /\ throws (value (eval_binop D (BA Mul) (OSafe (sf UInt)) (OSafe (sf SChar)) 100 (-100))).
Proof. split; ok. Qed.
(** example/example11.cpp:37-43: the comment says that safe<int8_t>(127) + 2 throws.
    It does not: the sum is a safe<int>, and the example prints nothing there. *)
Example example11 : returns 129 (value (eval_binop D (BA Add) (OSafe (sf SChar)) (OSafe (sf SChar)) 127 2)).
Proof. ok. Qed.
(** example/example13.cpp:38, example14.cpp:38, 1 / 0 throws *)
Example example13 : throws (value (eval_binop D (BA Div) (OSafe (sf Int)) (OSafe (sf Int)) 1 0)).
Proof. ok. Qed.
(** example/example16.cpp:18-22, the conversion of a safe<long> to int is checked *)
Example example16 : returns 97 (to_builtin D Int (sf Long) 97). Proof. ok. Qed.
(** example/example17.cpp:13-21, with loose_trap_policy it does not compile *)
Example example17 : to_builtin D UChar (safe D Long Native loose_trap_policy) 97 = None.
Proof. vm_compute. reflexivity. Qed.
(** example/example18.cpp:14-23, the same conversion of a literal compiles *)
Example example18 : exists T,
  safe_signed_literal D 97 (Some Native) (Some loose_trap_policy)
    = Some (OLit T 97 (Some Native) (Some loose_trap_policy))
  /\ returns 97 (lit_to_builtin D Int T 97 (Some loose_trap_policy)).
Proof. eexists. split; [vm_compute; reflexivity|ok]. Qed.
(** example/example19.cpp:16-63, safe_unsigned_range<7, 24>; the type of i + uint8_t
    has the range [7, 279] *)
Definition r7_24 := match safe_unsigned_range D 7 24 Native E with Some s => s | None => sf Int end.
Example example19 :
  throws (construct D r7_24 (ORaw Int) 0) /\ returns 9 (construct D r7_24 (ORaw Int) 9)
  /\ throws (compound D (BA Mul) (OSafe r7_24) (ORaw Int) 9 9)
  /\ throws (construct D r7_24 (ORaw Int) (-1))
  /\ rng (eval_binop D (BA Add) (OSafe r7_24) (ORaw UChar) 9 4) = Some (7, 279).
Proof. repeat split; first [ok | vm_compute; reflexivity]. Qed.
(** example/example20.cpp:13-30 *)
Example example20 :
  cr_sub D UInt (CVal 4) (CVal 3) = Ok (CVal 1)
  /\ cr_sub D UInt (CVal 3) (CVal 4) = Ok (CErr negative_overflow_error)
  /\ cr_add D UInt (CErr negative_overflow_error) (CErr negative_overflow_error)
     = Ok (CErr negative_overflow_error).
Proof. repeat split; vm_compute; reflexivity. Qed.
(** example/example81.cpp:16-30, INT_MAX + 2 does not compile with native and
    loose_trap_policy *)
Example example81 :
  let t := OSafe (safe D Int Native loose_trap_policy) in
  eval_binop D (BA Add) t t 2147483647 2 = None.
Proof. vm_compute. reflexivity. Qed.
(** example/example82.cpp:16-35, with automatic it compiles and is exact *)
Example example82 :
  let t := OSafe (safe D Int Automatic loose_trap_policy) in
  returns 2147483649 (value (eval_binop D (BA Add) t t 2147483647 2))
  /\ rng (eval_binop D (BA Add) t t 2147483647 2) = Some (-4294967296, 4294967294).
Proof. split; [ok | vm_compute; reflexivity]. Qed.
(** example/example83.cpp:18-44, literal 10 + literal 67 into safe_signed_range<-24, 82> *)
Example example83 : exists T T' s z,
  safe_signed_literal D 10 (Some Native) (Some loose_trap_policy)
    = Some (OLit T 10 (Some Native) (Some loose_trap_policy))
  /\ safe_signed_literal D 67 (Some Native) (Some loose_trap_policy)
    = Some (OLit T' 67 (Some Native) (Some loose_trap_policy))
  /\ safe_signed_range D (-24) 82 Native loose_trap_policy = Some z
  /\ eval_binop D (BA Add) (OLit T 10 (Some Native) (Some loose_trap_policy))
       (OLit T' 67 (Some Native) (Some loose_trap_policy)) 10 67 = Some (s, ([], Ret 77))
  /\ returns 77 (construct D z (OSafe s) 77).
Proof.
  do 4 eexists. split; [vm_compute; reflexivity|]. split; [vm_compute; reflexivity|].
  split; [vm_compute; reflexivity|]. split; [vm_compute; reflexivity|ok].
Qed.

(** test/test_auto.cpp:17-30 *)
Example test_auto_log :
  map (ilog2 D UInt) [127;128;129;255;256] = [6;7;7;7;8]
  /\ map (ilog2 D Int) [127;128;129;255;256] = [6;7;7;7;8].
Proof. split; vm_compute; reflexivity. Qed.
(** test/test_range.cpp:21-30 *)
Example test_range_bits :
  map (significant_bits D UInt) [127;128;129;255;256] = [7;8;8;8;9].
Proof. vm_compute; reflexivity. Qed.
(** test/test_range.cpp:32-40: safe_unsigned_range<0, 1000> is unsigned *)
Example test_range_unsigned :
  option_map (fun s => csigned D (st s)) (safe_unsigned_range D 0 1000 Native E) = Some false.
Proof. vm_compute; reflexivity. Qed.
(** test/test_range.cpp:54-80: sum and difference of safe_signed_range<-64, 63>
    under automatic *)
Definition r64 := match safe_signed_range D (-64) 63 Automatic E with Some s => s | None => sf Int end.
Example test_range_auto :
  rng (eval_binop D (BA Add) (OSafe r64) (OSafe r64) 1 2) = Some (-128, 126)
  /\ rng (eval_binop D (BA Sub) (OSafe r64) (OSafe r64) 1 2) = Some (-127, 127)
  /\ returns 3 (value (eval_binop D (BA Add) (OSafe r64) (OSafe r64) 1 2))
  /\ returns (-1) (value (eval_binop D (BA Sub) (OSafe r64) (OSafe r64) 1 2)).
Proof. repeat split; first [ok | vm_compute; reflexivity]. Qed.
(** test/test_z.cpp (fragment): unsigned char + literal 42 under automatic *)
Example test_z_literal : exists T s z l,
  safe_unsigned_literal D 42 (Some Automatic) (Some E) = Some (OLit T 42 (Some Automatic) (Some E))
  /\ eval_binop D (BA Add) (ORaw UChar) (OLit T 42 (Some Automatic) (Some E)) 1 42 = Some (s, (l, Ret 43))
  /\ safe_unsigned_range D 42 297 Automatic E = Some z /\ s = z.
Proof.
  do 4 eexists. split; [vm_compute; reflexivity|]. split; [vm_compute; reflexivity|].
  split; vm_compute; reflexivity.
Qed.
(** test/test_cpp.cpp:19-41: under cpp<8, 16, 16, 16, 32> the sum of two uint8_t is a
    uint16_t *)
Example test_cpp_result : cpp_result D 8 16 16 16 32 UChar UChar = Some UShort.
Proof. vm_compute. reflexivity. Qed.
(** test/test_trap.cpp:23-44 does not compile as a whole (it is a compile-fail
    test). Its comments claim that the instances for int8_t and int16_t compile: they
    do not, because of t / u, t % u and the shifts. Their + - * do; for int32_t they
    do not either. *)
Definition trap_ops (T : ctype) : list bool :=
  let t := OSafe (safe D T Native loose_trap_policy) in
  map (fun op => match eval_binop D op t t 0 0 with Some _ => true | None => false end)
    [BA Add; BA Sub; BA Mul; BA Div; BA Mod; BA Shl; BA Shr; BB Or; BB And; BB Xor].
Example test_trap : map trap_ops [SChar; Short; Int; Long] =
  [[true; true; true; false; false; false; false; true; true; true];
   [true; true; true; false; false; false; false; true; true; true];
   [false; false; false; false; false; false; false; true; true; true];
   [false; false; false; false; false; false; false; true; true; true]].
Proof. vm_compute. reflexivity. Qed.
