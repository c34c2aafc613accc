(** ConformanceNativeRest.v -- see ConformanceDefs.v. GENERATED by tools/mkconformance.py. *)
From Coq Require Import ZArith List Bool String Ascii.
From Verif Require Import Base CType Utility SafeCompare CheckedInteger CheckedResultOps
  Interval ExceptionPolicy Promotion SafeBase ConformanceDefs.
Import ListNotations.
Local Open Scope Z_scope.

(** test/test_divide_native_results.hpp *)
Definition divide_native_table : list string := [
    "................................x";
    "................................x";
    "........................xxxxxxxxx";
    "........................xxxxxxxxx";
    "................................x";
    "................................x";
    "........................xxxxxxxxx";
    "........................xxxxxxxxx";
    "................................x";
    "................................x";
    "...x...x...x............xxxxxxxxx";
    "........................xxxxxxxxx";
    "................................x";
    "................................x";
    "...x...x...x...x............xxxxx";
    "............................xxxxx";
    "................................x";
    "................................x";
    "................................x";
    "................................x";
    "................................x";
    "................................x";
    "................................x";
    "................................x";
    "..xx..xx..xx....................x";
    "..xx..xx..xx....................x";
    "..xx..xx..xx....................x";
    "..xx..xx..xx....................x";
    "..xx..xx..xx..xx................x";
    "..xx..xx..xx..xx................x";
    "..xx..xx..xx..xx................x";
    "..xx..xx..xx..xx................x";
    "................................x"]%string.
Example divide_native : check_binary false Native (BA Div) divide_native_table = [].
Proof. vm_compute. reflexivity. Qed.

(** test/test_modulus_native_results.hpp *)
Definition modulus_native_table : list string := [
    "................................x";
    "................................x";
    "........................xxxxxxxxx";
    "........................xxxxxxxxx";
    "................................x";
    "................................x";
    "........................xxxxxxxxx";
    "........................xxxxxxxxx";
    "................................x";
    "................................x";
    "........................xxxxxxxxx";
    "........................xxxxxxxxx";
    "................................x";
    "................................x";
    "............................xxxxx";
    "............................xxxxx";
    "................................x";
    "................................x";
    "................................x";
    "................................x";
    "................................x";
    "................................x";
    "................................x";
    "................................x";
    "..xx..xx..xx....................x";
    "..xx..xx..xx....................x";
    "..xx..xx..xx....................x";
    "..xx..xx..xx....................x";
    "..xx..xx..xx..xx................x";
    "..xx..xx..xx..xx................x";
    "..xx..xx..xx..xx................x";
    "..xx..xx..xx..xx................x";
    "................................x"]%string.
Example modulus_native : check_binary false Native (BA Mod) modulus_native_table = [].
Proof. vm_compute. reflexivity. Qed.

(** test/test_left_shift_native_results.hpp *)
Definition left_shift_native_table : list string := [
    ".xxx.xxx.xxx.xxx.xxx.xxx.xxx.xxx.";
    ".xxx.xxx.xxx.xxx.xxx.xxx.xxx.xxx.";
    "xxxxxxxxxxxxxxxxxxxxxxxxxxxxxxxx.";
    "xxxxxxxxxxxxxxxxxxxxxxxxxxxxxxxx.";
    ".xxx.xxx.xxx.xxx.xxx.xxx.xxx.xxx.";
    ".xxx.xxx.xxx.xxx.xxx.xxx.xxx.xxx.";
    "xxxxxxxxxxxxxxxxxxxxxxxxxxxxxxxx.";
    "xxxxxxxxxxxxxxxxxxxxxxxxxxxxxxxx.";
    ".xxx.xxx.xxx.xxx.xxx.xxx.xxx.xxx.";
    "xxxxxxxxxxxxxxxxxxxxxxxxxxxxxxxx.";
    "xxxxxxxxxxxxxxxxxxxxxxxxxxxxxxxx.";
    "xxxxxxxxxxxxxxxxxxxxxxxxxxxxxxxx.";
    ".xxx.xxx.xxx.xxx.xxx.xxx.xxx.xxx.";
    "xxxxxxxxxxxxxxxxxxxxxxxxxxxxxxxx.";
    "xxxxxxxxxxxxxxxxxxxxxxxxxxxxxxxx.";
    "xxxxxxxxxxxxxxxxxxxxxxxxxxxxxxxx.";
    ".xxx.xxx.xxx.xxx.xxx.xxx.xxx.xxx.";
    ".xxx.xxx.xxx.xxx.xxx.xxx.xxx.xxx.";
    ".xxx.xxx.xxx.xxx.xxx.xxx.xxx.xxx.";
    ".xxx.xxx.xxx.xxx.xxx.xxx.xxx.xxx.";
    ".xxx.xxx.xxx.xxx.xxx.xxx.xxx.xxx.";
    ".xxx.xxx.xxx.xxx.xxx.xxx.xxx.xxx.";
    ".xxx.xxx.xxx.xxx.xxx.xxx.xxx.xxx.";
    ".xxx.xxx.xxx.xxx.xxx.xxx.xxx.xxx.";
    ".xxx.xxx.xxx.xxx.xxx.xxx.xxx.xxx.";
    ".xxx.xxx.xxx.xxx.xxx.xxx.xxx.xxx.";
    "xxxxxxxxxxxxxxxxxxxxxxxxxxxxxxxx.";
    "xxxxxxxxxxxxxxxxxxxxxxxxxxxxxxxx.";
    ".xxx.xxx.xxx.xxx.xxx.xxx.xxx.xxx.";
    ".xxx.xxx.xxx.xxx.xxx.xxx.xxx.xxx.";
    "xxxxxxxxxxxxxxxxxxxxxxxxxxxxxxxx.";
    "xxxxxxxxxxxxxxxxxxxxxxxxxxxxxxxx.";
    ".xxx.xxx.xxx.xxx.xxx.xxx.xxx.xxx."]%string.
Example left_shift_native : check_binary false Native (BA Shl) left_shift_native_table = [].
Proof. vm_compute. reflexivity. Qed.

(** test/test_right_shift_native_results.hpp *)
Definition right_shift_native_table : list string := [
    ".xxx.xxx.xxx.xxx.xxx.xxx.xxx.xxx.";
    ".xxx.xxx.xxx.xxx.xxx.xxx.xxx.xxx.";
    "xxxxxxxxxxxxxxxxxxxxxxxxxxxxxxxxx";
    "xxxxxxxxxxxxxxxxxxxxxxxxxxxxxxxxx";
    ".xxx.xxx.xxx.xxx.xxx.xxx.xxx.xxx.";
    ".xxx.xxx.xxx.xxx.xxx.xxx.xxx.xxx.";
    "xxxxxxxxxxxxxxxxxxxxxxxxxxxxxxxxx";
    "xxxxxxxxxxxxxxxxxxxxxxxxxxxxxxxxx";
    ".xxx.xxx.xxx.xxx.xxx.xxx.xxx.xxx.";
    ".xxx.xxx.xxx.xxx.xxx.xxx.xxx.xxx.";
    "xxxxxxxxxxxxxxxxxxxxxxxxxxxxxxxxx";
    "xxxxxxxxxxxxxxxxxxxxxxxxxxxxxxxxx";
    ".xxx.xxx.xxx.xxx.xxx.xxx.xxx.xxx.";
    ".xxx.xxx.xxx.xxx.xxx.xxx.xxx.xxx.";
    "xxxxxxxxxxxxxxxxxxxxxxxxxxxxxxxxx";
    "xxxxxxxxxxxxxxxxxxxxxxxxxxxxxxxxx";
    ".xxx.xxx.xxx.xxx.xxx.xxx.xxx.xxx.";
    ".xxx.xxx.xxx.xxx.xxx.xxx.xxx.xxx.";
    ".xxx.xxx.xxx.xxx.xxx.xxx.xxx.xxx.";
    ".xxx.xxx.xxx.xxx.xxx.xxx.xxx.xxx.";
    ".xxx.xxx.xxx.xxx.xxx.xxx.xxx.xxx.";
    ".xxx.xxx.xxx.xxx.xxx.xxx.xxx.xxx.";
    ".xxx.xxx.xxx.xxx.xxx.xxx.xxx.xxx.";
    ".xxx.xxx.xxx.xxx.xxx.xxx.xxx.xxx.";
    ".xxx.xxx.xxx.xxx.xxx.xxx.xxx.xxx.";
    ".xxx.xxx.xxx.xxx.xxx.xxx.xxx.xxx.";
    ".xxx.xxx.xxx.xxx.xxx.xxx.xxx.xxx.";
    ".xxx.xxx.xxx.xxx.xxx.xxx.xxx.xxx.";
    ".xxx.xxx.xxx.xxx.xxx.xxx.xxx.xxx.";
    ".xxx.xxx.xxx.xxx.xxx.xxx.xxx.xxx.";
    ".xxx.xxx.xxx.xxx.xxx.xxx.xxx.xxx.";
    ".xxx.xxx.xxx.xxx.xxx.xxx.xxx.xxx.";
    ".xxx.xxx.xxx.xxx.xxx.xxx.xxx.xxx."]%string.
Example right_shift_native : check_binary false Native (BA Shr) right_shift_native_table = [].
Proof. vm_compute. reflexivity. Qed.

(** test/test_or_native.cpp: no table, no exception is expected *)
Definition or_native_table : list string := [
    ".................................";
    ".................................";
    ".................................";
    ".................................";
    ".................................";
    ".................................";
    ".................................";
    ".................................";
    ".................................";
    ".................................";
    ".................................";
    ".................................";
    ".................................";
    ".................................";
    ".................................";
    ".................................";
    ".................................";
    ".................................";
    ".................................";
    ".................................";
    ".................................";
    ".................................";
    ".................................";
    ".................................";
    ".................................";
    ".................................";
    ".................................";
    ".................................";
    ".................................";
    ".................................";
    ".................................";
    ".................................";
    "................................."]%string.
Example or_native : check_binary false Native (BB Or) or_native_table = [].
Proof. vm_compute. reflexivity. Qed.

(** test/test_and_native.cpp: no table, no exception is expected *)
Definition and_native_table : list string := [
    ".................................";
    ".................................";
    ".................................";
    ".................................";
    ".................................";
    ".................................";
    ".................................";
    ".................................";
    ".................................";
    ".................................";
    ".................................";
    ".................................";
    ".................................";
    ".................................";
    ".................................";
    ".................................";
    ".................................";
    ".................................";
    ".................................";
    ".................................";
    ".................................";
    ".................................";
    ".................................";
    ".................................";
    ".................................";
    ".................................";
    ".................................";
    ".................................";
    ".................................";
    ".................................";
    ".................................";
    ".................................";
    "................................."]%string.
Example and_native : check_binary false Native (BB And) and_native_table = [].
Proof. vm_compute. reflexivity. Qed.

(** test/test_xor_native.cpp: no table, no exception is expected *)
Definition xor_native_table : list string := [
    ".................................";
    ".................................";
    ".................................";
    ".................................";
    ".................................";
    ".................................";
    ".................................";
    ".................................";
    ".................................";
    ".................................";
    ".................................";
    ".................................";
    ".................................";
    ".................................";
    ".................................";
    ".................................";
    ".................................";
    ".................................";
    ".................................";
    ".................................";
    ".................................";
    ".................................";
    ".................................";
    ".................................";
    ".................................";
    ".................................";
    ".................................";
    ".................................";
    ".................................";
    ".................................";
    ".................................";
    ".................................";
    "................................."]%string.
Example xor_native : check_binary false Native (BB Xor) xor_native_table = [].
Proof. vm_compute. reflexivity. Qed.

(** test/test_compare_native.hpp with test/test_less_than.hpp *)
Definition less_than_native_table : list string := [
    "=<>>=<>>=<>>=<>>=<<<=<<<=<<<=<<<>";
    ">=>>><>>><>>><>>>=<<><<<><<<><<<>";
    "<<=<<<><<<><<<><<<<<<<<<xxxxxxxx<";
    "<<>=<<>=<<>=<<>=<<<<<<<<xxxxxxxx<";
    "=<>>=<>>=<>>=<>>=<<<=<<<=<<<=<<<>";
    ">>>>>=>>><>>><>>>>>>>=<<><<<><<<>";
    "<<<<<<=<<<><<<><<<<<<<<<xxxxxxxx<";
    "<<>=<<>=<<>=<<>=<<<<<<<<xxxxxxxx<";
    "=<>>=<>>=<>>=<>>=<<<=<<<=<<<=<<<>";
    ">>>>>>>>>=>>><>>>>>>>>>>>=<<><<<>";
    "<<<<<<<<<<=<<<><<<<<<<<<xxxxxxxx<";
    "<<>=<<>=<<>=<<>=<<<<<<<<xxxxxxxx<";
    "=<>>=<>>=<>>=<>>=<<<=<<<=<<<=<<<>";
    ">>>>>>>>>>>>>=>>>>>>>>>>>>>>>=<<>";
    "<<<<<<<<<<<<<<=<<<<<<<<<<<<<xxxx<";
    "<<>=<<>=<<>=<<>=<<<<<<<<<<<<xxxx<";
    "=<>>=<>>=<>>=<>>=<<<=<<<=<<<=<<<>";
    ">=>>><>>><>>><>>>=<<><<<><<<><<<>";
    ">>>>><>>><>>><>>>>=<><<<><<<><<<>";
    ">>>>><>>><>>><>>>>>=><<<><<<><<<>";
    "=<>>=<>>=<>>=<>>=<<<=<<<=<<<=<<<>";
    ">>>>>=>>><>>><>>>>>>>=<<><<<><<<>";
    ">>>>>>>>><>>><>>>>>>>>=<><<<><<<>";
    ">>>>>>>>><>>><>>>>>>>>>=><<<><<<>";
    "=<xx=<xx=<xx=<>>=<<<=<<<=<<<=<<<>";
    ">>xx>>xx>=xx><>>>>>>>>>>>=<<><<<>";
    ">>xx>>xx>>xx><>>>>>>>>>>>>=<><<<>";
    ">>xx>>xx>>xx><>>>>>>>>>>>>>=><<<>";
    "=<xx=<xx=<xx=<xx=<<<=<<<=<<<=<<<>";
    ">>xx>>xx>>xx>=xx>>>>>>>>>>>>>=<<>";
    ">>xx>>xx>>xx>>xx>>>>>>>>>>>>>>=<>";
    ">>xx>>xx>>xx>>xx>>>>>>>>>>>>>>>=>";
    "<<>><<>><<>><<>><<<<<<<<<<<<<<<<="]%string.
Example less_than_native : check_compare false Native true less_than_native_table = [].
Proof. vm_compute. reflexivity. Qed.

(** test/test_compare_native.hpp with test/test_equal.hpp *)
Definition equal_native_table : list string := [
    "=<>>=<>>=<>>=<>>=<<<=<<<=<<<=<<<>";
    ">=>>><>>><>>><>>>=<<><<<><<<><<<>";
    "<<=<<<><<<><<<><<<<<<<<<xxxxxxxx<";
    "<<>=<<>=<<>=<<>=<<<<<<<<xxxxxxxx<";
    "=<>>=<>>=<>>=<>>=<<<=<<<=<<<=<<<>";
    ">>>>>=>>><>>><>>>>>>>=<<><<<><<<>";
    "<<<<<<=<<<><<<><<<<<<<<<xxxxxxxx<";
    "<<>=<<>=<<>=<<>=<<<<<<<<xxxxxxxx<";
    "=<>>=<>>=<>>=<>>=<<<=<<<=<<<=<<<>";
    ">>>>>>>>>=>>><>>>>>>>>>>>=<<><<<>";
    "<<<<<<<<<<=<<<><<<<<<<<<xxxxxxxx<";
    "<<>=<<>=<<>=<<>=<<<<<<<<xxxxxxxx<";
    "=<>>=<>>=<>>=<>>=<<<=<<<=<<<=<<<>";
    ">>>>>>>>>>>>>=>>>>>>>>>>>>>>>=<<>";
    "<<<<<<<<<<<<<<=<<<<<<<<<<<<<xxxx<";
    "<<>=<<>=<<>=<<>=<<<<<<<<<<<<xxxx<";
    "=<>>=<>>=<>>=<>>=<<<=<<<=<<<=<<<>";
    ">=>>><>>><>>><>>>=<<><<<><<<><<<>";
    ">>>>><>>><>>><>>>>=<><<<><<<><<<>";
    ">>>>><>>><>>><>>>>>=><<<><<<><<<>";
    "=<>>=<>>=<>>=<>>=<<<=<<<=<<<=<<<>";
    ">>>>>=>>><>>><>>>>>>>=<<><<<><<<>";
    ">>>>>>>>><>>><>>>>>>>>=<><<<><<<>";
    ">>>>>>>>><>>><>>>>>>>>>=><<<><<<>";
    "=<xx=<xx=<xx=<>>=<<<=<<<=<<<=<<<>";
    ">>xx>>xx>=xx><>>>>>>>>>>>=<<><<<>";
    ">>xx>>xx>>xx><>>>>>>>>>>>>=<><<<>";
    ">>xx>>xx>>xx><>>>>>>>>>>>>>=><<<>";
    "=<xx=<xx=<xx=<xx=<<<=<<<=<<<=<<<>";
    ">>xx>>xx>>xx>=xx>>>>>>>>>>>>>=<<>";
    ">>xx>>xx>>xx>>xx>>>>>>>>>>>>>>=<>";
    ">>xx>>xx>>xx>>xx>>>>>>>>>>>>>>>=>";
    "<<>><<>><<>><<>><<<<<<<<<<<<<<<<="]%string.
Example equal_native : check_compare false Native false equal_native_table = [].
Proof. vm_compute. reflexivity. Qed.

