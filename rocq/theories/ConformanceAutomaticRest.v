(** ConformanceAutomaticRest.v -- see ConformanceDefs.v. GENERATED by tools/mkconformance.py. *)
From Coq Require Import ZArith List Bool String Ascii.
From Verif Require Import Base CType Utility SafeCompare CheckedInteger CheckedResultOps
  Interval ExceptionPolicy Promotion SafeBase ConformanceDefs.
Import ListNotations.
Local Open Scope Z_scope.

(** test/test_divide_automatic_results.hpp *)
Definition divide_automatic_table : list string := [
    "..............................xxx";
    "..............................xxx";
    "..............................xxx";
    "..............................xxx";
    "..............................xxx";
    "..............................xxx";
    "..............................xxx";
    "..............................xxx";
    "..............................xxx";
    "..............................xxx";
    "..............................xxx";
    "..............................xxx";
    "..............................xxx";
    "..............................xxx";
    "...x...x...x...x..............xxx";
    "..............................xxx";
    "................................x";
    "................................x";
    "................................x";
    "................................x";
    "................................x";
    "................................x";
    "................................x";
    "................................x";
    "................................x";
    "................................x";
    "................................x";
    "................................x";
    "................................x";
    "................................x";
    "xxxxxxxxxxxxxxxx................x";
    "xxxxxxxxxxxxxxxx................x";
    "..............................xxx"]%string.
Example divide_automatic : check_binary false Automatic (BA Div) divide_automatic_table = [].
Proof. vm_compute. reflexivity. Qed.

(** test/test_modulus_automatic_results.hpp *)
Definition modulus_automatic_table : list string := [
    "..............................xxx";
    "..............................xxx";
    "..............................xxx";
    "..............................xxx";
    "..............................xxx";
    "..............................xxx";
    "..............................xxx";
    "..............................xxx";
    "..............................xxx";
    "..............................xxx";
    "..............................xxx";
    "..............................xxx";
    "..............................xxx";
    "..............................xxx";
    "..............................xxx";
    "..............................xxx";
    "................................x";
    "................................x";
    "................................x";
    "................................x";
    "................................x";
    "................................x";
    "................................x";
    "................................x";
    "................................x";
    "................................x";
    "................................x";
    "................................x";
    "................................x";
    "................................x";
    "xxxxxxxxxxxxxxxx................x";
    "xxxxxxxxxxxxxxxx................x";
    "..............................xxx"]%string.
Example modulus_automatic : check_binary false Automatic (BA Mod) modulus_automatic_table = [].
Proof. vm_compute. reflexivity. Qed.

(** test/test_left_shift_automatic_results.hpp *)
Definition left_shift_automatic_table : list string := [
    ".xxx.xxx.xxx.xxx.xxx.xxx.xxx.xxx.";
    ".xxx.xxx.xxx.xxx.xxx.xxx.xxx.xxx.";
    "xxxxxxxxxxxxxxxxxxxxxxxxxxxxxxxx.";
    "xxxxxxxxxxxxxxxxxxxxxxxxxxxxxxxx.";
    ".xxx.xxx.xxx.xxx.xxx.xxx.xxx.xxx.";
    ".xxx.xxx.xxx.xxx.xxx.xxx.xxx.xxx.";
    "xxxxxxxxxxxxxxxxxxxxxxxxxxxxxxxx.";
    "xxxxxxxxxxxxxxxxxxxxxxxxxxxxxxxx.";
    ".xxx.xxx.xxx.xxx.xxx.xxx.xxx.xxx.";
    ".xxx.xxx.xxx.xxx.xxx.xxx.xxx.xxx.";
    "xxxxxxxxxxxxxxxxxxxxxxxxxxxxxxxx.";
    "xxxxxxxxxxxxxxxxxxxxxxxxxxxxxxxx.";
    ".xxx.xxx.xxx.xxx.xxx.xxx.xxx.xxx.";
    "xxxxxxxxxxxxxxxxxxxxxxxxxxxxxxxx.";
    "xxxxxxxxxxxxxxxxxxxxxxxxxxxxxxxx.";
    "xxxxxxxxxxxxxxxxxxxxxxxxxxxxxxxx.";
    ".xxx.xxx.xxx.xxx.xxx.xxx.xxx.xxx.";
    ".xxx.xxx.xxx.xxx.xxx.xxx.xxx.xxx.";
    ".xxx.xxx.xxx.xxx.xxx.xxx.xxx.xxx.";
    ".xxx.xxx.xxx.xxx.xxx.xxx.xxx.xxx.";
    ".xxx.xxx.xxx.xxx.xxx.xxx.xxx.xxx.";
    ".xxx.xxx.xxx.xxx.xxx.xxx.xxx.xxx.";
    ".xxx.xxx.xxx.xxx.xxx.xxx.xxx.xxx.";
    ".xxx.xxx.xxx.xxx.xxx.xxx.xxx.xxx.";
    ".xxx.xxx.xxx.xxx.xxx.xxx.xxx.xxx.";
    ".xxx.xxx.xxx.xxx.xxx.xxx.xxx.xxx.";
    ".xxx.xxx.xxx.xxx.xxx.xxx.xxx.xxx.";
    ".xxx.xxx.xxx.xxx.xxx.xxx.xxx.xxx.";
    ".xxx.xxx.xxx.xxx.xxx.xxx.xxx.xxx.";
    ".xxx.xxx.xxx.xxx.xxx.xxx.xxx.xxx.";
    "xxxxxxxxxxxxxxxxxxxxxxxxxxxxxxxx.";
    "xxxxxxxxxxxxxxxxxxxxxxxxxxxxxxxx.";
    ".xxx.xxx.xxx.xxx.xxx.xxx.xxx.xxx."]%string.
Example left_shift_automatic : check_binary false Automatic (BA Shl) left_shift_automatic_table = [].
Proof. vm_compute. reflexivity. Qed.

(** test/test_right_shift_automatic_results.hpp *)
Definition right_shift_automatic_table : list string := [
    ".xxx.xxx.xxx.xxx.xxx.xxx.xxx.xxx.";
    ".xxx.xxx.xxx.xxx.xxx.xxx.xxx.xxx.";
    "xxxxxxxxxxxxxxxxxxxxxxxxxxxxxxxxx";
    "xxxxxxxxxxxxxxxxxxxxxxxxxxxxxxxxx";
    ".xxx.xxx.xxx.xxx.xxx.xxx.xxx.xxx.";
    ".xxx.xxx.xxx.xxx.xxx.xxx.xxx.xxx.";
    "xxxxxxxxxxxxxxxxxxxxxxxxxxxxxxxxx";
    "xxxxxxxxxxxxxxxxxxxxxxxxxxxxxxxxx";
    ".xxx.xxx.xxx.xxx.xxx.xxx.xxx.xxx.";
    ".xxx.xxx.xxx.xxx.xxx.xxx.xxx.xxx.";
    "xxxxxxxxxxxxxxxxxxxxxxxxxxxxxxxxx";
    "xxxxxxxxxxxxxxxxxxxxxxxxxxxxxxxxx";
    ".xxx.xxx.xxx.xxx.xxx.xxx.xxx.xxx.";
    ".xxx.xxx.xxx.xxx.xxx.xxx.xxx.xxx.";
    "xxxxxxxxxxxxxxxxxxxxxxxxxxxxxxxxx";
    "xxxxxxxxxxxxxxxxxxxxxxxxxxxxxxxxx";
    ".xxx.xxx.xxx.xxx.xxx.xxx.xxx.xxx.";
    ".xxx.xxx.xxx.xxx.xxx.xxx.xxx.xxx.";
    ".xxx.xxx.xxx.xxx.xxx.xxx.xxx.xxx.";
    ".xxx.xxx.xxx.xxx.xxx.xxx.xxx.xxx.";
    ".xxx.xxx.xxx.xxx.xxx.xxx.xxx.xxx.";
    ".xxx.xxx.xxx.xxx.xxx.xxx.xxx.xxx.";
    ".xxx.xxx.xxx.xxx.xxx.xxx.xxx.xxx.";
    ".xxx.xxx.xxx.xxx.xxx.xxx.xxx.xxx.";
    ".xxx.xxx.xxx.xxx.xxx.xxx.xxx.xxx.";
    ".xxx.xxx.xxx.xxx.xxx.xxx.xxx.xxx.";
    ".xxx.xxx.xxx.xxx.xxx.xxx.xxx.xxx.";
    ".xxx.xxx.xxx.xxx.xxx.xxx.xxx.xxx.";
    ".xxx.xxx.xxx.xxx.xxx.xxx.xxx.xxx.";
    ".xxx.xxx.xxx.xxx.xxx.xxx.xxx.xxx.";
    ".xxx.xxx.xxx.xxx.xxx.xxx.xxx.xxx.";
    ".xxx.xxx.xxx.xxx.xxx.xxx.xxx.xxx.";
    ".xxx.xxx.xxx.xxx.xxx.xxx.xxx.xxx."]%string.
Example right_shift_automatic : check_binary false Automatic (BA Shr) right_shift_automatic_table = [].
Proof. vm_compute. reflexivity. Qed.

(** test/test_or_automatic.cpp: no table, no exception is expected *)
Definition or_automatic_table : list string := [
    ".................................";
    ".................................";
    ".................................";
    ".................................";
    ".................................";
    ".................................";
    ".................................";
    ".................................";
    ".................................";
    ".................................";
    ".................................";
    ".................................";
    ".................................";
    ".................................";
    ".................................";
    ".................................";
    ".................................";
    ".................................";
    ".................................";
    ".................................";
    ".................................";
    ".................................";
    ".................................";
    ".................................";
    ".................................";
    ".................................";
    ".................................";
    ".................................";
    ".................................";
    ".................................";
    ".................................";
    ".................................";
    "................................."]%string.
Example or_automatic : check_binary false Automatic (BB Or) or_automatic_table = [].
Proof. vm_compute. reflexivity. Qed.

(** test/test_and_automatic.cpp: no table, no exception is expected *)
Definition and_automatic_table : list string := [
    ".................................";
    ".................................";
    ".................................";
    ".................................";
    ".................................";
    ".................................";
    ".................................";
    ".................................";
    ".................................";
    ".................................";
    ".................................";
    ".................................";
    ".................................";
    ".................................";
    ".................................";
    ".................................";
    ".................................";
    ".................................";
    ".................................";
    ".................................";
    ".................................";
    ".................................";
    ".................................";
    ".................................";
    ".................................";
    ".................................";
    ".................................";
    ".................................";
    ".................................";
    ".................................";
    ".................................";
    ".................................";
    "................................."]%string.
Example and_automatic : check_binary false Automatic (BB And) and_automatic_table = [].
Proof. vm_compute. reflexivity. Qed.

(** test/test_xor_automatic.cpp: no table, no exception is expected *)
Definition xor_automatic_table : list string := [
    ".................................";
    ".................................";
    ".................................";
    ".................................";
    ".................................";
    ".................................";
    ".................................";
    ".................................";
    ".................................";
    ".................................";
    ".................................";
    ".................................";
    ".................................";
    ".................................";
    ".................................";
    ".................................";
    ".................................";
    ".................................";
    ".................................";
    ".................................";
    ".................................";
    ".................................";
    ".................................";
    ".................................";
    ".................................";
    ".................................";
    ".................................";
    ".................................";
    ".................................";
    ".................................";
    ".................................";
    ".................................";
    "................................."]%string.
Example xor_automatic : check_binary false Automatic (BB Xor) xor_automatic_table = [].
Proof. vm_compute. reflexivity. Qed.

(** test/test_compare_automatic.hpp with test/test_less_than.hpp *)
Definition less_than_automatic_table : list string := [
    "=<>>=<>>=<>>=<>>=<<<=<<<=<<<=<xx>";
    ">=>>><>>><>>><>>>=<<><<<><<<><xx>";
    "<<=<<<><<<><<<><<<<<<<<<<<<<<<xx<";
    "<<>=<<>=<<>=<<>=<<<<<<<<<<<<<<xx<";
    "=<>>=<>>=<>>=<>>=<<<=<<<=<<<=<xx>";
    ">>>>>=>>><>>><>>>>>>>=<<><<<><xx>";
    "<<<<<<=<<<><<<><<<<<<<<<<<<<<<xx<";
    "<<>=<<>=<<>=<<>=<<<<<<<<<<<<<<xx<";
    "=<>>=<>>=<>>=<>>=<<<=<<<=<<<=<xx>";
    ">>>>>>>>>=>>><>>>>>>>>>>>=<<><xx>";
    "<<<<<<<<<<=<<<><<<<<<<<<<<<<<<xx<";
    "<<>=<<>=<<>=<<>=<<<<<<<<<<<<<<xx<";
    "=<>>=<>>=<>>=<>>=<<<=<<<=<<<=<xx>";
    ">>>>>>>>>>>>>=>>>>>>>>>>>>>>>=xx>";
    "<<<<<<<<<<<<<<=<<<<<<<<<<<<<<<xx<";
    "<<>=<<>=<<>=<<>=<<<<<<<<<<<<<<xx<";
    "=<>>=<>>=<>>=<>>=<<<=<<<=<<<=<<<>";
    ">=>>><>>><>>><>>>=<<><<<><<<><<<>";
    ">>>>><>>><>>><>>>>=<><<<><<<><<<>";
    ">>>>><>>><>>><>>>>>=><<<><<<><<<>";
    "=<>>=<>>=<>>=<>>=<<<=<<<=<<<=<<<>";
    ">>>>>=>>><>>><>>>>>>>=<<><<<><<<>";
    ">>>>>>>>><>>><>>>>>>>>=<><<<><<<>";
    ">>>>>>>>><>>><>>>>>>>>>=><<<><<<>";
    "=<>>=<>>=<>>=<>>=<<<=<<<=<<<=<<<>";
    ">>>>>>>>>=>>><>>>>>>>>>>>=<<><<<>";
    ">>>>>>>>>>>>><>>>>>>>>>>>>=<><<<>";
    ">>>>>>>>>>>>><>>>>>>>>>>>>>=><<<>";
    "=<>>=<>>=<>>=<>>=<<<=<<<=<<<=<<<>";
    ">>>>>>>>>>>>>=>>>>>>>>>>>>>>>=<<>";
    "xxxxxxxxxxxxxxxx>>>>>>>>>>>>>>=<x";
    "xxxxxxxxxxxxxxxx>>>>>>>>>>>>>>>=x";
    "<<>><<>><<>><<>><<<<<<<<<<<<<<xx="]%string.
Example less_than_automatic : check_compare false Automatic true less_than_automatic_table = [].
Proof. vm_compute. reflexivity. Qed.

(** test/test_compare_automatic.hpp with test/test_equal.hpp *)
Definition equal_automatic_table : list string := [
    "=<>>=<>>=<>>=<>>=<<<=<<<=<<<=<xx>";
    ">=>>><>>><>>><>>>=<<><<<><<<><xx>";
    "<<=<<<><<<><<<><<<<<<<<<<<<<<<xx<";
    "<<>=<<>=<<>=<<>=<<<<<<<<<<<<<<xx<";
    "=<>>=<>>=<>>=<>>=<<<=<<<=<<<=<xx>";
    ">>>>>=>>><>>><>>>>>>>=<<><<<><xx>";
    "<<<<<<=<<<><<<><<<<<<<<<<<<<<<xx<";
    "<<>=<<>=<<>=<<>=<<<<<<<<<<<<<<xx<";
    "=<>>=<>>=<>>=<>>=<<<=<<<=<<<=<xx>";
    ">>>>>>>>>=>>><>>>>>>>>>>>=<<><xx>";
    "<<<<<<<<<<=<<<><<<<<<<<<<<<<<<xx<";
    "<<>=<<>=<<>=<<>=<<<<<<<<<<<<<<xx<";
    "=<>>=<>>=<>>=<>>=<<<=<<<=<<<=<xx>";
    ">>>>>>>>>>>>>=>>>>>>>>>>>>>>>=xx>";
    "<<<<<<<<<<<<<<=<<<<<<<<<<<<<<<xx<";
    "<<>=<<>=<<>=<<>=<<<<<<<<<<<<<<xx<";
    "=<>>=<>>=<>>=<>>=<<<=<<<=<<<=<<<>";
    ">=>>><>>><>>><>>>=<<><<<><<<><<<>";
    ">>>>><>>><>>><>>>>=<><<<><<<><<<>";
    ">>>>><>>><>>><>>>>>=><<<><<<><<<>";
    "=<>>=<>>=<>>=<>>=<<<=<<<=<<<=<<<>";
    ">>>>>=>>><>>><>>>>>>>=<<><<<><<<>";
    ">>>>>>>>><>>><>>>>>>>>=<><<<><<<>";
    ">>>>>>>>><>>><>>>>>>>>>=><<<><<<>";
    "=<>>=<>>=<>>=<>>=<<<=<<<=<<<=<<<>";
    ">>>>>>>>>=>>><>>>>>>>>>>>=<<><<<>";
    ">>>>>>>>>>>>><>>>>>>>>>>>>=<><<<>";
    ">>>>>>>>>>>>><>>>>>>>>>>>>>=><<<>";
    "=<>>=<>>=<>>=<>>=<<<=<<<=<<<=<<<>";
    ">>>>>>>>>>>>>=>>>>>>>>>>>>>>>=<<>";
    "xxxxxxxxxxxxxxxx>>>>>>>>>>>>>>=<x";
    "xxxxxxxxxxxxxxxx>>>>>>>>>>>>>>>=x";
    "<<>><<>><<>><<>><<<<<<<<<<<<<<xx="]%string.
Example equal_automatic : check_compare false Automatic false equal_automatic_table = [].
Proof. vm_compute. reflexivity. Qed.

