(** ConformanceAutomaticArith.v -- see ConformanceDefs.v. GENERATED by tools/mkconformance.py. *)
From Coq Require Import ZArith List Bool String Ascii.
From Verif Require Import Base CType Utility SafeCompare CheckedInteger CheckedResultOps
  Interval ExceptionPolicy Promotion SafeBase ConformanceDefs.
Import ListNotations.
Local Open Scope Z_scope.

(** test/test_add_automatic_results.hpp *)
Definition add_automatic_table : list string := [
    ".............x...............xxx.";
    ".............x...............xxx.";
    "..............x...............xx.";
    "..............x...............xx.";
    ".............x...............xxx.";
    ".............x...............xxx.";
    "..............x...............xx.";
    "..............x...............xx.";
    ".............x...............xxx.";
    ".............x...............xxx.";
    "..............x...............xx.";
    "..............x...............xx.";
    ".............x...............xxx.";
    "xx..xx..xx..xx..xxxxxxxxxxxxxxxx.";
    "..xx..xx..xx..xx..............xx.";
    "..............x...............xx.";
    ".............x.................x.";
    ".............x.................x.";
    ".............x.................x.";
    ".............x.................x.";
    ".............x.................x.";
    ".............x.................x.";
    ".............x.................x.";
    ".............x.................x.";
    ".............x.................x.";
    ".............x.................x.";
    ".............x.................x.";
    ".............x.................x.";
    ".............x.................x.";
    "xx..xx..xx..xx.................x.";
    "xxxxxxxxxxxxxxxx..............xxx";
    "xxxxxxxxxxxxxxxxxxxxxxxxxxxxxxxxx";
    "..............................xx."]%string.
Example add_automatic : check_binary false Automatic (BA Add) add_automatic_table = [].
Proof. vm_compute. reflexivity. Qed.

(** test/test_subtract_automatic_results.hpp *)
Definition subtract_automatic_table : list string := [
    "..............x...............xx.";
    "..............x...............xx.";
    ".............x...............xxx.";
    "..............................xx.";
    "..............x...............xx.";
    "..............x...............xx.";
    ".............x...............xxx.";
    "..............................xx.";
    "..............x...............xx.";
    "..............x...............xx.";
    ".............x...............xxx.";
    "..............................xx.";
    "..............x...............xx.";
    "..xx..xx..xx..xx..............xx.";
    "xx..xx..xx..xx..xxxxxxxxxxxxxxxx.";
    "..............................xx.";
    "..............x...............xx.";
    "..............x...............xx.";
    "..............x...............xx.";
    "..............x...............xx.";
    "..............x...............xx.";
    "..............x...............xx.";
    "..............x...............xx.";
    "..............x...............xx.";
    "..............x...............xx.";
    "..............x...............xx.";
    "..............x...............xx.";
    "..............x...............xx.";
    "..............x...............xx.";
    "..xx..xx..xx..xx..............xx.";
    "xxxxxxxxxxxxxxxxxxxxxxxxxxxxxxxxx";
    "xxxxxxxxxxxxxxxxxxxxxxxxxxxxxxxxx";
    "..............x...............xx."]%string.
Example subtract_automatic : check_binary false Automatic (BA Sub) subtract_automatic_table = [].
Proof. vm_compute. reflexivity. Qed.

(** test/test_multiply_automatic_results.hpp *)
Definition multiply_automatic_table : list string := [
    "..............................xx.";
    ".............xx..............xxx.";
    ".............xx..............xxx.";
    "..............x...............xx.";
    "..............................xx.";
    ".............xx..............xxx.";
    ".............xx..............xxx.";
    "..............x...............xx.";
    "..............................xx.";
    ".............xx..............xxx.";
    ".............xx..............xxx.";
    "..............x...............xx.";
    "..............................xx.";
    ".xx..xx..xx..xx..xxx.xxx.xxx.xxx.";
    ".xxx.xxx.xxx.xxx.xxx.xxx.xxx.xxx.";
    "..............x...............xx.";
    ".................................";
    ".............xx..............xxx.";
    ".............xx..............xxx.";
    ".............xx..............xxx.";
    ".................................";
    ".............xx..............xxx.";
    ".............xx..............xxx.";
    ".............xx..............xxx.";
    ".................................";
    ".............xx..............xxx.";
    ".............xx..............xxx.";
    ".............xx..............xxx.";
    ".................................";
    ".xx..xx..xx..xx..xxx.xxx.xxx.xxx.";
    "xxxxxxxxxxxxxxxx.xxx.xxx.xxx.xxxx";
    "xxxxxxxxxxxxxxxx.xxx.xxx.xxx.xxxx";
    "..............................xx."]%string.
Example multiply_automatic : check_binary false Automatic (BA Mul) multiply_automatic_table = [].
Proof. vm_compute. reflexivity. Qed.

