(** ConformanceChecked.v -- see ConformanceDefs.v. GENERATED by tools/mkconformance.py. *)
From Coq Require Import ZArith List Bool String Ascii.
From Verif Require Import Base CType Utility SafeCompare CheckedInteger CheckedResultOps
  Interval ExceptionPolicy Promotion SafeBase ConformanceDefs.
Import ListNotations.
Local Open Scope Z_scope.

(** test/test_safe_compare.cpp *)
Definition safe_compare_table : list string := [
    "=<>>=<>>=<>>=<>>=<<<=<<<=<<<=<<<>";
    ">=>>><>>><>>><>>>=<<><<<><<<><<<>";
    "<<=<<<><<<><<<><<<<<<<<<<<<<<<<<<";
    "<<>=<<>=<<>=<<>=<<<<<<<<<<<<<<<<<";
    "=<>>=<>>=<>>=<>>=<<<=<<<=<<<=<<<>";
    ">>>>>=>>><>>><>>>>>>>=<<><<<><<<>";
    "<<<<<<=<<<><<<><<<<<<<<<<<<<<<<<<";
    "<<>=<<>=<<>=<<>=<<<<<<<<<<<<<<<<<";
    "=<>>=<>>=<>>=<>>=<<<=<<<=<<<=<<<>";
    ">>>>>>>>>=>>><>>>>>>>>>>>=<<><<<>";
    "<<<<<<<<<<=<<<><<<<<<<<<<<<<<<<<<";
    "<<>=<<>=<<>=<<>=<<<<<<<<<<<<<<<<<";
    "=<>>=<>>=<>>=<>>=<<<=<<<=<<<=<<<>";
    ">>>>>>>>>>>>>=>>>>>>>>>>>>>>>=<<>";
    "<<<<<<<<<<<<<<=<<<<<<<<<<<<<<<<<<";
    "<<>=<<>=<<>=<<>=<<<<<<<<<<<<<<<<";
    "=<>>=<>>=<>>=<>>=<<<=<<<=<<<=<<<>";
    ">=>>><>>><>>><>>>=<<><<<><<<><<<>";
    ">>>>><>>><>>><>>>>=<><<<><<<><<<>";
    ">>>>><>>><>>><>>>>>=><<<><<<><<<>";
    "=<>>=<>>=<>>=<>>=<<<=<<<=<<<=<<<>";
    ">>>>>=>>><>>><>>>>>>>=<<><<<><<<>";
    ">>>>>>>>><>>><>>>>>>>>=<><<<><<<>";
    ">>>>>>>>><>>><>>>>>>>>>=><<<><<<>";
    "=<>>=<>>=<>>=<>>=<<<=<<<=<<<=<<<>";
    ">>>>>>>>>=>>><>>>>>>>>>>>=<<><<<>";
    ">>>>>>>>>>>>><>>>>>>>>>>>>=<><<<>";
    ">>>>>>>>>>>>><>>>>>>>>>>>>>=><<<>";
    "=<>>=<>>=<>>=<>>=<<<=<<<=<<<=<<<>";
    ">>>>>>>>>>>>>=>>>>>>>>>>>>>>>=<<>";
    ">>>>>>>>>>>>>>>>>>>>>>>>>>>>>>=<>";
    ">>>>>>>>>>>>>>>>>>>>>>>>>>>>>>>=>";
    "<<>><<>><<>><<>><<<<<<<<<<<<<<<<="]%string.
Example safe_compare : check_safe_compare safe_compare_table = [].
Proof. vm_compute. reflexivity. Qed.

(** test/test_assignment.cpp *)
Definition assignment_table : list string := [
    ".....xx..xx..xx...xx.xxx.xxx.xxx.";
    ".....xx..xx..xx...xx.xxx.xxx.xxx.";
    ".....xx..xx..xx...xx.xxx.xxx.xxx.";
    ".....xx..xx..xx...xx.xxx.xxx.xxx.";
    ".........xx..xx.......xx.xxx.xxx.";
    ".........xx..xx.......xx.xxx.xxx.";
    ".........xx..xx.......xx.xxx.xxx.";
    ".........xx..xx.......xx.xxx.xxx.";
    ".............xx...........xx.xxx.";
    ".............xx...........xx.xxx.";
    ".............xx...........xx.xxx.";
    ".............xx...........xx.xxx.";
    "..............................xx.";
    "..............................xx.";
    "..............................xx.";
    "..............................xx.";
    "..xx.xxx.xxx.xxx.....xxx.xxx.xxx.";
    "..xx.xxx.xxx.xxx.....xxx.xxx.xxx.";
    "..xx.xxx.xxx.xxx.....xxx.xxx.xxx.";
    "..xx.xxx.xxx.xxx.....xxx.xxx.xxx.";
    "..xx..xx.xxx.xxx.........xxx.xxx.";
    "..xx..xx.xxx.xxx.........xxx.xxx.";
    "..xx..xx.xxx.xxx.........xxx.xxx.";
    "..xx..xx.xxx.xxx.........xxx.xxx.";
    "..xx..xx..xx.xxx.............xxx.";
    "..xx..xx..xx.xxx.............xxx.";
    "..xx..xx..xx.xxx.............xxx.";
    "..xx..xx..xx.xxx.............xxx.";
    "..xx..xx..xx..xx.................";
    "..xx..xx..xx..xx.................";
    "..xx..xx..xx..xx.................";
    "..xx..xx..xx..xx.................";
    ".....xx..xx..xx...xx.xxx.xxx.xxx."]%string.
Example assignment : check_assign assignment_table = [].
Proof. vm_compute. reflexivity. Qed.

(** test/test_checked_cast.hpp *)
Definition checked_cast_table : list string := [
    ".....xx..xx..xx...xx.xxx.xxx.xxx";
    ".........xx..xx.......xx.xxx.xxx";
    ".............xx...........xx.xxx";
    "..............................xx";
    "..xx.xxx.xxx.xxx.....xxx.xxx.xxx";
    "..xx..xx.xxx.xxx.........xxx.xxx";
    "..xx..xx..xx.xxx.............xxx";
    "..xx..xx..xx..xx................"]%string.
Example checked_cast : check_cast checked_cast_table = [].
Proof. vm_compute. reflexivity. Qed.

(** test/test_checked_add.hpp *)
Definition checked_add_signed_table : list string := [
    "!!!!!!!!!";
    "!!!!!!!!!";
    "!!++++++!";
    "!!+++...-";
    "!!++....-";
    "!!+.....-";
    "!!+....--";
    "!!+...---";
    "!!!------"]%string.
Example checked_add_signed : check_checked false cr_add signed_types signed_values checked_add_signed_table = [].
Proof. vm_compute. reflexivity. Qed.

(** test/test_checked_add.hpp *)
Definition checked_add_unsigned_table : list string := [
    "!!!!!!!";
    "!!!!!!!";
    "!!++++!";
    "!!+++.-";
    "!!++..-";
    "!!+...-";
    "!!!----"]%string.
Example checked_add_unsigned : check_checked false cr_add unsigned_types unsigned_values checked_add_unsigned_table = [].
Proof. vm_compute. reflexivity. Qed.

(** test/test_checked_subtract.hpp *)
Definition checked_subtract_signed_table : list string := [
    "!!!!!!!!!";
    "!!!!!!!!!";
    "!!!++++++";
    "!!-...+++";
    "!!-....++";
    "!!-....++";
    "!!-.....+";
    "!!---...+";
    "!!------!"]%string.
Example checked_subtract_signed : check_checked false cr_sub signed_types signed_values checked_subtract_signed_table = [].
Proof. vm_compute. reflexivity. Qed.

(** test/test_checked_subtract.hpp *)
Definition checked_subtract_unsigned_table : list string := [
    "!!!!!!!";
    "!!!!!!!";
    "!!!++++";
    "!!-...+";
    "!!--..+";
    "!!---.+";
    "!!----!"]%string.
Example checked_subtract_unsigned : check_checked false cr_sub unsigned_types unsigned_values checked_subtract_unsigned_table = [].
Proof. vm_compute. reflexivity. Qed.

(** test/test_checked_multiply.hpp *)
Definition checked_multiply_signed_table : list string := [
    "!!!!!!!!!";
    "!!!!!!!!!";
    "!!+++.---";
    "!!++...--";
    "!!+.....-";
    "!!...0000";
    "!!-..0.++";
    "!!--.0+++";
    "!!---0+++"]%string.
Example checked_multiply_signed : check_checked false cr_mul signed_types signed_values checked_multiply_signed_table = [].
Proof. vm_compute. reflexivity. Qed.

(** test/test_checked_multiply.hpp *)
Definition checked_multiply_unsigned_table : list string := [
    "!!!!!!!";
    "!!!!!!!";
    "!!+++.-";
    "!!++..-";
    "!!+...-";
    "!!...00";
    "!!---0+"]%string.
Example checked_multiply_unsigned : check_checked false cr_mul unsigned_types unsigned_values checked_multiply_unsigned_table = [].
Proof. vm_compute. reflexivity. Qed.

(** test/test_checked_divide.hpp *)
Definition checked_divide_signed_table : list string := [
    "!!!!!!!!!";
    "!!!!!!!!!";
    "!!!+++---";
    "!!0..+..0";
    "!!0..+.00";
    "!!000!000";
    "!!0..-.00";
    "!!0..-+.0";
    "!!----++!"]%string.
Example checked_divide_signed : check_checked false cr_div signed_types signed_values checked_divide_signed_table = [].
Proof. vm_compute. reflexivity. Qed.

(** test/test_checked_divide.hpp *)
Definition checked_divide_unsigned_table : list string := [
    "!!!!!!!";
    "!!!!!!!";
    "!!!+++-";
    "!!0..+.";
    "!!0..+.";
    "!!000!0";
    "!!----!"]%string.
Example checked_divide_unsigned : check_checked false cr_div unsigned_types unsigned_values checked_divide_unsigned_table = [].
Proof. vm_compute. reflexivity. Qed.

(** test/test_checked_modulus.hpp *)
Definition checked_modulus_signed_table : list string := [
    "!!!!!!!!!";
    "!!!!!!!!!";
    "!!!.0!.-!";
    "!!...!...";
    "!!...!...";
    "!!000!000";
    "!!...!...";
    "!!...!...";
    "!!!..!.+!"]%string.
Example checked_modulus_signed : check_checked false cr_mod signed_types signed_values checked_modulus_signed_table = [].
Proof. vm_compute. reflexivity. Qed.

(** test/test_checked_modulus.hpp *)
Definition checked_modulus_unsigned_table : list string := [
    "!!!!!!!";
    "!!!!!!!";
    "!!!.0!!";
    "!!...!.";
    "!!...!.";
    "!!000!0";
    "!!!-.!!"]%string.
Example checked_modulus_unsigned : check_checked false cr_mod unsigned_types unsigned_values checked_modulus_unsigned_table = [].
Proof. vm_compute. reflexivity. Qed.

(** test/test_checked_left_shift.hpp *)
Definition checked_left_shift_signed_table : list string := [
    "!!!!!!!!!";
    "!!!!!!!!!";
    "!!++++++!";
    "!!+++....";
    "!!++.....";
    ".........";
    "!!--.....";
    "!!---....";
    "!!------!"]%string.
Example checked_left_shift_signed : check_checked true cr_shl signed_types signed_values checked_left_shift_signed_table = [].
Proof. vm_compute. reflexivity. Qed.

(** test/test_checked_left_shift.hpp *)
Definition checked_left_shift_unsigned_table : list string := [
    "!!!!!!!";
    "!!!!!!!";
    "!!++++!";
    "!!+++..";
    "!!++...";
    ".......";
    "!!----!"]%string.
Example checked_left_shift_unsigned : check_checked true cr_shl unsigned_types unsigned_values checked_left_shift_unsigned_table = [].
Proof. vm_compute. reflexivity. Qed.

(** test/test_checked_right_shift.hpp *)
Definition checked_right_shift_signed_table : list string := [
    "!!!!!!!!!";
    "!!!!!!!!!";
    "!!!++++++";
    "!!....+++";
    "!!.....++";
    ".........";
    "!!.....--";
    "!!....---";
    "!!!------"]%string.
Example checked_right_shift_signed : check_checked false cr_shr signed_types signed_values checked_right_shift_signed_table = [].
Proof. vm_compute. reflexivity. Qed.

(** test/test_checked_right_shift.hpp *)
Definition checked_right_shift_unsigned_table : list string := [
    "!!!!!!!";
    "!!!!!!!";
    "!!!++++";
    "!!....+";
    "!!....+";
    ".......";
    "!!!----"]%string.
Example checked_right_shift_unsigned : check_checked false cr_shr unsigned_types unsigned_values checked_right_shift_unsigned_table = [].
Proof. vm_compute. reflexivity. Qed.

(** test/test_checked_or.hpp *)
Definition checked_or_signed_table : list string := [
    "!!!!!!!!!";
    "!!!!!!!!!";
    "!!!!!!!!!";
    "!!!.....!";
    "!!!.....!";
    "!!!.....!";
    "!!!.....!";
    "!!!.....!";
    "!!!!!!!!!"]%string.
Example checked_or_signed : check_checked false cr_or signed_types signed_values checked_or_signed_table = [].
Proof. vm_compute. reflexivity. Qed.

(** test/test_checked_or.hpp *)
Definition checked_or_unsigned_table : list string := [
    "!!!!!!!";
    "!!!!!!!";
    "!!!!!!!";
    "!!!...!";
    "!!!...!";
    "!!!...!";
    "!!!!!!!"]%string.
Example checked_or_unsigned : check_checked false cr_or unsigned_types unsigned_values checked_or_unsigned_table = [].
Proof. vm_compute. reflexivity. Qed.

(** test/test_checked_and.hpp *)
Definition checked_and_signed_table : list string := [
    "!!!!!!!!!";
    "!!!!!!!!!";
    "!!!!!!!!!";
    "!!!.....!";
    "!!!.....!";
    "!!!.....!";
    "!!!.....!";
    "!!!.....!";
    "!!!!!!!!!"]%string.
Example checked_and_signed : check_checked false cr_and signed_types signed_values checked_and_signed_table = [].
Proof. vm_compute. reflexivity. Qed.

(** test/test_checked_and.hpp *)
Definition checked_and_unsigned_table : list string := [
    "!!!!!!!";
    "!!!!!!!";
    "!!!!!!!";
    "!!!...!";
    "!!!...!";
    "!!!...!";
    "!!!!!!!"]%string.
Example checked_and_unsigned : check_checked false cr_and unsigned_types unsigned_values checked_and_unsigned_table = [].
Proof. vm_compute. reflexivity. Qed.

(** test/test_checked_xor.hpp *)
Definition checked_xor_signed_table : list string := [
    "!!!!!!!!!";
    "!!!!!!!!!";
    "!!!!!!!!!";
    "!!!.....!";
    "!!!.....!";
    "!!!.....!";
    "!!!.....!";
    "!!!.....!";
    "!!!!!!!!!"]%string.
Example checked_xor_signed : check_checked false cr_xor signed_types signed_values checked_xor_signed_table = [].
Proof. vm_compute. reflexivity. Qed.

(** test/test_checked_xor.hpp *)
Definition checked_xor_unsigned_table : list string := [
    "!!!!!!!";
    "!!!!!!!";
    "!!!!!!!";
    "!!!...!";
    "!!!...!";
    "!!!...!";
    "!!!!!!!"]%string.
Example checked_xor_unsigned : check_checked false cr_xor unsigned_types unsigned_values checked_xor_unsigned_table = [].
Proof. vm_compute. reflexivity. Qed.

(** test/test_checked_less_than.cpp *)
Definition checked_less_than_signed_table : list string := [
    "!!!!!!!!!";
    "!!!!!!!!!";
    "!!!>>>>>>";
    "!!<=>>>>>";
    "!!<<=>>>>";
    "!!<<<=>>>";
    "!!<<<<=>>";
    "!!<<<<<=>";
    "!!<<<<<<!"]%string.
Example checked_less_than_signed : check_checked_cmp true signed_types signed_values checked_less_than_signed_table = [].
Proof. vm_compute. reflexivity. Qed.

(** test/test_checked_equal_to.cpp *)
Definition checked_equal_to_signed_table : list string := [
    "!!!!!!!!!";
    "!!!!!!!!!";
    "!!!>>>>>>";
    "!!<=>>>>>";
    "!!<<=>>>>";
    "!!<<<=>>>";
    "!!<<<<=>>";
    "!!<<<<<=>";
    "!!<<<<<<!"]%string.
Example checked_equal_to_signed : check_checked_cmp false signed_types signed_values checked_equal_to_signed_table = [].
Proof. vm_compute. reflexivity. Qed.

(** test/test_checked_less_than.cpp *)
Definition checked_less_than_unsigned_table : list string := [
    "!!!!!!!";
    "!!!!!!!";
    "!!!>>>>";
    "!!<=>>>";
    "!!<<=>>";
    "!!<<<=>";
    "!!<<<<!"]%string.
Example checked_less_than_unsigned : check_checked_cmp true unsigned_types unsigned_values checked_less_than_unsigned_table = [].
Proof. vm_compute. reflexivity. Qed.

(** test/test_checked_equal_to.cpp *)
Definition checked_equal_to_unsigned_table : list string := [
    "!!!!!!!";
    "!!!!!!!";
    "!!!>>>>";
    "!!<=>>>";
    "!!<<=>>";
    "!!<<<=>";
    "!!<<<<!"]%string.
Example checked_equal_to_unsigned : check_checked_cmp false unsigned_types unsigned_values checked_equal_to_unsigned_table = [].
Proof. vm_compute. reflexivity. Qed.

