(** ConformanceNativeArith.v -- see ConformanceDefs.v. GENERATED by tools/mkconformance.py. *)
From Coq Require Import ZArith List Bool String Ascii.
From Verif Require Import Base CType Utility SafeCompare CheckedInteger CheckedResultOps
  Interval ExceptionPolicy Promotion SafeBase ConformanceDefs.
Import ListNotations.
Local Open Scope Z_scope.

(** test/test_add_native_results.hpp *)
Definition add_native_table : list string := [
    ".........x...x.............x...x.";
    ".........x...x.............x...x.";
    "..........x...x.........xxxxxxxx.";
    "..........x...x.........xxxxxxxx.";
    ".........x...x.............x...x.";
    ".........x...x.............x...x.";
    "..........x...x.........xxxxxxxx.";
    "..........x...x.........xxxxxxxx.";
    ".........x...x.............x...x.";
    "xx..xx..xx...x..xxxxxxxx...x...x.";
    "..xx..xx..xx..x.........xxxxxxxx.";
    "..........x...x.........xxxxxxxx.";
    ".............x.................x.";
    "xx..xx..xx..xx..xxxxxxxxxxxx...x.";
    "..xx..xx..xx..xx............xxxx.";
    "..............x.............xxxx.";
    ".........x...x.............x...x.";
    ".........x...x.............x...x.";
    ".........x...x.............x...x.";
    ".........x...x.............x...x.";
    ".........x...x.............x...x.";
    ".........x...x.............x...x.";
    ".........x...x.............x...x.";
    ".........x...x.............x...x.";
    "..xx..xx..xx.x.............x...x.";
    "..xx..xx..xx.x.............x...x.";
    "..xx..xx..xx.x............xx...x.";
    "xxxxxxxxxxxx.x..xxxxxxxxxxxx...x.";
    "..xx..xx..xx..xx...............x.";
    "..xx..xx..xx..xx...............x.";
    "..xx..xx..xx..xx..............xx.";
    "xxxxxxxxxxxxxxxxxxxxxxxxxxxxxxxx.";
    "................................."]%string.
Example add_native : check_binary false Native (BA Add) add_native_table = [].
Proof. vm_compute. reflexivity. Qed.

(** test/test_subtract_native_results.hpp *)
Definition subtract_native_table : list string := [
    "..........x...x..........xxx.xxx.";
    "..........x...x..........xxx.xxx.";
    ".........x...x..........xxxxxxxx.";
    "........................xxxxxxxx.";
    "..........x...x..........xxx.xxx.";
    "..........x...x..........xxx.xxx.";
    ".........x...x..........xxxxxxxx.";
    "........................xxxxxxxx.";
    "..........x...x..........xxx.xxx.";
    "..xx..xx..xx..x...........xx.xxx.";
    "xx..xx..xx...x..xxxxxxxxxxxxxxxx.";
    "........................xxxxxxxx.";
    "..............x..............xxx.";
    "..xx..xx..xx..xx..............xx.";
    "xx..xx..xx..xx..xxxxxxxxxxxxxxxx.";
    "............................xxxx.";
    "..........x...x..........xxx.xxx.";
    "..........x...x..........xxx.xxx.";
    "..........x...x..........xxx.xxx.";
    "..........x...x..........xxx.xxx.";
    "..........x...x..........xxx.xxx.";
    "..........x...x..........xxx.xxx.";
    "..........x...x..........xxx.xxx.";
    "..........x...x..........xxx.xxx.";
    ".xxx.xxx.xxx..x..xxx.xxx.xxx.xxx.";
    "..xx..xx..xx..x...........xx.xxx.";
    "..xx..xx..xx..x............x.xxx.";
    "..xx..xx..xx..x..............xxx.";
    ".xxx.xxx.xxx.xxx.xxx.xxx.xxx.xxx.";
    "..xx..xx..xx..xx..............xx.";
    "..xx..xx..xx..xx...............x.";
    "..xx..xx..xx..xx.................";
    "..........x...x.........xxxxxxxx."]%string.
Example subtract_native : check_binary false Native (BA Sub) subtract_native_table = [].
Proof. vm_compute. reflexivity. Qed.

(** test/test_multiply_native_results.hpp *)
Definition multiply_native_table : list string := [
    ".................................";
    ".........xx..xx..........xxx.xxx.";
    ".........xx..xx.........xxxxxxxx.";
    "..........x...x.........xxxxxxxx.";
    ".................................";
    ".........xx..xx..........xxx.xxx.";
    ".........xx..xx.........xxxxxxxx.";
    "..........x...x.........xxxxxxxx.";
    ".................................";
    ".xx..xx..xx..xx..xxx.xxx.xxx.xxx.";
    ".xxx.xxx.xxx.xx..xxx.xxxxxxxxxxx.";
    "..........x...x.........xxxxxxxx.";
    ".................................";
    ".xx..xx..xx..xx..xxx.xxx.xxx.xxx.";
    ".xxx.xxx.xxx.xxx.xxx.xxx.xxxxxxx.";
    "..............x.............xxxx.";
    ".................................";
    ".........xx..xx..........xxx.xxx.";
    ".........xx..xx..........xxx.xxx.";
    ".........xx..xx..........xxx.xxx.";
    ".................................";
    ".........xx..xx..........xxx.xxx.";
    ".........xx..xx..........xxx.xxx.";
    ".........xx..xx........x.xxx.xxx.";
    "..xx..xx..xx.....................";
    ".xxx.xxx.xxx.xx..xxx.xxx.xxx.xxx.";
    ".xxx.xxx.xxx.xx..xxx.xxx.xxx.xxx.";
    ".xxx.xxx.xxx.xx..xxx.xxx.xxx.xxx.";
    "..xx..xx..xx..xx.................";
    ".xxx.xxx.xxx.xxx.xxx.xxx.xxx.xxx.";
    ".xxx.xxx.xxx.xxx.xxx.xxx.xxx.xxx.";
    ".xxx.xxx.xxx.xxx.xxx.xxx.xxx.xxx.";
    "................................."]%string.
Example multiply_native : check_binary false Native (BA Mul) multiply_native_table = [].
Proof. vm_compute. reflexivity. Qed.

(** the checks do compare: against a table of dots every 'x' of the real table is
    reported, in all three variants *)
Example comparison_is_real :
  let xs := scan sample (fun _ _ c => if Ascii.eqb "x" c then [0%nat] else []) test_values test_values add_native_table in
  List.length (check_binary true Native (BA Add) (repeat "................................."%string 33))
  = (3 * List.length xs)%nat /\ (5 <=? List.length xs)%nat = true.
Proof. vm_compute. split; reflexivity. Qed.

