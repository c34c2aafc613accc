(** CheckedResultOps.v -- model of
    include/boost/safe_numerics/checked_result_operations.hpp.
    Definitions only. The library's flat tables [result[tx * order + ux]] are
    written as lists of rows. *)
From Coq Require Import ZArith List Bool.
From Verif Require Import Base CType CheckedInteger.
Import ListNotations.
Local Open Scope Z_scope.
Local Open Scope res_scope.

(** checked_result_operations.hpp:67-98, sum_value_type *)
Inductive sflag : Type := known_value | s_less_than_min | s_greater_than_max | s_indeterminate.

Definition to_sflag (t : checked) : sflag :=
  match t with
  | CVal _ => known_value
  | CErr negative_overflow_error => s_less_than_min
  | CErr positive_overflow_error => s_greater_than_max
  | CErr _ => s_indeterminate
  end.

Definition sidx (f : sflag) : nat :=
  match f with
  | known_value => 0 | s_less_than_min => 1
  | s_greater_than_max => 2 | s_indeterminate => 3
  end%nat.

Definition lookup {A : Type} (d : A) (table : list (list A)) (i j : nat) : A :=
  nth j (nth i table []) d.

Local Notation ok := success.
Local Notation pos := positive_overflow_error.
Local Notation neg := negative_overflow_error.
Local Notation rng := range_error.

(** checked_result_operations.hpp:117-150 *)
Definition add_table : list (list err) :=
  [ [ok;  neg; pos; rng];
    [neg; neg; rng; rng];
    [pos; rng; pos; rng];
    [rng; rng; rng; rng] ].

(** checked_result_operations.hpp:101-159, operator+ *)
Definition cr_add (D : dmodel) (R : ctype) (t u : checked) : res checked :=
  match lookup success add_table (sidx (to_sflag t)) (sidx (to_sflag u)) with
  | success =>
      let* a := cr_value t in let* b := cr_value u in add D R a b
  | e => Ok (CErr e)
  end.

(** checked_result_operations.hpp:162-171, unary + *)
Definition cr_plus (t : checked) : checked := t.

(** checked_result_operations.hpp:186-219 *)
Definition sub_table : list (list err) :=
  [ [ok;  pos; neg; rng];
    [neg; rng; neg; rng];
    [pos; pos; rng; rng];
    [rng; rng; rng; rng] ].

(** checked_result_operations.hpp:174-228, operator- *)
Definition cr_sub (D : dmodel) (R : ctype) (t u : checked) : res checked :=
  match lookup success sub_table (sidx (to_sflag t)) (sidx (to_sflag u)) with
  | success =>
      let* a := cr_value t in let* b := cr_value u in subtract D R a b
  | e => Ok (CErr e)
  end.

(** checked_result_operations.hpp:231-241, unary - *)
Definition cr_neg (D : dmodel) (R : ctype) (t : checked) : res checked :=
  cr_sub D R (CVal 0) t.

(** checked_result_operations.hpp:592-597, the entries of the comparison tables *)
Inductive cmp_entry : Type := runtime | false_value | true_value | c_indeterminate.

(** checked_result_operations.hpp:598-628 *)
Definition lt_table : list (list cmp_entry) :=
  [ [runtime;         false_value;     true_value;      c_indeterminate];
    [true_value;      c_indeterminate; true_value;      c_indeterminate];
    [false_value;     false_value;     c_indeterminate; c_indeterminate];
    [c_indeterminate; c_indeterminate; c_indeterminate; c_indeterminate] ].

Definition cmp_result (e : cmp_entry) (r : bool) : tribool :=
  match e with
  | runtime => tri_of_bool r
  | false_value => TFalse
  | true_value => TTrue
  | c_indeterminate => TInd
  end.

(** the value read by static_cast<const T &>(t) in the entry [runtime], where t
    is a value; 0 is never used *)
Definition known (t : checked) : Z := match t with CVal z => z | CErr _ => 0 end.

(** checked_result_operations.hpp:579-654, operator< *)
Definition cr_lt (D : dmodel) (R : ctype) (t u : checked) : tribool :=
  cmp_result (lookup c_indeterminate lt_table (sidx (to_sflag t)) (sidx (to_sflag u)))
             (c_lt D R R (known t) (known u)).

(** checked_result_operations.hpp:656-663, operator>= *)
Definition cr_ge (D : dmodel) (R : ctype) (t u : checked) : tribool :=
  tri_not (cr_lt D R t u).

(** checked_result_operations.hpp:665-672, operator> *)
Definition cr_gt (D : dmodel) (R : ctype) (t u : checked) : tribool :=
  cr_lt D R u t.

(** checked_result_operations.hpp:674-681, operator<= *)
Definition cr_le (D : dmodel) (R : ctype) (t u : checked) : tribool :=
  tri_not (cr_lt D R u t).

(** checked_result_operations.hpp:700-730 *)
Definition eq_table : list (list cmp_entry) :=
  [ [runtime;         false_value;     false_value;     c_indeterminate];
    [false_value;     c_indeterminate; false_value;     c_indeterminate];
    [false_value;     false_value;     c_indeterminate; c_indeterminate];
    [c_indeterminate; c_indeterminate; c_indeterminate; c_indeterminate] ].

(** checked_result_operations.hpp:683-751, operator== *)
Definition cr_eq (D : dmodel) (R : ctype) (t u : checked) : tribool :=
  cmp_result (lookup c_indeterminate eq_table (sidx (to_sflag t)) (sidx (to_sflag u)))
             (c_eq D R R (known t) (known u)).

(** checked_result_operations.hpp:753-760, operator!= *)
Definition cr_ne (D : dmodel) (R : ctype) (t u : checked) : tribool :=
  tri_not (cr_eq D R t u).

(** checked_result_operations.hpp:243-285, product_value_type *)
Inductive pflag : Type :=
| less_than_min | less_than_zero | zero | greater_than_zero
| greater_than_max | indeterminate
| t_value | u_value | z_value.

Definition to_pflag (D : dmodel) (R : ctype) (t : checked) : pflag :=
  match t with
  | CVal _ =>
      if tri_bool (cr_lt D R t (CVal 0)) then less_than_zero
      else if tri_bool (cr_gt D R t (CVal 0)) then greater_than_zero
      else zero
  | CErr negative_overflow_error => less_than_min
  | CErr positive_overflow_error => greater_than_max
  | CErr _ => indeterminate
  end.

Definition pidx (f : pflag) : nat :=
  match f with
  | less_than_min => 0 | less_than_zero => 1 | zero => 2
  | greater_than_zero => 3 | greater_than_max => 4 | indeterminate => 5
  | t_value => 7 | u_value => 8 | z_value => 9
  end%nat.

Local Notation LM := less_than_min.
Local Notation LZ := less_than_zero.
Local Notation Z0 := zero.
Local Notation GZ := greater_than_zero.
Local Notation GM := greater_than_max.
Local Notation IN := indeterminate.

(** checked_result_operations.hpp:300-359 *)
Definition mul_table : list (list pflag) :=
  [ [GM; GM; Z0; LM; LM; IN];
    [GM; GZ; Z0; LZ; LM; IN];
    [Z0; Z0; Z0; Z0; Z0; IN];
    [LM; LZ; Z0; GZ; GM; IN];
    [LM; LM; Z0; GM; GM; IN];
    [IN; IN; IN; IN; IN; IN] ].

(** checked_result_operations.hpp:288-380, operator* *)
Definition cr_mul (D : dmodel) (R : ctype) (t u : checked) : res checked :=
  match lookup IN mul_table (pidx (to_pflag D R t)) (pidx (to_pflag D R u)) with
  | less_than_min => Ok (CErr neg)
  | zero => Ok (CVal 0)
  | greater_than_max => Ok (CErr pos)
  | less_than_zero | greater_than_zero =>
      let* a := cr_value t in let* b := cr_value u in multiply D R a b
  | indeterminate => Ok (CErr rng)
  | _ => UB (* assert(false) *)
  end.

(** checked_result_operations.hpp:395-454 *)
Definition div_table : list (list pflag) :=
  [ [IN; GM; LM; LM; LM; IN];
    [Z0; GZ; LM; LZ; Z0; IN];
    [Z0; Z0; IN; Z0; Z0; IN];
    [Z0; LZ; GM; GZ; Z0; IN];
    [LM; LM; GM; GM; IN; IN];
    [IN; IN; IN; IN; IN; IN] ].

(** checked_result_operations.hpp:383-475, operator/ *)
Definition cr_div (D : dmodel) (R : ctype) (t u : checked) : res checked :=
  match lookup IN div_table (pidx (to_pflag D R t)) (pidx (to_pflag D R u)) with
  | less_than_min => Ok (CErr neg)
  | zero => Ok (CVal 0)
  | greater_than_max => Ok (CErr pos)
  | less_than_zero | greater_than_zero =>
      let* a := cr_value t in let* b := cr_value u in divide D R a b
  | indeterminate => Ok (CErr rng)
  | _ => UB (* assert(false) *)
  end.

(** checked_result_operations.hpp:490-549 *)
Definition mod_table : list (list pflag) :=
  [ [IN;      z_value; IN; z_value; IN;      IN];
    [t_value; GZ;      IN; LZ;      t_value; IN];
    [Z0;      Z0;      IN; Z0;      Z0;      IN];
    [t_value; LZ;      IN; GZ;      t_value; IN];
    [IN;      u_value; IN; u_value; IN;      IN];
    [IN;      IN;      IN; IN;      IN;      IN] ].

(** checked_result_operations.hpp:478-575, operator% *)
Definition cr_mod (D : dmodel) (R : ctype) (t u : checked) : res checked :=
  match lookup IN mod_table (pidx (to_pflag D R t)) (pidx (to_pflag D R u)) with
  | zero => Ok (CVal 0)
  | less_than_zero | greater_than_zero =>
      let* a := cr_value t in let* b := cr_value u in modulus D R a b
  | indeterminate => Ok (CErr rng)
  | t_value => Ok t
  | u_value => let* b := cr_value u in subtract D R b 1
  | z_value => let* b := cr_value u in subtract D R 1 b
  | _ => UB (* assert(false) *)
  end.

(** checked_result_operations.hpp:796-856 *)
Definition shl_table : list (list nat) :=
  [ [1; 2; 2; 2; 2; 1];
    [3; 4; 5; 6; 2; 1];
    [3; 3; 3; 3; 3; 3];
    [3; 7; 5; 8; 9; 1];
    [1; 9; 9; 9; 9; 1];
    [1; 1; 1; 1; 1; 1] ]%nat.

(** checked_result_operations.hpp:939-999 *)
Definition shr_table : list (list nat) :=
  [ [2; 2; 2; 2; 1; 1];
    [2; 4; 5; 6; 3; 1];
    [3; 3; 3; 3; 3; 3];
    [9; 7; 5; 8; 3; 1];
    [9; 9; 9; 9; 1; 1];
    [1; 1; 1; 1; 1; 1] ]%nat.

(** checked_result_operations.hpp:784-925 (operator<<, [left = true]) and
    927-1063 (operator>>, [left = false]), which call each other. [fuel] bounds
    the recursion; running out yields [UB], and CheckedResultFacts.v proves that
    the fuel given below is never used up. *)
Fixpoint cr_shift (fuel : nat) (left : bool) (D : dmodel) (R : ctype) (t u : checked)
  : res checked :=
  match fuel with
  | O => UB
  | S n =>
      let i := lookup 0%nat (if left then shl_table else shr_table)
                 (pidx (to_pflag D R t)) (pidx (to_pflag D R u)) in
      match i with
      | 1%nat => Ok (CErr rng)
      | 2%nat => Ok (CErr neg)
      | 3%nat => Ok (CVal 0)
      | 4%nat | 7%nat =>
          let* nu := cr_neg D R u in cr_shift n (negb left) D R t nu
      | 5%nat => Ok t
      | 6%nat =>
          let* temp_t := if left then cr_mul D R t (CVal 2) else cr_div D R t (CVal 2) in
          let* temp_u := cr_sub D R u (CVal 1) in
          let* nt := cr_neg D R temp_t in
          let* s := cr_shift n left D R nt temp_u in
          cr_neg D R s
      | 8%nat =>
          let* a := cr_value t in let* b := cr_value u in
          let* r := if left then left_shift D R a b else right_shift D R a b in
          match r with
          | CErr shift_too_large => Ok (if left then CErr pos else CVal 0)
          | _ => Ok r
          end
      | 9%nat => Ok (CErr pos)
      | _ => UB (* assert(false) *)
      end
  end.

Definition cr_shl := cr_shift 4 true.
Definition cr_shr := cr_shift 4 false.

(** checked_result_operations.hpp:1065-1081, 1082-1098, 1100-1116 *)
Definition cr_bitwise (f : dmodel -> ctype -> Z -> Z -> res checked)
  (D : dmodel) (R : ctype) (t u : checked) : res checked :=
  match t, u with
  | CVal a, CVal b => f D R a b
  | _, _ => Ok (CErr rng)
  end.
Definition cr_or := cr_bitwise bitwise_or.
Definition cr_xor := cr_bitwise bitwise_xor.
Definition cr_and := cr_bitwise bitwise_and.
