(** ErrorText.v -- the texts by which errors and checked results are shown. Text is a list of
    ASCII codes, in the "C" locale and with the default format flags. Model file: definitions
    only. *)
From Coq Require Import ZArith List Bool Ascii String.
From Verif Require Import Base CType Stream Limits.
Import ListNotations.
Local Open Scope Z_scope.

Definition codes (s : string) : list Z := map (fun a => Z.of_N (N_of_ascii a)) (list_ascii_of_string s).

(** exception.hpp:48-64, literal_string *)
Definition literal_string (e : err) : list Z :=
  codes
    (match e with
     | success => "success"
     | positive_overflow_error => "positive_overflow_error"
     | negative_overflow_error => "negative_overflow_error"
     | domain_error => "domain_error"
     | range_error => "range_error"
     | precision_overflow_error => "precision_overflow_error"
     | underflow_error => "underflow_error"
     | negative_value_shift => "negative_value_shift"
     | negative_shift => "negative_shift"
     | shift_too_large => "shift_too_large"
     | uninitialized_value => "uninitialized_value"
     end)%string.

(** exception.hpp:84-121, safe_numerics_error_category.message *)
Definition message (e : err) : list Z :=
  codes
    (match e with
     | success => "success"
     | positive_overflow_error => "positive overflow error"
     | negative_overflow_error => "negative overflow error"
     | underflow_error => "underflow error"
     | range_error => "range error"
     | precision_overflow_error => "precision_overflow_error"
     | domain_error => "domain error"
     | negative_shift => "negative shift"
     | negative_value_shift => "negative value shift"
     | shift_too_large => "shift too large"
     | uninitialized_value => "uninitialized value"
     end)%string.

(** exception.hpp:34-46: the number of an enumerator, which make_error_code
    (exception.hpp:119-121) makes the value of the std::error_code *)
Definition error_code_value (e : err) : Z :=
  match e with
  | success => 0 | positive_overflow_error => 1 | negative_overflow_error => 2 | domain_error => 3
  | range_error => 4 | precision_overflow_error => 5 | underflow_error => 6 | negative_value_shift => 7
  | negative_shift => 8 | shift_too_large => 9 | uninitialized_value => 10
  end.

(** std::system_error::what(), exception_policies.hpp:70-82: libstdc++, libc++ and the Microsoft
    library all give the message, ": " and the text of the code *)
Definition what (e : err) (msg : list Z) : list Z := msg ++ codes ": " ++ message e.

(** checked_result_operations.hpp:1123-1150, operator<<: '1' and the texts of the error, or '0'
    and the value, which for signed char is converted to std::int16_t. [msg] is the text given
    with the error (checked_result.hpp:46-53) *)
Definition cr_output (D : dmodel) (R : ctype) (c : checked) (msg : list Z) : list Z :=
  match c with
  | CVal x => codes "0" ++ match R with
                            | SChar => insert_raw D false Short (conv D Short x)
                            | _ => insert_raw D false R x
                            end
  | CErr e => codes "1" ++ message e ++ codes ":" ++ msg
  end.
