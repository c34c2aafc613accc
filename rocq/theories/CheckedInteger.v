(** CheckedInteger.v -- model of include/boost/safe_numerics/checked_integer.hpp
    for integral R and T. Definitions only.

    In every function below each error is produced by
    [return F::template invoke<e>(msg)]. For F = make_checked_result<R>
    (checked_result.hpp:97-106, the default) that is the checked_result holding
    the error e: [CErr e]. For F = dispatch_and_return<E, R>
    (safe_base_operations.hpp:72-94) the call dispatches e and then produces the
    same [CErr e]; since every call is the last thing the function does, that
    case is modelled by the caller applying the dispatch to the returned error.

    The implicit conversions from an expression to checked_result<R> go through
    its constructor taking [const R &] (checked_result.hpp:46-49): [ret]. *)
From Coq Require Import ZArith Bool.
From Verif Require Import Base CType Utility SafeCompare.
Local Open Scope Z_scope.
Local Open Scope res_scope.

(** checked_result.hpp:46-49, checked_result<R>(expr) *)
Definition ret (D : dmodel) (R : ctype) (m : res Z) : res checked :=
  let* z := m in Ok (CVal (conv D R z)).

(** heterogeneous_checked_operation<R, Min, Max, T>::cast
    checked_integer.hpp:58-78 (both signed), 79-100 (R signed, T unsigned),
    101-122 (both unsigned), 123-142 (R unsigned, T signed), 145-153. *)
Definition het_cast (D : dmodel) (R : ctype) (mn mx : Z) (T : ctype) (t : Z)
  : checked :=
  match csigned D R, csigned D T with
  | true, true =>
      if greater_than D T R t mx then CErr positive_overflow_error
      else if less_than D T R t mn then CErr negative_overflow_error
      else CVal (conv D R t)
  | true, false =>
      if greater_than D T R t mx then CErr positive_overflow_error
      else if less_than D T R t mn then CErr positive_overflow_error
      else CVal (conv D R t)
  | false, false =>
      if greater_than D T R t mx then CErr positive_overflow_error
      else if less_than D T R t mn then CErr positive_overflow_error
      else CVal (conv D R t)
  | false, true =>
      if less_than D T R t mn then CErr domain_error
      else if greater_than D T R t mx then CErr positive_overflow_error
      else CVal (conv D R t)
  end.

(** checked_default.hpp:135-142, checked::cast<R>(t) *)
Definition cast (D : dmodel) (R T : ctype) (t : Z) : checked :=
  het_cast D R (lo D R) (hi D R) T t.

(** checked_integer.hpp:232-275, add *)
Definition add (D : dmodel) (R : ctype) (t u : Z) : res checked :=
  if csigned D R then
    let* c1 := if c_lt D Int R 0 u
               then let* m := c_sub D R R (hi D R) u in
                    Ok (c_lt D (uac D R R) R m t)
               else Ok false in
    if c1 then Ok (CErr positive_overflow_error) else
    let* c2 := if c_lt D R Int u 0
               then let* m := c_sub D R R (lo D R) u in
                    Ok (c_lt D R (uac D R R) t m)
               else Ok false in
    if c2 then Ok (CErr negative_overflow_error) else
    ret D R (c_add D R R t u)
  else
    let* m := c_sub D R R (hi D R) u in
    if c_lt D (uac D R R) R m t then Ok (CErr positive_overflow_error)
    else ret D R (c_add D R R t u).

(** checked_integer.hpp:282-324, subtract *)
Definition subtract (D : dmodel) (R : ctype) (t u : Z) : res checked :=
  if csigned D R then
    let* c1 := if c_lt D Int R 0 u
               then let* m := c_add D R R (lo D R) u in
                    Ok (c_lt D R (uac D R R) t m)
               else Ok false in
    if c1 then Ok (CErr negative_overflow_error) else
    let* c2 := if c_lt D R Int u 0
               then let* m := c_add D R R (hi D R) u in
                    Ok (c_lt D (uac D R R) R m t)
               else Ok false in
    if c2 then Ok (CErr positive_overflow_error) else
    ret D R (c_sub D R R t u)
  else
    if c_lt D R R t u then Ok (CErr negative_overflow_error)
    else ret D R (c_sub D R R t u).

(** checked_integer.hpp:331-363, minus *)
Definition minus (D : dmodel) (R : ctype) (t : Z) : res checked :=
  if csigned D R then
    if c_eq D R R t (lo D R) then Ok (CErr positive_overflow_error)
    else ret D R (c_neg D R t)
  else
    if c_lt D Int R 0 t then Ok (CErr negative_overflow_error)
    else Ok (CVal 0).

(** checked_integer.hpp:411-441, multiply, signed, sizeof(R) <= sizeof(intmax_t)/2 *)
Definition multiply_signed_small (D : dmodel) (R : ctype) (t u : Z) : res checked :=
  let I := intmax D in
  let* p := c_mul D I I (conv D I t) (conv D I u) in
  if c_lt D I I (conv D I (hi D R)) p then Ok (CErr positive_overflow_error) else
  if c_lt D I I p (conv D I (lo D R)) then Ok (CErr negative_overflow_error) else
  ret D R (c_mul D R R t u).

(** checked_integer.hpp:442-479, multiply, signed, otherwise *)
Definition multiply_signed_big (D : dmodel) (R : ctype) (t u : Z) : res checked :=
  let RR := uac D R R in
  if c_lt D Int R 0 t then
    if c_lt D Int R 0 u then
      let* q := c_div D R R (hi D R) u in
      if c_lt D RR R q t then Ok (CErr positive_overflow_error)
      else ret D R (c_mul D R R t u)
    else
      let* q := c_div D R R (lo D R) t in
      if c_lt D R RR u q then Ok (CErr negative_overflow_error)
      else ret D R (c_mul D R R t u)
  else
    if c_lt D Int R 0 u then
      let* q := c_div D R R (lo D R) u in
      if c_lt D R RR t q then Ok (CErr negative_overflow_error)
      else ret D R (c_mul D R R t u)
    else
      let* c := if negb (c_eq D R Int t 0)
                then let* q := c_div D R R (hi D R) t in
                     Ok (c_lt D R RR u q)
                else Ok false in
      if c then Ok (CErr positive_overflow_error)
      else ret D R (c_mul D R R t u).

(** checked_integer.hpp:371-391, multiply, unsigned, small *)
Definition multiply_unsigned_small (D : dmodel) (R : ctype) (t u : Z) : res checked :=
  let I := uintmax D in
  let* p := c_mul D I I (conv D I t) (conv D I u) in
  if c_lt D R I (hi D R) p then Ok (CErr positive_overflow_error)
  else ret D R (c_mul D R R t u).

(** checked_integer.hpp:392-408, multiply, unsigned, big *)
Definition multiply_unsigned_big (D : dmodel) (R : ctype) (t u : Z) : res checked :=
  let* c := if c_lt D Int R 0 u
            then let* q := c_div D R R (hi D R) u in
                 Ok (c_lt D (uac D R R) R q t)
            else Ok false in
  if c then Ok (CErr positive_overflow_error)
  else ret D R (c_mul D R R t u).

(** checked_integer.hpp:482-492, multiply *)
Definition multiply (D : dmodel) (R : ctype) (t u : Z) : res checked :=
  let big := width D (uintmax D) / 2 <? width D R in
  match csigned D R, big with
  | true, true => multiply_signed_big D R t u
  | true, false => multiply_signed_small D R t u
  | false, true => multiply_unsigned_big D R t u
  | false, false => multiply_unsigned_small D R t u
  end.

(** checked_integer.hpp:498-530, divide *)
Definition divide (D : dmodel) (R : ctype) (t u : Z) : res checked :=
  if c_eq D R Int u 0 then Ok (CErr domain_error)
  else if csigned D R then
    if c_eq D R Int u (-1) && c_eq D R R t (lo D R)
    then Ok (CErr positive_overflow_error)
    else ret D R (c_div D R R t u)
  else ret D R (c_div D R R t u).

(** checked_integer.hpp:536-572, modulus *)
Definition modulus (D : dmodel) (R : ctype) (t u : Z) : res checked :=
  if c_eq D Int R 0 u then Ok (CErr domain_error)
  else if csigned D R then
    if negb (c_lt D R Int u 0) then ret D R (c_rem D R R t u)
    else
      let* ux := minus D R u in
      match ux with
      | CErr _ => Ok (CVal t)
      | CVal v => ret D R (c_rem D R R t v)
      end
  else ret D R (c_rem D R R t u).

(** checked_integer.hpp:607-664, left_shift_integer_detail::left_shift.
    [numeric_limits<R>::digits - significant_bits(t)] is int minus unsigned. *)
Definition left_shift_detail (D : dmodel) (R : ctype) (t u : Z) : res checked :=
  if csigned D R && c_lt D R Int t 0 then Ok (CErr negative_shift)
  else
    let* room := c_sub D Int UInt (digits D R) (significant_bits D R t) in
    if greater_than D R UInt u room then Ok (CErr shift_too_large)
    else ret D R (c_shl D R R t u).

(** checked_integer.hpp:668-691, left_shift *)
Definition left_shift (D : dmodel) (R : ctype) (t u : Z) : res checked :=
  if c_eq D R Int u 0 then Ok (CVal t)
  else if c_lt D R Int u 0 then Ok (CErr negative_shift)
  else if c_lt D Int R (digits D R) u then Ok (CErr shift_too_large)
  else left_shift_detail D R t u.

(** checked_integer.hpp:702-727, right_shift_integer_detail::right_shift *)
Definition right_shift_detail (D : dmodel) (R : ctype) (t u : Z) : res checked :=
  if csigned D R && c_lt D R Int t 0 then Ok (CErr negative_value_shift)
  else ret D R (c_shr D R R t u).

(** checked_integer.hpp:730-750, right_shift *)
Definition right_shift (D : dmodel) (R : ctype) (t u : Z) : res checked :=
  if c_lt D R Int u 0 then Ok (CErr negative_shift)
  else if c_lt D Int R (digits D R) u then Ok (CErr shift_too_large)
  else right_shift_detail D R t u.

(** checked_integer.hpp:759-770 *)
Definition bitwise_or (D : dmodel) (R : ctype) (t u : Z) : res checked :=
  if bits_type D R <? Z.max (significant_bits D R t) (significant_bits D R u)
  then Ok (CErr positive_overflow_error)
  else ret D R (Ok (c_or D R R t u)).

(** checked_integer.hpp:772-783 *)
Definition bitwise_xor (D : dmodel) (R : ctype) (t u : Z) : res checked :=
  if bits_type D R <? Z.max (significant_bits D R t) (significant_bits D R u)
  then Ok (CErr positive_overflow_error)
  else ret D R (Ok (c_xor D R R t u)).

(** checked_integer.hpp:785-796 *)
Definition bitwise_and (D : dmodel) (R : ctype) (t u : Z) : res checked :=
  if bits_type D R <? Z.min (significant_bits D R t) (significant_bits D R u)
  then Ok (CErr positive_overflow_error)
  else ret D R (Ok (c_and D R R t u)).

(** checked_integer.hpp:798-807 *)
Definition bitwise_not (D : dmodel) (R : ctype) (t : Z) : res checked :=
  if bits_type D R <? significant_bits D R t
  then Ok (CErr positive_overflow_error)
  else ret D R (Ok (c_not D R t)).
