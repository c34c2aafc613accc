(** Limits.v -- std::numeric_limits of safe types, and the display of a value with
    its range. Models:
    - /repo/include/boost/safe_numerics/safe_base.hpp:284-310 (numeric_limits)
    - /repo/include/boost/safe_numerics/interval.hpp:46-49, 78-85, 268-302
      (default interval, make_interval, output of intervals)
    - /repo/include/boost/safe_numerics/range_value.hpp (make_range_value,
      make_result_display)
    - /repo/include/boost/safe_numerics/safe_base_operations.hpp:1773-1793 (output),
      here for decimal and hexadecimal streams
    std::numeric_limits of the built-in types and the integer inserters of
    std::ostream are modelled after the C++ standard. Streams have the default
    format flags apart from dec/hex, no field width and the "C" locale.
    Model file: definitions only. *)
From Coq Require Import ZArith List Bool.
From Verif Require Import Base CType ExceptionPolicy Promotion SafeBase Stream.
Import ListNotations.
Local Open Scope Z_scope.

(** the members of std::numeric_limits that matter for integers *)
Record limits : Type := mkLim {
  nl_min : Z; nl_max : Z; nl_lowest : Z;
  nl_digits : Z; nl_digits10 : Z; nl_radix : Z;
  nl_signed : bool; nl_integer : bool; nl_exact : bool; nl_bounded : bool; nl_modulo : bool }.

(** std::numeric_limits<T> for a built-in type. digits10 = floor(digits * log10 2),
    computed as the standard libraries do; is_modulo as for libstdc++ and libc++
    without -fwrapv: true for the unsigned types only. *)
Definition raw_limits (D : dmodel) (T : ctype) : limits :=
  mkLim (lo D T) (hi D T) (lo D T) (digits D T) (digits D T * 643 / 2136) 2
        (csigned D T) true true true (negb (csigned D T)).

(** safe_base.hpp:290-308: inherits from std::numeric_limits<T>; lowest, min and max
    are redefined and return Min, Min and Max *)
Definition safe_limits (D : dmodel) (s : safe_t) : limits :=
  let b := raw_limits D (st s) in
  mkLim (smin s) (smax s) (smin s) (nl_digits b) (nl_digits10 b) (nl_radix b)
        (nl_signed b) (nl_integer b) (nl_exact b) (nl_bounded b) (nl_modulo b).

(** std::numeric_limits of the type of an operand; safe_integer_literal.hpp:236-256
    redefines the same members for literals, and :62-80 prints them in the same way.
    The policies do not matter. *)
Definition limits_of (D : dmodel) (o : otype) : limits :=
  match o with
  | OSafe s => safe_limits D s
  | ORaw T => raw_limits D T
  | OLit T n _ _ => safe_limits D (mkSafe T n n Native loose_exception_policy)
  end.

(** interval.hpp:46-49, 78-85: interval<R>(), make_interval<R>() *)
Definition make_interval (D : dmodel) (o : otype) : Z * Z :=
  (nl_min (limits_of D o), nl_max (limits_of D o)).

(** ------------------------------------------------------------------ *)
(** std::ostream: the inserters of the integer types. With std::hex the value is
    printed as that of the corresponding unsigned type, in lower case. *)
Definition hex_digit (d : Z) : Z := if d <? 10 then ch_0 + d else 97 + (d - 10).
Fixpoint hex_of (fuel : nat) (n : Z) : list Z :=
  match fuel with
  | O => []
  | S f => if n <? 16 then [hex_digit n] else hex_of f (n / 16) ++ [hex_digit (n mod 16)]
  end.
Definition put_hex (D : dmodel) (T : ctype) (v : Z) : list Z :=
  let n := v mod 2 ^ width D T in hex_of (S (Z.to_nat (Z.log2 n))) n.
Definition put (D : dmodel) (hex : bool) (T : ctype) (v : Z) : list Z :=
  if hex then put_hex D T v else put_int v.
(** char, signed char and unsigned char are inserted as characters *)
Definition char_type (T : ctype) : bool :=
  match T with Char | SChar | UChar => true | _ => false end.
Definition insert_raw (D : dmodel) (hex : bool) (T : ctype) (v : Z) : list Z :=
  if char_type T then [conv D UChar v] else put D hex T v.

(** safe_base_operations.hpp:1773-1793 and safe_base.hpp:144-152 *)
Definition insert_safe (D : dmodel) (hex : bool) (s : safe_t) (v : Z) : list Z :=
  let C := uac D Int (st s) in
  put D hex C (conv D C (if is_small_char (st s) then conv D Int v else v)).
Definition insert (D : dmodel) (hex : bool) (o : otype) (v : Z) : list Z :=
  match o with
  | OSafe s => insert_safe D hex s v
  | ORaw T => insert_raw D hex T v
  | OLit T n _ _ => insert_safe D hex (mkSafe T n n Native loose_exception_policy) v
  end.

(** interval.hpp:272-302: '[' l ',' u ']'; the bounds of interval<unsigned char> and
    interval<signed char> are cast to unsigned and int *)
Definition insert_interval (D : dmodel) (hex : bool) (o : otype) (i : Z * Z) : list Z :=
  let item v :=
    match o with
    | ORaw UChar => put D hex UInt (conv D UInt v)
    | ORaw SChar => put D hex Int (conv D Int v)
    | _ => insert D hex o v
    end in
  [91] ++ item (fst i) ++ [44] ++ item (snd i) ++ [93].

(** range_value.hpp:33-47: os << make_interval<T>() << t.m_t *)
Definition range_value (D : dmodel) (hex : bool) (o : otype) (v : Z) : list Z :=
  insert_interval D hex o (make_interval D o) ++ insert D hex o v.

(** range_value.hpp:62-73: std::hex, range and value, '(' std::dec value ')'. The
    format of the stream before the call does not matter; after it it is decimal. *)
Definition result_display (D : dmodel) (o : otype) (v : Z) : list Z * bool :=
  (range_value D true o v ++ [40] ++ insert D false o v ++ [41], false).
