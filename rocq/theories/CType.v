(** CType.v -- C++14 built-in integer types, conversions and operators.

    Model file: definitions only. This file models the language, not a file of
    /repo: the library's own expressions are transcribed with the operators
    defined here. The library requires C++14 (CMakeLists.txt:51,
    meta/libraries.json). *)
From Coq Require Import ZArith List Bool.
From Verif Require Import Base.
Import ListNotations.
Local Open Scope Z_scope.
Local Open Scope res_scope.

(** Data models. [LP64]: Linux/macOS x86-64. [LP64u]: the same with unsigned
    [char] (AArch64 Linux). [LLP64]: Windows x64. [ILP32]: 32-bit platforms.
    [IP16]: 16-bit int, 32-bit long (small micro-controllers). *)
Inductive dmodel : Type := LP64 | LP64u | LLP64 | ILP32 | IP16.

Definition all_dmodel : list dmodel := [LP64; LP64u; LLP64; ILP32; IP16].

Inductive ctype : Type :=
| Char | SChar | UChar | Short | UShort | Int | UInt | Long | ULong | LLong | ULLong.

Definition all_ctype : list ctype :=
  [Char; SChar; UChar; Short; UShort; Int; UInt; Long; ULong; LLong; ULLong].

Definition ctype_eqb (a b : ctype) : bool :=
  match a, b with
  | Char, Char | SChar, SChar | UChar, UChar | Short, Short | UShort, UShort
  | Int, Int | UInt, UInt | Long, Long | ULong, ULong | LLong, LLong
  | ULLong, ULLong => true
  | _, _ => false
  end.

(** sizeof(T) * CHAR_BIT *)
Definition width (D : dmodel) (T : ctype) : Z :=
  match T with
  | Char | SChar | UChar => 8
  | Short | UShort => 16
  | Int | UInt => match D with IP16 => 16 | _ => 32 end
  | Long | ULong => match D with LP64 | LP64u => 64 | _ => 32 end
  | LLong | ULLong => 64
  end.

(** std::is_signed<T> *)
Definition csigned (D : dmodel) (T : ctype) : bool :=
  match T with
  | Char => match D with LP64u => false | _ => true end
  | SChar | Short | Int | Long | LLong => true
  | UChar | UShort | UInt | ULong | ULLong => false
  end.

(** std::numeric_limits<T>::digits *)
Definition digits (D : dmodel) (T : ctype) : Z :=
  if csigned D T then width D T - 1 else width D T.

(** std::numeric_limits<T>::min() and max() *)
Definition lo (D : dmodel) (T : ctype) : Z :=
  if csigned D T then - 2 ^ digits D T else 0.

Definition hi (D : dmodel) (T : ctype) : Z := 2 ^ digits D T - 1.

Definition in_range (D : dmodel) (T : ctype) (z : Z) : bool :=
  (lo D T <=? z) && (z <=? hi D T).

(** std::make_unsigned / std::make_signed *)
Definition to_unsigned (T : ctype) : ctype :=
  match T with
  | Char | SChar | UChar => UChar
  | Short | UShort => UShort
  | Int | UInt => UInt
  | Long | ULong => ULong
  | LLong | ULLong => ULLong
  end.

Definition to_signed (T : ctype) : ctype :=
  match T with
  | Char | SChar | UChar => SChar
  | Short | UShort => Short
  | Int | UInt => Int
  | Long | ULong => Long
  | LLong | ULLong => LLong
  end.

(** integer conversion rank [conv.rank] *)
Definition rank (T : ctype) : Z :=
  match T with
  | Char | SChar | UChar => 1
  | Short | UShort => 2
  | Int | UInt => 3
  | Long | ULong => 4
  | LLong | ULLong => 5
  end.

(** integral promotion [conv.prom] *)
Definition promote (D : dmodel) (T : ctype) : ctype :=
  if rank T <? rank Int then
    if hi D T <=? hi D Int then Int else UInt
  else T.

(** usual arithmetic conversions [expr]/10: the type of [T op U] *)
Definition uac (D : dmodel) (T U : ctype) : ctype :=
  let P := promote D T in
  let Q := promote D U in
  if ctype_eqb P Q then P
  else if Bool.eqb (csigned D P) (csigned D Q) then
    if rank P <? rank Q then Q else P
  else
    let s := if csigned D P then P else Q in
    let u := if csigned D P then Q else P in
    if rank s <=? rank u then u
    else if digits D u <=? digits D s then s
    else to_unsigned s.

(** static_cast<T>(z): modulo 2^width; implementation-defined for signed T in
    C++14, taken to wrap. *)
Definition conv (D : dmodel) (T : ctype) (z : Z) : Z :=
  if csigned D T
  then (z + 2 ^ digits D T) mod 2 ^ width D T - 2 ^ digits D T
  else z mod 2 ^ width D T.

(** Result of an arithmetic operator in type R: signed overflow is undefined,
    unsigned arithmetic wraps. *)
Definition fin (D : dmodel) (R : ctype) (z : Z) : res Z :=
  if csigned D R
  then if in_range D R z then Ok z else UB
  else Ok (conv D R z).

Definition c_arith (f : Z -> Z -> Z) (D : dmodel) (T U : ctype) (x y : Z) : res Z :=
  let R := uac D T U in
  fin D R (f (conv D R x) (conv D R y)).

Definition c_add := c_arith Z.add.
Definition c_sub := c_arith Z.sub.
Definition c_mul := c_arith Z.mul.

(** x / y : division by zero is undefined; MIN / -1 overflows. *)
Definition c_div (D : dmodel) (T U : ctype) (x y : Z) : res Z :=
  let R := uac D T U in
  let a := conv D R x in
  let b := conv D R y in
  if b =? 0 then UB else fin D R (Z.quot a b).

(** x % y : undefined when the quotient is not representable [expr.mul]/4. *)
Definition c_rem (D : dmodel) (T U : ctype) (x y : Z) : res Z :=
  let R := uac D T U in
  let a := conv D R x in
  let b := conv D R y in
  if b =? 0 then UB
  else let* _ := fin D R (Z.quot a b) in Ok (Z.rem a b).

(** x << y [expr.shift]/1,2 (C++14 with DR1457): the type is the promoted left
    operand's. *)
Definition c_shl (D : dmodel) (T U : ctype) (x y : Z) : res Z :=
  let P := promote D T in
  if (y <? 0) || (width D P <=? y) then UB
  else if csigned D P then
    if x <? 0 then UB
    else if x * 2 ^ y <=? hi D (to_unsigned P) then Ok (conv D P (x * 2 ^ y))
    else UB
  else Ok (conv D P (x * 2 ^ y)).

(** x >> y [expr.shift]/1,3; a negative left operand is implementation-defined
    (arithmetic shift). *)
Definition c_shr (D : dmodel) (T U : ctype) (x y : Z) : res Z :=
  let P := promote D T in
  if (y <? 0) || (width D P <=? y) then UB
  else Ok (x / 2 ^ y).

(** bitwise operators: never undefined *)
Definition c_or (D : dmodel) (T U : ctype) (x y : Z) : Z :=
  let R := uac D T U in Z.lor (conv D R x) (conv D R y).
Definition c_and (D : dmodel) (T U : ctype) (x y : Z) : Z :=
  let R := uac D T U in Z.land (conv D R x) (conv D R y).
Definition c_xor (D : dmodel) (T U : ctype) (x y : Z) : Z :=
  let R := uac D T U in Z.lxor (conv D R x) (conv D R y).

(** ~x and -x *)
Definition c_not (D : dmodel) (T : ctype) (x : Z) : Z :=
  conv D (promote D T) (Z.lnot x).
Definition c_neg (D : dmodel) (T : ctype) (x : Z) : res Z :=
  fin D (promote D T) (- x).

(** x < y and x == y *)
Definition c_lt (D : dmodel) (T U : ctype) (x y : Z) : bool :=
  let R := uac D T U in conv D R x <? conv D R y.
Definition c_eq (D : dmodel) (T U : ctype) (x y : Z) : bool :=
  let R := uac D T U in conv D R x =? conv D R y.

(** std::intmax_t / std::uintmax_t *)
Definition intmax (D : dmodel) : ctype :=
  match D with LP64 | LP64u => Long | _ => LLong end.
Definition uintmax (D : dmodel) : ctype :=
  match D with LP64 | LP64u => ULong | _ => ULLong end.
