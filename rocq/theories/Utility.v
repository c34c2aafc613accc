(** Utility.v -- model of include/boost/safe_numerics/utility.hpp and of the
    type selectors of boost/integer.hpp it uses. Definitions only. *)
From Coq Require Import ZArith List Bool.
From Verif Require Import Base CType.
Import ListNotations.
Local Open Scope Z_scope.
Local Open Scope res_scope.

(** utility.hpp:72-77, bits_type<T>::value *)
Definition bits_type (D : dmodel) (T : ctype) : Z :=
  digits D T + (if csigned D T then 1 else 0).

(** boost/integer.hpp (not in /repo; recalled): int_t<Bits>::least is the first
    of signed char, short, int, long, long long with at least Bits-1 digits;
    ill-formed when there is none. *)
Definition int_t_least (D : dmodel) (bits : Z) : option ctype :=
  if bits - 1 <=? digits D SChar then Some SChar
  else if bits - 1 <=? digits D Short then Some Short
  else if bits - 1 <=? digits D Int then Some Int
  else if bits - 1 <=? digits D Long then Some Long
  else if bits - 1 <=? digits D LLong then Some LLong
  else None.

(** boost/integer.hpp (recalled): uint_t<Bits>::least *)
Definition uint_t_least (D : dmodel) (bits : Z) : option ctype :=
  if bits <=? digits D UChar then Some UChar
  else if bits <=? digits D UShort then Some UShort
  else if bits <=? digits D UInt then Some UInt
  else if bits <=? digits D ULong then Some ULong
  else if bits <=? digits D ULLong then Some ULLong
  else None.

(** boost/integer.hpp (recalled): int_t<Bits>::exact is the lowest-ranked
    signed type of exactly that width. *)
Definition int_t_exact (D : dmodel) (bits : Z) : option ctype :=
  if bits =? width D SChar then Some SChar
  else if bits =? width D Short then Some Short
  else if bits =? width D Int then Some Int
  else if bits =? width D Long then Some Long
  else if bits =? width D LLong then Some LLong
  else None.

(** utility.hpp:121-126, LogTable256 *)
Definition LT (n : Z) : list Z := [n;n;n;n;n;n;n;n;n;n;n;n;n;n;n;n].
Definition LogTable256 : list Z :=
  [-1; 0; 1; 1; 2; 2; 2; 2; 3; 3; 3; 3; 3; 3; 3; 3]
  ++ LT 4 ++ LT 5 ++ LT 5 ++ LT 6 ++ LT 6 ++ LT 6 ++ LT 6
  ++ LT 7 ++ LT 7 ++ LT 7 ++ LT 7 ++ LT 7 ++ LT 7 ++ LT 7 ++ LT 7.

(** utility.hpp:112-128, ilog2_detail::ilog2<N> for N = 8 * 2^k. The operand
    has the unsigned type of exactly N bits; the halves are obtained by a
    shift and by truncation to N/2 bits, neither of which can overflow. *)
Fixpoint ilog2_detail (k : nat) (t : Z) : Z :=
  match k with
  | O => nth (Z.to_nat t) LogTable256 0
  | S k' =>
      let half := 8 * 2 ^ Z.of_nat k' in
      let upper_half := (t / 2 ^ half) mod 2 ^ half in
      let lower_half := t mod 2 ^ half in
      if upper_half =? 0 then ilog2_detail k' lower_half
      else half + ilog2_detail k' upper_half
  end.

(** number of halvings from a type of the given width down to 8 bits *)
Definition ilog2_level (w : Z) : nat :=
  if w =? 64 then 3%nat else if w =? 32 then 2%nat
  else if w =? 16 then 1%nat else 0%nat.

(** utility.hpp:132-145, ilog2(t) for t of type T *)
Definition ilog2 (D : dmodel) (T : ctype) (t : Z) : Z :=
  if t =? 0 then 0
  else ilog2_detail (ilog2_level (bits_type D T)) (t mod 2 ^ bits_type D T).

(** utility.hpp:149-152, significant_bits(t) for t of type T *)
Definition significant_bits (D : dmodel) (T : ctype) (t : Z) : Z :=
  1 + (if c_lt D T Int t 0
       then ilog2 D (promote D T) (c_not D T t)
       else ilog2 D T t).

(** utility.hpp:179-184, max *)
Definition util_max (a b : Z) : Z := if b <? a then a else b.

(** utility.hpp:188-197, signed_stored_type<Min, Max> (Min, Max of intmax_t) *)
Definition signed_stored_type (D : dmodel) (mn mx : Z) : option ctype :=
  int_t_least D
    (util_max (significant_bits D (intmax D) mn)
              (significant_bits D (intmax D) mx) + 1).

(** utility.hpp:201-208, unsigned_stored_type<Min, Max> *)
Definition unsigned_stored_type (D : dmodel) (mn mx : Z) : option ctype :=
  uint_t_least D (significant_bits D (uintmax D) mx).

(** utility.hpp:238-252, round_out(t) for t of type T. The std::uint8_t
    conversion of the bit count cannot change it (it is at most 64). *)
Definition round_out (D : dmodel) (T : ctype) (t : Z) : res Z :=
  if negb (c_lt D T Int t 0) then
    let sb := significant_bits D T t in
    if sb <? width D T then
      let* s := c_shl D T UChar 1 sb in
      let* r := c_sub D (promote D T) Int s 1 in
      Ok (conv D T r)
    else Ok (hi D T)
  else
    let sb := significant_bits D (promote D T) (c_not D T t) in
    if sb <? width D T then
      let* s := c_shl D T UChar 1 sb in
      let* r := c_sub D (promote D T) Int s 1 in
      Ok (conv D T (c_not D (promote D T) r))
    else Ok (lo D T).
