(** BaseStream.v -- reading and writing safe values on streams with std::dec,
    std::oct or std::hex: safe_base_operations.hpp:1773-1847 (safe_base::output,
    safe_base::input). Stream.v models the same functions for std::dec.

    The streams are modelled from the standard, [facet.num.get.virtuals] and
    [facet.num.put.virtuals], with the simplifications of Stream.v except that the
    basefield flag is arbitrary (it is not 0). A "0x" without a hexadecimal digit
    behind it is read as malformed, as libstdc++ does.
    Model file: definitions only. *)
From Coq Require Import ZArith List Bool.
From Verif Require Import Base CType ExceptionPolicy Promotion SafeBase Stream.
Import ListNotations.
Local Open Scope Z_scope.

(** std::ios_base::basefield *)
Inductive basefield : Type := BDec | BOct | BHex.
Definition radix (b : basefield) : Z := match b with BDec => 10 | BOct => 8 | BHex => 16 end.

(** the value of a digit; 16 for other characters *)
Definition digit_val (c : Z) : Z :=
  if (48 <=? c) && (c <=? 57) then c - 48
  else if (97 <=? c) && (c <=? 102) then c - 87
  else if (65 <=? c) && (c <=? 70) then c - 55
  else 16.
Definition is_digit_b (b : basefield) (c : Z) : bool := digit_val c <? radix b.

(** num_get, stage 2: the longest prefix that is allowed for %d, %u, %o or %x *)
Fixpoint span_b (b : basefield) (cs : list Z) : list Z * list Z :=
  match cs with
  | [] => ([], [])
  | c :: r => if is_digit_b b c then let (d, k) := span_b b r in (c :: d, k) else ([], cs)
  end.
(** %x allows 0x or 0X before the digits *)
Definition drop_prefix (b : basefield) (cs : list Z) : list Z :=
  match b, cs with
  | BHex, z :: x :: r => if (z =? 48) && ((x =? 120) || (x =? 88)) then r else cs
  | _, _ => cs
  end.
Definition scan_b (b : basefield) (cs : list Z) : bool * list Z * list Z :=
  let digits r := span_b b (drop_prefix b r) in
  match cs with
  | c :: r =>
      if c =? ch_minus then (true, fst (digits r), snd (digits r))
      else if c =? ch_plus then (false, fst (digits r), snd (digits r))
      else (false, fst (digits cs), snd (digits cs))
  | [] => (false, [], [])
  end.
Definition number_b (b : basefield) (ds : list Z) : Z :=
  fold_left (fun a c => radix b * a + digit_val c) ds 0.

(** num_get, stage 3, as in Stream.num_value *)
Definition num_value_b (b : basefield) (D : dmodel) (T : ctype) (neg : bool) (ds : list Z) : Z * bool :=
  match ds with
  | [] => (0, true)
  | _ =>
      let n := number_b b ds in
      if csigned D T then
        let v := if neg then - n else n in
        if v <? lo D T then (lo D T, true)
        else if hi D T <? v then (hi D T, true)
        else (v, false)
      else if hi D T <? n then (hi D T, true)
      else ((if neg then conv D T (- n) else n), false)
  end.

(** operator>>(T &), as in Stream.extract *)
Definition extract_b (b : basefield) (D : dmodel) (T : ctype) (i : istream) (old : option Z)
  : istream * option Z :=
  let (ok, i1) := sentry false i in
  if ok then
    let '(neg, ds, rest) := scan_b b (chars i1) in
    let (v, err) := num_value_b b D T neg ds in
    (mkIs rest err (match rest with [] => true | _ => false end), Some v)
  else (i1, old).

(** safe_base_operations.hpp:1828: is >> m_t; a char is read as a character *)
Definition extract_raw_b (b : basefield) (D : dmodel) (T : ctype) (i : istream) (old : option Z)
  : istream * option Z :=
  match T with
  | Char => extract_char D i old
  | _ => extract_b b D T i old
  end.

(** safe_base_operations.hpp:1795-1845, safe_base::input *)
Definition input_b (b : basefield) (D : dmodel) (s : safe_t) (i : istream) (m_t : option Z)
  : option (istream * option Z * M unit) :=
  if input_compiles D s then
    Some
      (if is_small_char (st s) then
         (* int x; is >> x; m_t = validated_cast(x); *)
         let (i1, x) := extract_b b D Int i None in
         match x with
         | None => (i1, m_t, mundef) (* x is read uninitialized *)
         | Some x =>
             let m := validated D s Int x in
             (i1, match snd m with Ret v => Some v | _ => m_t end,
              mbind m (fun _ => mret tt))
         end
       else
         let i1 := if csigned D (st s) then i else reject_minus i in
         let (i2, v) := extract_raw_b b D (st s) i1 m_t in
         if failbit i2 then (i2, v, dispatch (sE s) domain_error)
         else
           match v with
           | None => (i2, v, mundef)
           | Some x => (i2, v, mbind (validated D s (st s) x) (fun _ => mret tt))
           end)
  else None.

(** num_put: %d or %u, %o, %x. The last two print the value of the corresponding
    unsigned type, hexadecimal digits in lower case; no prefix (no showbase). *)
Definition char_of (d : Z) : Z := if d <? 10 then 48 + d else 87 + d.
Fixpoint digits_b (b : basefield) (fuel : nat) (n : Z) : list Z :=
  match fuel with
  | O => []
  | S f => if n <? radix b then [char_of n] else digits_b b f (n / radix b) ++ [char_of (n mod radix b)]
  end.
Definition put_b (b : basefield) (D : dmodel) (T : ctype) (v : Z) : list Z :=
  match b with
  | BDec => put_int v
  | _ => let n := v mod 2 ^ width D T in digits_b b (S (Z.to_nat (Z.log2 n))) n
  end.

(** safe_base_operations.hpp:1773-1793, safe_base::output *)
Definition output_b (b : basefield) (D : dmodel) (s : safe_t) (m_t : Z) : list Z :=
  let C := uac D Int (st s) in
  put_b b D C (conv D C (if is_small_char (st s) then conv D Int m_t else m_t)).
