(** Stream.v -- reading and writing safe values on streams:
    safe_base_operations.hpp:1773-1847 (safe_base::output, safe_base::input) and
    safe_base.hpp:143-166 (operator<< and operator>>, which only call them).

    The streams themselves belong to the C++ standard library. They are modelled
    from the standard: [istream.formatted.reqmts] (sentry),
    [istream.formatted.arithmetic], [facet.num.get.virtuals], [istream.manip] (ws),
    [istream.unformatted] (peek), [facet.num.put.virtuals].
    Simplifications: narrow characters in the "C" locale, given by their codes
    0..255; default format flags (dec, skipws, no showpos, width 0); the exception
    mask of the stream is empty (the default); badbit is never set; the stream has
    a finite content which is known in advance. wchar_t is not modelled. *)
From Coq Require Import ZArith List Bool.
From Verif Require Import Base CType CheckedInteger CheckedResultOps ExceptionPolicy Promotion SafeBase.
Import ListNotations.
Local Open Scope Z_scope.

(** character codes (ASCII) *)
Definition ch_minus : Z := 45.
Definition ch_plus : Z := 43.
Definition ch_0 : Z := 48.
Definition ch_9 : Z := 57.
Definition ch_space : Z := 32.

(** std::isspace in the "C" locale: \t \n \v \f \r and the space *)
Definition is_space (c : Z) : bool := ((9 <=? c) && (c <=? 13)) || (c =? ch_space).
Definition is_digit (c : Z) : bool := (ch_0 <=? c) && (c <=? ch_9).

(** std::istream: the characters not yet extracted, and the state bits *)
Record istream : Type := mkIs { chars : list Z; failbit : bool; eofbit : bool }.

(** basic_ios::good, basic_ios::setstate(failbit) *)
Definition good (i : istream) : bool := negb (failbit i) && negb (eofbit i).
Definition set_fail (i : istream) : istream := mkIs (chars i) true (eofbit i).

Fixpoint skip_ws (cs : list Z) : list Z :=
  match cs with
  | [] => []
  | c :: r => if is_space c then skip_ws r else cs
  end.

(** basic_istream::sentry(is, noskipws): whether extraction may go on. With
    skipping, reaching the end of the input sets eofbit and failbit. *)
Definition sentry (noskipws : bool) (i : istream) : bool * istream :=
  if good i then
    if noskipws then (true, i)
    else match skip_ws (chars i) with
         | [] => (false, mkIs [] true true)
         | cs => (true, mkIs cs false false)
         end
  else (false, set_fail i).

(** std::ws: skips white space; reaching the end sets eofbit only *)
Definition ws (i : istream) : istream :=
  let (ok, i) := sentry true i in
  if ok then
    let cs := skip_ws (chars i) in
    mkIs cs (failbit i) (match cs with [] => true | _ => eofbit i end)
  else i.

(** basic_istream::peek: the next character, or [None] for traits::eof() *)
Definition peek (i : istream) : option Z * istream :=
  let (ok, i) := sentry true i in
  if ok then
    match chars i with
    | [] => (None, mkIs [] (failbit i) true)
    | c :: _ => (Some c, i)
    end
  else (None, i).

(** num_get, stage 2: the longest prefix that is allowed for %d or %u, as the
    sign, the digits, and what remains *)
Fixpoint span_digits (cs : list Z) : list Z * list Z :=
  match cs with
  | [] => ([], [])
  | c :: r => if is_digit c then let (d, k) := span_digits r in (c :: d, k) else ([], cs)
  end.
Definition scan (cs : list Z) : bool * list Z * list Z :=
  match cs with
  | c :: r =>
      if c =? ch_minus then (true, fst (span_digits r), snd (span_digits r))
      else if c =? ch_plus then (false, fst (span_digits r), snd (span_digits r))
      else (false, fst (span_digits cs), snd (span_digits cs))
  | [] => (false, [], [])
  end.
Definition number (ds : list Z) : Z := fold_left (fun a c => 10 * a + (c - ch_0)) ds 0.

(** num_get, stage 3: the value stored and whether failbit is set. No digits: zero
    is stored. Out of range: the most positive or most negative value is stored.
    For an unsigned type strtoull negates in the type when there is a minus sign. *)
Definition num_value (D : dmodel) (T : ctype) (neg : bool) (ds : list Z) : Z * bool :=
  match ds with
  | [] => (0, true)
  | _ =>
      let n := number ds in
      if csigned D T then
        let v := if neg then - n else n in
        if v <? lo D T then (lo D T, true)
        else if hi D T <? v then (hi D T, true)
        else (v, false)
      else if hi D T <? n then (hi D T, true)
      else ((if neg then conv D T (- n) else n), false)
  end.

(** operator>>(T &) for an integer type T other than the character types; [old] is
    the content of the variable, [None] when indeterminate. Without extraction the
    variable keeps its content. *)
Definition extract (D : dmodel) (T : ctype) (i : istream) (old : option Z)
  : istream * option Z :=
  let (ok, i1) := sentry false i in
  if ok then
    let '(neg, ds, rest) := scan (chars i1) in
    let (v, err) := num_value D T neg ds in
    (mkIs rest err (match rest with [] => true | _ => false end), Some v)
  else (i1, old).

(** operator>>(char &): extracts one character *)
Definition extract_char (D : dmodel) (i : istream) (old : option Z) : istream * option Z :=
  let (ok, i1) := sentry false i in
  if ok then
    match chars i1 with
    | c :: r => (mkIs r false false, Some (conv D Char c))
    | [] => (set_fail i1, old)
    end
  else (i1, old).

(** safe_base_operations.hpp:1828: is >> m_t. (signed char and unsigned char are
    handled by the other branch and never reach this.) *)
Definition extract_raw (D : dmodel) (T : ctype) (i : istream) (old : option Z)
  : istream * option Z :=
  match T with
  | Char => extract_char D i old
  | _ => extract D T i old
  end.

(** safe_base_operations.hpp:1808-1811 and 1782-1785 *)
Definition is_small_char (T : ctype) : bool :=
  match T with SChar | UChar => true | _ => false end.

(** safe_base_operations.hpp:1817-1827: the test for a minus sign *)
Definition reject_minus (i : istream) : istream :=
  let (c, i1) := peek (ws i) in
  match c with
  | Some c => if c =? ch_minus then set_fail i1 else i1
  | None => i1
  end.

(** Do the calls in input compile? Its tests on T are ordinary conditionals: both
    branches are instantiated for every T. *)
Definition input_compiles (D : dmodel) (s : safe_t) : bool :=
  match construct D s (ORaw Int) 0, construct D s (ORaw (st s)) 0 with
  | Some _, Some _ => dispatch_compiles (sE s) domain_error
  | _, _ => false
  end.

(** the computation of a validated_cast that has been checked to compile *)
Definition validated (D : dmodel) (s : safe_t) (T : ctype) (x : Z) : M Z :=
  match construct D s (ORaw T) x with Some m => m | None => mundef end.

(** safe_base_operations.hpp:1795-1845, safe_base::input: the stream, the content
    of m_t and how the call ends. [None]: does not compile. *)
Definition input (D : dmodel) (s : safe_t) (i : istream) (m_t : option Z)
  : option (istream * option Z * M unit) :=
  if input_compiles D s then
    Some
      (if is_small_char (st s) then
         (* int x; is >> x; m_t = validated_cast(x); *)
         let (i1, x) := extract D Int i None in
         match x with
         | None => (i1, m_t, mundef) (* x is read uninitialized *)
         | Some x =>
             let m := validated D s Int x in
             (i1, match snd m with Ret v => Some v | _ => m_t end,
              mbind m (fun _ => mret tt))
         end
       else
         let i1 := if csigned D (st s) then i else reject_minus i in
         let (i2, v) := extract_raw D (st s) i1 m_t in
         if failbit i2 then (i2, v, dispatch (sE s) domain_error)
         else
           match v with
           | None => (i2, v, mundef)
           | Some x => (i2, v, mbind (validated D s (st s) x) (fun _ => mret tt))
           end)
  else None.

(** num_put for a value of an integer type: the decimal digits, most significant
    first; [fuel] bounds their number *)
Fixpoint digits_of (fuel : nat) (n : Z) : list Z :=
  match fuel with
  | O => []
  | S f => if n <? 10 then [ch_0 + n] else digits_of f (n / 10) ++ [ch_0 + n mod 10]
  end.
Definition put_int (v : Z) : list Z :=
  let d := digits_of (S (Z.to_nat (Z.log2 (Z.abs v)))) (Z.abs v) in
  if v <? 0 then ch_minus :: d else d.

(** safe_base_operations.hpp:1773-1793, safe_base::output: the characters written.
    The two branches of the conditional expression have the types int and T, so
    that its value is converted to their common type. That type is never a
    character type. *)
Definition output (D : dmodel) (s : safe_t) (m_t : Z) : list Z :=
  let C := uac D Int (st s) in
  put_int (conv D C (if is_small_char (st s) then conv D Int m_t else m_t)).
