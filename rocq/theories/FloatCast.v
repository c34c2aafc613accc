(** FloatCast.v -- checked::cast from a floating point type to an integer type.
    Models /repo/include/boost/safe_numerics/checked_integer.hpp:158-179, reached
    through checked::cast, checked_default.hpp:135-143. The conversion itself
    follows [conv.fpint] of the C++ standard. A floating point value is a NaN, an
    infinity or m * 2^e; the restrictions that a particular format puts on m and e
    do not matter here.
    Model file: definitions only. *)
From Coq Require Import ZArith Bool.
From Verif Require Import Base CType CheckedInteger CheckedResultOps Interval.
Local Open Scope Z_scope.

Inductive fvalue : Type := FNan | FInf (negative : bool) | FNum (m e : Z).

(** [conv.fpint]: the fraction is discarded; undefined if the result cannot be
    represented in R *)
Definition fp_to_int (D : dmodel) (R : ctype) (v : fvalue) : res Z :=
  match v with
  | FNan | FInf _ => UB
  | FNum m e =>
      let z := if 0 <=? e then m * 2 ^ e else Z.quot m (2 ^ (- e)) in
      if in_range D R z then Ok z else UB
  end.

(** checked_integer.hpp:174-178: return static_cast<R>(t); no test *)
Definition float_cast (D : dmodel) (R : ctype) (v : fvalue) : res checked :=
  rbind (fp_to_int D R v) (fun z => Ok (CVal z)).

(** safe_base_operations.hpp:130-147 with T a floating point type: construction of a
    safe integer of type R with the range [mn, mx] from v. std::numeric_limits<T>::min()
    is the least positive normal number [fmin] and max() the greatest finite one [fmax].
    The interval is a constexpr variable: undefined behaviour in its initialiser does
    not compile ([None]), nor does a failing static assertion. *)
Definition construct_float (D : dmodel) (R : ctype) (mn mx : Z) (fmin fmax : fvalue) (v : fvalue)
  : option (res checked) :=
  match float_cast D R fmin, float_cast D R fmax with
  | Ok l, Ok u =>
      if tri_bool (excludes D R (mkI (CVal mn) (CVal mx)) (mkI l u)) then None
      else Some (float_cast D R v)
  | _, _ => None
  end.
