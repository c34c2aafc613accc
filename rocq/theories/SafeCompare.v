(** SafeCompare.v -- model of include/boost/safe_numerics/safe_compare.hpp
    (integral overloads). Definitions only. *)
From Coq Require Import ZArith Bool.
From Verif Require Import Base CType.
Local Open Scope Z_scope.

(** safe_compare.hpp:27-80, less_than *)
Definition less_than (D : dmodel) (T U : ctype) (t u : Z) : bool :=
  match csigned D T, csigned D U with
  | false, true =>
      if c_lt D U Int u 0 then false
      else c_lt D T (to_unsigned U) t (conv D (to_unsigned U) u)
  | true, false =>
      if c_lt D T Int t 0 then true
      else c_lt D (to_unsigned T) U (conv D (to_unsigned T) t) u
  | _, _ => c_lt D T U t u
  end.

(** safe_compare.hpp:91-94 *)
Definition greater_than (D : dmodel) (T U : ctype) (t u : Z) : bool :=
  less_than D U T u t.

(** safe_compare.hpp:96-99 *)
Definition less_than_equal (D : dmodel) (T U : ctype) (t u : Z) : bool :=
  negb (greater_than D T U t u).

(** safe_compare.hpp:101-104 *)
Definition greater_than_equal (D : dmodel) (T U : ctype) (t u : Z) : bool :=
  negb (less_than D T U t u).

(** safe_compare.hpp:106-160, equal *)
Definition equal (D : dmodel) (T U : ctype) (t u : Z) : bool :=
  match csigned D T, csigned D U with
  | false, true =>
      if c_lt D U Int u 0 then false
      else c_eq D T (to_unsigned U) t (conv D (to_unsigned U) u)
  | true, false =>
      if c_lt D T Int t 0 then false
      else c_eq D (to_unsigned T) U (conv D (to_unsigned T) t) u
  | _, _ => c_eq D T U t u
  end.

(** safe_compare.hpp:171-174 *)
Definition not_equal (D : dmodel) (T U : ctype) (t u : Z) : bool :=
  negb (equal D T U t u).
