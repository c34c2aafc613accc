(** BoolConv.v -- model of the conversions between safe integers and bool, and of
    the conditions written with them: if (x), !x, x && y, x || y. Definitions only.

    bool is an unsigned integral type of values 0 and 1 that is promoted to int in
    every comparison (C++14 [conv.prom]/6); a built-in conversion to bool is the
    test for non-zero ([conv.bool]). The arithmetic operators on bool operands, and
    safe<bool> itself, are not modelled. *)
From Coq Require Import ZArith List Bool.
From Verif Require Import Base CType SafeCompare CheckedInteger CheckedResultOps Interval
  ExceptionPolicy Promotion SafeBase Program.
Import ListNotations.
Local Open Scope Z_scope.
Local Open Scope m_scope.

(** static_cast<bool>(x) for a built-in integer x *)
Definition to_b (x : Z) : bool := negb (x =? 0).

(** safe_compare.hpp:27-80, less_than(t, b) for an integer t and a bool b: the
    dispatch is on is_signed<T> and is_signed<bool> = false *)
Definition less_than_bool (D : dmodel) (T : ctype) (t : Z) (b : bool) : bool :=
  if csigned D T then
    if c_lt D T Int t 0 then true
    else c_lt D (to_unsigned T) Int (conv D (to_unsigned T) t) (Z.b2z b)
  else c_lt D T Int t (Z.b2z b).

(** safe_compare.hpp:27-80, less_than(b, u) for a bool b and an integer u *)
Definition bool_less_than (D : dmodel) (U : ctype) (b : bool) (u : Z) : bool :=
  if csigned D U then
    if c_lt D U Int u 0 then false
    else c_lt D Int (to_unsigned U) (Z.b2z b) (conv D (to_unsigned U) u)
  else c_lt D Int U (Z.b2z b) u.

(** checked_integer.hpp:101-122 and 123-142,
    heterogeneous_checked_operation<bool, false, true, T>::cast *)
Definition cast_to_bool (D : dmodel) (T : ctype) (t : Z) : checked :=
  if csigned D T then
    if less_than_bool D T t false then CErr domain_error
    else if bool_less_than D T true t then CErr positive_overflow_error
    else CVal (Z.b2z (to_b t))
  else
    if bool_less_than D T true t then CErr positive_overflow_error
    else if less_than_bool D T t false then CErr positive_overflow_error
    else CVal (Z.b2z (to_b t)).

(** the errors whose dispatch it instantiates *)
Definition to_bool_errors (D : dmodel) (T : ctype) : list err :=
  if csigned D T then [domain_error; positive_overflow_error] else [positive_overflow_error].

(** safe_base_operations.hpp:100-148, validate_detail<bool, false, true, E>::
    return_value(t), for t of base type [T] and numeric_limits [slo], [shi] *)
Definition validate_to_bool (D : dmodel) (E : option ep) (T : ctype) (slo shi x : Z)
  : option (M bool) :=
  let t_interval := mkI (cast_to_bool D T slo) (cast_to_bool D T shi) in
  let r_interval := mkI (CVal 0) (CVal 1) in
  if tri_bool (excludes D Int r_interval t_interval) then None
  else if tri_bool (includes D Int r_interval t_interval) then Some (mret (to_b x))
  else match E with
       | None => None
       | Some E =>
           if all_compile E (to_bool_errors D T) then
             Some (rx <- dispatch_and_return E (cast_to_bool D T x) ;;
                   z <- mlift (cr_value rx) ;; mret (to_b z))
           else None
       end.

(** The conversion to bool of an operand: safe_base_operations.hpp:219-243 for a
    safe type, whose first static_assert cannot fail since both bounds are
    converted to bool before the comparison; safe_integer_literal.hpp:99-122 for a
    literal; the language for a built-in type. *)
Definition to_bool (D : dmodel) (o : otype) (x : Z) : option (M bool) :=
  match o with
  | ORaw _ => Some (mret (to_b x))
  | OSafe s => validate_to_bool D (Some (sE s)) (st s) (lo D (st s)) (hi D (st s)) x
  | OLit T N _ E => validate_to_bool D E T N N N
  end.

(** checked_integer.hpp:79-122, heterogeneous_checked_operation<R, Min, Max, bool>::cast *)
Definition cast_from_bool (D : dmodel) (R : ctype) (mn mx : Z) (b : bool) : checked :=
  if less_than_bool D R mx b then CErr positive_overflow_error
  else if bool_less_than D R b mn then CErr positive_overflow_error
  else CVal (conv D R (Z.b2z b)).

(** safe_base_operations.hpp:150-155, 185-201, safe_base.hpp:221-226: construction
    of, or assignment to, an object of safe type [s] from a bool *)
Definition construct_bool (D : dmodel) (s : safe_t) (b : bool) : option (M Z) :=
  let R := st s in
  let t_interval := mkI (cast_from_bool D R (lo D R) (hi D R) false)
                        (cast_from_bool D R (lo D R) (hi D R) true) in
  let r_interval := mkI (CVal (smin s)) (CVal (smax s)) in
  if tri_bool (excludes D R r_interval t_interval) then None
  else if tri_bool (includes D R r_interval t_interval) then Some (mret (conv D R (Z.b2z b)))
  else if all_compile (sE s) [positive_overflow_error] then
    Some (rx <- dispatch_and_return (sE s) (cast_from_bool D R (smin s) (smax s) b) ;;
          mlift (cr_value rx))
  else None.

(** Conditions built from tests of expressions, comparisons, and the built-in
    logical operators, which evaluate from the left and stop when the result is
    known ([expr.log.and], [expr.log.or]) *)
Inductive test : Type :=
| TExpr (e : expr)
| TCond (c : cond)
| TNot (a : test)
| TAnd (a b : test)
| TOr (a b : test).

Fixpoint test_compiles (D : dmodel) (G : tenv) (t : test) : bool :=
  match t with
  | TExpr e =>
      match type_of D G e with
      | Some o => match to_bool D o 0 with Some _ => true | None => false end
      | None => false
      end
  | TCond c => cond_compiles D G c
  | TNot a => test_compiles D G a
  | TAnd a b => test_compiles D G a && test_compiles D G b
  | TOr a b => test_compiles D G a && test_compiles D G b
  end.

Fixpoint eval_test (D : dmodel) (G : tenv) (s : store) (t : test) : M bool :=
  match t with
  | TExpr e =>
      match type_of D G e with
      | Some o => x <- eval D G s e ;; run (to_bool D o x)
      | None => mundef
      end
  | TCond c => eval_cond D G s c
  | TNot a => b <- eval_test D G s a ;; mret (negb b)
  | TAnd a b => x <- eval_test D G s a ;; if x then eval_test D G s b else mret false
  | TOr a b => x <- eval_test D G s a ;; if x then mret true else eval_test D G s b
  end.
