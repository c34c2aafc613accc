(** SafeSpec.v -- the specification vocabulary of the properties of safe types.
    It refers to the data types of the model (operand types, policies, traces)
    but to none of its operations. *)
From Coq Require Import ZArith List Bool.
From Verif Require Import Base CType Utility Spec ExceptionPolicy Promotion.
Import ListNotations.
Local Open Scope Z_scope.

(** An operand type: its declared range [numeric_limits::min(), max()] is
    non-empty and inside its underlying built-in type. *)
Definition wf_operand (D : dmodel) (o : otype) : Prop :=
  in_type D (base_ty o) (lim_lo D o) /\ in_type D (base_ty o) (lim_hi D o)
  /\ lim_lo D o <= lim_hi D o.

(** x is a value in the declared range of the operand type o *)
Definition holds (D : dmodel) (o : otype) (x : Z) : Prop := lim_lo D o <= x <= lim_hi D o.

(** policies that throw on arithmetic errors (and on shift errors) *)
Definition throws_arithmetic (E : ep) : Prop := on_arithmetic_error E = HThrow.
Definition throws_shift (E : ep) : Prop := on_implementation_defined_behavior E = HThrow.

Definition arithmetic_err (e : err) : Prop :=
  e = positive_overflow_error \/ e = negative_overflow_error \/ e = domain_error.
Definition shift_err (e : err) : Prop :=
  e = negative_shift \/ e = shift_too_large \/ e = negative_value_shift.

(** the computation calls the arithmetic-error handler once, and throws *)
Definition throws_arith {A : Type} (m : M A) : Prop :=
  exists e, arithmetic_err e /\ m = ([(arithmetic_error, e)], Throw e).
Definition throws_impl {A : Type} (m : M A) : Prop :=
  exists e, shift_err e /\ m = ([(implementation_defined_behavior, e)], Throw e).

(** the computation calls no handler and returns a *)
Definition returns {A : Type} (m : M A) (a : A) : Prop := m = ([], Ret a).

(** "the exact value z within [mn, mx], or an exception": no other behaviour,
    in particular no undefined behaviour *)
Definition exact_or_throws (m : M Z) (mn mx z : Z) : Prop :=
  (returns m z /\ mn <= z <= mx) \/ throws_arith m.

(** every value of the operand type o is a value of the built-in type R *)
Definition fits_in (D : dmodel) (R : ctype) (o : otype) : Prop :=
  lo D R <= lim_lo D o /\ lim_hi D o <= hi D R.

(** The result type s of the operator is at least as large as the operand
    types (always so under native promotion), or, under automatic promotion, it
    can represent the values of the operands. *)
Definition result_large_enough (D : dmodel) (s : safe_t) (t u : otype) : Prop :=
  sP s = Native
  \/ (digits D (base_ty t) <= digits D (st s) /\ digits D (base_ty u) <= digits D (st s))
  \/ (sP s = Automatic /\ fits_in D (st s) t /\ fits_in D (st s) u).

(** as [exact_or_throws], where shift errors are also possible *)
Definition exact_or_throws_shift (m : M Z) (mn mx z : Z) : Prop :=
  (returns m z /\ mn <= z <= mx) \/ throws_arith m \/ throws_impl m.

(** the widest type in which automatic promotion computes a op b: unsigned when
    both operands are and the operator is not subtraction *)
Definition widest (D : dmodel) (op : aop) (t u : otype) : ctype :=
  match op with
  | Sub => intmax D
  | _ => if negb (csigned D (base_ty t)) && negb (csigned D (base_ty u)) then uintmax D else intmax D
  end.

(** the built-in expression x op y on operands of built-in types T and U *)
Definition built_in (D : dmodel) (op : aop) (T U : ctype) (x y : Z) : res Z :=
  match op with
  | Add => c_add D T U x y
  | Sub => c_sub D T U x y
  | Mul => c_mul D T U x y
  | Div => c_div D T U x y
  | Mod => c_rem D T U x y
  | Shl => c_shl D T U x y
  | Shr => c_shr D T U x y
  end.
Definition built_in_type (D : dmodel) (op : aop) (T U : ctype) : ctype :=
  match op with Shl | Shr => promote D T | _ => uac D T U end.

(** the mathematical meaning of + - * / *)
Definition exact (op : aop) (x y : Z) : Z :=
  match op with
  | Add => x + y
  | Sub => x - y
  | Mul => x * y
  | Div => Z.quot x y
  | Mod => remainder x y
  | Shl => x * 2 ^ y
  | Shr => x / 2 ^ y
  end.

(** the bitwise operators: on the integers (two's complement with infinitely
    many sign bits), and as built-in expressions *)
Definition bit_op (b : bop) : Z -> Z -> Z :=
  match b with Or => Z.lor | And => Z.land | Xor => Z.lxor end.
Definition built_in_bit (D : dmodel) (b : bop) (T U : ctype) (x y : Z) : Z :=
  match b with Or => c_or D T U x y | And => c_and D T U x y | Xor => c_xor D T U x y end.

(** At most one error is reported, and exactly when an exception is thrown: the
    computation calls no handler and does not throw, or it throws the error e and
    exactly one handler was called, with e, the one for the class of e. *)
Definition class_of (e : err) : action :=
  match e with
  | success => no_action
  | negative_value_shift | negative_shift | shift_too_large => implementation_defined_behavior
  | uninitialized_value => act_uninitialized_value
  | _ => arithmetic_error
  end.
Definition one_report {A : Type} (m : M A) : Prop :=
  (exists a, m = ([], Ret a)) \/ m = ([], Undef) \/ (exists e, m = ([(class_of e, e)], Throw e)).

(** no handler is called and no exception is thrown *)
Definition silent {A : Type} (m : M A) : Prop :=
  (exists a, m = ([], Ret a)) \/ m = ([], Undef).

(** the operand type with its exception policy, if it has one, replaced by E *)
Definition with_policy (E : ep) (o : otype) : otype :=
  match o with
  | ORaw T => ORaw T
  | OSafe s => OSafe (mkSafe (st s) (smin s) (smax s) (sP s) E)
  | OLit T N P e => OLit T N P (option_map (fun _ => E) e)
  end.

(** policies whose arithmetic-error handler does not compile / returns *)
Definition traps (E : ep) : Prop := on_arithmetic_error E = HTrap.
Definition ignores_arithmetic (E : ep) : Prop := on_arithmetic_error E = HIgnore.

Definition same_kind (o o' : otype) : Prop :=
  match o, o' with
  | ORaw _, ORaw _ | OSafe _, OSafe _ | OLit _ _ _ _, OLit _ _ _ _ => True
  | _, _ => False
  end.

(** two operand types, one in each data model, of the same kind (built-in, safe,
    literal), with the same declared range, the
    same signedness and the same policies (the underlying built-in types may
    have different names and sizes) *)
Definition corresponds (D D' : dmodel) (o o' : otype) : Prop :=
  lim_lo D o = lim_lo D' o' /\ lim_hi D o = lim_hi D' o'
  /\ csigned D (base_ty o) = csigned D' (base_ty o')
  /\ get_pp o = get_pp o' /\ get_ep o = get_ep o' /\ same_kind o o'.

(** the exception policy of the operand type, if it has one, throws on
    arithmetic errors and on shift errors *)
Definition operand_throws (o : otype) : Prop :=
  forall E, get_ep o = Some E -> throws_arithmetic E /\ throws_shift E.
