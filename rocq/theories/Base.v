(** Base.v -- error codes, outcomes and three-valued logic.

    Model file: definitions only. *)
From Coq Require Import ZArith List Bool.
Import ListNotations.
Local Open Scope Z_scope.

(** exception.hpp:34-46, enum class safe_numerics_error (same order). *)
Inductive err : Type :=
| success
| positive_overflow_error
| negative_overflow_error
| domain_error
| range_error
| precision_overflow_error
| underflow_error
| negative_value_shift
| negative_shift
| shift_too_large
| uninitialized_value.

Definition all_err : list err :=
  [success; positive_overflow_error; negative_overflow_error; domain_error;
   range_error; precision_overflow_error; underflow_error;
   negative_value_shift; negative_shift; shift_too_large; uninitialized_value].

Definition err_eqb (a b : err) : bool :=
  match a, b with
  | success, success
  | positive_overflow_error, positive_overflow_error
  | negative_overflow_error, negative_overflow_error
  | domain_error, domain_error
  | range_error, range_error
  | precision_overflow_error, precision_overflow_error
  | underflow_error, underflow_error
  | negative_value_shift, negative_value_shift
  | negative_shift, negative_shift
  | shift_too_large, shift_too_large
  | uninitialized_value, uninitialized_value => true
  | _, _ => false
  end.

(** exception.hpp:129-135, enum class safe_numerics_actions. *)
Inductive action : Type :=
| no_action
| act_uninitialized_value
| arithmetic_error
| implementation_defined_behavior
| undefined_behavior.

Definition all_action : list action :=
  [no_action; act_uninitialized_value; arithmetic_error;
   implementation_defined_behavior; undefined_behavior].

Definition action_eqb (a b : action) : bool :=
  match a, b with
  | no_action, no_action
  | act_uninitialized_value, act_uninitialized_value
  | arithmetic_error, arithmetic_error
  | implementation_defined_behavior, implementation_defined_behavior
  | undefined_behavior, undefined_behavior => true
  | _, _ => false
  end.

(** Result of evaluating a C++ expression that cannot throw: a value, or
    undefined behaviour. In a constant expression (type level) [UB] means that
    the program does not compile. *)
Inductive res (A : Type) : Type :=
| Ok (a : A)
| UB.
Arguments Ok {A} _.
Arguments UB {A}.

Definition rbind {A B : Type} (m : res A) (k : A -> res B) : res B :=
  match m with
  | Ok a => k a
  | UB => UB
  end.

Declare Scope res_scope.
Delimit Scope res_scope with res.
Notation "'let*' x := m 'in' k" := (rbind m (fun x => k))
  (at level 200, x pattern, m at level 100, k at level 200, right associativity)
  : res_scope.

(** checked_result.hpp:19-95, checked_result<R>: a success value, or an error
    code other than success. The message string is not modelled. Reading the
    value of an error (operator R, lines 77-81, the inactive union member) is
    undefined behaviour: [cr_value]. *)
Inductive checked : Type :=
| CVal (z : Z)
| CErr (e : err).

(** checked_result.hpp:72-74, exception(). *)
Definition exception (c : checked) : bool :=
  match c with CVal _ => false | CErr _ => true end.

(** checked_result.hpp:77-81, operator R(). *)
Definition cr_value (c : checked) : res Z :=
  match c with CVal z => Ok z | CErr _ => UB end.

(** checked_result.hpp:83-87, operator safe_numerics_error(). *)
Definition cr_error (c : checked) : err :=
  match c with CVal _ => success | CErr e => e end.

(** boost::logic::tribool (header not in /repo; recalled semantics: Kleene
    logic; conversion to bool is true only for true). *)
Inductive tribool : Type := TTrue | TFalse | TInd.

Definition tri_of_bool (b : bool) : tribool := if b then TTrue else TFalse.

Definition tri_not (a : tribool) : tribool :=
  match a with TTrue => TFalse | TFalse => TTrue | TInd => TInd end.

Definition tri_and (a b : tribool) : tribool :=
  match a, b with
  | TFalse, _ => TFalse
  | _, TFalse => TFalse
  | TTrue, TTrue => TTrue
  | _, _ => TInd
  end.

Definition tri_or (a b : tribool) : tribool :=
  match a, b with
  | TTrue, _ => TTrue
  | _, TTrue => TTrue
  | TFalse, TFalse => TFalse
  | _, _ => TInd
  end.

(** static_cast<bool>(tribool), also the contextual conversion in [if] and ?:. *)
Definition tri_bool (a : tribool) : bool :=
  match a with TTrue => true | _ => false end.
