(** ExceptionPolicy.v -- model of exception.hpp and exception_policies.hpp and
    of the dispatch part of safe_base_operations.hpp. Definitions only. *)
From Coq Require Import ZArith List Bool.
From Verif Require Import Base.
Import ListNotations.

(** Behaviour of one handler. exception_policies.hpp:53-60 (ignore_exception;
    also any user handler that returns), 63-67 (trap_exception: has no call
    operator, so instantiating a call does not compile), 70-82
    (throw_exception; also any user handler that throws). *)
Inductive handler : Type := HThrow | HIgnore | HTrap.

Definition handler_eqb (a b : handler) : bool :=
  match a, b with
  | HThrow, HThrow | HIgnore, HIgnore | HTrap, HTrap => true
  | _, _ => false
  end.

(** exception_policies.hpp:17-48, exception_policy<AE, IDB, UB, UV> *)
Record ep : Type := mkEP {
  on_arithmetic_error : handler;
  on_implementation_defined_behavior : handler;
  on_undefined_behavior : handler;
  on_uninitialized_value : handler
}.

Definition ep_eqb (a b : ep) : bool :=
  handler_eqb (on_arithmetic_error a) (on_arithmetic_error b)
  && handler_eqb (on_implementation_defined_behavior a) (on_implementation_defined_behavior b)
  && handler_eqb (on_undefined_behavior a) (on_undefined_behavior b)
  && handler_eqb (on_uninitialized_value a) (on_uninitialized_value b).

(** exception_policies.hpp:84-114, make_safe_numerics_action *)
Definition make_safe_numerics_action (e : err) : action :=
  match e with
  | negative_overflow_error | underflow_error | range_error | domain_error
  | positive_overflow_error | precision_overflow_error => arithmetic_error
  | negative_value_shift | negative_shift | shift_too_large =>
      implementation_defined_behavior
  | uninitialized_value => act_uninitialized_value
  | success => no_action
  end.

(** exception.hpp:159-189, safe_numerics_actions_category.equivalent for an
    error code of safe_numerics_error_category *)
Definition equivalent (code : err) (condition : action) : bool :=
  match condition with
  | no_action => err_eqb code success
  | act_uninitialized_value => err_eqb code uninitialized_value
  | arithmetic_error =>
      err_eqb code positive_overflow_error
      || err_eqb code negative_overflow_error
      || err_eqb code underflow_error
      || err_eqb code range_error
      || err_eqb code domain_error
  | implementation_defined_behavior =>
      err_eqb code negative_value_shift
      || err_eqb code negative_shift
      || err_eqb code shift_too_large
  | undefined_behavior => false
  end.

(** exception_policies.hpp:124-129, 136-141, 149-154, 161-166 *)
Definition loose_exception_policy : ep := mkEP HThrow HIgnore HIgnore HIgnore.
Definition loose_trap_policy : ep := mkEP HTrap HIgnore HIgnore HIgnore.
Definition strict_exception_policy : ep := mkEP HThrow HThrow HThrow HIgnore.
Definition strict_trap_policy : ep := mkEP HTrap HTrap HTrap HTrap.
(** exception_policies.hpp:168-171 *)
Definition default_exception_policy : ep := strict_exception_policy.

(** Run-time computations that may call handlers: the trace of handler calls
    (action class and error) and how the computation ended. *)
Inductive outcome (A : Type) : Type :=
| Ret (a : A)
| Throw (e : err)
| Undef              (* undefined behaviour *)
| Trapped.           (* a trap handler would be called; excluded at compile time *)
Arguments Ret {A} _.
Arguments Throw {A} _.
Arguments Undef {A}.
Arguments Trapped {A}.

Definition event : Type := (action * err)%type.
Definition M (A : Type) : Type := (list event * outcome A)%type.

Definition mret {A : Type} (a : A) : M A := ([], Ret a).
Definition mundef {A : Type} : M A := ([], Undef).

Definition mbind {A B : Type} (m : M A) (k : A -> M B) : M B :=
  match m with
  | (tr, Ret a) => let (tr', o) := k a in (tr ++ tr', o)
  | (tr, Throw e) => (tr, Throw e)
  | (tr, Undef) => (tr, Undef)
  | (tr, Trapped) => (tr, Trapped)
  end.

Definition mlift {A : Type} (m : res A) : M A :=
  match m with Ok a => mret a | UB => mundef end.

Declare Scope m_scope.
Delimit Scope m_scope with m.
Notation "x <- m ;; k" := (mbind m (fun x => k))
  (at level 61, m at next level, right associativity) : m_scope.

(** safe_base_operations.hpp:46-75, the handler selected by an action *)
Definition policy_handler (E : ep) (a : action) : option handler :=
  match a with
  | no_action => None (* dispatch_case<EP, no_action> has no invoke *)
  | act_uninitialized_value => Some (on_uninitialized_value E)
  | arithmetic_error => Some (on_arithmetic_error E)
  | implementation_defined_behavior => Some (on_implementation_defined_behavior E)
  | undefined_behavior => Some (on_undefined_behavior E)
  end.

(** safe_base_operations.hpp:77-82, dispatch<EP, e> *)
Definition dispatch (E : ep) (e : err) : M unit :=
  let a := make_safe_numerics_action e in
  match policy_handler E a with
  | Some HThrow => ([(a, e)], Throw e)
  | Some HIgnore => ([(a, e)], Ret tt)
  | Some HTrap => ([], Trapped)
  | None => mundef
  end.

(** Does instantiating dispatch<E, e> compile? *)
Definition dispatch_compiles (E : ep) (e : err) : bool :=
  match policy_handler E (make_safe_numerics_action e) with
  | Some HTrap => false
  | Some _ => true
  | None => false
  end.

(** safe_base_operations.hpp:84-94, dispatch_and_return<EP, R>::invoke applied to
    the error of a finished check *)
Definition dispatch_and_return (E : ep) (c : checked) : M checked :=
  match c with
  | CVal _ => mret c
  | CErr e => mbind (dispatch E e) (fun _ => mret c)
  end.
