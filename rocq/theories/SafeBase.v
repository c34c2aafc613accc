(** SafeBase.v -- model of safe_base.hpp, safe_base_operations.hpp and
    safe_integer_literal.hpp. Definitions only.

    Type-level functions return [None] when the C++ program does not compile
    (static_assert, failing constant expression, narrowing template argument,
    instantiated trap handler). Run-time functions return a computation in [M]:
    the trace of handler calls, and a value, an exception, or undefined
    behaviour.

    Operand values are the integers held; base_value(t) (safe_common.hpp:24-27,
    safe_base.hpp:80-91, safe_integer_literal.hpp:43-48) is the identity on them:
    for a safe t it runs operator Stored, whose check is elided
    ([base_value_elided] in SafeConvFacts.v). *)
From Coq Require Import ZArith List Bool.
From Verif Require Import Base CType Utility SafeCompare CheckedInteger
  CheckedResultOps Interval ExceptionPolicy Promotion.
Import ListNotations.
Local Open Scope Z_scope.
Local Open Scope res_scope.
Local Open Scope m_scope.

(** Errors whose dispatch is instantiated by
    heterogeneous_checked_operation<R,...,T, dispatch_and_return>::cast:
    checked_integer.hpp:58-142 *)
Definition cast_errors (D : dmodel) (R T : ctype) : list err :=
  match csigned D R, csigned D T with
  | true, true => [positive_overflow_error; negative_overflow_error]
  | false, true => [domain_error; positive_overflow_error]
  | _, false => [positive_overflow_error]
  end.

(** Errors instantiated by checked_operation<R, dispatch_and_return>:
    checked_integer.hpp:228-750 *)
Definition op_errors (D : dmodel) (op : aop) (R : ctype) : list err :=
  let s := csigned D R in
  match op with
  | Add => if s then [positive_overflow_error; negative_overflow_error]
           else [positive_overflow_error]
  | Sub => if s then [negative_overflow_error; positive_overflow_error]
           else [negative_overflow_error]
  | Mul => if s then [positive_overflow_error; negative_overflow_error]
           else [positive_overflow_error]
  | Div => if s then [domain_error; positive_overflow_error] else [domain_error]
  | Mod => [domain_error]
  | Shl => [negative_shift; shift_too_large]
  | Shr => if s then [negative_shift; shift_too_large; negative_value_shift]
           else [negative_shift; shift_too_large]
  end.

Definition all_compile (E : ep) (es : list err) : bool :=
  forallb (dispatch_compiles E) es.

(** ------------------------------------------------------------------ *)
(** Validation *)

(** safe_base_operations.hpp:130-147, the static part of
    validate_detail<R, Min, Max, E>::return_value(t): [None] when the
    static_assert fails, otherwise whether the check is elided.
    [T] is base_type of t and [slo], [shi] its numeric_limits. *)
Definition validate_static (D : dmodel) (R : ctype) (mn mx : Z)
  (T : ctype) (slo shi : Z) : option bool :=
  let t_interval := mkI (cast D R T slo) (cast D R T shi) in
  let r_interval := mkI (CVal mn) (CVal mx) in
  if tri_bool (excludes D R r_interval t_interval) then None
  else Some (tri_bool (includes D R r_interval t_interval)).

(** safe_base_operations.hpp:100-148, validate_detail; [E = None] is a void
    policy (a literal without policies): its dispatch does not compile *)
Definition validate (D : dmodel) (R : ctype) (mn mx : Z) (E : option ep)
  (T : ctype) (slo shi : Z) (x : Z) : option (M Z) :=
  match validate_static D R mn mx T slo shi with
  | None => None
  | Some true => Some (mret (conv D R x))
  | Some false =>
      match E with
      | None => None
      | Some E =>
          if all_compile E (cast_errors D R T) then
            Some (rx <- dispatch_and_return E (het_cast D R mn mx T x) ;;
                  mlift (cr_value rx))
          else None
      end
  end.

(** safe_base_operations.hpp:150-155 validated_cast, 185-201 and 203-214 the
    converting constructors, safe_base.hpp:221-226 operator=: the value stored
    in an object of safe type [s] built from operand [o] holding [x] *)
Definition construct (D : dmodel) (s : safe_t) (o : otype) (x : Z) : option (M Z) :=
  validate D (st s) (smin s) (smax s) (Some (sE s))
           (base_ty o) (lim_lo D o) (lim_hi D o) x.

(** safe_base_operations.hpp:219-243, safe_base::operator R(). Its static_assert
    compares interval<R>() with the bounds converted to R, which can never be
    excluded. The object is validated as a plain Stored. *)
Definition to_builtin (D : dmodel) (R : ctype) (s : safe_t) (x : Z) : option (M Z) :=
  validate D R (lo D R) (hi D R) (Some (sE s))
           (st s) (lo D (st s)) (hi D (st s)) x.

(** safe_integer_literal.hpp:99-122, safe_literal_impl::operator R() *)
Definition lit_to_builtin (D : dmodel) (R T : ctype) (N : Z) (E : option ep)
  : option (M Z) :=
  validate D R (lo D R) (hi D R) E T N N N.

(** static_cast<R>(t) for any operand *)
Definition static_cast_builtin (D : dmodel) (R : ctype) (o : otype) (x : Z)
  : option (M Z) :=
  match o with
  | ORaw _ => Some (mret (conv D R x))
  | OSafe s => to_builtin D R s x
  | OLit T N _ E => lit_to_builtin D R T N E
  end.

(** safe_base_operations.hpp:160-170, default constructor: m_t is left
    indeterminate. [None] = does not compile. *)
Definition default_ctor (s : safe_t) : option (M unit) :=
  if dispatch_compiles (sE s) uninitialized_value
  then Some (dispatch (sE s) uninitialized_value) else None.

(** ------------------------------------------------------------------ *)
(** Binary operators *)

(** safe_base_operations.hpp:248-285, common_exception_policy *)
Definition common_ep (t u : otype) : option ep :=
  if is_safe t || is_safe u then
    match get_ep t, get_ep u with
    | Some a, Some b => if ep_eqb a b then Some b else None
    | None, Some b => Some b
    | Some a, None => Some a
    | None, None => None
    end
  else None.

(** safe_base_operations.hpp:287-322, common_promotion_policy *)
Definition common_pp (t u : otype) : option pp :=
  if is_safe t || is_safe u then
    match get_pp t, get_pp u with
    | Some a, Some b => if pp_eqb a b then Some b else None
    | None, Some b => Some b
    | Some a, None => Some a
    | None, None => None
    end
  else None.

(** safe_base_operations.hpp:332-357, casting_helper, one operand *)
Definition cast_operand (D : dmodel) (E : ep) (R : ctype) (o : otype) (x : Z)
  : option (M Z) :=
  match static_cast_builtin D R o x with
  | None => None
  | Some fallback =>
      if all_compile E (cast_errors D R (base_ty o)) then
        Some (tx <- dispatch_and_return E (cast D R (base_ty o) x) ;;
              match tx with
              | CVal v => mret v
              | CErr _ => fallback
              end)
      else None
  end.

(** safe_base_operations.hpp:332-357, casting_helper *)
Definition casting_helper (D : dmodel) (E : ep) (R : ctype)
  (t u : otype) (x y : Z) : option (M (Z * Z)) :=
  match cast_operand D E R t x, cast_operand D E R u y with
  | Some mx, Some my => Some (tr <- mx ;; ur <- my ;; mret (tr, ur))
  | _, _ => None
  end.

(** get_r_type_interval of each result class: safe_base_operations.hpp
    417-427 (+), 538-550 (-), 662-674 ( * ), 817-835 (/), 974-993 (%),
    1313-1324 (<<), 1459-1475 (>>) *)
Definition r_type_interval (D : dmodel) (op : aop) (R : ctype) (t u : otype)
  : res interval :=
  let ti := lim_interval D R t in
  let ui := lim_interval D R u in
  match op with
  | Add => i_add D R ti ui
  | Sub => i_sub D R ti ui
  | Mul => i_mul D R ti ui
  | Div => div_interval D R ti ui
  | Mod => mod_interval D R ti ui
  | Shl => i_shl D R ti ui
  | Shr => i_shr D R ti ui
  end.

(** exception_possible of each result class: 439-447 (+), 562-570 (-),
    687-695 ( * ), 848-855 (/), 1006-1013 (%), 1337-1345 (<<), 1490-1504 (>>).
    In + - * << the third test, return_interval.includes(r_type_interval), is
    reached only when both bounds are values and is then always true. *)
Definition exception_possible (D : dmodel) (op : aop) (R : ctype) (t u : otype)
  (ri : interval) : bool :=
  let ti := lim_interval D R t in
  let ui := lim_interval D R u in
  match op with
  | Add | Sub | Mul | Shl => exception (il ri) || exception (iu ri)
  | Div | Mod =>
      tri_bool (includes_pt D R ui (CVal 0)) || exception (il ri) || exception (iu ri)
  | Shr =>
      tri_bool
        (tri_or (tri_or (tri_or (tri_or
          (cr_gt D R (iu ui) (CVal (conv D R (digits D R))))
          (cr_lt D R (il ti) (CVal 0)))
          (cr_lt D R (il ui) (CVal 0)))
          (tri_of_bool (exception (il ri))))
          (tri_of_bool (exception (iu ri))))
  end.

(** safe_base_operations.hpp:766-773 and 925-932, bits; 779-783 and 938-942,
    temp_base, the type in which / and % are checked *)
Definition div_bits (D : dmodel) (R T U : ctype) : Z :=
  Z.min (digits D (uintmax D))
        (Z.max (digits D R) (Z.max (digits D T) (digits D U))
         + (if csigned D R then 1 else 0)).
Definition div_temp (D : dmodel) (R T U : ctype) : option ctype :=
  if csigned D R then int_t_least D (div_bits D R T U)
  else uint_t_least D (div_bits D R T U).

(** the type in which the checked operation is performed *)
Definition work_type (D : dmodel) (op : aop) (R : ctype) (t u : otype) : option ctype :=
  match op with
  | Div | Mod => div_temp D R (base_ty t) (base_ty u)
  | _ => Some R
  end.

(** the built-in operator on two values of type W *)
Definition raw_op (D : dmodel) (op : aop) (W : ctype) (x y : Z) : res Z :=
  match op with
  | Add => c_add D W W x y
  | Sub => c_sub D W W x y
  | Mul => c_mul D W W x y
  | Div => c_div D W W x y
  | Mod => c_rem D W W x y
  | Shl => c_shl D W W x y
  | Shr => c_shr D W W x y
  end.

(** checked_operation<W, ...>::op *)
Definition checked_op (D : dmodel) (op : aop) (W : ctype) (x y : Z) : res checked :=
  match op with
  | Add => add D W x y
  | Sub => subtract D W x y
  | Mul => multiply D W x y
  | Div => divide D W x y
  | Mod => modulus D W x y
  | Shl => left_shift D W x y
  | Shr => right_shift D W x y
  end.

(** what is returned when the checked operation failed and its handler
    returned: safe_base_operations.hpp:409-412 (+), 531-534 (-, note the sum),
    655-658 ( * ), 797-800 and 956-959 (operator/ and operator% of
    checked_result), 1307-1310 (<<), 1453-1456 (>>) *)
Definition fallback_op (D : dmodel) (op : aop) (W : ctype) (x y : Z) : res Z :=
  match op with
  | Add => c_add D W W x y
  | Sub => c_add D W W x y
  | Mul => c_mul D W W x y
  | Div => (let* c := cr_div D W (CVal x) (CVal y) in cr_value c)%res
  | Mod => (let* c := cr_mod D W (CVal x) (CVal y) in cr_value c)%res
  | Shl => c_shl D W W x y
  | Shr => c_shr D W W x y
  end.

(** return_value(t, u, false_type): 385-390, 507-512, 631-636, 757-762,
    915-920, 1285-1290, 1431-1436 *)
Definition unchecked_run (D : dmodel) (op : aop) (R : ctype) (x y : Z) : M Z :=
  r <- mlift (raw_op D op R (conv D R x) (conv D R y)) ;; mret (conv D R r).

(** return_value(t, u, true_type): 397-413, 519-535, 643-659, 778-801,
    937-960, 1297-1311, 1443-1457 *)
Definition checked_run (D : dmodel) (op : aop) (E : ep) (R W : ctype)
  (casts : M (Z * Z)) : M Z :=
  p <- casts ;;
  c <- mlift (checked_op D op W (fst p) (snd p)) ;;
  rx <- dispatch_and_return E c ;;
  match rx with
  | CVal v => mret (conv D R v)
  | CErr _ => r <- mlift (fallback_op D op W (fst p) (snd p)) ;; mret (conv D R r)
  end.

(** The compile-time part of a binary operator: result type (safe_base_operations
    .hpp:453-460 and its copies), result base type and whether a check is made *)
Record op_info : Type := mkInfo {
  oi_E : ep;
  oi_R : ctype;
  oi_type : safe_t;
  oi_checked : bool
}.

Definition op_static (D : dmodel) (op : aop) (t u : otype) : option op_info :=
  match common_pp t u, common_ep t u with
  | Some P, Some E =>
      match result_base_type D P (PArith op) t u with
      | Some R =>
          match r_type_interval D op R t u with
          | Ok ri =>
              Some (mkInfo E R
                (mkSafe R (bound_lo D R (il ri)) (bound_hi D R (iu ri)) P E)
                (exception_possible D op R t u ri))
          | UB => None
          end
      | None => None
      end
  | _, _ => None
  end.

(** operator+ - * / % << >> : safe_base_operations.hpp:377-484, 499-607,
    622-732, 748-892, 907-1053, 1276-1389, 1423-1545: the result type and the
    run-time computation *)
Definition binary (D : dmodel) (op : aop) (t u : otype) (x y : Z)
  : option (safe_t * M Z) :=
  match op_static D op t u with
  | None => None
  | Some oi =>
      if oi_checked oi then
        match work_type D op (oi_R oi) t u with
        | None => None
        | Some W =>
            match casting_helper D (oi_E oi) W t u x y with
            | None => None
            | Some casts =>
                if all_compile (oi_E oi) (op_errors D op W) then
                  Some (oi_type oi, checked_run D op (oi_E oi) (oi_R oi) W casts)
                else None
            end
        end
      else Some (oi_type oi, unchecked_run D op (oi_R oi) x y)
  end.

(** ------------------------------------------------------------------ *)
(** Comparisons *)

(** safe_base_operations.hpp:1101-1103, interval_open *)
Definition interval_open (i : interval) : bool := exception (il i) || exception (iu i).

Inductive cmpop : Type := CLt | CEq.

(** safe_base_operations.hpp:1070-1133 (less_than_result) and 1182-1252
    (equal_result) *)
Definition compare (D : dmodel) (c : cmpop) (t u : otype) (x y : Z)
  : option (M bool) :=
  match common_pp t u, common_ep t u with
  | Some P, Some E =>
      match result_base_type D P PCmp t u with
      | Some R =>
          let ti := lim_interval D R t in
          let ui := lim_interval D R u in
          let value : option (M bool) :=
            if interval_open ti || interval_open ui then
              match casting_helper D E R t u x y with
              | Some casts =>
                  Some (p <- casts ;;
                        mret (match c with
                              | CLt => less_than D R R (fst p) (snd p)
                              | CEq => equal D R R (fst p) (snd p)
                              end))
              | None => None
              end
            else
              Some (mret (match c with
                          | CLt => c_lt D R R (conv D R x) (conv D R y)
                          | CEq => c_eq D R R (conv D R x) (conv D R y)
                          end)) in
          match value with
          | None => None
          | Some v =>
              match c with
              | CLt =>
                  if tri_bool (i_lt D R ti ui) then Some (mret true)
                  else if tri_bool (i_gt D R ti ui) then Some (mret false)
                  else Some v
              | CEq =>
                  if tri_bool (tri_not (intersect D R ti ui)) then Some (mret false)
                  else Some v
              end
          end
      | None => None
      end
  | _, _ => None
  end.

Definition mnot (m : M bool) : M bool := b <- m ;; mret (negb b).

(** safe_base_operations.hpp:1144-1178, 1254-1267: the six operators *)
Definition s_lt (D : dmodel) (t u : otype) (x y : Z) := compare D CLt t u x y.
Definition s_gt (D : dmodel) (t u : otype) (x y : Z) := compare D CLt u t y x.
Definition s_ge (D : dmodel) (t u : otype) (x y : Z) := option_map mnot (s_lt D t u x y).
Definition s_le (D : dmodel) (t u : otype) (x y : Z) := option_map mnot (s_gt D t u x y).
Definition s_eq (D : dmodel) (t u : otype) (x y : Z) := compare D CEq t u x y.
Definition s_ne (D : dmodel) (t u : otype) (x y : Z) := option_map mnot (s_eq D t u x y).

(** ------------------------------------------------------------------ *)
(** Bitwise operators *)

(** safe_base_operations.hpp:1595-1611, 1659-1675, 1722-1738: the result type.
    The constants are converted to result_base_type as template arguments; a
    value that does not fit is a narrowing conversion and does not compile. *)
Definition bitwise_type (D : dmodel) (b : bop) (t u : otype) : option safe_t :=
  match common_pp t u, common_ep t u with
  | Some P, Some E =>
      match result_base_type D P (PBit b) t u with
      | Some R =>
          let r := to_unsigned R in
          let mt := conv D r (lim_hi D t) in
          let mu := conv D r (lim_hi D u) in
          match round_out D r (match b with And => Z.min mt mu | _ => Z.max mt mu end) with
          | Ok m => if in_range D R m then Some (mkSafe R 0 m P E) else None
          | UB => None
          end
      | None => None
      end
  | _, _ => None
  end.

(** safe_base_operations.hpp:1581-1627, 1645-1691, 1709-1754 *)
Definition bitwise (D : dmodel) (b : bop) (t u : otype) (x y : Z)
  : option (safe_t * M Z) :=
  match bitwise_type D b t u with
  | Some s =>
      let R := st s in
      let a := conv D R x in
      let c := conv D R y in
      let v := match b with
               | Or => c_or D R R a c
               | And => c_and D R R a c
               | Xor => c_xor D R R a c
               end in
      Some (s, mret (conv D R v))
  | None => None
  end.

(** ------------------------------------------------------------------ *)
(** Unary operators, compound assignment, increment *)

(** all binary operators that yield a safe value *)
Inductive binop : Type := BA (o : aop) | BB (o : bop).

Definition eval_binop (D : dmodel) (op : binop) (t u : otype) (x y : Z)
  : option (safe_t * M Z) :=
  match op with
  | BA o => binary D o t u x y
  | BB o => bitwise D o t u x y
  end.

(** safe_base.hpp:261-268, operator-() *)
Definition unary_minus (D : dmodel) (s : safe_t) (x : Z) : option (safe_t * M Z) :=
  binary D Sub (ORaw Int) (OSafe s) 0 x.

(** safe_base.hpp:246-248, operator+() *)
Definition unary_plus (s : safe_t) (x : Z) : option (safe_t * M Z) :=
  Some (s, mret x).

(** safe_base.hpp:274-276, operator~() *)
Definition complement (D : dmodel) (s : safe_t) (x : Z) : option (safe_t * M Z) :=
  bitwise D Xor (ORaw (promote D (st s))) (OSafe s) (c_not D (st s) (conv D (st s) 0)) x.

(** t = static_cast<T>(t op u): safe_base_operations.hpp:486-494, 609-617,
    734-742, 894-902, 1055-1063, 1391-1401, 1547-1557, 1634-1642, 1698-1706,
    1761-1769, for a target of safe type [s] or of built-in type: the new value
    of the target *)
Definition compound (D : dmodel) (op : binop) (tgt u : otype) (x y : Z)
  : option (M Z) :=
  match eval_binop D op tgt u x y with
  | None => None
  | Some (rs, m) =>
      match tgt with
      | ORaw T =>
          match to_builtin D T rs 0 with
          | None => None
          | Some _ =>
              Some (r <- m ;;
                    match to_builtin D T rs r with Some k => k | None => mundef end)
          end
      | OSafe s =>
          match construct D s (OSafe rs) 0 with
          | None => None
          | Some _ =>
              Some (r <- m ;;
                    match construct D s (OSafe rs) r with Some k => k | None => mundef end)
          end
      | OLit _ _ _ _ => None (* a literal is not assignable *)
      end
  end.

(** safe_base.hpp:229-234, operator++() and operator--(): the new value *)
Definition increment (D : dmodel) (s : safe_t) (x : Z) : option (M Z) :=
  compound D (BA Add) (OSafe s) (ORaw Int) x 1.
Definition decrement (D : dmodel) (s : safe_t) (x : Z) : option (M Z) :=
  compound D (BA Sub) (OSafe s) (ORaw Int) x 1.

(** safe_base.hpp:235-244, operator++(int) and operator--(int): the value
    returned and the new value of the object *)
Definition post_increment (D : dmodel) (s : safe_t) (x : Z) : option (M (Z * Z)) :=
  option_map (fun m => n <- m ;; mret (x, n)) (increment D s x).
Definition post_decrement (D : dmodel) (s : safe_t) (x : Z) : option (M (Z * Z)) :=
  option_map (fun m => n <- m ;; mret (x, n)) (decrement D s x).

(** ------------------------------------------------------------------ *)
(** Predefined safe types and literals *)

(** safe_integer.hpp:29-39, safe<T, P, E> *)
Definition safe (D : dmodel) (T : ctype) (P : pp) (E : ep) : safe_t :=
  mkSafe T (lo D T) (hi D T) P E.

(** safe_integer_range.hpp:26-38, safe_signed_range<Min, Max, P, E> *)
Definition safe_signed_range (D : dmodel) (mn mx : Z) (P : pp) (E : ep) : option safe_t :=
  option_map (fun T => mkSafe T (conv D T mn) (conv D T mx) P E)
             (signed_stored_type D mn mx).

(** safe_integer_range.hpp:42-54, safe_unsigned_range<Min, Max, P, E> *)
Definition safe_unsigned_range (D : dmodel) (mn mx : Z) (P : pp) (E : ep) : option safe_t :=
  option_map (fun T => mkSafe T (conv D T mn) (conv D T mx) P E)
             (unsigned_stored_type D mn mx).

(** safe_integer_literal.hpp:171-193; N is a template argument converted to the
    stored type: narrowing does not compile *)
Definition safe_signed_literal (D : dmodel) (N : Z) (P : option pp) (E : option ep)
  : option otype :=
  match signed_stored_type D N N with
  | Some T => if in_range D T N then Some (OLit T N P E) else None
  | None => None
  end.
Definition safe_unsigned_literal (D : dmodel) (N : Z) (P : option pp) (E : option ep)
  : option otype :=
  match unsigned_stored_type D N N with
  | Some T => if in_range D T N then Some (OLit T N P E) else None
  | None => None
  end.

(** safe_integer_literal.hpp:127-149, unary - of a literal: enabled when
    checked::minus(N) has no exception; -N is a template argument of type T *)
Definition lit_minus (D : dmodel) (T : ctype) (N : Z) : option Z :=
  match minus D T N, c_neg D T N with
  | Ok (CVal _), Ok v => if in_range D T v then Some v else None
  | _, _ => None
  end.

(** safe_integer_literal.hpp:151-168, ~ of a literal *)
Definition lit_not (D : dmodel) (T : ctype) (N : Z) : option Z :=
  match bitwise_not D T N with
  | Ok (CVal _) => let v := c_not D T N in if in_range D T v then Some v else None
  | _ => None
  end.
