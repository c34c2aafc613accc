(** Promotion.v -- operand types and the promotion policies native.hpp,
    cpp.hpp and automatic.hpp. Definitions only. *)
From Coq Require Import ZArith List Bool.
From Verif Require Import Base CType Utility CheckedInteger CheckedResultOps
  Interval ExceptionPolicy.
Import ListNotations.
Local Open Scope Z_scope.
Local Open Scope res_scope.

(** native.hpp:19-105, automatic.hpp:29-474, cpp.hpp:31-192 *)
Inductive pp : Type :=
| Native
| Automatic
| Cpp (char_bits short_bits int_bits long_bits long_long_bits : Z).

Definition pp_eqb (a b : pp) : bool :=
  match a, b with
  | Native, Native | Automatic, Automatic => true
  | Cpp a1 a2 a3 a4 a5, Cpp b1 b2 b3 b4 b5 =>
      (a1 =? b1) && (a2 =? b2) && (a3 =? b3) && (a4 =? b4) && (a5 =? b5)
  | _, _ => false
  end.

(** safe_base.hpp:116-123, safe_base<Stored, Min, Max, P, E> *)
Record safe_t : Type := mkSafe {
  st : ctype; smin : Z; smax : Z; sP : pp; sE : ep
}.

(** The types an operand can have: a built-in integer, a safe_base, or a
    safe_literal_impl<T, N, P, E> (safe_integer_literal.hpp:65-169), whose
    policies may be void. *)
Inductive otype : Type :=
| ORaw (T : ctype)
| OSafe (s : safe_t)
| OLit (T : ctype) (N : Z) (P : option pp) (E : option ep).

(** safe_common.hpp:15-17, safe_base.hpp:44-45, safe_integer_literal.hpp:25-27 *)
Definition is_safe (o : otype) : bool :=
  match o with ORaw _ => false | _ => true end.

(** safe_common.hpp:19-22, safe_base.hpp:76-78, safe_integer_literal.hpp:38-41 *)
Definition base_ty (o : otype) : ctype :=
  match o with ORaw T => T | OSafe s => st s | OLit T _ _ _ => T end.

(** std::numeric_limits<operand>::min() / max(): the language for built-ins,
    safe_base.hpp:289-310, safe_integer_literal.hpp:236-256 *)
Definition lim_lo (D : dmodel) (o : otype) : Z :=
  match o with ORaw T => lo D T | OSafe s => smin s | OLit _ N _ _ => N end.
Definition lim_hi (D : dmodel) (o : otype) : Z :=
  match o with ORaw T => hi D T | OSafe s => smax s | OLit _ N _ _ => N end.

(** safe_common.hpp:29-37, safe_base.hpp:54-67, safe_integer_literal.hpp:29-36 *)
Definition get_pp (o : otype) : option pp :=
  match o with ORaw _ => None | OSafe s => Some (sP s) | OLit _ _ P _ => P end.
Definition get_ep (o : otype) : option ep :=
  match o with ORaw _ => None | OSafe s => Some (sE s) | OLit _ _ _ E => E end.

(** The interval {checked::cast<R>(base_value(numeric_limits<T>::min())),
    checked::cast<R>(base_value(numeric_limits<T>::max()))} built by every
    result class, e.g. safe_base_operations.hpp:418-425, automatic.hpp:70-78 *)
Definition lim_interval (D : dmodel) (R : ctype) (o : otype) : interval :=
  mkI (cast D R (base_ty o) (lim_lo D o)) (cast D R (base_ty o) (lim_hi D o)).

(** The bounds of return_interval, e.g. safe_base_operations.hpp:430-437,
    automatic.hpp:85-92 *)
Definition bound_lo (D : dmodel) (R : ctype) (c : checked) : Z :=
  match c with CVal z => z | CErr _ => lo D R end.
Definition bound_hi (D : dmodel) (R : ctype) (c : checked) : Z :=
  match c with CVal z => z | CErr _ => hi D R end.

(** The operators *)
Inductive aop : Type := Add | Sub | Mul | Div | Mod | Shl | Shr.
Inductive bop : Type := Or | And | Xor.
Inductive pop : Type := PArith (o : aop) | PCmp | PBit (o : bop).

(** native.hpp:22-103: the type of the built-in expression *)
Definition native_result (D : dmodel) (op : pop) (T U : ctype) : ctype :=
  match op with
  | PArith Shl | PArith Shr => promote D T
  | _ => uac D T U
  end.

(** cpp.hpp:41-65 *)
Definition is_type (a : option ctype) (b : ctype) : bool :=
  match a with Some t => ctype_eqb t b | None => false end.

Definition cpp_rank (D : dmodel) (cb sb ib lb llb : Z) (T : ctype) : Z :=
  let S := to_signed T in
  if is_type (int_t_exact D cb) S then 1
  else if is_type (int_t_exact D sb) S then 2
  else if is_type (int_t_exact D ib) S then 3
  else if is_type (int_t_exact D lb) S then 4
  else if is_type (int_t_exact D llb) S then 5
  else 6.

(** cpp.hpp:70-75 *)
Definition cpp_higher (rk : ctype -> Z) (T U : ctype) : ctype :=
  if rk T <? rk U then U else T.

(** cpp.hpp:77-82 *)
Definition cpp_copy_sign (D : dmodel) (T U : ctype) : ctype :=
  if csigned D U then to_signed T else to_unsigned T.

(** cpp.hpp:84-88; local_int_type must exist *)
Definition cpp_promotion (D : dmodel) (rk : ctype -> Z) (local_int T : ctype) : ctype :=
  cpp_copy_sign D (cpp_higher rk local_int T) T.

(** cpp.hpp:92-137; clause 4 names the class std::make_signed<...> itself, which
    is not an integer type: ill-formed *)
Definition cpp_uac (D : dmodel) (rk : ctype -> Z) (T U : ctype) : option ctype :=
  if ctype_eqb T U then Some T
  else if Bool.eqb (csigned D T) (csigned D U) then Some (cpp_higher rk T U)
  else
    let s := if csigned D T then T else U in
    let u := if csigned D T then U else T in
    if rk s <=? rk u then Some u
    else if digits D u <=? digits D s then Some s
    else None.

(** cpp.hpp:41-45: all five local types are named, so each width must be the
    exact width of a built-in type; cpp.hpp:139-143, result_type *)
Definition cpp_result (D : dmodel) (cb sb ib lb llb : Z) (T U : ctype) : option ctype :=
  match int_t_exact D cb, int_t_exact D sb, int_t_exact D ib,
        int_t_exact D lb, int_t_exact D llb with
  | Some _, Some _, Some li, Some _, Some _ =>
      let rk := cpp_rank D cb sb ib lb llb in
      cpp_uac D rk (cpp_promotion D rk li T) (cpp_promotion D rk li U)
  | _, _, _, _, _ => None
  end.

(** automatic.hpp:32-50, result_type<T, Min, Max> *)
Definition stored_type (D : dmodel) (temp : ctype) (mn mx : Z) : option ctype :=
  if csigned D temp then signed_stored_type D mn mx
  else unsigned_stored_type D mn mx.

(** automatic.hpp:54-63, 131-140, 173-182, 233-242, 296-305: temp_base_type *)
Definition auto_temp (D : dmodel) (T U : ctype) : ctype :=
  if negb (csigned D T) && negb (csigned D U) then uintmax D else intmax D.

(** automatic.hpp:370-376, 409-415: temp_base_type of the shifts *)
Definition auto_shift_temp (D : dmodel) (T : ctype) : ctype :=
  if csigned D T then intmax D else uintmax D.

(** automatic.hpp:82-92 and its copies *)
Definition auto_type (D : dmodel) (temp : ctype) (ri : res interval) : option ctype :=
  match ri with
  | Ok i => stored_type D temp (bound_lo D temp (il i)) (bound_hi D temp (iu i))
  | UB => None
  end.

(** The eight quotients (remainders) of automatic.hpp:204-215 (264-275) and
    safe_base_operations.hpp:823-834 (981-992) *)
Definition eight (f : checked -> checked -> res checked) (D : dmodel) (R : ctype)
  (t u : interval) : list (res checked) :=
  let m1 := CVal (conv D R (-1)) in
  let p1 := CVal 1 in
  [ f (il t) (il u); f (il t) m1; f (il t) p1; f (il t) (iu u);
    f (iu t) (il u); f (iu t) m1; f (iu t) p1; f (iu t) (iu u) ].

(** the test [u.u < r_type(0) || u.l > r_type(0)] *)
Definition nonzero_interval (D : dmodel) (R : ctype) (u : interval) : bool :=
  tri_bool (tri_or (cr_lt D R (iu u) (CVal 0)) (cr_gt D R (il u) (CVal 0))).

(** automatic.hpp:198-216 and safe_base_operations.hpp:817-835 *)
Definition div_interval (D : dmodel) (R : ctype) (t u : interval) : res interval :=
  if nonzero_interval D R u then i_div D R t u
  else minmax_of D R (eight (cr_div D R) D R t u).

(** automatic.hpp:258-276: note the quotient in the first branch *)
Definition auto_mod_interval (D : dmodel) (R : ctype) (t u : interval) : res interval :=
  if nonzero_interval D R u then i_div D R t u
  else minmax_of D R (eight (cr_mod D R) D R t u).

(** safe_base_operations.hpp:974-993 *)
Definition mod_interval (D : dmodel) (R : ctype) (t u : interval) : res interval :=
  if nonzero_interval D R u then i_mod D R t u
  else minmax_of D R (eight (cr_mod D R) D R t u).

(** automatic.hpp:340-349, union_interval *)
Definition auto_union (D : dmodel) (R : ctype) (t u : interval) : interval :=
  mkI (if tri_bool (cr_lt D R (il t) (il u)) then il t else il u)
      (if tri_bool (cr_lt D R (iu t) (iu u)) then iu u else iu t).

(** automatic.hpp:426-435, u_interval of right_shift_result *)
Definition auto_shr_u (D : dmodel) (R : ctype) (o : otype) : interval :=
  let i := lim_interval D R o in
  mkI (if exception (il i) then CVal 0 else il i) (iu i).

(** automatic.hpp:54-473 *)
Definition automatic_result (D : dmodel) (op : pop) (t u : otype) : option ctype :=
  let T := base_ty t in
  let U := base_ty u in
  let tmp := auto_temp D T U in
  let stmp := auto_shift_temp D T in
  match op with
  | PArith Add => (* 54-93 *)
      auto_type D tmp (i_add D tmp (lim_interval D tmp t) (lim_interval D tmp u))
  | PArith Sub => (* 96-128 *)
      let I := intmax D in
      auto_type D I (i_sub D I (lim_interval D I t) (lim_interval D I u))
  | PArith Mul => (* 131-170 *)
      auto_type D tmp (i_mul D tmp (lim_interval D tmp t) (lim_interval D tmp u))
  | PArith Div => (* 173-230 *)
      auto_type D tmp (div_interval D tmp (lim_interval D tmp t) (lim_interval D tmp u))
  | PArith Mod => (* 233-290 *)
      auto_type D tmp (auto_mod_interval D tmp (lim_interval D tmp t) (lim_interval D tmp u))
  | PCmp => (* 296-366 *)
      auto_type D tmp (Ok (auto_union D tmp (lim_interval D tmp t) (lim_interval D tmp u)))
  | PArith Shl => (* 370-406 *)
      auto_type D stmp (i_shl D stmp (lim_interval D stmp t) (lim_interval D stmp u))
  | PArith Shr => (* 409-450 *)
      auto_type D stmp (i_shr D stmp (lim_interval D stmp t) (auto_shr_u D stmp u))
  | PBit _ => Some (uac D T U) (* 453-473 *)
  end.

(** promotion_policy::..._result<T, U>::type; [None] = does not compile *)
Definition result_base_type (D : dmodel) (P : pp) (op : pop) (t u : otype)
  : option ctype :=
  match P with
  | Native => Some (native_result D op (base_ty t) (base_ty u))
  | Automatic => automatic_result D op t u
  | Cpp cb sb ib lb llb => cpp_result D cb sb ib lb llb (base_ty t) (base_ty u)
  end.
