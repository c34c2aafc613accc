(** Interval.v -- model of include/boost/safe_numerics/interval.hpp (with
    element type checked_result<R>) and of utility::minmax. Definitions only. *)
From Coq Require Import ZArith List Bool.
From Verif Require Import Base CType CheckedInteger CheckedResultOps.
Import ListNotations.
Local Open Scope Z_scope.
Local Open Scope res_scope.

(** interval.hpp:26-50, interval<checked_result<R>>. The element type R is a
    parameter of the operations. *)
Record interval : Type := mkI { il : checked; iu : checked }.

(** interval.hpp:46-50 with checked_result_operations.hpp:1193-1205: the default
    interval of R *)
Definition full_interval (D : dmodel) (R : ctype) : interval :=
  mkI (CVal (lo D R)) (CVal (hi D R)).

(** utility.hpp:216-230, minmax of a non-empty list *)
Fixpoint minmax_loop (D : dmodel) (R : ctype) (l : list checked) (mn mx : checked)
  : checked * checked :=
  match l with
  | [] => (mn, mx)
  | i :: l' =>
      if tri_bool (cr_lt D R i mn) then minmax_loop D R l' i mx
      else if tri_bool (cr_lt D R mx i) then minmax_loop D R l' mn i
      else minmax_loop D R l' mn mx
  end.

Definition minmax (D : dmodel) (R : ctype) (l : list checked) : res interval :=
  match l with
  | [] => UB (* assert(l.size() > 0) *)
  | x :: _ => let (a, b) := minmax_loop D R l x x in Ok (mkI a b)
  end.

(** evaluate the elements of an initializer_list *)
Fixpoint seq_res {A : Type} (l : list (res A)) : res (list A) :=
  match l with
  | [] => Ok []
  | m :: l' => let* a := m in let* r := seq_res l' in Ok (a :: r)
  end.

Definition minmax_of (D : dmodel) (R : ctype) (l : list (res checked)) : res interval :=
  let* vs := seq_res l in minmax D R vs.

(** interval.hpp:53-55, includes(point) *)
Definition includes_pt (D : dmodel) (R : ctype) (i : interval) (t : checked) : tribool :=
  tri_and (cr_le D R (il i) t) (cr_le D R t (iu i)).

(** interval.hpp:60-62, includes(interval) *)
Definition includes (D : dmodel) (R : ctype) (i t : interval) : tribool :=
  tri_and (cr_ge D R (iu i) (iu t)) (cr_le D R (il i) (il t)).

(** interval.hpp:65-67, excludes(point) *)
Definition excludes_pt (D : dmodel) (R : ctype) (i : interval) (t : checked) : tribool :=
  tri_or (cr_lt D R t (il i)) (cr_gt D R t (iu i)).

(** interval.hpp:72-74, excludes(interval) *)
Definition excludes (D : dmodel) (R : ctype) (i t : interval) : tribool :=
  tri_or (cr_lt D R (iu t) (il i)) (cr_lt D R (iu i) (il t)).

(** interval.hpp:101-105 *)
Definition i_add (D : dmodel) (R : ctype) (t u : interval) : res interval :=
  let* a := cr_add D R (il t) (il u) in
  let* b := cr_add D R (iu t) (iu u) in
  Ok (mkI a b).

(** interval.hpp:107-111 *)
Definition i_sub (D : dmodel) (R : ctype) (t u : interval) : res interval :=
  let* a := cr_sub D R (il t) (iu u) in
  let* b := cr_sub D R (iu t) (il u) in
  Ok (mkI a b).

(** the four corners in the order used by interval.hpp:113-180 *)
Definition corners (f : checked -> checked -> res checked) (t u : interval)
  : list (res checked) :=
  [ f (il t) (il u); f (il t) (iu u); f (iu t) (il u); f (iu t) (iu u) ].

(** interval.hpp:113-124 *)
Definition i_mul (D : dmodel) (R : ctype) (t u : interval) : res interval :=
  minmax_of D R (corners (cr_mul D R) t u).

(** interval.hpp:128-139; a failing assert makes the program ill-formed in a
    constant expression and aborts otherwise: [UB] *)
Definition i_div (D : dmodel) (R : ctype) (t u : interval) : res interval :=
  if tri_bool (excludes_pt D R u (CVal 0))
  then minmax_of D R (corners (cr_div D R) t u) else UB.

(** interval.hpp:143-154 *)
Definition i_mod (D : dmodel) (R : ctype) (t u : interval) : res interval :=
  if tri_bool (excludes_pt D R u (CVal 0))
  then minmax_of D R (corners (cr_mod D R) t u) else UB.

(** interval.hpp:156-167 *)
Definition i_shl (D : dmodel) (R : ctype) (t u : interval) : res interval :=
  minmax_of D R (corners (cr_shl D R) t u).

(** interval.hpp:169-180 *)
Definition i_shr (D : dmodel) (R : ctype) (t u : interval) : res interval :=
  minmax_of D R (corners (cr_shr D R) t u).

(** std::min(a, b) and std::max(a, b) on checked results *)
Definition std_min (D : dmodel) (R : ctype) (a b : checked) : checked :=
  if tri_bool (cr_lt D R b a) then b else a.
Definition std_max (D : dmodel) (R : ctype) (a b : checked) : checked :=
  if tri_bool (cr_lt D R a b) then b else a.

(** interval.hpp:183-188, union hull *)
Definition i_union (D : dmodel) (R : ctype) (t u : interval) : interval :=
  mkI (std_min D R (il t) (il u)) (std_max D R (iu t) (iu u)).

(** interval.hpp:191-196, intersection *)
Definition i_inter (D : dmodel) (R : ctype) (t u : interval) : interval :=
  mkI (std_max D R (il t) (il u)) (std_min D R (iu t) (iu u)).

(** interval.hpp:199-202, intersect *)
Definition intersect (D : dmodel) (R : ctype) (t u : interval) : tribool :=
  tri_or (cr_ge D R (iu t) (il u)) (cr_le D R (il t) (iu u)).

(** interval.hpp:204-217 *)
Definition i_lt (D : dmodel) (R : ctype) (t u : interval) : tribool :=
  if tri_bool (cr_lt D R (iu t) (il u)) then TTrue
  else if tri_bool (cr_gt D R (il t) (iu u)) then TFalse
  else TInd.

(** interval.hpp:219-232 *)
Definition i_gt (D : dmodel) (R : ctype) (t u : interval) : tribool :=
  if tri_bool (cr_gt D R (il t) (iu u)) then TTrue
  else if tri_bool (cr_lt D R (iu t) (il u)) then TFalse
  else TInd.

(** interval.hpp:234-241; returns bool *)
Definition i_eq (D : dmodel) (R : ctype) (t u : interval) : bool :=
  tri_bool (tri_and (cr_eq D R (il t) (il u)) (cr_eq D R (iu t) (iu u))).

(** interval.hpp:243-249 *)
Definition i_ne (D : dmodel) (R : ctype) (t u : interval) : bool :=
  negb (i_eq D R t u).

(** interval.hpp:251-257, 259-265 *)
Definition i_le (D : dmodel) (R : ctype) (t u : interval) : tribool :=
  tri_not (i_gt D R t u).
Definition i_ge (D : dmodel) (R : ctype) (t u : interval) : tribool :=
  tri_not (i_lt D R t u).
