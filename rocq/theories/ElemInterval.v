(** ElemInterval.v -- model of include/boost/safe_numerics/interval.hpp with element types other
    than checked_result: interval<T> for a built-in T and interval<safe_base<...>>. The element
    type is an operand type o (ORaw T or OSafe s). Definitions only. *)
From Coq Require Import ZArith List Bool.
From Verif Require Import Base CType Promotion ExceptionPolicy SafeBase SafeSpec Program.
Import ListNotations.
Local Open Scope Z_scope.
Local Open Scope m_scope.

(** interval.hpp:26-29: the members l and u *)
Record ival : Type := mkV { vl : Z; vu : Z }.

(** x op y for two elements: the built-in operator or that of safe_base_operations.hpp. The
    type of the result, [None] if it does not compile *)
Definition elem_type (D : dmodel) (o : otype) (op : aop) : option otype :=
  match o with
  | ORaw T => Some (ORaw (built_in_type D op T T))
  | OSafe _ => option_map (fun p => OSafe (fst p)) (binary D op o o 0 0)
  | OLit _ _ _ _ => None
  end.
(** its value *)
Definition elem_op (D : dmodel) (o : otype) (op : aop) (x y : Z) : M Z :=
  match o with
  | ORaw T => match built_in D op T T x y with Ok z => mret z | UB => mundef end
  | _ => run_snd (binary D op o o x y)
  end.

(** Initialisation of an element from a value of type src. In interval.hpp:31-36 (l(lower)) a
    built-in value is converted silently; inside the braces of an initializer_list
    (interval.hpp:116-121 and others) a narrowing conversion is ill-formed. For safe types it is
    the converting constructor, which is the copy constructor if the types are the same; that
    makes no difference, since no check is made then. *)
Definition init_compiles (braces : bool) (D : dmodel) (o src : otype) : bool :=
  match o, src with
  | ORaw T, ORaw U => negb braces || ((lo D T <=? lo D U) && (hi D U <=? hi D T))
  | OSafe s, _ => match construct D s src 0 with Some _ => true | None => false end
  | _, _ => false
  end.
Definition elem_init (D : dmodel) (o src : otype) (z : Z) : M Z :=
  match o with
  | ORaw T => mret (conv D T z)
  | OSafe s => run (construct D s src z)
  | OLit _ _ _ _ => mundef
  end.

(** comparisons of two elements *)
Definition elem_rel (D : dmodel) (o : otype) (r : relop) (x y : Z) : M bool :=
  match o with
  | ORaw T =>
      mret (match r with
            | RLt => c_lt D T T x y
            | RGt => c_lt D T T y x
            | RLe => negb (c_lt D T T y x)
            | RGe => negb (c_lt D T T x y)
            | REq => c_eq D T T x y
            | RNe => negb (c_eq D T T x y)
            end)
  | _ => run (eval_relop D r o o x y)
  end.
Definition rel_compiles (D : dmodel) (o : otype) (r : relop) : bool :=
  match o with
  | ORaw _ => true
  | OSafe _ => match eval_relop D r o o 0 0 with Some _ => true | None => false end
  | OLit _ _ _ _ => false
  end.

(** a && b and a || b of two comparisons *)
Definition both_of (a b : M bool) : M bool := x <- a ;; if x : bool then b else mret false.
Definition one_of (a b : M bool) : M bool := x <- a ;; if x : bool then mret true else b.

(** interval.hpp:53-55, includes(point). The result is a tribool made from a bool *)
Definition v_includes_pt (D : dmodel) (o : otype) (i : ival) (t : Z) : M bool :=
  both_of (elem_rel D o RLe (vl i) t) (elem_rel D o RLe t (vu i)).
(** interval.hpp:60-62 *)
Definition v_includes (D : dmodel) (o : otype) (i t : ival) : M bool :=
  both_of (elem_rel D o RGe (vu i) (vu t)) (elem_rel D o RLe (vl i) (vl t)).
(** interval.hpp:65-67 *)
Definition v_excludes_pt (D : dmodel) (o : otype) (i : ival) (t : Z) : M bool :=
  one_of (elem_rel D o RLt t (vl i)) (elem_rel D o RGt t (vu i)).
(** interval.hpp:72-74 *)
Definition v_excludes (D : dmodel) (o : otype) (i t : ival) : M bool :=
  one_of (elem_rel D o RLt (vu t) (vl i)) (elem_rel D o RLt (vu i) (vl t)).

(** interval.hpp:46-50: the default interval *)
Definition v_full (D : dmodel) (o : otype) : ival := mkV (lim_lo D o) (lim_hi D o).

(** utility.hpp:216-230, minmax *)
Fixpoint v_minmax_loop (D : dmodel) (o : otype) (l : list Z) (mn mx : Z) : M (Z * Z) :=
  match l with
  | [] => mret (mn, mx)
  | i :: l' =>
      a <- elem_rel D o RLt i mn ;;
      if a : bool then v_minmax_loop D o l' i mx
      else b <- elem_rel D o RLt mx i ;;
           if b : bool then v_minmax_loop D o l' mn i else v_minmax_loop D o l' mn mx
  end.
Definition v_minmax (D : dmodel) (o : otype) (l : list Z) : M ival :=
  match l with
  | [] => mundef (* assert(l.size() > 0) *)
  | x :: _ => p <- v_minmax_loop D o l x x ;; mret (mkV (fst p) (snd p))
  end.

(** one element of the initializer_list of interval.hpp:116-121 and others *)
Definition corner (D : dmodel) (o : otype) (op : aop) (x y : Z) : M Z :=
  match elem_type D o op with
  | Some src => z <- elem_op D o op x y ;; elem_init D o src z
  | None => mundef
  end.
(** the four corners, from left to right, and their minmax *)
Definition v_corners (D : dmodel) (o : otype) (op : aop) (t u : ival) : M ival :=
  a <- corner D o op (vl t) (vl u) ;;
  b <- corner D o op (vl t) (vu u) ;;
  c <- corner D o op (vu t) (vl u) ;;
  d <- corner D o op (vu t) (vu u) ;;
  v_minmax D o [a; b; c; d].

(** interval.hpp:101-111: the two results are computed, then the two members are initialised *)
Definition v_ends (D : dmodel) (o : otype) (op : aop) (x1 y1 x2 y2 : Z) : M ival :=
  match elem_type D o op with
  | Some src =>
      a <- elem_op D o op x1 y1 ;; b <- elem_op D o op x2 y2 ;;
      l <- elem_init D o src a ;; u <- elem_init D o src b ;; mret (mkV l u)
  | None => mundef
  end.

(** interval.hpp:130, 145: assert(u.excludes(T(0))); a failing assertion ends the program: [Undef].
    Simplified: assertions are enabled. *)
Definition v_nonzero (D : dmodel) (o : otype) (u : ival) (m : M ival) : M ival :=
  z <- elem_init D o (ORaw Int) 0 ;; e <- v_excludes_pt D o u z ;; if e : bool then m else mundef.

(** interval.hpp:101-180, the operators *)
Definition v_op (D : dmodel) (o : otype) (op : aop) (t u : ival) : M ival :=
  match op with
  | Add => v_ends D o Add (vl t) (vl u) (vu t) (vu u)
  | Sub => v_ends D o Sub (vl t) (vu u) (vu t) (vl u)
  | Mul | Shl | Shr => v_corners D o op t u
  | Div | Mod => v_nonzero D o u (v_corners D o op t u)
  end.
(** which compile *)
Definition v_compiles (D : dmodel) (o : otype) (op : aop) : bool :=
  match elem_type D o op with
  | Some src =>
      match op with
      | Add | Sub => init_compiles false D o src
      | Mul | Shl | Shr => init_compiles true D o src && rel_compiles D o RLt
      | Div | Mod => init_compiles true D o src && rel_compiles D o RLt
                     && rel_compiles D o RGt && init_compiles false D o (ORaw Int)
      end
  | None => false
  end.

(** interval.hpp:183-188, 191-196: std::min(a, b) is b < a ? b : a, std::max(a, b) is a < b ? b : a *)
Definition v_min (D : dmodel) (o : otype) (a b : Z) : M Z := c <- elem_rel D o RLt b a ;; mret (if c : bool then b else a).
Definition v_max (D : dmodel) (o : otype) (a b : Z) : M Z := c <- elem_rel D o RLt a b ;; mret (if c : bool then b else a).
Definition v_union (D : dmodel) (o : otype) (t u : ival) : M ival :=
  l <- v_min D o (vl t) (vl u) ;; h <- v_max D o (vu t) (vu u) ;; mret (mkV l h).
Definition v_inter (D : dmodel) (o : otype) (t u : ival) : M ival :=
  l <- v_max D o (vl t) (vl u) ;; h <- v_min D o (vu t) (vu u) ;; mret (mkV l h).
(** interval.hpp:199-202 *)
Definition v_intersect (D : dmodel) (o : otype) (t u : ival) : M bool :=
  one_of (elem_rel D o RGe (vu t) (vl u)) (elem_rel D o RLe (vl t) (vu u)).
(** interval.hpp:204-232 *)
Definition v_lt (D : dmodel) (o : otype) (t u : ival) : M tribool :=
  a <- elem_rel D o RLt (vu t) (vl u) ;;
  if a : bool then mret TTrue
  else b <- elem_rel D o RGt (vl t) (vu u) ;; mret (if b : bool then TFalse else TInd).
Definition v_gt (D : dmodel) (o : otype) (t u : ival) : M tribool :=
  a <- elem_rel D o RGt (vl t) (vu u) ;;
  if a : bool then mret TTrue
  else b <- elem_rel D o RLt (vu t) (vl u) ;; mret (if b : bool then TFalse else TInd).
(** interval.hpp:234-249 *)
Definition v_eq (D : dmodel) (o : otype) (t u : ival) : M bool :=
  both_of (elem_rel D o REq (vl t) (vl u)) (elem_rel D o REq (vu t) (vu u)).
Definition v_ne (D : dmodel) (o : otype) (t u : ival) : M bool :=
  b <- v_eq D o t u ;; mret (negb b).
(** interval.hpp:251-265 *)
Definition v_le (D : dmodel) (o : otype) (t u : ival) : M tribool := b <- v_gt D o t u ;; mret (tri_not b).
Definition v_ge (D : dmodel) (o : otype) (t u : ival) : M tribool := b <- v_lt D o t u ;; mret (tri_not b).
