(** EmulationSpec.v -- programs over built-in integers on a platform with given widths: what
    cpp<CharBits, ShortBits, IntBits, LongBits, LongLongBits> is to emulate. The rules are those of
    the C++ standard: conv.prom, conv.integral, expr.arith.conv (5p11 in C++14), expr.pre (5p4).
    Of the model it uses the syntax of programs and the exact-width types of the host only. *)
From Coq Require Import ZArith List Bool.
From Verif Require Import Base CType Utility Spec ExceptionPolicy Promotion SafeBase SafeSpec Program ProgramSpec.
Import ListNotations.
Local Open Scope Z_scope.

(** the platform: the widths of char, short, int, long and long long *)
Record widths : Type := mkW { wchar : Z; wshort : Z; wint : Z; wlong : Z; wllong : Z }.
Definition ordered_widths (W : widths) : Prop :=
  wchar W <= wshort W <= wint W /\ wint W <= wlong W <= wllong W.

(** its types *)
Inductive trank : Type := KChar | KShort | KInt | KLong | KLLong.
Record tkind : Type := TK { krank : trank; ksigned : bool }.
Definition tbits (W : widths) (r : trank) : Z :=
  match r with KChar => wchar W | KShort => wshort W | KInt => wint W | KLong => wlong W | KLLong => wllong W end.
Definition kbits (W : widths) (k : tkind) : Z := tbits W (krank k).
Definition rank_no (r : trank) : Z := match r with KChar => 1 | KShort => 2 | KInt => 3 | KLong => 4 | KLLong => 5 end.
Definition in_kind (W : widths) (k : tkind) (z : Z) : Prop :=
  if ksigned k then - 2 ^ (kbits W k - 1) <= z < 2 ^ (kbits W k - 1) else 0 <= z < 2 ^ kbits W k.

(** integral promotion: to int if int has all values of the type, else to unsigned int *)
Definition tpromote (W : widths) (k : tkind) : tkind :=
  if rank_no (krank k) <? 3 then TK KInt (ksigned k || (kbits W k <? wint W)) else k.
(** the usual arithmetic conversions, after promotion *)
Definition tcommon (W : widths) (k l : tkind) : tkind :=
  if Bool.eqb (ksigned k) (ksigned l) then (if rank_no (krank k) <? rank_no (krank l) then l else k)
  else
    let s := if ksigned k then k else l in
    let u := if ksigned k then l else k in
    if rank_no (krank s) <=? rank_no (krank u) then u
    else if kbits W u <? kbits W s then s
    else TK (krank s) false.
Definition tresult (W : widths) (k l : tkind) : tkind := tcommon W (tpromote W k) (tpromote W l).

(** a value of type k: z itself if it is one; modulo 2^n for an unsigned type; otherwise
    undefined (an overflow) or implementation-defined (a conversion) *)
Inductive becomes (W : widths) (k : tkind) (z : Z) : Z -> Prop :=
| B_fits : in_kind W k z -> becomes W k z z
| B_wraps : ksigned k = false -> becomes W k z (z mod 2 ^ kbits W k).

(** expressions with + - * / % & | ^ << >> and casts, and their types; the type of a shift is the
    promoted type of its left operand *)
Inductive texp : Type :=
| TConst (k : tkind) (z : Z)
| TVar (v : nat)
| TBin (op : aop) (a b : texp)
| TBit (op : bop) (a b : texp)
| TShl (a b : texp)
| TShr (a b : texp)
| TRem (a b : texp)
| TCast (k : tkind) (a : texp).
Definition tkinds : Type := nat -> tkind.
Fixpoint tkind_of (W : widths) (K : tkinds) (e : texp) : tkind :=
  match e with
  | TConst k _ | TCast k _ => k
  | TVar v => K v
  | TBin _ a b | TBit _ a b | TRem a b => tresult W (tkind_of W K a) (tkind_of W K b)
  | TShl a _ | TShr a _ => tpromote W (tkind_of W K a)
  end.
Fixpoint shifts (e : texp) : bool :=
  match e with
  | TConst _ _ | TVar _ => false
  | TBin _ a b | TBit _ a b | TRem a b => shifts a || shifts b
  | TShl _ _ | TShr _ _ => true
  | TCast _ a => shifts a
  end.
Definition four (op : aop) : Prop := op = Add \/ op = Sub \/ op = Mul \/ op = Div.
(** [tevals W K i e z]: the value of e is z, and nothing undefined or implementation-defined
    happens: the operands are converted to the common type, the result is computed in it, a
    divisor is not zero. The bits of negative numbers are implementation-defined. A shift count
    is not negative and less than the width of the result, and a shifted value is not negative.
    x % y is undefined if y is zero or x / y is. *)
Inductive tevals (W : widths) (K : tkinds) (i : nat -> Z) : texp -> Z -> Prop :=
| TE_const : forall k z, in_kind W k z -> tevals W K i (TConst k z) z
| TE_var : forall v, tevals W K i (TVar v) (i v)
| TE_bin : forall op a b x y x' y' z, four op ->
    tevals W K i a x -> tevals W K i b y ->
    becomes W (tresult W (tkind_of W K a) (tkind_of W K b)) x x' ->
    becomes W (tresult W (tkind_of W K a) (tkind_of W K b)) y y' ->
    (op = Div -> y' <> 0) -> becomes W (tresult W (tkind_of W K a) (tkind_of W K b)) (exact op x' y') z ->
    tevals W K i (TBin op a b) z
| TE_bit : forall op a b x y x' y', tevals W K i a x -> tevals W K i b y ->
    becomes W (tresult W (tkind_of W K a) (tkind_of W K b)) x x' ->
    becomes W (tresult W (tkind_of W K a) (tkind_of W K b)) y y' ->
    0 <= x' -> 0 <= y' -> tevals W K i (TBit op a b) (bit_op op x' y')
| TE_shl : forall a b x y z, tevals W K i a x -> tevals W K i b y -> 0 <= x ->
    0 <= y < kbits W (tpromote W (tkind_of W K a)) -> becomes W (tpromote W (tkind_of W K a)) (x * 2 ^ y) z ->
    tevals W K i (TShl a b) z
| TE_shr : forall a b x y, tevals W K i a x -> tevals W K i b y -> 0 <= x ->
    0 <= y < kbits W (tpromote W (tkind_of W K a)) -> tevals W K i (TShr a b) (x / 2 ^ y)
| TE_rem : forall a b x y x' y', tevals W K i a x -> tevals W K i b y ->
    becomes W (tresult W (tkind_of W K a) (tkind_of W K b)) x x' ->
    becomes W (tresult W (tkind_of W K a) (tkind_of W K b)) y y' ->
    y' <> 0 -> in_kind W (tresult W (tkind_of W K a) (tkind_of W K b)) (Z.quot x' y') ->
    tevals W K i (TRem a b) (remainder x' y')
| TE_cast : forall k a x z, tevals W K i a x -> becomes W k x z -> tevals W K i (TCast k a) z.

(** the same where no unsigned value wraps either: every operand and result has the value it has
    in the integers. (0 << (n - 1) for a signed type of n bits is left out.) *)
Definition value_bits (W : widths) (k : tkind) : Z := if ksigned k then kbits W k - 1 else kbits W k.
Inductive tfits (W : widths) (K : tkinds) (i : nat -> Z) : texp -> Z -> Prop :=
| TF_const : forall k z, in_kind W k z -> tfits W K i (TConst k z) z
| TF_var : forall v, tfits W K i (TVar v) (i v)
| TF_bin : forall op a b x y, four op -> tfits W K i a x -> tfits W K i b y ->
    in_kind W (tresult W (tkind_of W K a) (tkind_of W K b)) x ->
    in_kind W (tresult W (tkind_of W K a) (tkind_of W K b)) y ->
    (op = Div -> y <> 0) -> in_kind W (tresult W (tkind_of W K a) (tkind_of W K b)) (exact op x y) ->
    tfits W K i (TBin op a b) (exact op x y)
| TF_bit : forall op a b x y, tfits W K i a x -> tfits W K i b y -> 0 <= x -> 0 <= y ->
    tfits W K i (TBit op a b) (bit_op op x y)
| TF_shl : forall a b x y, tfits W K i a x -> tfits W K i b y -> 0 <= x ->
    0 <= y < value_bits W (tpromote W (tkind_of W K a)) -> in_kind W (tpromote W (tkind_of W K a)) (x * 2 ^ y) ->
    tfits W K i (TShl a b) (x * 2 ^ y)
| TF_shr : forall a b x y, tfits W K i a x -> tfits W K i b y -> 0 <= x ->
    0 <= y < kbits W (tpromote W (tkind_of W K a)) -> tfits W K i (TShr a b) (x / 2 ^ y)
| TF_rem : forall a b x y, tfits W K i a x -> tfits W K i b y ->
    in_kind W (tresult W (tkind_of W K a) (tkind_of W K b)) x ->
    in_kind W (tresult W (tkind_of W K a) (tkind_of W K b)) y ->
    y <> 0 -> in_kind W (tresult W (tkind_of W K a) (tkind_of W K b)) (Z.quot x y) ->
    tfits W K i (TRem a b) (remainder x y)
| TF_cast : forall k a x, tfits W K i a x -> in_kind W k x -> tfits W K i (TCast k a) x.

(** conditions and statements *)
Inductive tcmd : Type :=
| TSkip
| TAssign (v : nat) (e : texp)
| TSeq (a b : tcmd)
| TIf (r : relop) (x y : texp) (a b : tcmd)
| TWhile (r : relop) (x y : texp) (a : tcmd).
Inductive tholds (W : widths) (K : tkinds) (i : nat -> Z) (r : relop) (a b : texp) : bool -> Prop :=
| TH : forall x y x' y', tevals W K i a x -> tevals W K i b y ->
    becomes W (tresult W (tkind_of W K a) (tkind_of W K b)) x x' ->
    becomes W (tresult W (tkind_of W K a) (tkind_of W K b)) y y' ->
    tholds W K i r a b (math_rel r x' y').
Inductive truns (W : widths) (K : tkinds) : (nat -> Z) -> tcmd -> (nat -> Z) -> Prop :=
| TR_skip : forall i, truns W K i TSkip i
| TR_assign : forall i v e x z, tevals W K i e x -> becomes W (K v) x z -> truns W K i (TAssign v e) (upd i v z)
| TR_seq : forall i a b i1 i2, truns W K i a i1 -> truns W K i1 b i2 -> truns W K i (TSeq a b) i2
| TR_if : forall i r x y a b (w : bool) i1, tholds W K i r x y w -> truns W K i (if w then a else b) i1 ->
    truns W K i (TIf r x y a b) i1
| TR_while_end : forall i r x y a, tholds W K i r x y false -> truns W K i (TWhile r x y a) i
| TR_while : forall i r x y a i1 i2, tholds W K i r x y true -> truns W K i a i1 -> truns W K i1 (TWhile r x y a) i2 ->
    truns W K i (TWhile r x y a) i2.
(** the same where no unsigned value wraps *)
Inductive tfits_cond (W : widths) (K : tkinds) (i : nat -> Z) (r : relop) (a b : texp) : bool -> Prop :=
| TFH : forall x y, tfits W K i a x -> tfits W K i b y ->
    in_kind W (tresult W (tkind_of W K a) (tkind_of W K b)) x ->
    in_kind W (tresult W (tkind_of W K a) (tkind_of W K b)) y ->
    tfits_cond W K i r a b (math_rel r x y).
Inductive tfits_run (W : widths) (K : tkinds) : (nat -> Z) -> tcmd -> (nat -> Z) -> Prop :=
| TFR_skip : forall i, tfits_run W K i TSkip i
| TFR_assign : forall i v e x, tfits W K i e x -> in_kind W (K v) x -> tfits_run W K i (TAssign v e) (upd i v x)
| TFR_seq : forall i a b i1 i2, tfits_run W K i a i1 -> tfits_run W K i1 b i2 -> tfits_run W K i (TSeq a b) i2
| TFR_if : forall i r x y a b (w : bool) i1, tfits_cond W K i r x y w -> tfits_run W K i (if w then a else b) i1 ->
    tfits_run W K i (TIf r x y a b) i1
| TFR_while_end : forall i r x y a, tfits_cond W K i r x y false -> tfits_run W K i (TWhile r x y a) i
| TFR_while : forall i r x y a i1 i2, tfits_cond W K i r x y true -> tfits_run W K i a i1 ->
    tfits_run W K i1 (TWhile r x y a) i2 -> tfits_run W K i (TWhile r x y a) i2.

(** The program on the host. A type stands for k if its underlying type is the exact-width type
    (boost::int_t<n>::exact, uint_t<n>::exact) of the width and signedness of k; safe types have
    the promotion policy cpp<...> of the platform and any declared range. *)
Definition cpp_of (W : widths) : pp := Cpp (wchar W) (wshort W) (wint W) (wlong W) (wllong W).
Definition stands_for (D : dmodel) (W : widths) (o : otype) (k : tkind) : Prop :=
  (exists T, int_t_exact D (kbits W k) = Some T /\ base_ty o = (if ksigned k then T else to_unsigned T))
  /\ (get_pp o = None \/ get_pp o = Some (cpp_of W)).

(** the exception: an unsigned operand narrower than int, and a result of type int *)
Definition fair (W : widths) (k l : tkind) : Prop :=
  (ksigned k = false /\ kbits W k < wint W) \/ (ksigned l = false /\ kbits W l < wint W) ->
  ksigned (tresult W k l) = false \/ kbits W (tresult W k l) <> wint W.

(** comparisons: if the common type is unsigned, the declared ranges have no negative values or
    have a value in common *)
Definition comparable (D : dmodel) (G : tenv) (x y : expr) (k : tkind) : Prop :=
  forall t u, type_of D G x = Some t -> type_of D G y = Some u ->
  ksigned k = true \/ (0 <= lim_lo D t /\ 0 <= lim_lo D u) \/ (exists p, holds D t p /\ holds D u p).

(** operands of & | ^: constants that are not negative, or of types without negative values *)
Definition not_negative (D : dmodel) (G : tenv) (e : expr) : Prop :=
  (exists o z, e = EConst o z /\ 0 <= z) \/ (forall t, type_of D G e = Some t -> 0 <= lim_lo D t).

(** Operands of << and >>: the type of the count does not raise the type of the result; the
    shifted value is not negative; a bad shift raises an exception. For << the shifted range has a
    positive value, and the count is not negative or can be too large. For >> to an unsigned type,
    the count is of a type without negative values and is never the width of the result. *)
Definition shift_checked (D : dmodel) (G : tenv) (a b : expr) : Prop :=
  forall t u E, type_of D G a = Some t -> type_of D G b = Some u -> get_ep t = Some E \/ get_ep u = Some E -> throws_shift E.
Definition shl_host (D : dmodel) (W : widths) (G : tenv) (a b : expr) (k l : tkind) : Prop :=
  tresult W k l = tpromote W k /\ not_negative D G a /\ shift_checked D G a b
  /\ (forall t, type_of D G a = Some t -> 0 < lim_hi D t)
  /\ (not_negative D G b \/ forall u, type_of D G b = Some u -> value_bits W (tpromote W k) <= lim_hi D u).
Definition shr_host (D : dmodel) (W : widths) (G : tenv) (a b : expr) (k l : tkind) : Prop :=
  tresult W k l = tpromote W k /\ not_negative D G a /\ shift_checked D G a b
  /\ (ksigned (tpromote W k) = true
      \/ forall u, type_of D G b = Some u ->
         0 <= lim_lo D u /\ (lim_hi D u < kbits W (tpromote W k) \/ kbits W (tpromote W k) < lim_lo D u)).

(** Operands of %, whose result goes into the variable v (the declared range of x % y is wrong:
    C25): v takes every value of the result's type, and MIN % -1 cannot happen. *)
Definition rem_host (D : dmodel) (W : widths) (G : tenv) (v : nat) (a b : expr) (r : tkind) : Prop :=
  (forall z, in_kind W r z -> holds D (G v) z)
  /\ (ksigned r = false
      \/ forall t u, type_of D G a = Some t -> type_of D G b = Some u -> - 2 ^ (kbits W r - 1) < lim_lo D t \/ 0 <= lim_lo D u).

Inductive on_host (D : dmodel) (W : widths) (G : tenv) (K : tkinds) : expr -> texp -> Prop :=
| H_const : forall o k z, stands_for D W o k -> type_ok false D o -> holds D o z -> on_host D W G K (EConst o z) (TConst k z)
| H_var : forall v, on_host D W G K (EVar v) (TVar v)
| H_bin : forall op f a a' b b', four op -> on_host D W G K a a' -> on_host D W G K b b' ->
    fair W (tkind_of W K a') (tkind_of W K b') -> on_host D W G K (EBin (BA op) f a b) (TBin op a' b')
| H_bit : forall op f a a' b b', on_host D W G K a a' -> on_host D W G K b b' ->
    fair W (tkind_of W K a') (tkind_of W K b') -> not_negative D G a -> not_negative D G b ->
    on_host D W G K (EBin (BB op) f a b) (TBit op a' b')
| H_shl : forall f a a' b b', on_host D W G K a a' -> on_host D W G K b b' ->
    fair W (tkind_of W K a') (tkind_of W K b') -> shl_host D W G a b (tkind_of W K a') (tkind_of W K b') ->
    on_host D W G K (EBin (BA Shl) f a b) (TShl a' b')
| H_shr : forall f a a' b b', on_host D W G K a a' -> on_host D W G K b b' ->
    fair W (tkind_of W K a') (tkind_of W K b') -> shr_host D W G a b (tkind_of W K a') (tkind_of W K b') ->
    on_host D W G K (EBin (BA Shr) f a b) (TShr a' b')
| H_cast : forall o k a a', stands_for D W o k -> type_ok false D o -> on_host D W G K a a' ->
    on_host D W G K (ECast o a) (TCast k a').
Inductive cmd_on_host (D : dmodel) (W : widths) (G : tenv) (K : tkinds) : cmd -> tcmd -> Prop :=
| HC_skip : cmd_on_host D W G K CSkip TSkip
| HC_assign : forall v e e', on_host D W G K e e' -> cmd_on_host D W G K (CAssign v e) (TAssign v e')
| HC_compound : forall op v e e', four op -> on_host D W G K e e' -> fair W (K v) (tkind_of W K e') ->
    cmd_on_host D W G K (CCompound (BA op) v e) (TAssign v (TBin op (TVar v) e'))
| HC_bit : forall op v e e', on_host D W G K e e' -> fair W (K v) (tkind_of W K e') ->
    not_negative D G (EVar v) -> not_negative D G e ->
    cmd_on_host D W G K (CCompound (BB op) v e) (TAssign v (TBit op (TVar v) e'))
| HC_shl : forall v e e', on_host D W G K e e' -> fair W (K v) (tkind_of W K e') ->
    shl_host D W G (EVar v) e (K v) (tkind_of W K e') ->
    cmd_on_host D W G K (CCompound (BA Shl) v e) (TAssign v (TShl (TVar v) e'))
| HC_shr : forall v e e', on_host D W G K e e' -> fair W (K v) (tkind_of W K e') ->
    shr_host D W G (EVar v) e (K v) (tkind_of W K e') ->
    cmd_on_host D W G K (CCompound (BA Shr) v e) (TAssign v (TShr (TVar v) e'))
| HC_rem : forall v f a a' b b', on_host D W G K a a' -> on_host D W G K b b' ->
    fair W (tkind_of W K a') (tkind_of W K b') -> rem_host D W G v a b (tresult W (tkind_of W K a') (tkind_of W K b')) ->
    cmd_on_host D W G K (CAssign v (EBin (BA Mod) f a b)) (TAssign v (TRem a' b'))
| HC_rem_assign : forall v e e', on_host D W G K e e' -> fair W (K v) (tkind_of W K e') ->
    rem_host D W G v (EVar v) e (tresult W (K v) (tkind_of W K e')) ->
    cmd_on_host D W G K (CCompound (BA Mod) v e) (TAssign v (TRem (TVar v) e'))
| HC_inc : forall v, cmd_on_host D W G K (CInc v) (TAssign v (TBin Add (TVar v) (TConst (TK KInt true) 1)))
| HC_dec : forall v, cmd_on_host D W G K (CDec v) (TAssign v (TBin Sub (TVar v) (TConst (TK KInt true) 1)))
| HC_seq : forall a a' b b', cmd_on_host D W G K a a' -> cmd_on_host D W G K b b' ->
    cmd_on_host D W G K (CSeq a b) (TSeq a' b')
| HC_if : forall r f x x' y y' a a' b b', on_host D W G K x x' -> on_host D W G K y y' ->
    fair W (tkind_of W K x') (tkind_of W K y') -> comparable D G x y (tresult W (tkind_of W K x') (tkind_of W K y')) ->
    cmd_on_host D W G K a a' -> cmd_on_host D W G K b b' ->
    cmd_on_host D W G K (CIf (Cond r f x y) a b) (TIf r x' y' a' b')
| HC_while : forall r f x x' y y' a a', on_host D W G K x x' -> on_host D W G K y y' ->
    fair W (tkind_of W K x') (tkind_of W K y') -> comparable D G x y (tresult W (tkind_of W K x') (tkind_of W K y')) ->
    cmd_on_host D W G K a a' ->
    cmd_on_host D W G K (CWhile (Cond r f x y) a) (TWhile r x' y' a').

(** the casts of a program are to types without a declared range; if it has ++ or --, the
    int of the host stands for some type of the platform *)
Definition whole (D : dmodel) (o : otype) : Prop := forall z, in_type D (base_ty o) z -> holds D o z.
Fixpoint whole_casts (D : dmodel) (e : expr) : Prop :=
  match e with
  | EConst _ _ | EVar _ => True
  | EBin _ _ a b => whole_casts D a /\ whole_casts D b
  | ENeg a | EPos a => whole_casts D a
  | ECast o a => whole D o /\ whole_casts D a
  end.
Fixpoint whole_types (D : dmodel) (W : widths) (c : cmd) : Prop :=
  match c with
  | CAssign _ e | CCompound _ _ e => whole_casts D e
  | CInc _ | CDec _ => exists r, int_t_exact D (tbits W r) = Some Int
  | CSeq a b => whole_types D W a /\ whole_types D W b
  | CIf (Cond _ _ x y) a b => whole_casts D x /\ whole_casts D y /\ whole_types D W a /\ whole_types D W b
  | CWhile (Cond _ _ x y) a => whole_casts D x /\ whole_casts D y /\ whole_types D W a
  | _ => True
  end.
