(** BuiltinSpec.v -- the program that results when every safe type is replaced by
    the built-in type it stores: its types and its execution, according to the
    C++ standard (CType.v). Of the library model it uses the syntax of programs
    and the stored types only. *)
From Coq Require Import ZArith List Bool Arith.
From Verif Require Import Base CType Spec ExceptionPolicy Promotion SafeBase SafeSpec Program ProgramSpec.
Import ListNotations.
Local Open Scope Z_scope.
Local Open Scope res_scope.

(** the type of a built-in expression *)
Fixpoint btype (D : dmodel) (G : tenv) (e : expr) : ctype :=
  match e with
  | EConst o _ => base_ty o
  | EVar v => base_ty (G v)
  | EBin (BA op) _ a b => built_in_type D op (btype D G a) (btype D G b)
  | EBin (BB _) _ a b => uac D (btype D G a) (btype D G b)
  | ENeg a | EPos a => promote D (btype D G a)
  | ECast o _ => base_ty o
  end.

(** its value, or undefined behaviour *)
Fixpoint beval (D : dmodel) (G : tenv) (i : nat -> Z) (e : expr) : res Z :=
  match e with
  | EConst _ z => Ok z
  | EVar v => Ok (i v)
  | EBin op _ a b =>
      let* x := beval D G i a in
      let* y := beval D G i b in
      match op with
      | BA o => built_in D o (btype D G a) (btype D G b) x y
      | BB o => Ok (built_in_bit D o (btype D G a) (btype D G b) x y)
      end
  | ENeg a => let* x := beval D G i a in c_neg D (btype D G a) x
  | EPos a => beval D G i a
  | ECast o a => let* x := beval D G i a in Ok (conv D (base_ty o) x)
  end.

(** comparisons of built-in values *)
Definition brel (D : dmodel) (r : relop) (T U : ctype) (x y : Z) : bool :=
  match r with
  | RLt => c_lt D T U x y
  | RGt => c_lt D U T y x
  | RLe => negb (c_lt D U T y x)
  | RGe => negb (c_lt D T U x y)
  | REq => c_eq D T U x y
  | RNe => negb (c_eq D T U x y)
  end.
Definition bcond (D : dmodel) (G : tenv) (i : nat -> Z) (c : cond) : res bool :=
  let 'Cond r _ a b := c in
  let* x := beval D G i a in
  let* y := beval D G i b in
  Ok (brel D r (btype D G a) (btype D G b) x y).

Fixpoint bloop (cnd : (nat -> Z) -> res bool) (body : (nat -> Z) -> option (res (nat -> Z)))
  (n : nat) (i : nat -> Z) : option (res (nat -> Z)) :=
  match n with
  | O => None
  | S n' =>
      match cnd i with
      | Ok true =>
          match body i with
          | Some (Ok i1) => bloop cnd body n' i1
          | r => r
          end
      | Ok false => Some (Ok i)
      | UB => Some UB
      end
  end.

Definition rmap {A B : Type} (f : A -> B) (r : res A) : res B := let* x := r in Ok (f x).

(** execution; [None] = a loop made more than [fuel] iterations. Assignment to a
    variable of type T converts to T; v op= e is v = v op e; ++v is v += 1. The
    default-initialized built-in variable has an indeterminate value and is not
    modelled ([CDefault]: no result). *)
Fixpoint bexec (fuel : nat) (D : dmodel) (G : tenv) (i : nat -> Z) (c : cmd) {struct c}
  : option (res (nat -> Z)) :=
  let update v T' op y := (* v op= y, y of type T' *)
    rmap (fun z => conv D (base_ty (G v)) z)
      (match op with
       | BA o => built_in D o (base_ty (G v)) T' (i v) y
       | BB o => Ok (built_in_bit D o (base_ty (G v)) T' (i v) y)
       end) in
  match c with
  | CSkip => Some (Ok i)
  | CDefault _ => None
  | CAssign v e => Some (rmap (fun z => upd i v (conv D (base_ty (G v)) z)) (beval D G i e))
  | CCompound op v e =>
      Some (let* y := beval D G i e in rmap (upd i v) (update v (btype D G e) op y))
  | CInc v => Some (rmap (upd i v) (update v Int (BA Add) 1))
  | CDec v => Some (rmap (upd i v) (update v Int (BA Sub) 1))
  | CPost inc w v =>
      Some (rmap (fun z => upd (upd i v z) w (conv D (base_ty (G w)) (i v)))
              (update v Int (BA (if inc then Add else Sub)) 1))
  | CSeq a b =>
      match bexec fuel D G i a with
      | Some (Ok i1) => bexec fuel D G i1 b
      | r => r
      end
  | CIf c a b =>
      match bcond D G i c with
      | Ok true => bexec fuel D G i a
      | Ok false => bexec fuel D G i b
      | UB => Some UB
      end
  | CWhile c a => bloop (fun i => bcond D G i c) (fun i => bexec fuel D G i a) fuel i
  | CTry a _ => bexec fuel D G i a  (* built-in operations do not throw *)
  end.

(** no exception handlers *)
Fixpoint no_try (c : cmd) : Prop :=
  match c with
  | CTry _ _ => False
  | CSeq a b | CIf _ a b => no_try a /\ no_try b
  | CWhile _ a => no_try a
  | _ => True
  end.

(** Conditions: the built-in comparison converts both operands to a type that
    can represent both (so no signed operand is converted to unsigned). *)
Definition cond_lossless (D : dmodel) (G : tenv) (c : cond) : Prop :=
  let 'Cond _ _ a b := c in
  let R := uac D (btype D G a) (btype D G b) in
  lo D R <= lo D (btype D G a) /\ lo D R <= lo D (btype D G b).
Fixpoint conds_lossless (D : dmodel) (G : tenv) (c : cmd) : Prop :=
  match c with
  | CIf c a b => cond_lossless D G c /\ conds_lossless D G a /\ conds_lossless D G b
  | CWhile c a => cond_lossless D G c /\ conds_lossless D G a
  | CSeq a b | CTry a b => conds_lossless D G a /\ conds_lossless D G b
  | _ => True
  end.

(** ------------------------------------------------------------------ *)
(** Lossless execution: every operand conversion of the usual arithmetic
    conversions, every result, and every converted or assigned value is
    represented exactly; [None] if some is not (or a division is by zero). *)
Definition keep (D : dmodel) (T : ctype) (z : Z) : option Z :=
  if in_range D T z then Some z else None.
Definition fits_type (D : dmodel) (o : otype) (z : Z) : option Z :=
  if (lim_lo D o <=? z) && (z <=? lim_hi D o) then Some z else None.
Definition obind {A B : Type} (m : option A) (k : A -> option B) : option B :=
  match m with Some a => k a | None => None end.

Definition lossless_op (D : dmodel) (op : binop) (T U : ctype) (x y : Z) : option Z :=
  let R := match op with BA o => built_in_type D o T U | BB _ => uac D T U end in
  obind (keep D R x) (fun _ =>
  obind (keep D R y) (fun _ =>
  obind (math_op op x y) (fun z => keep D R z))).

Fixpoint lossless (D : dmodel) (G : tenv) (i : nat -> Z) (e : expr) : option Z :=
  match e with
  | EConst _ z => Some z
  | EVar v => Some (i v)
  | EBin op _ a b =>
      obind (lossless D G i a) (fun x =>
      obind (lossless D G i b) (fun y =>
      lossless_op D op (btype D G a) (btype D G b) x y))
  | ENeg a => obind (lossless D G i a) (fun x => keep D (promote D (btype D G a)) (- x))
  | EPos a => lossless D G i a
  | ECast o a => obind (lossless D G i a) (fits_type D o)
  end.

Definition lossless_cond (D : dmodel) (G : tenv) (i : nat -> Z) (c : cond) : option bool :=
  let 'Cond r _ a b := c in
  let R := uac D (btype D G a) (btype D G b) in
  obind (lossless D G i a) (fun x =>
  obind (lossless D G i b) (fun y =>
  obind (keep D R x) (fun _ =>
  obind (keep D R y) (fun _ => Some (math_rel r x y))))).

Fixpoint lossless_loop (cnd : (nat -> Z) -> option bool) (body : (nat -> Z) -> option (nat -> Z))
  (n : nat) (i : nat -> Z) : option (nat -> Z) :=
  match n with
  | O => None
  | S n' =>
      obind (cnd i) (fun t =>
      if t then obind (body i) (lossless_loop cnd body n') else Some i)
  end.

Fixpoint lossless_exec (fuel : nat) (D : dmodel) (G : tenv) (i : nat -> Z) (c : cmd) {struct c}
  : option (nat -> Z) :=
  let update v T' op y :=
    obind (lossless_op D op (base_ty (G v)) T' (i v) y) (fits_type D (G v)) in
  match c with
  | CSkip => Some i
  | CDefault _ => None
  | CAssign v e =>
      obind (lossless D G i e) (fun z => obind (fits_type D (G v) z) (fun z => Some (upd i v z)))
  | CCompound op v e =>
      obind (lossless D G i e) (fun y =>
      obind (update v (btype D G e) op y) (fun z => Some (upd i v z)))
  | CInc v => obind (update v Int (BA Add) 1) (fun z => Some (upd i v z))
  | CDec v => obind (update v Int (BA Sub) 1) (fun z => Some (upd i v z))
  | CPost inc w v =>
      obind (update v Int (BA (if inc then Add else Sub)) 1) (fun z =>
      obind (fits_type D (G w) (i v)) (fun old => Some (upd (upd i v z) w old)))
  | CSeq a b => obind (lossless_exec fuel D G i a) (fun i1 => lossless_exec fuel D G i1 b)
  | CIf c a b =>
      obind (lossless_cond D G i c) (fun t =>
      if t then lossless_exec fuel D G i a else lossless_exec fuel D G i b)
  | CWhile c a =>
      lossless_loop (fun i => lossless_cond D G i c) (fun i => lossless_exec fuel D G i a) fuel i
  | CTry a _ => lossless_exec fuel D G i a
  end.
