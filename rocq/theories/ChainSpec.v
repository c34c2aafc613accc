(** ChainSpec.v -- specification for C99: assignments used as operands, in exact integer
    arithmetic, where as in C++ every assignment denotes the variable assigned to. Of the model
    it uses the syntax only. *)
From Coq Require Import ZArith List Bool.
From Verif Require Import Base CType Spec ExceptionPolicy Promotion SafeBase SafeSpec Program ProgramSpec ComposeSpec BuiltinSpec ChainProgram.
Import ListNotations.
Local Open Scope Z_scope.

(** the variable that an assignment denotes *)
Fixpoint denotes_var (l : asg) : option nat :=
  match l with
  | LVar v => Some v
  | LPure _ => None
  | LSet _ l _ | LOp _ _ l _ | LStep _ l => denotes_var l
  end.

(** the variables and the value afterwards *)
Fixpoint chain (l : asg) (i : nat -> Z) : option ((nat -> Z) * Z) :=
  match l with
  | LVar v => Some (i, i v)
  | LPure e => option_map (fun z => (i, z)) (value i e)
  | LSet first l r =>
      match (if first then chain l i else chain r i) with
      | None => None
      | Some (i1, z1) =>
          match (if first then chain r i1 else chain l i1), denotes_var l with
          | Some (i2, z2), Some v => let z := if first then z2 else z1 in Some (upd i2 v z, z)
          | _, _ => None
          end
      end
  | LOp op first l r =>
      match (if first then chain l i else chain r i) with
      | None => None
      | Some (i1, z1) =>
          match (if first then chain r i1 else chain l i1), denotes_var l with
          | Some (i2, z2), Some v =>
              match math_op op (i2 v) (if first then z2 else z1) with
              | Some z => Some (upd i2 v z, z)
              | None => None
              end
          | _, _ => None
          end
      end
  | LStep inc l =>
      match chain l i, denotes_var l with
      | Some (i1, _), Some v => let z := if inc then i1 v + 1 else i1 v - 1 in Some (upd i1 v z, z)
      | _, _ => None
      end
  end.

(** the variables that are assigned to *)
Fixpoint chain_writes (l : asg) (v : nat) : Prop :=
  match l with
  | LVar _ | LPure _ => False
  | LSet _ l r | LOp _ _ l r => denotes_var l = Some v \/ chain_writes l v \/ chain_writes r v
  | LStep _ l => denotes_var l = Some v \/ chain_writes l v
  end.

(** the result of a compound assignment is only used as a value: it is not assigned to, nor
    incremented *)
Fixpoint still_object (l : asg) : bool :=
  match l with
  | LVar _ => true
  | LPure _ | LOp _ _ _ _ => false
  | LSet _ l _ | LStep _ l => still_object l
  end.
Fixpoint keeps_targets (l : asg) : Prop :=
  match l with
  | LVar _ | LPure _ => True
  | LSet _ l r | LOp _ _ l r => still_object l = true /\ keeps_targets l /\ keeps_targets r
  | LStep _ l => still_object l = true /\ keeps_targets l
  end.

(** if the right operand is evaluated first, the left one does not assign to the variable that
    the right one denotes *)
Fixpoint calm (l : asg) : Prop :=
  match l with
  | LVar _ | LPure _ => True
  | LSet first l r | LOp _ first l r =>
      (first = false -> forall v, denotes_var r = Some v -> ~ chain_writes l v) /\ calm l /\ calm r
  | LStep _ l => calm l
  end.

Fixpoint asg_ok (nat : bool) (D : dmodel) (l : asg) : Prop :=
  match l with
  | LVar _ => True
  | LPure e => expr_ok nat D e
  | LSet _ l r => asg_ok nat D l /\ asg_ok nat D r
  | LOp op _ l r => op_ok nat op /\ asg_ok nat D l /\ asg_ok nat D r
  | LStep _ l => asg_ok nat D l
  end.

(** the values of the variables when some operation of l raises: those of the assignments done
    before it, and of no other *)
Fixpoint chain_stops (l : asg) (i i' : nat -> Z) : Prop :=
  match l with
  | LVar _ => False
  | LPure _ => i' = i
  | LSet first l r | LOp _ first l r =>
      (if first then chain_stops l i i' else chain_stops r i i')
      \/ (exists i1 z1, (if first then chain l i else chain r i) = Some (i1, z1)
          /\ ((if first then chain_stops r i1 i' else chain_stops l i1 i')
              \/ exists z2, (if first then chain r i1 else chain l i1) = Some (i', z2)))
  | LStep _ l => chain_stops l i i' \/ exists z, chain l i = Some (i', z)
  end.

(** all ten operators, under the conditions of ComposeSpec.v; [ChainProgram.asg_type] gives the
    types of the operands *)
Fixpoint asg_fine (nat : bool) (D : dmodel) (G : tenv) (l : asg) : Prop :=
  match l with
  | LVar _ => True
  | LPure e => expr_fine nat D G None e
  | LSet _ l r => asg_fine nat D G l /\ asg_fine nat D G r
  | LOp op _ l r =>
      (forall t u, asg_type D G l = Some t -> asg_type D G r = Some u -> operator_fine nat D (Some t) op t u)
      /\ asg_fine nat D G l /\ asg_fine nat D G r
  | LStep _ l => asg_fine nat D G l
  end.

(** What every such expression does with safe integers, in exact arithmetic: a compound assignment
    denotes a copy of the new value, operands are read when the operator is applied. *)
Definition place_value (i : nat -> Z) (p : place) : Z := match p with PVar v => i v | PTemp z => z end.
Definition place_set (i : nat -> Z) (p : place) (z : Z) : (nat -> Z) * place :=
  match p with PVar v => (upd i v z, PVar v) | PTemp _ => (i, PTemp z) end.

(** both operands: the variables, what the left and the right operand denote *)
Definition both_places (first : bool) (f g : (nat -> Z) -> option ((nat -> Z) * place)) (i : nat -> Z)
  : option ((nat -> Z) * place * place) :=
  if first then
    match f i with
    | Some (i1, p) => match g i1 with Some (i2, q) => Some (i2, p, q) | None => None end
    | None => None
    end
  else
    match g i with
    | Some (i1, q) => match f i1 with Some (i2, p) => Some (i2, p, q) | None => None end
    | None => None
    end.

Fixpoint actual (l : asg) (i : nat -> Z) : option ((nat -> Z) * place) :=
  match l with
  | LVar v => Some (i, PVar v)
  | LPure e => option_map (fun z => (i, PTemp z)) (value i e)
  | LSet first l r =>
      match both_places first (actual l) (actual r) i with
      | Some (i2, p, q) => Some (place_set i2 p (place_value i2 q))
      | None => None
      end
  | LOp op first l r =>
      match both_places first (actual l) (actual r) i with
      | Some (i2, p, q) =>
          match math_op op (place_value i2 p) (place_value i2 q) with
          | Some z => Some (fst (place_set i2 p z), PTemp z)
          | None => None
          end
      | None => None
      end
  | LStep inc l =>
      match actual l i with
      | Some (i1, p) => Some (place_set i1 p (if inc then place_value i1 p + 1 else place_value i1 p - 1))
      | None => None
      end
  end.

Fixpoint actual_stops (l : asg) (i i' : nat -> Z) : Prop :=
  match l with
  | LVar _ => False
  | LPure _ => i' = i
  | LSet first l r | LOp _ first l r =>
      (if first then actual_stops l i i' else actual_stops r i i')
      \/ (exists i1 p1, (if first then actual l i else actual r i) = Some (i1, p1)
          /\ (if first then actual_stops r i1 i' else actual_stops l i1 i'))
      \/ (exists p q, both_places first (actual l) (actual r) i = Some (i', p, q))
  | LStep _ l => actual_stops l i i' \/ exists p, actual l i = Some (i', p)
  end.

(** the same where every converted operand, every result and every assigned value is represented
    exactly (as [lossless] of BuiltinSpec.v); [None] if some is not *)
Fixpoint actual_lossless (D : dmodel) (G : tenv) (l : asg) (i : nat -> Z) : option ((nat -> Z) * place) :=
  match l with
  | LVar v => Some (i, PVar v)
  | LPure e => option_map (fun z => (i, PTemp z)) (lossless D G i e)
  | LSet first l r =>
      match asg_type D G l, both_places first (actual_lossless D G l) (actual_lossless D G r) i with
      | Some t, Some (i2, p, q) => option_map (place_set i2 p) (fits_type D t (place_value i2 q))
      | _, _ => None
      end
  | LOp op first l r =>
      match asg_type D G l, asg_type D G r, both_places first (actual_lossless D G l) (actual_lossless D G r) i with
      | Some t, Some u, Some (i2, p, q) =>
          option_map (fun z => (fst (place_set i2 p z), PTemp z))
            (obind (lossless_op D op (base_ty t) (base_ty u) (place_value i2 p) (place_value i2 q)) (fits_type D t))
      | _, _, _ => None
      end
  | LStep inc l =>
      match asg_type D G l, actual_lossless D G l i with
      | Some t, Some (i1, p) =>
          option_map (place_set i1 p)
            (obind (lossless_op D (BA (if inc then Add else Sub)) (base_ty t) Int (place_value i1 p) 1) (fits_type D t))
      | _, _ => None
      end
  end.
