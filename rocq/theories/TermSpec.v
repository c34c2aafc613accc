(** TermSpec.v -- the specification of termination: programs that end in exact arithmetic,
    whatever statement raises an exception; counting loops. *)
From Coq Require Import ZArith List Bool Arith.
From Verif Require Import Base CType ExceptionPolicy Promotion SafeBase SafeSpec Program ProgramSpec.
Import ListNotations.
Local Open Scope Z_scope.

(** [halts i c]: c ends in exact arithmetic, from the values i, wherever exceptions are raised *)
Inductive halts : (nat -> Z) -> cmd -> Prop :=
| H_skip : forall i, halts i CSkip
| H_default : forall i v, halts i (CDefault v)
| H_assign : forall i v e, halts i (CAssign v e)
| H_compound : forall i op v e, halts i (CCompound op v e)
| H_inc : forall i v, halts i (CInc v)
| H_dec : forall i v, halts i (CDec v)
| H_post : forall i inc w v, halts i (CPost inc w v)
| H_seq : forall i a b, halts i a -> (forall i1, ideal i a i1 true -> halts i1 b) -> halts i (CSeq a b)
| H_if : forall i c a b, (truth i c = Some true -> halts i a) -> (truth i c = Some false -> halts i b) ->
    halts i (CIf c a b)
| H_while : forall i c a, (truth i c = Some true -> halts i a) ->
    (truth i c = Some true -> forall i1, ideal i a i1 true -> halts i1 (CWhile c a)) -> halts i (CWhile c a)
| H_try : forall i a b, halts i a -> (forall i1, ideal i a i1 false -> halts i1 b) -> halts i (CTry a b).

(** the values are in the declared ranges *)
Definition in_ranges (D : dmodel) (G : tenv) (i : nat -> Z) : Prop := forall v, holds D (G v) (i v).

(** a program with which the execution of the model ends *)
Definition ends (D : dmodel) (G : tenv) (s : store) (c : cmd) : Prop := exists f r, exec f D G s c = Some r.

(** for (; x < y; ++x) body *)
Definition for_up (order : bool) (x y : nat) (body : cmd) : cmd :=
  CWhile (Cond RLt order (EVar x) (EVar y)) (CSeq body (CInc x)).
(** for (; x > y; --x) body *)
Definition for_down (order : bool) (x y : nat) (body : cmd) : cmd :=
  CWhile (Cond RGt order (EVar x) (EVar y)) (CSeq body (CDec x)).

(** a, a + 1, ..., b - 1 *)
Definition numbers (a b : Z) : list Z := map (fun k => a + Z.of_nat k) (seq 0 (Z.to_nat (b - a))).
(** [passes body x d i l i']: body is run, in exact arithmetic, with the values l of x in turn,
    and completes each time; x is changed by d after each *)
Inductive passes (body : cmd) (x : nat) (d : Z) : (nat -> Z) -> list Z -> (nat -> Z) -> Prop :=
| P_end : forall i, passes body x d i [] i
| P_next : forall i i1 l i', ideal i body i1 true -> passes body x d (upd i1 x (i x + d)) l i' ->
    passes body x d i (i x :: l) i'.

(** no loops *)
Fixpoint no_loops (c : cmd) : Prop :=
  match c with
  | CWhile _ _ => False
  | CSeq a b | CIf _ a b | CTry a b => no_loops a /\ no_loops b
  | _ => True
  end.

(** while (x % 10 < 7) x = 8 - x; for a safe<unsigned> x *)
Definition rem_types : tenv := fun _ => OSafe (safe LP64 UInt Native loose_exception_policy).
Definition rem_cond : cond :=
  Cond RLt true (EBin (BA Mod) true (EVar 0%nat) (EConst (OLit UInt 10 None None) 10)) (EConst (OLit UInt 7 None None) 7).
Definition rem_body : cmd := CAssign 0%nat (EBin (BA Sub) true (EConst (OLit UInt 8 None None) 8) (EVar 0%nat)).
