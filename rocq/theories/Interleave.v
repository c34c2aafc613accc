(** Interleave.v -- evaluation of expressions one operator call at a time, in any order that
    C++ allows: a call is made when its operands have been computed, and calls in the two
    operands of a binary operator or comparison may be interleaved (C++14
    [intro.execution]/15: unsequenced operands, calls indeterminately sequenced). Every
    operator of SafeBase.v (safe_base_operations.hpp, safe_base.hpp:221-268) is such a call.
    The exception that is thrown first ends the evaluation. Definitions only. *)
From Coq Require Import ZArith List Bool Arith.
From Verif Require Import Base CType ExceptionPolicy Promotion SafeBase Program.
Import ListNotations.
Local Open Scope Z_scope.

(** A computed value z of type t is [EConst t z]. The call of an operator on computed values:
    the value, or how the evaluation ends. [None] = an operand has not been computed, or there
    is nothing to compute. *)
Definition reduce (D : dmodel) (G : tenv) (s : store) (e : expr) : option (otype * outcome Z) :=
  match e with
  | EVar v => Some (G v, snd (read s v))
  | EBin op _ (EConst t x) (EConst u y) =>
      match eval_binop D op t u x y with
      | Some (r, m) => Some (OSafe r, snd m)
      | None => None
      end
  | ENeg (EConst (OSafe t) x) =>
      match unary_minus D t x with Some (r, m) => Some (OSafe r, snd m) | None => None end
  | EPos (EConst (OSafe t) x) =>
      match unary_plus t x with Some (r, m) => Some (OSafe r, snd m) | None => None end
  | ECast o (EConst t x) =>
      match convert D o t x with Some m => Some (o, snd m) | None => None end
  | _ => None
  end.

(** the evaluation goes on with another expression, or ends with an exception or undefined *)
Inductive progress : Type := On (e : expr) | Stop (o : outcome Z).

Inductive estep (D : dmodel) (G : tenv) (s : store) : expr -> progress -> Prop :=
| ES_call : forall e t z, reduce D G s e = Some (t, Ret z) -> estep D G s e (On (EConst t z))
| ES_call_stop : forall e t o, reduce D G s e = Some (t, o) -> (forall z, o <> Ret z) -> estep D G s e (Stop o)
| ES_left : forall op f a a' b, estep D G s a (On a') -> estep D G s (EBin op f a b) (On (EBin op f a' b))
| ES_left_stop : forall op f a b o, estep D G s a (Stop o) -> estep D G s (EBin op f a b) (Stop o)
| ES_right : forall op f a b b', estep D G s b (On b') -> estep D G s (EBin op f a b) (On (EBin op f a b'))
| ES_right_stop : forall op f a b o, estep D G s b (Stop o) -> estep D G s (EBin op f a b) (Stop o)
| ES_neg : forall a a', estep D G s a (On a') -> estep D G s (ENeg a) (On (ENeg a'))
| ES_neg_stop : forall a o, estep D G s a (Stop o) -> estep D G s (ENeg a) (Stop o)
| ES_pos : forall a a', estep D G s a (On a') -> estep D G s (EPos a) (On (EPos a'))
| ES_pos_stop : forall a o, estep D G s a (Stop o) -> estep D G s (EPos a) (Stop o)
| ES_cast : forall t a a', estep D G s a (On a') -> estep D G s (ECast t a) (On (ECast t a'))
| ES_cast_stop : forall t a o, estep D G s a (Stop o) -> estep D G s (ECast t a) (Stop o).

(** the possible ends of the evaluation of an expression *)
Inductive erun (D : dmodel) (G : tenv) (s : store) : expr -> outcome Z -> Prop :=
| ER_value : forall t z, erun D G s (EConst t z) (Ret z)
| ER_stop : forall e o, estep D G s e (Stop o) -> erun D G s e o
| ER_step : forall e e' o, estep D G s e (On e') -> erun D G s e' o -> erun D G s e o.

(** a condition: the two sides are interleaved, then they are compared *)
Inductive crun (D : dmodel) (G : tenv) (s : store) : cond -> outcome bool -> Prop :=
| CR_compare : forall r f t x u y m, eval_relop D r t u x y = Some m ->
    crun D G s (Cond r f (EConst t x) (EConst u y)) (snd m)
| CR_left : forall r f a a' b o, estep D G s a (On a') -> crun D G s (Cond r f a' b) o -> crun D G s (Cond r f a b) o
| CR_right : forall r f a b b' o, estep D G s b (On b') -> crun D G s (Cond r f a b') o -> crun D G s (Cond r f a b) o
| CR_left_throw : forall r f a b e, estep D G s a (Stop (Throw e)) -> crun D G s (Cond r f a b) (Throw e)
| CR_right_throw : forall r f a b e, estep D G s b (Stop (Throw e)) -> crun D G s (Cond r f a b) (Throw e)
| CR_left_undef : forall r f a b o, estep D G s a (Stop o) -> (forall e, o <> Throw e) -> crun D G s (Cond r f a b) Undef
| CR_right_undef : forall r f a b o, estep D G s b (Stop o) -> (forall e, o <> Throw e) -> crun D G s (Cond r f a b) Undef.

(** Programs: as [exec] of Program.v with expressions evaluated in this way. *)
Inductive irun (D : dmodel) (G : tenv) : store -> cmd -> store -> result -> Prop :=
| IX_skip : forall s, irun D G s CSkip s RDone
| IX_update : forall s c s' r, match c with CDefault _ | CInc _ | CDec _ | CPost _ _ _ => True | _ => False end ->
    exec 0 D G s c = Some (s', r) -> irun D G s c s' r
| IX_assign : forall s v e t o s' r, type_of D G e = Some t -> erun D G s e o ->
    finish s (mbind ([], o) (fun x => run (convert D (G v) t x))) (fun z => upd s v (Some z)) = (s', r) ->
    irun D G s (CAssign v e) s' r
| IX_compound : forall s op v e t o s' r, type_of D G e = Some t -> erun D G s e o ->
    finish s (mbind ([], o) (fun y => mbind (read s v) (fun x => run (compound D op (G v) t x y))))
      (fun z => upd s v (Some z)) = (s', r) ->
    irun D G s (CCompound op v e) s' r
| IX_seq : forall s a b s1 s2 r, irun D G s a s1 RDone -> irun D G s1 b s2 r -> irun D G s (CSeq a b) s2 r
| IX_seq_end : forall s a b s1 r, irun D G s a s1 r -> r <> RDone -> irun D G s (CSeq a b) s1 r
| IX_if : forall s c a b t s1 r, crun D G s c (Ret t) -> irun D G s (if t then a else b) s1 r ->
    irun D G s (CIf c a b) s1 r
| IX_if_raise : forall s c a b e, crun D G s c (Throw e) -> irun D G s (CIf c a b) s (RRaised e)
| IX_if_undef : forall s c a b o, crun D G s c o -> o = Undef \/ o = Trapped -> irun D G s (CIf c a b) s RUndef
| IX_while : forall s c a s1 s2 r, crun D G s c (Ret true) -> irun D G s a s1 RDone -> irun D G s1 (CWhile c a) s2 r ->
    irun D G s (CWhile c a) s2 r
| IX_while_body : forall s c a s1 r, crun D G s c (Ret true) -> irun D G s a s1 r -> r <> RDone ->
    irun D G s (CWhile c a) s1 r
| IX_while_end : forall s c a, crun D G s c (Ret false) -> irun D G s (CWhile c a) s RDone
| IX_while_raise : forall s c a e, crun D G s c (Throw e) -> irun D G s (CWhile c a) s (RRaised e)
| IX_while_undef : forall s c a o, crun D G s c o -> o = Undef \/ o = Trapped -> irun D G s (CWhile c a) s RUndef
| IX_try : forall s a b s1 r, irun D G s a s1 r -> (forall e, r <> RRaised e) -> irun D G s (CTry a b) s1 r
| IX_try_catch : forall s a b s1 e s2 r, irun D G s a s1 (RRaised e) -> irun D G s1 b s2 r -> irun D G s (CTry a b) s2 r.
