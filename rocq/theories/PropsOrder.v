(** PropsOrder.v -- C83: the order in which operands are evaluated does not matter. *)
From Coq Require Import ZArith List Bool.
From Verif Require Import Base CType Spec ExceptionPolicy Promotion SafeBase SafeSpec Program ProgramSpec ComposeSpec
  OrderSpec OrderFacts.
Import ListNotations.
Local Open Scope Z_scope.

(** Two expressions that differ only in the order in which operands are evaluated return
    the same values, for all operators and policies *)
Theorem C83_expressions : forall D G s e e' z, same_expr e e' ->
  (snd (eval D G s e) = Ret z <-> snd (eval D G s e') = Ret z).
Proof. exact order_expr. Qed.
Print Assumptions C83_expressions.

(** Two such programs leave the same values in the variables and both complete or both
    raise an exception, unless one runs into undefined behaviour. The exceptions may be
    caught and the program go on. *)
Theorem C83_programs : forall D G fuel c c' s s1 r, same_cmd c c' ->
  exec fuel D G s c = Some (s1, r) -> r <> RUndef ->
  exists s2 r', exec fuel D G s c' = Some (s2, r') /\ (r' = RUndef \/ (s2 = s1 /\ same_end r r')).
Proof. exact order_cmd. Qed.
Print Assumptions C83_programs.

(** and for programs with + - *, and / if promotion is native, it never does *)
Theorem C83_exact_operators : forall nat D G fuel c c' s i s1 r,
  (forall v, type_ok nat D (G v)) -> store_ok D G s i -> cmd_ok nat D G c -> compiles D G c = true ->
  same_cmd c c' -> exec fuel D G s c = Some (s1, r) ->
  exists r', exec fuel D G s c' = Some (s1, r') /\ same_end r r'.
Proof. exact order_programs. Qed.
Print Assumptions C83_exact_operators.

(** nor for those with all operators that C73 is about *)
Theorem C83_all_operators : forall nat D G fuel c c' s i s1 r,
  (forall v, type_fine nat D (G v)) -> store_ok D G s i -> cmd_fine nat D G c -> compiles D G c = true ->
  same_cmd c c' -> exec fuel D G s c = Some (s1, r) ->
  exists r', exec fuel D G s c' = Some (s1, r') /\ same_end r r'.
Proof. exact order_all_operators. Qed.
Print Assumptions C83_all_operators.

(** try { v1 = (v0 / v2) + (v0 + v0); } catch(...) { v1 = v0 - 1; }; v2 = v1 * v1, with
    v0 = 2147483647 and v2 = 0: both operands of the sum throw, a different error each *)
Definition ord_ep : ep := default_exception_policy.
Definition ord_G : tenv := fun v => OSafe (safe LP64 Int Native ord_ep).
Definition ord_i (v : nat) : Z := match v with O => 2147483647 | _ => 0 end.
Definition ord_sum (f : bool) : cmd :=
  CAssign 1 (EBin (BA Add) f (EBin (BA Div) true (EVar 0) (EVar 2)) (EBin (BA Add) f (EVar 0) (EVar 0))).
Definition ord_c (f : bool) : cmd :=
  CSeq (CTry (ord_sum f) (CAssign 1 (EBin (BA Sub) f (EVar 2) (EConst (ORaw Int) 7))))
       (CAssign 2 (EBin (BA Mul) f (EVar 1) (EVar 1))).
Example C83_nonvacuous :
  same_cmd (ord_c true) (ord_c false)
  /\ cmd_ok true LP64 ord_G (ord_c true) /\ compiles LP64 ord_G (ord_c true) = true
  /\ store_ok LP64 ord_G (fun v => Some (ord_i v)) ord_i
  /\ option_map snd (exec 1 LP64 ord_G (fun v => Some (ord_i v)) (ord_sum true)) = Some (RRaised domain_error)
  /\ option_map snd (exec 1 LP64 ord_G (fun v => Some (ord_i v)) (ord_sum false)) = Some (RRaised positive_overflow_error)
  /\ option_map (fun p => fst p 2%nat) (exec 1 LP64 ord_G (fun v => Some (ord_i v)) (ord_c true)) = Some (Some 49)
  /\ option_map (fun p => fst p 2%nat) (exec 1 LP64 ord_G (fun v => Some (ord_i v)) (ord_c false)) = Some (Some 49).
Proof.
  split; [unfold ord_c, ord_sum; repeat constructor|].
  split; [cbn; unfold op_ok, type_ok; repeat split; auto; vm_compute; congruence|].
  split; [vm_compute; reflexivity|].
  split; [intros [|[|v]]; vm_compute; intuition congruence|].
  vm_compute. auto.
Qed.
