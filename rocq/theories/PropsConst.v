(** PropsConst.v -- property C92: constant expressions. A constant computed by the compiler from
    safe values (constexpr variables, static_assert, template arguments) has its exact value, or
    the program is rejected; and a result that its type can represent is not rejected. *)
From Coq Require Import ZArith Bool List.
From Verif Require Import Base CType Spec ExceptionPolicy Promotion SafeBase SafeSpec Program ProgramSpec ComposeSpec
  ConstSpec ConstFacts.
Import ListNotations.
Local Open Scope Z_scope.

(** One operator, all operand types and values. The language rejects undefined behaviour in a
    constant expression, so the shifts of negative values, by the width and under ranges for
    which the library omits the check (C26, C27), and MIN % -1 (C25), which are undefined at run
    time, are rejected here. *)
Theorem C92_operators : forall D op t u x y s m z,
  wf_operand D t -> wf_operand D u -> holds D t x -> holds D u y ->
  eval_binop D op t u x y = Some (s, m) -> throws_arithmetic (sE s) -> throws_shift (sE s) ->
  constant_policy op (sP s) -> constant_operands D op (st s) x y ->
  constant m = Some z -> math_op op x y = Some z.
Proof. exact C92_operator. Qed.
Print Assumptions C92_operators.

Theorem C92_accepted : forall D op t u x y s m z,
  wf_operand D t -> wf_operand D u -> holds D t x -> holds D u y ->
  eval_binop D op t u x y = Some (s, m) -> throws_arithmetic (sE s) -> throws_shift (sE s) ->
  constant_policy op (sP s) -> constant_operands D op (st s) x y ->
  math_op op x y = Some z -> representable D op (st s) x y z ->
  constant m = Some z.
Proof. exact C92_complete. Qed.
Print Assumptions C92_accepted.

(** safe<int>, ranges and a literal: accepted and rejected, also where the operation is
    undefined at run time (range -7..7: -5 << 3) *)
Definition ex_ep : ep := strict_exception_policy.
Definition ex_t (T : ctype) : otype := OSafe (safe LP64 T Native ex_ep).
Definition ex_r (T : ctype) (a b : Z) : otype := OSafe (mkSafe T a b Native ex_ep).
Definition ex_c (op : binop) (t u : otype) (x y : Z) : option (option Z) :=
  option_map (fun p => constant (snd p)) (eval_binop LP64 op t u x y).
Example C92_operators_example :
  wf_operand LP64 (ex_t Int) /\ wf_operand LP64 (ex_r Int (-7) 7) /\ wf_operand LP64 (ex_r Int 0 9)
  /\ holds LP64 (ex_r Int (-7) 7) (-5) /\ holds LP64 (ex_r Int 0 9) 3
  /\ ex_c (BA Add) (ex_t Int) (ORaw Int) 2000000000 147483647 = Some (Some 2147483647)
  /\ ex_c (BA Add) (ex_t Int) (ORaw Int) 2000000000 147483648 = Some None
  /\ ex_c (BA Mod) (ex_t Int) (ex_t Int) (-17) 5 = Some (Some (-2))
  /\ ex_c (BA Mod) (ex_t Int) (ex_t Int) (-17) 0 = Some None
  /\ ex_c (BA Shl) (ex_r Int (-7) 7) (ex_r Int 0 9) 5 3 = Some (Some 40)
  /\ option_map snd (eval_binop LP64 (BA Shl) (ex_r Int (-7) 7) (ex_r Int 0 9) (-5) 3) = Some ([], Undef)
  /\ ex_c (BA Shl) (ex_r Int (-7) 7) (ex_r Int 0 9) (-5) 3 = Some None
  /\ representable LP64 (BA Shl) Int 5 3 40.
Proof. vm_compute. intuition congruence. Qed.

(** expressions of + - * and native / *)
Theorem C92_expressions : forall n D G s i e t z, (forall v, type_ok n D (G v)) -> store_ok D G s i ->
  expr_ok n D e -> type_of D G e = Some t ->
  constant (eval D G s e) = Some z -> value i e = Some z /\ holds D t z.
Proof. exact C92_expr. Qed.
Print Assumptions C92_expressions.

(** comparisons: what a static_assert asserts is true *)
Theorem C92_static_assert : forall n D G s i c b, (forall v, type_ok n D (G v)) -> store_ok D G s i ->
  cond_ok n D c -> cond_compiles D G c = true ->
  constant (eval_cond D G s c) = Some b -> truth i c = Some b.
Proof. exact C92_cond. Qed.
Print Assumptions C92_static_assert.

(** expressions of all ten operators, under the conditions of C73 on the operand types *)
Theorem C92_all_expressions_partial : forall nat D G s i e t z, (forall v, type_fine nat D (G v)) -> store_ok D G s i ->
  expr_fine nat D G None e -> type_of D G e = Some t ->
  constant (eval D G s e) = Some z -> value i e = Some z /\ holds D t z.
Proof. exact C92_fine. Qed.
Print Assumptions C92_all_expressions_partial.

(** static_assert(x * x - 1 < 100) and a constant that overflows, for constexpr variables *)
Definition ex_G : tenv := fun _ => ex_t Int.
Definition ex_i : nat -> Z := fun v => match v with 0%nat => 10 | _ => 65536 end.
Definition ex_sq (v : nat) : expr := EBin (BA Sub) true (EBin (BA Mul) true (EVar v) (EVar v)) (EConst (ORaw Int) 1).
Example C92_expressions_example :
  (forall v, type_ok true LP64 (ex_G v)) /\ store_ok LP64 ex_G (fun v => Some (ex_i v)) ex_i
  /\ expr_ok true LP64 (ex_sq 0) /\ type_of LP64 ex_G (ex_sq 0) <> None
  /\ constant (eval LP64 ex_G (fun v => Some (ex_i v)) (ex_sq 0)) = Some 99
  /\ constant (eval LP64 ex_G (fun v => Some (ex_i v)) (ex_sq 1)) = None
  /\ cond_compiles LP64 ex_G (Cond RLt true (ex_sq 0) (EConst (ORaw Long) 100)) = true
  /\ constant (eval_cond LP64 ex_G (fun v => Some (ex_i v)) (Cond RLt true (ex_sq 0) (EConst (ORaw Long) 100))) = Some true.
Proof.
  assert (T : forall v, type_ok true LP64 (ex_G v)).
  { intros v. split; [vm_compute; intuition congruence|]. split; [intros E [= <-]; reflexivity|intros _ P [= <-]; reflexivity]. }
  split; [exact T|]. split; [intros [|v]; (split; [reflexivity|vm_compute; split; congruence])|].
  split; [|split; [vm_compute; congruence|]; repeat split; vm_compute; reflexivity].
  assert (R : type_ok true LP64 (ORaw Int)).
  { split; [vm_compute; intuition congruence|]. split; intros; discriminate. }
  cbn. unfold op_ok. repeat split; auto; vm_compute; congruence.
Qed.

(** The conditions are needed. A negative count may be accepted: 5 << -4294967296 is 5 for a
    range of int and a range of long that includes it, since the count is cast to int. *)
Theorem C92_negative_count_refuted : exists D t u x y s m z,
  wf_operand D t /\ wf_operand D u /\ holds D t x /\ holds D u y /\ y < 0
  /\ binary D Shl t u x y = Some (s, m) /\ sP s = Native /\ throws_arithmetic (sE s) /\ throws_shift (sE s)
  /\ constant m = Some z /\ z = x /\ x <> 0.
Proof.
  exists LP64, (ex_r Int 0 7), (ex_r Long (-4294967296) 3), 5, (-4294967296). do 3 eexists.
  split; [vm_compute; intuition congruence|]. split; [vm_compute; intuition congruence|].
  split; [vm_compute; intuition congruence|]. split; [vm_compute; intuition congruence|]. split; [reflexivity|].
  split; [vm_compute; reflexivity|]. repeat split; try discriminate; vm_compute; reflexivity.
Qed.
Print Assumptions C92_negative_count_refuted.

(** MIN % MIN is MIN in constant expressions too *)
Theorem C92_remainder_refuted : exists D t x s m,
  wf_operand D t /\ holds D t x /\ x <> 0 /\ binary D Mod t t x x = Some (s, m) /\ sP s = Native
  /\ throws_arithmetic (sE s) /\ constant m = Some x.
Proof.
  exists LP64, (ex_t Int), (-2147483648). do 2 eexists.
  split; [vm_compute; intuition congruence|]. split; [vm_compute; intuition congruence|]. split; [discriminate|].
  split; [vm_compute; reflexivity|]. repeat split; vm_compute; reflexivity.
Qed.
Print Assumptions C92_remainder_refuted.

(** with automatic promotion the constant 1000 / 50000 of two ranges is 2 *)
Theorem C92_automatic_division_refuted : exists D t u x y s m,
  wf_operand D t /\ wf_operand D u /\ holds D t x /\ holds D u y /\ 0 < x < y
  /\ binary D Div t u x y = Some (s, m) /\ throws_arithmetic (sE s) /\ constant m = Some 2.
Proof.
  exists LP64, (OSafe (mkSafe UShort 0 60000 Automatic ex_ep)), (OSafe (mkSafe UShort 50000 60000 Automatic ex_ep)), 1000, 50000.
  do 2 eexists. split; [vm_compute; intuition congruence|]. split; [vm_compute; intuition congruence|].
  split; [vm_compute; intuition congruence|]. split; [vm_compute; intuition congruence|]. split; [split; reflexivity|].
  split; [vm_compute; reflexivity|]. repeat split; vm_compute; reflexivity.
Qed.
Print Assumptions C92_automatic_division_refuted.
