(** Powm.v -- model of the number theoretic functions of test/test_performance.cpp, which carry
    Boost.Multiprecision's primality test over to safe integers: powm and bit_test with
    Integer = I1 = I2 = I3 = safe<unsigned> and double_type = safe<std::uint64_t>. The functions
    multiply and integer_modulus (lines 18-22, 35-39) are expanded. Definitions only. *)
From Coq Require Import ZArith List Bool.
From Verif Require Import Base CType ExceptionPolicy Promotion SafeBase Program BoolConv.
Import ListNotations.
Local Open Scope Z_scope.

(** std::uint64_t *)
Definition uint64 (D : dmodel) : ctype := match D with LP64 | LP64u => ULong | _ => ULLong end.
(** test_performance.cpp:13, safe_type *)
Definition safe32 (D : dmodel) : safe_t := safe D UInt Native default_exception_policy.
(** test_performance.cpp:44-47, double_integer<safe_type>::type *)
Definition safe64 (D : dmodel) : safe_t := safe D (uint64 D) Native default_exception_policy.

(** the variables x, y, b, c, result of powm, test_performance.cpp:50-68 *)
Definition vx : nat := 0. Definition vy : nat := 1. Definition vb : nat := 2.
Definition vc : nat := 3. Definition vr : nat := 4.
Definition pw_types (D : dmodel) : tenv := fun v => OSafe (if Nat.eqb v vr then safe64 D else safe32 D).

(** multiply(result, p, q), lines 18-22 *)
Definition pw_multiply (D : dmodel) (p q : nat) : cmd :=
  CAssign vr (EBin (BA Mul) true (ECast (OSafe (safe64 D)) (EVar p)) (ECast (OSafe (safe64 D)) (EVar q))).
(** v = integer_modulus(result, c), lines 35-39: the result is of type I3 *)
Definition pw_modulus (D : dmodel) (v : nat) : cmd :=
  CAssign v (ECast (OSafe (safe32 D)) (EBin (BA Mod) true (EVar vr) (EVar vc))).

(** the test if(b & 1), line 59 *)
Definition pw_odd : test := TExpr (EBin (BB And) true (EVar vb) (EConst (ORaw Int) 1)).
(** lines 59-65, the body of the loop *)
Definition pw_body (D : dmodel) (s : store) : option (store * result) :=
  let rest := CSeq (pw_multiply D vy vy) (CSeq (pw_modulus D vy) (CCompound (BA Shr) vb (EConst (ORaw Int) 1))) in
  match snd (eval_test D (pw_types D) s pw_odd) with
  | Ret true => exec 0 D (pw_types D) s (CSeq (CSeq (pw_multiply D vx vy) (pw_modulus D vx)) rest)
  | Ret false => exec 0 D (pw_types D) s rest
  | Throw e => Some (s, RRaised e)
  | Undef | Trapped => Some (s, RUndef)
  end.
(** line 58, while(b > 0) *)
Definition pw_more : cond := Cond RGt true (EVar vb) (EConst (ORaw Int) 0).
(** line 67, return x % c *)
Definition pw_return (D : dmodel) : expr := ECast (OSafe (safe32 D)) (EBin (BA Mod) true (EVar vx) (EVar vc)).

(** lines 53-67; [None] = more than [fuel] iterations. I1 x(1), y(a); double_type result; *)
Definition powm (fuel : nat) (D : dmodel) (a b c : Z) : option (outcome Z) :=
  let s0 : store := fun v => if Nat.eqb v vy then Some a else if Nat.eqb v vb then Some b
                             else if Nat.eqb v vc then Some c else None in
  match exec 0 D (pw_types D) s0 (CSeq (CAssign vx (EConst (ORaw Int) 1)) (CDefault vr)) with
  | Some (s1, RDone) =>
      match loop (fun s => eval_cond D (pw_types D) s pw_more) (pw_body D) fuel s1 with
      | Some (s2, RDone) => Some (snd (eval D (pw_types D) s2 (pw_return D)))
      | Some (_, RRaised e) => Some (Throw e)
      | Some (_, RUndef) => Some Undef
      | None => None
      end
  | Some (_, RRaised e) => Some (Throw e)
  | Some (_, RUndef) => Some Undef
  | None => None
  end.

(** test_performance.cpp:24-33, bit_test(val, index): Integer mask = 1; if(index >= sizeof(Integer)
    * CHAR_BIT) return 0; if(index) mask <<= index; return val & mask ? true : false;
    sizeof(safe<unsigned>) is sizeof(unsigned). The comparison and the test of index are built-in. *)
Definition bit_test (D : dmodel) (val index : Z) : outcome bool :=
  let G : tenv := fun v => match v with 2%nat => ORaw UInt | _ => OSafe (safe32 D) end in
  let s0 : store := fun v => match v with 0%nat => Some val | 2%nat => Some index | _ => None end in
  match exec 0 D G s0 (CAssign 1%nat (EConst (ORaw Int) 1)) with
  | Some (s1, RDone) =>
      if width D UInt <=? index then Ret false
      else
        let s2 := if to_b index then exec 0 D G s1 (CCompound (BA Shl) 1%nat (EVar 2%nat)) else Some (s1, RDone) in
        match s2 with
        | Some (s2, RDone) => snd (eval_test D G s2 (TExpr (EBin (BB And) true (EVar 0%nat) (EVar 1%nat))))
        | Some (_, RRaised e) => Throw e
        | _ => Undef
        end
  | Some (_, RRaised e) => Throw e
  | _ => Undef
  end.
