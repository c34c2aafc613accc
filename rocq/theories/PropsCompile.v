(** PropsCompile.v -- property C72: which expressions compile. *)
From Coq Require Import ZArith Bool List.
From Verif Require Import Base CType Spec ExceptionPolicy Promotion SafeBase SafeSpec CompileSpec CompileFacts.
Import ListNotations.
Local Open Scope Z_scope.

Definition cp_rng (P : pp) (mn mx : Z) (T : ctype) : otype := OSafe (mkSafe T mn mx P default_exception_policy).

(** + - * / % << under native promotion compile whatever the types and ranges,
    if the policies agree and do not trap and a literal fits the type of the
    built-in expression *)
Theorem C72_native : forall D op E t u x y, op <> Shr -> wf_operand D t -> wf_operand D u ->
  policies_agree Native E t u -> on_arithmetic_error E <> HTrap ->
  (op = Shl -> on_implementation_defined_behavior E <> HTrap) ->
  literal_fits D (built_in_type D op (base_ty t) (base_ty u)) t ->
  literal_fits D (built_in_type D op (base_ty t) (base_ty u)) u ->
  exists s m, binary D op t u x y = Some (s, m).
Proof. exact C72_native_lemma. Qed.
Print Assumptions C72_native.

(** >>: unless the promoted left operand is unsigned and a bound of the range of the
    count is exactly its width *)
Theorem C72_right_shift : forall D E t u x y, wf_operand D t -> wf_operand D u ->
  policies_agree Native E t u -> on_arithmetic_error E <> HTrap -> on_implementation_defined_behavior E <> HTrap ->
  literal_fits D (promote D (base_ty t)) t -> literal_fits D (promote D (base_ty t)) u ->
  ((exists s m, binary D Shr t u x y = Some (s, m))
   <-> ~ (csigned D (promote D (base_ty t)) = false /\ 0 < lim_hi D t
          /\ (lim_lo D u = width D (promote D (base_ty t)) \/ lim_hi D u = width D (promote D (base_ty t))))).
Proof. exact C72_right_shift_lemma. Qed.
Print Assumptions C72_right_shift.

(** the same under automatic promotion *)
Theorem C72_automatic : forall D op E t u x y, wf_operand D t -> wf_operand D u ->
  policies_agree Automatic E t u -> on_arithmetic_error E <> HTrap ->
  (op = Shl \/ op = Shr -> on_implementation_defined_behavior E <> HTrap) ->
  (forall T N Q F, t = OLit T N Q F \/ u = OLit T N Q F -> 0 <= N <= 127) ->
  (op = Shr -> csigned D (base_ty t) = true \/ lim_hi D t <= 0
     \/ (forall T, lim_lo D u <> width D T /\ lim_hi D u <> width D T)) ->
  exists s m, binary D op t u x y = Some (s, m).
Proof. exact C72_automatic_lemma. Qed.
Print Assumptions C72_automatic.

(** all six comparisons *)
Theorem C72_comparisons : forall D P E t u x y, wf_operand D t -> wf_operand D u ->
  P = Native \/ P = Automatic -> policies_agree P E t u -> on_arithmetic_error E <> HTrap ->
  (forall T N Q F, t = OLit T N Q F \/ u = OLit T N Q F -> 0 <= N <= 127) ->
  (exists m, s_lt D t u x y = Some m) /\ (exists m, s_gt D t u x y = Some m) /\ (exists m, s_le D t u x y = Some m)
  /\ (exists m, s_ge D t u x y = Some m) /\ (exists m, s_eq D t u x y = Some m) /\ (exists m, s_ne D t u x y = Some m).
Proof. exact C72_comparisons_lemma. Qed.
Print Assumptions C72_comparisons.

(** bitwise operators, for every exception policy: exactly if the common type is
    unsigned or the largest values of both operands (for &: of one of them) are not
    negative *)
Theorem C72_bitwise : forall D b P E t u x y, wf_operand D t -> wf_operand D u ->
  P = Native \/ P = Automatic -> policies_agree P E t u ->
  ((exists s m, bitwise D b t u x y = Some (s, m))
   <-> csigned D (uac D (base_ty t) (base_ty u)) = false
       \/ match b with And => 0 <= lim_hi D t \/ 0 <= lim_hi D u | _ => 0 <= lim_hi D t /\ 0 <= lim_hi D u end).
Proof. exact bitwise_compiles_iff. Qed.
Print Assumptions C72_bitwise.

(** safe<unsigned> >> range<0, 31> and range<0, 33> compile, range<0, 32> does not;
    a disjunction with a range of negative numbers does not compile *)
Example C72_nonvacuous :
  policies_agree Native default_exception_policy (cp_rng Native 0 4294967295 UInt) (cp_rng Native 0 31 UChar)
  /\ wf_operand LP64 (cp_rng Native 0 4294967295 UInt) /\ wf_operand LP64 (cp_rng Native 0 31 UChar)
  /\ binary LP64 Shr (cp_rng Native 0 4294967295 UInt) (cp_rng Native 0 31 UChar) 5 1
     = Some (mkSafe UInt 0 4294967295 Native default_exception_policy, ([], Ret 2))
  /\ binary LP64 Shr (cp_rng Native 0 4294967295 UInt) (cp_rng Native 0 32 UChar) 5 1 = None
  /\ binary LP64 Shr (cp_rng Native 0 4294967295 UInt) (cp_rng Native 0 33 UChar) 5 1
     = Some (mkSafe UInt 0 4294967295 Native default_exception_policy, ([], Ret 2))
  /\ bitwise LP64 Or (cp_rng Native (-5) (-1) Int) (cp_rng Native 0 31 UChar) (-5) 1 = None
  /\ s_lt LP64 (cp_rng Automatic (-5) (-1) Int) (cp_rng Automatic 0 31 UChar) (-5) 1 = Some ([], Ret true).
Proof.
  split; [|vm_compute; intuition congruence].
  repeat split; try (left; reflexivity); intros ? [H|H]; injection H as <-; reflexivity.
Qed.
