(** PropsElemInterval.v -- property C96: intervals whose elements are built-in or safe integers. *)
From Coq Require Import ZArith Bool List Lia.
From Verif Require Import Base CType Spec ExceptionPolicy Promotion SafeBase SafeSpec Program
  ComposeSpec ElemInterval ElemIntervalSpec ElemIntervalFacts ElemShiftFacts.
Import ListNotations.
Local Open Scope Z_scope.

(** C96. Safe elements: + - * (and / with native promotion) yield the smallest interval that
    contains all results, or throw *)
Theorem C96_safe_elements : forall D s op t u, elem_ok D (OSafe s) -> op_monotone (OSafe s) op ->
  ival_ok D (OSafe s) t -> ival_ok D (OSafe s) u -> v_compiles D (OSafe s) op = true -> (op = Div -> ~ inside u 0) ->
  (exists r, returns (v_op D (OSafe s) op t u) r /\ ival_ok D (OSafe s) r /\ hull (exact op) t u r)
  \/ throws_arith (v_op D (OSafe s) op t u).
Proof. exact (fun D s op t u Ho => safe_hull D s Ho op t u). Qed.
Print Assumptions C96_safe_elements.

(** with native promotion they throw only if some result does not fit *)
Theorem C96_safe_no_false_alarm : forall D s op t u, elem_ok D (OSafe s) -> sP s = Native -> op_monotone (OSafe s) op ->
  ival_ok D (OSafe s) t -> ival_ok D (OSafe s) u -> v_compiles D (OSafe s) op = true ->
  (op = Div -> ~ inside u 0) -> (op = Div -> holds D (OSafe s) 0) ->
  (forall x y, inside t x -> inside u y -> holds D (OSafe s) (exact op x y)) ->
  exists r, returns (v_op D (OSafe s) op t u) r /\ ival_ok D (OSafe s) r /\ hull (exact op) t u r.
Proof. exact safe_fits. Qed.
Print Assumptions C96_safe_no_false_alarm.

(** a divisor that contains 0 fails the assertion, which is documented *)
Theorem C96_divisor_with_zero : forall D s t u, elem_ok D (OSafe s) -> ival_ok D (OSafe s) u ->
  v_compiles D (OSafe s) Div = true -> inside u 0 -> v_op D (OSafe s) Div t u = mundef.
Proof. exact (fun D s t u Ho => safe_div_zero D s Ho t u). Qed.
Print Assumptions C96_divisor_with_zero.
(** but if 0 is not a value of the element type, division always throws, though no divisor can
    contain 0 *)
Theorem C96_division_without_zero_refuted : forall D s t u, elem_ok D (OSafe s) -> ival_ok D (OSafe s) u ->
  v_compiles D (OSafe s) Div = true -> ~ holds D (OSafe s) 0 -> throws_arith (v_op D (OSafe s) Div t u).
Proof. exact no_zero_lemma. Qed.
Print Assumptions C96_division_without_zero_refuted.

(** Built-in elements: the same, if every result fits the element type *)
Theorem C96_built_in_elements_partial : forall D T op t u, op_monotone (ORaw T) op ->
  ival_ok D (ORaw T) t -> ival_ok D (ORaw T) u -> v_compiles D (ORaw T) op = true -> (op = Div -> ~ inside u 0) ->
  (forall x y, inside t x -> inside u y -> in_type D T (exact op x y)) ->
  exists r, returns (v_op D (ORaw T) op t u) r /\ ival_ok D (ORaw T) r /\ hull (exact op) t u r.
Proof. exact raw_fits. Qed.
Print Assumptions C96_built_in_elements_partial.
(** otherwise it is false: [100,100] + [100,100] is [-56,-56] for signed char, [0,0] - [0,1] is
    [4294967295,0] for unsigned, and for int it is undefined behaviour *)
Theorem C96_built_in_refuted :
  returns (v_op LP64 (ORaw SChar) Add (mkV 100 100) (mkV 100 100)) (mkV (-56) (-56))
  /\ returns (v_op LP64 (ORaw UInt) Sub (mkV 0 0) (mkV 0 1)) (mkV 4294967295 0)
  /\ v_op LP64 (ORaw Int) Mul (mkV 0 65536) (mkV 0 65536) = mundef.
Proof. vm_compute. repeat split. Qed.
Print Assumptions C96_built_in_refuted.

(** % : false, as for checked results (C17): [0,10] % [7,7] is [0,3] *)
Definition ivs : otype := OSafe (safe LP64 Int Native loose_exception_policy).
Theorem C96_remainder_refuted : v_compiles LP64 ivs Mod = true
  /\ returns (v_op LP64 ivs Mod (mkV 0 10) (mkV 7 7)) (mkV 0 3) /\ ~ inside (mkV 0 3) (Z.rem 6 7).
Proof. vm_compute. repeat split; intros [_ H]; apply H; reflexivity. Qed.
Print Assumptions C96_remainder_refuted.

(** << and >>, where the shift of the element type is itself exact (C26, C27): the smallest interval
    that contains all results, or an exception; no interval is returned if a count can be negative
    or, for >>, if a value can (missing: the other element types) *)
Theorem C96_shifts_partial : forall D s op t u, op = Shl \/ op = Shr -> elem_ok D (OSafe s) -> throws_shift (sE s) ->
  (forall s' m, binary D op (OSafe s) (OSafe s) 0 0 = Some (s', m) -> exact_operator true D (BA op) (OSafe s) (OSafe s) s') ->
  ival_ok D (OSafe s) t -> ival_ok D (OSafe s) u -> v_compiles D (OSafe s) op = true ->
  (exists r, returns (v_op D (OSafe s) op t u) r /\ ival_ok D (OSafe s) r /\ hull (exact op) t u r
     /\ 0 <= vl u /\ (op = Shr -> 0 <= vl t))
  \/ fails (v_op D (OSafe s) op t u).
Proof. exact (fun D s op t u Hop Ho Hs Hx => shift_hull D s op Ho Hs Hop Hx t u). Qed.
Print Assumptions C96_shifts_partial.
(** this is so for << of safe<T> for all T, and for >> of the signed ones *)
Theorem C96_shifts_whole_types : forall D T E op t u, op = Shl \/ (op = Shr /\ csigned D T = true) -> throws_arithmetic E -> throws_shift E ->
  let s := safe D T Native E in
  ival_ok D (OSafe s) t -> ival_ok D (OSafe s) u -> v_compiles D (OSafe s) op = true ->
  (exists r, returns (v_op D (OSafe s) op t u) r /\ ival_ok D (OSafe s) r /\ hull (exact op) t u r
     /\ 0 <= vl u /\ (op = Shr -> 0 <= vl t))
  \/ fails (v_op D (OSafe s) op t u).
Proof. exact whole_shift_hull. Qed.
Print Assumptions C96_shifts_whole_types.
(** otherwise it is false: [5,5] >> [32,32] is undefined for safe<unsigned>, and so is
    [-1,-1] << [1,1] for safe_signed_range<-4, 4> *)
Theorem C96_shifts_refuted :
  v_op LP64 (OSafe (safe LP64 UInt Native strict_exception_policy)) Shr (mkV 5 5) (mkV 32 32) = mundef
  /\ v_op LP64 (OSafe (mkSafe SChar (-4) 4 Native strict_exception_policy)) Shl (mkV (-1) (-1)) (mkV 1 1) = mundef.
Proof. vm_compute. split; reflexivity. Qed.
Print Assumptions C96_shifts_refuted.
(** built-in elements, if the built-in shift is exact for all members *)
Theorem C96_built_in_shifts : forall D T op t u, op = Shl \/ op = Shr -> ival_ok D (ORaw T) t -> ival_ok D (ORaw T) u ->
  v_compiles D (ORaw T) op = true -> 0 <= vl u ->
  (forall x y, inside t x -> inside u y -> built_in D op T T x y = Ok (exact op x y) /\ in_type D T (exact op x y)) ->
  exists r, returns (v_op D (ORaw T) op t u) r /\ ival_ok D (ORaw T) r /\ hull (exact op) t u r.
Proof. exact raw_shift_hull. Qed.
Print Assumptions C96_built_in_shifts.
Definition ivx : otype := OSafe (safe LP64 Int Native strict_exception_policy).
Example C96_shifts_nonvacuous :
  throws_arithmetic strict_exception_policy /\ throws_shift strict_exception_policy /\ v_compiles LP64 ivx Shl = true /\ v_compiles LP64 ivx Shr = true
  /\ v_compiles LP64 (ORaw UInt) Shl = true
  /\ returns (v_op LP64 ivx Shl (mkV 3 5) (mkV 1 4)) (mkV 6 80)
  /\ returns (v_op LP64 ivx Shr (mkV 3 100) (mkV 1 4)) (mkV 0 50)
  /\ throws_impl (v_op LP64 ivx Shr (mkV (-3) 100) (mkV 1 4))
  /\ returns (v_op LP64 (ORaw UInt) Shl (mkV 3 5) (mkV 1 4)) (mkV 6 80).
Proof.
  repeat split; try (vm_compute; reflexivity). exists negative_value_shift. split; [|vm_compute; reflexivity]. unfold shift_err. tauto.
Qed.

(** Members, subsets and equality are decided exactly *)
Theorem C96_members : forall D o t x, elem_ok D o -> ival_ok D o t -> holds D o x ->
  (exists b, returns (v_includes_pt D o t x) b /\ (b = true <-> inside t x))
  /\ (exists b, returns (v_excludes_pt D o t x) b /\ (b = true <-> ~ inside t x)).
Proof. exact members_lemma. Qed.
Print Assumptions C96_members.
Theorem C96_subsets : forall D o t u, elem_ok D o -> ival_ok D o t -> ival_ok D o u ->
  (exists b, returns (v_includes D o t u) b /\ (b = true <-> forall z, inside u z -> inside t z))
  /\ (exists b, returns (v_excludes D o t u) b /\ (b = true <-> forall z, inside u z -> ~ inside t z))
  /\ (exists b, returns (v_eq D o t u) b /\ (b = true <-> forall z, inside t z <-> inside u z))
  /\ (exists b, returns (v_ne D o t u) b /\ (b = true <-> ~ forall z, inside t z <-> inside u z)).
Proof. exact subsets_lemma. Qed.
Print Assumptions C96_subsets.
(** < and > are true or false exactly if all pairs of members agree; <= and >= are right *)
Theorem C96_order : forall D o t u, elem_ok D o -> ival_ok D o t -> ival_ok D o u ->
  (exists b, returns (v_lt D o t u) b /\ (b = TTrue <-> forall x y, inside t x -> inside u y -> x < y)
     /\ (b = TFalse <-> forall x y, inside t x -> inside u y -> y < x))
  /\ (exists b, returns (v_gt D o t u) b /\ (b = TTrue <-> forall x y, inside t x -> inside u y -> y < x)
     /\ (b = TFalse <-> forall x y, inside t x -> inside u y -> x < y))
  /\ (exists b, returns (v_le D o t u) b /\ (b = TTrue -> forall x y, inside t x -> inside u y -> x <= y)
     /\ (b = TFalse <-> forall x y, inside t x -> inside u y -> y < x))
  /\ (exists b, returns (v_ge D o t u) b /\ (b = TTrue -> forall x y, inside t x -> inside u y -> y <= x)
     /\ (b = TFalse <-> forall x y, inside t x -> inside u y -> x < y)).
Proof. exact order_lemma. Qed.
Print Assumptions C96_order.
(** & is the intersection, | the smallest interval that contains both *)
Theorem C96_intersection_union : forall D o t u, elem_ok D o -> ival_ok D o t -> ival_ok D o u ->
  (exists r, returns (v_inter D o t u) r /\ forall z, inside r z <-> inside t z /\ inside u z)
  /\ (exists r, returns (v_union D o t u) r /\ (forall z, inside t z \/ inside u z -> inside r z)
      /\ forall r', (forall z, inside t z \/ inside u z -> inside r' z) -> forall z, inside r z -> inside r' z).
Proof. exact sets_lemma. Qed.
Print Assumptions C96_intersection_union.
(** intersect answers true for all intervals *)
Theorem C96_intersect_refuted : forall D o t u, elem_ok D o -> ival_ok D o t -> ival_ok D o u ->
  returns (v_intersect D o t u) true.
Proof. exact intersect_lemma. Qed.
Print Assumptions C96_intersect_refuted.

(** ------------------------------------------------------------------ *)
Definition pct : otype := OSafe (mkSafe SChar 0 100 Native loose_exception_policy).
Example C96_nonvacuous :
  elem_ok LP64 ivs /\ elem_ok LP64 pct
  /\ forallb (v_compiles LP64 ivs) [Add; Sub; Mul; Div] = true /\ forallb (v_compiles LP64 pct) [Add; Sub; Mul; Div] = true
  /\ forallb (v_compiles LP64 (ORaw Int)) [Add; Sub; Mul; Div] = true
  /\ map (v_compiles LP64 (ORaw SChar)) [Add; Sub; Mul; Div] = [true; true; false; false]
  /\ returns (v_op LP64 ivs Mul (mkV (-3) 5) (mkV (-7) 2)) (mkV (-35) 21)
  /\ returns (v_op LP64 ivs Div (mkV (-30) 50) (mkV 2 7)) (mkV (-15) 25)
  /\ returns (v_op LP64 pct Add (mkV 10 20) (mkV 30 70)) (mkV 40 90)
  /\ throws_arith (v_op LP64 pct Add (mkV 10 20) (mkV 30 90))
  /\ returns (v_op LP64 (ORaw Int) Div (mkV (-30) 50) (mkV (-7) (-2))) (mkV (-25) 15).
Proof.
  repeat split; try (vm_compute; reflexivity); try (vm_compute; congruence); try (left; reflexivity).
  exists positive_overflow_error. split; [left; reflexivity|vm_compute; reflexivity].
Qed.
(** safe_signed_range<2, 9> has no 0 *)
Example C96_division_nonvacuous : let o := OSafe (mkSafe SChar 2 9 Native loose_exception_policy) in
  v_compiles LP64 o Div = true
  /\ v_op LP64 o Div (mkV 8 9) (mkV 2 3) = ([(arithmetic_error, negative_overflow_error)], Throw negative_overflow_error).
Proof. vm_compute. split; reflexivity. Qed.
Example C96_order_nonvacuous : returns (v_lt LP64 ivs (mkV 1 2) (mkV 3 4)) TTrue
  /\ returns (v_le LP64 ivs (mkV 1 2) (mkV 2 4)) TInd /\ returns (v_intersect LP64 ivs (mkV 1 2) (mkV 5 6)) true.
Proof. vm_compute. repeat split. Qed.

(** Which operators compile for built-in elements: + and - always; the others, whose results are
    in braces, if and only if every value of the type of the result is a value of the elements *)
Theorem C96_built_in_compiles : forall D T op, v_compiles D (ORaw T) op = true <->
  op = Add \/ op = Sub \/ forall z, in_type D (built_in_type D op T T) z -> in_type D T z.
Proof. exact built_in_compiles_lemma. Qed.
Print Assumptions C96_built_in_compiles.

(** interval<short> has a sum but no product; where int has 16 bits it has both *)
Example C96_built_in_compiles_example :
  v_compiles LP64 (ORaw Short) Add = true /\ v_compiles LP64 (ORaw Short) Mul = false
  /\ v_compiles LP64 (ORaw Int) Mul = true /\ v_compiles IP16 (ORaw Short) Mul = true.
Proof. vm_compute. auto. Qed.

(** the interval made without bounds has all values of the type as members *)
Theorem C96_default : forall D o z, inside (v_full D o) z <-> holds D o z.
Proof. exact default_lemma. Qed.
Print Assumptions C96_default.

Example C96_default_example : v_full LP64 (OSafe (mkSafe SChar (-3) 5 Native strict_exception_policy)) = mkV (-3) 5.
Proof. reflexivity. Qed.
