(** FloatFacts.v -- proofs about checked::cast from floating point types. *)
From Coq Require Import ZArith Bool Lia.
From Verif Require Import Base CType Spec CTypeFacts CheckedInteger IntervalFacts FloatCast FloatSpec.
Local Open Scope Z_scope.

Lemma quot_unique : forall m d z, 0 < d -> (z = 0 \/ Z.sgn z = Z.sgn m) ->
  Z.abs z * d <= Z.abs m < (Z.abs z + 1) * d -> Z.quot m d = z.
Proof.
  intros m d z Hd S B.
  assert (A : Z.quot (Z.abs m) d = Z.abs z).
  { rewrite Z.quot_div_nonneg by lia. symmetry. apply Z.div_unique with (r := Z.abs m - Z.abs z * d); lia. }
  destruct (Z.abs_spec m) as [[P E]|[P E]]; rewrite E in A.
  - destruct S as [->|S]; [rewrite A; reflexivity|]. rewrite A. lia.
  - rewrite Z.quot_opp_l in A by lia. destruct S as [->|S]; lia.
Qed.
Definition trunc (m e : Z) : Z := if 0 <=? e then m * 2 ^ e else Z.quot m (2 ^ (- e)).
Lemma integer_part_trunc : forall m e z, integer_part m e z -> trunc m e = z.
Proof.
  intros m e z [S B]. cbv zeta in B. unfold trunc. destruct (Z.leb_spec 0 e) as [P|P].
  - replace (Z.max 0 (- e)) with 0 in B by lia. replace (Z.max 0 e) with e in B by lia.
    rewrite Z.pow_0_r in B. assert (0 < 2 ^ e) by (apply Z.pow_pos_nonneg; lia).
    assert (Z.abs z = Z.abs m * 2 ^ e) by lia.
    destruct S as [->|S]; [nia|]. nia.
  - replace (Z.max 0 (- e)) with (- e) in B by lia. replace (Z.max 0 e) with 0 in B by lia.
    rewrite Z.pow_0_r, Z.mul_1_r in B. apply quot_unique; auto. apply Z.pow_pos_nonneg; lia.
Qed.
Lemma C77_lemma : forall D R m e z,
  integer_part m e z -> in_type D R z -> float_cast D R (FNum m e) = Ok (CVal z).
Proof.
  intros D R m e z P I. apply integer_part_trunc in P. unfold trunc in P.
  unfold float_cast, fp_to_int. cbv zeta. rewrite P.
  assert (K : in_range D R z = true).
  { unfold in_range. unfold in_type in I. apply andb_true_intro. split; apply Z.leb_le; lia. }
  rewrite K. reflexivity.
Qed.
Lemma C77_part_lemma : forall m e, exists z, integer_part m e z.
Proof.
  intros m e. exists (trunc m e). unfold integer_part, trunc. cbv zeta. destruct (Z.leb_spec 0 e) as [P|P].
  - replace (Z.max 0 (- e)) with 0 by lia. replace (Z.max 0 e) with e by lia.
    rewrite Z.pow_0_r. assert (0 < 2 ^ e) by (apply Z.pow_pos_nonneg; lia).
    rewrite Z.abs_mul, (Z.abs_eq (2 ^ e)) by lia. split; [right|lia].
    rewrite Z.sgn_mul, (Z.sgn_pos (2 ^ e)) by lia. lia.
  - replace (Z.max 0 (- e)) with (- e) by lia. replace (Z.max 0 e) with 0 by lia.
    rewrite Z.pow_0_r, Z.mul_1_r. set (d := 2 ^ (- e)).
    assert (Hd : 0 < d) by (apply Z.pow_pos_nonneg; lia).
    pose proof (Z.quot_rem m d ltac:(lia)) as Q. pose proof (Z.rem_bound_abs m d ltac:(lia)) as B.
    pose proof (Z.rem_sign_nz m d ltac:(lia)) as Sg.
    assert (A : Z.abs (Z.quot m d) = Z.abs m / d).
    { rewrite <- Z.quot_abs, (Z.abs_eq d), Z.quot_div_nonneg by lia. reflexivity. }
    split.
    + destruct (Z.eq_dec (Z.quot m d) 0) as [Z0|Z0]; [left; assumption|right].
      destruct (Z.lt_trichotomy m 0) as [N|[N|N]].
      * assert (Z.quot m d <= 0) by (apply Z.quot_le_upper_bound; lia). lia.
      * subst m. rewrite Z.quot_0_l in Z0 by lia. congruence.
      * assert (0 <= Z.quot m d) by (apply Z.quot_pos; lia). lia.
    + rewrite A. pose proof (Z.mul_div_le (Z.abs m) d Hd).
      pose proof (Z.mul_succ_div_gt (Z.abs m) d Hd). lia.
Qed.
Lemma C77_no_error_lemma : forall D R v er, float_cast D R v <> Ok (CErr er).
Proof.
  intros D R v er. unfold float_cast. destruct (fp_to_int D R v); cbn; congruence.
Qed.
Lemma C77_construct_lemma : forall D R mn mx fmin m e z v,
  integer_part m e z -> 2 ^ 64 <= z -> construct_float D R mn mx fmin (FNum m e) v = None.
Proof.
  intros D R mn mx fmin m e z v P I. apply integer_part_trunc in P. unfold trunc in P.
  assert (float_cast D R (FNum m e) = UB) as K.
  { unfold float_cast, fp_to_int. cbv zeta. rewrite P.
    replace (in_range D R z) with false; [reflexivity|]. symmetry. unfold in_range. apply andb_false_intro2.
    apply Z.leb_gt. apply Z.lt_le_trans with (2 ^ 64); [|exact I]. destruct D, R; vm_compute; reflexivity. }
  unfold construct_float. rewrite K. destruct (float_cast D R fmin); reflexivity.
Qed.
