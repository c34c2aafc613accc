(** NarrowSpec.v -- vocabulary for C84: narrowing the declared range of an operand. *)
From Coq Require Import ZArith.
From Verif Require Import Base CType Spec ExceptionPolicy Promotion SafeBase SafeSpec.
Local Open Scope Z_scope.

(** t' is t, or a safe type with the same underlying type and policies as t whose declared
    range lies inside that of t *)
Definition narrowed (t t' : otype) : Prop :=
  t' = t
  \/ exists T a b a' b' P E, t = OSafe (mkSafe T a b P E) /\ t' = OSafe (mkSafe T a' b' P E)
       /\ a <= a' /\ b' <= b.

(** the declared range of s' lies inside that of s *)
Definition range_inside (s' s : safe_t) : Prop := smin s <= smin s' /\ smax s' <= smax s.

(** the promotion policies that choose the type of a result from the underlying types alone *)
Definition by_type (P : pp) : Prop := P <> Automatic.
