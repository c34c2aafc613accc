(** LimitsSpec.v -- what it means for text to show a number or a range. Text is a
    list of ASCII codes. *)
From Coq Require Import ZArith List Bool.
From Verif Require Import Base CType Spec ExceptionPolicy Promotion SafeBase SafeSpec StreamSpec.
Import ListNotations.
Local Open Scope Z_scope.

(** the text is z in decimal: digits, after a minus sign if z is negative *)
Definition decimal_text (cs : list Z) (z : Z) : Prop :=
  exists ds, denotes ds (Z.abs z) /\ ((0 <= z /\ cs = ds) \/ (z < 0 /\ cs = [45] ++ ds)).

(** the character c is the hexadecimal digit d: 0-9, a-f *)
Definition hex_char (c d : Z) : Prop :=
  (0 <= d <= 9 /\ c = 48 + d) \/ (10 <= d <= 15 /\ c = 87 + d).
Inductive hex_denotes : list Z -> Z -> Prop :=
| hex_one : forall c d, hex_char c d -> hex_denotes [c] d
| hex_more : forall cs n c d, hex_denotes cs n -> hex_char c d -> hex_denotes (cs ++ [c]) (16 * n + d).

(** the text is [ a , b ] c where a, b and c are numbers in the notation [N] *)
Definition range_text (N : list Z -> Z -> Prop) (cs : list Z) (mn mx z : Z) : Prop :=
  exists a b c, cs = [91] ++ a ++ [44] ++ b ++ [93] ++ c /\ N a mn /\ N b mx /\ N c z.
