(** BaseStreamSpec.v -- what text denotes a number in base 8, 10 or 16. *)
From Coq Require Import ZArith List Bool.
From Verif Require Import Base CType ExceptionPolicy Promotion SafeSpec Stream StreamSpec BaseStream.
Import ListNotations.
Local Open Scope Z_scope.

(** the character c is the digit d of the base: 0-9, a-f or A-F *)
Definition digit_in (b : basefield) (c d : Z) : Prop :=
  0 <= d < match b with BDec => 10 | BOct => 8 | BHex => 16 end
  /\ ((d <= 9 /\ c = 48 + d) \/ (10 <= d /\ (c = 97 + (d - 10) \/ c = 65 + (d - 10)))).

(** the digit characters cs, most significant first, denote n *)
Inductive denotes_in (b : basefield) : list Z -> Z -> Prop :=
| denotes_in_one : forall c d, digit_in b c d -> denotes_in b [c] d
| denotes_in_more : forall cs n c d, denotes_in b cs n -> digit_in b c d ->
    denotes_in b (cs ++ [c]) (match b with BDec => 10 | BOct => 8 | BHex => 16 end * n + d).

(** 0x or 0X may stand before hexadecimal digits *)
Definition prefix_in (b : basefield) (px : list Z) : Prop :=
  px = [] \/ (b = BHex /\ (px = [48; 120] \/ px = [48; 88])).

(** rest does not continue a number *)
Definition ends_in (b : basefield) (rest : list Z) : Prop :=
  forall c r d, rest = c :: r -> ~ digit_in b c d.
(** rest does not turn a digit 0 before it into a prefix *)
Definition no_x (rest : list Z) : Prop := forall c r, rest = c :: r -> c <> 120 /\ c <> 88.

(** the text cs consists of white space, an integer denoting z with sign sg, and
    rest, which does not continue it *)
Definition numeral_in (b : basefield) (cs : list Z) (sg : sign) (z : Z) (rest : list Z) : Prop :=
  exists bl px ds n, Forall blank bl /\ prefix_in b px /\ denotes_in b ds n
  /\ cs = bl ++ sign_text sg ++ px ++ ds ++ rest /\ z = signed sg n
  /\ ends_in b rest
  /\ (b = BHex -> px = [] -> ds = [48] -> no_x rest).

(** a program that reads one value after another in base b; the values of the
    variables when no call of input throws *)
Inductive read_all_in (b : basefield) (D : dmodel) : list safe_t -> istream -> list Z -> istream -> Prop :=
| read_in_nil : forall i, read_all_in b D [] i [] i
| read_in_cons : forall s ss i i1 i2 v vs m,
    (forall old, input_b b D s i old = Some (i1, Some v, m)) -> returns m tt ->
    read_all_in b D ss i1 vs i2 ->
    read_all_in b D (s :: ss) i (v :: vs) i2.
