(** StreamSpec.v -- what text denotes a number, and programs that write and read
    sequences of values. *)
From Coq Require Import ZArith List Bool.
From Verif Require Import Base CType Spec ExceptionPolicy Promotion SafeSpec Stream.
Import ListNotations.
Local Open Scope Z_scope.

(** \t \n \v \f \r and the space *)
Definition blank (c : Z) : Prop := In c [9; 10; 11; 12; 13; 32].
(** the character c is the digit d *)
Definition digit_char (c d : Z) : Prop := 0 <= d <= 9 /\ c = 48 + d.

(** the digit characters cs, most significant first, denote n *)
Inductive denotes : list Z -> Z -> Prop :=
| denotes_one : forall c d, digit_char c d -> denotes [c] d
| denotes_more : forall cs n c d, denotes cs n -> digit_char c d -> denotes (cs ++ [c]) (10 * n + d).

(** an optional sign, and digits, denote z *)
Inductive sign : Type := Plus | Minus | NoSign.
Definition sign_text (sg : sign) : list Z :=
  match sg with Plus => [43] | Minus => [45] | NoSign => [] end.
Definition signed (sg : sign) (n : Z) : Z := match sg with Minus => - n | _ => n end.

(** the text cs consists of white space, an integer denoting z with sign sg, and
    rest, which does not continue the digits *)
Definition numeral (cs : list Z) (sg : sign) (z : Z) (rest : list Z) : Prop :=
  exists bl ds n, Forall blank bl /\ denotes ds n
  /\ cs = bl ++ sign_text sg ++ ds ++ rest /\ z = signed sg n
  /\ (forall c r d, rest = c :: r -> ~ digit_char c d).

(** the sign may be given to a variable of type T: unsigned types do not accept a
    minus sign *)
Definition accepted (D : dmodel) (T : ctype) (sg : sign) : Prop := csigned D T = true \/ sg <> Minus.

(** nothing is left to read *)
Definition at_end (cs : list Z) : bool := match cs with [] => true | _ => false end.

(** types read and written as numbers by every stream operation: not char *)
Definition number_type (T : ctype) : Prop := T <> Char.
(** ... and not the other two character types either *)
Definition wide_type (T : ctype) : Prop := T <> Char /\ T <> SChar /\ T <> UChar.

(** a program that writes values separated by single spaces, and a program that
    reads one value after another. [read_all] gives the values of the variables
    when no call of input throws. *)
Definition write_all (out : safe_t -> Z -> list Z) (l : list (safe_t * Z)) : list Z :=
  flat_map (fun p => out (fst p) (snd p) ++ [32]) l.
Inductive read_all (D : dmodel) : list safe_t -> istream -> list Z -> istream -> Prop :=
| read_nil : forall i, read_all D [] i [] i
| read_cons : forall s ss i i1 i2 v vs m,
    (forall old, input D s i old = Some (i1, Some v, m)) -> returns m tt ->
    read_all D ss i1 vs i2 ->
    read_all D (s :: ss) i (v :: vs) i2.
