(** PropsErrorText.v -- property C89: the texts of errors and of checked results. *)
From Coq Require Import ZArith List Bool String.
From Verif Require Import Base CType Spec Stream StreamSpec Limits ErrorText ErrorTextFacts.
Import ListNotations.
Local Open Scope list_scope.
Local Open Scope Z_scope.

(** C89: different errors have different texts and numbers; the number is 0, which
    std::error_code takes for success, exactly if there is no error *)
Theorem C89_error_texts : forall e e', message e = message e' \/ literal_string e = literal_string e'
  \/ error_code_value e = error_code_value e' -> e = e'.
Proof. exact texts_lemma. Qed.
Print Assumptions C89_error_texts.
Theorem C89_success : forall e, error_code_value e = 0 <-> e = success.
Proof. exact code_success. Qed.
Print Assumptions C89_success.

(** the text of the exception tells the error and the message *)
Theorem C89_what : forall e msg e' msg', what e msg = what e' msg' -> e = e' /\ msg = msg'.
Proof. exact what_inj. Qed.
Print Assumptions C89_what.

(** the text of a checked result tells whether it is a value, and which, or an error, and which *)
Theorem C89_output_tells : forall D R c msg c' msg',
  (forall x, c = CVal x -> in_type D R x) -> (forall x, c' = CVal x -> in_type D R x) ->
  cr_output D R c msg = cr_output D R c' msg' -> c = c' /\ (forall e, c = CErr e -> msg = msg').
Proof. exact cr_output_inj. Qed.
Print Assumptions C89_output_tells.

(** a value is shown as 0 and its decimal representation.
    Missing: char and unsigned char, of which it is false *)
Theorem C89_output_value_partial : forall D R x msg, in_type D R x -> R <> Char -> R <> UChar ->
  exists sg ds n, cr_output D R (CVal x) msg = 48 :: sign_text sg ++ ds /\ denotes ds n /\ x = signed sg n
  /\ (sg = Minus <-> x < 0) /\ sg <> Plus.
Proof. exact cr_output_decimal. Qed.
Print Assumptions C89_output_value_partial.

(** checked_result<unsigned char>(65) is shown as 0A *)
Theorem C89_unsigned_char_refuted : cr_output LP64 UChar (CVal 65) [] = [48; 65].
Proof. exact eq_refl. Qed.
Print Assumptions C89_unsigned_char_refuted.

(** "0-42", "1range error:divide by zero", "0-7" for signed char *)
Example C89_example :
  cr_output LP64 Int (CVal (-42)) [] = [48; 45; 52; 50]
  /\ cr_output LP64 Int (CErr range_error) (codes "divide by zero"%string) = codes "1range error:divide by zero"%string
  /\ cr_output LP64 SChar (CVal (-7)) [] = [48; 45; 55]
  /\ what domain_error (codes "bad input"%string) = codes "bad input: domain error"%string.
Proof. vm_compute. repeat split; reflexivity. Qed.
