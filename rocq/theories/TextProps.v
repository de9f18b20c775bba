(** Property theorems C01-C03: Roman numerals and thousands separators. *)
From Coq Require Import ZArith String Ascii Bool List.
From Verif Require Import PyBase TextModel TextSpec TextProofs.
Import ListNotations.
Open Scope Z_scope.

(** C01.  For every integer: 1..3999 yield the textbook numeral, whose
    subtractive reading is the argument; everything else raises ValueError.
    [fuel] bounds the recursion depth: forty calls are always enough. *)
Theorem C01_roman_correct : forall fuel n, (40 <= fuel)%nat ->
  (1 <= n < 4000 ->
     dec_to_roman fuel n = Some (Ok (roman_text n)) /\ roman_value (roman_text n) = Some n) /\
  (n <= 0 \/ 4000 <= n -> dec_to_roman fuel n = Some (Err ValueError)).
Proof. exact dec_to_roman_correct. Qed.
Print Assumptions C01_roman_correct.

Example C01_ex1 : dec_to_roman 40 1994 = Some (Ok (str_of "MCMXCIV")) /\ 1 <= 1994 < 4000.
Proof. vm_compute. intuition congruence. Qed.
Example C01_ex2 : dec_to_roman 40 3888 = Some (Ok (str_of "MMMDCCCLXXXVIII")).
Proof. vm_compute. reflexivity. Qed.
Example C01_ex3 : dec_to_roman 40 4000 = Some (Err ValueError).
Proof. vm_compute. reflexivity. Qed.

(** C01.  Two integers never get the same numeral. *)
Theorem C01_roman_injective : forall fuel m n s, (40 <= fuel)%nat ->
  dec_to_roman fuel m = Some (Ok s) -> dec_to_roman fuel n = Some (Ok s) -> m = n.
Proof. exact dec_to_roman_injective. Qed.
Print Assumptions C01_roman_injective.

Example C01_ex4 : dec_to_roman 40 9 = Some (Ok (str_of "IX")) /\ dec_to_roman 40 11 = Some (Ok (str_of "XI")).
Proof. vm_compute. auto. Qed.

(** C02.  For every text made of an optional minus, at least one digit and any
    tail, and every literal separator, commify terminates (in at most one pass
    per digit) and groups exactly the leading digits. *)
Theorem C02_commify_grouping : forall fuel sep sign ds rest,
  (List.length ds < fuel)%nat ->
  plain_sep sep -> sign_ok sign -> all_digits ds -> ds <> [] -> no_digit_head rest ->
  exists out, commify fuel (sign ++ ds ++ rest) sep = Some (Ok (sign ++ out ++ rest)) /\ grouped sep ds out.
Proof. exact commify_correct. Qed.
Print Assumptions C02_commify_grouping.

Example C02_ex1 : commify 20 (str_of "-1234567.8910") (str_of ",") = Some (Ok (str_of "-1,234,567.8910")).
Proof. vm_compute. reflexivity. Qed.
Example C02_ex2 : plain_sep (str_of ",") /\ sign_ok (str_of "-") /\ all_digits (str_of "1234567")
  /\ str_of "1234567" <> [] /\ no_digit_head (str_of ".8910").
Proof.
  repeat split; try (vm_compute; congruence).
  - vm_compute. intuition discriminate.
  - right; reflexivity.
  - repeat constructor.
Qed.

(** C02.  The grouping specification determines the text. *)
Theorem C02_grouping_unique : forall sep ds o1 o2, grouped sep ds o1 -> grouped sep ds o2 -> o1 = o2.
Proof. exact grouped_unique. Qed.
Print Assumptions C02_grouping_unique.

(** C02.  For every integer the result is the sign and the grouped decimal
    digits; *)
Theorem C02_commify_integer : forall n sep fuel, plain_sep sep ->
  (List.length (str_of_Z (Z.abs n)) < fuel)%nat ->
  exists out, commify fuel (str_of_Z n) sep = Some (Ok (sign_text n ++ out)) /\
              grouped sep (str_of_Z (Z.abs n)) out.
Proof. exact commify_int. Qed.
Print Assumptions C02_commify_integer.

(** ... deleting a one-character separator (not a digit, '\' or '-') recovers
    the decimal text, *)
Theorem C02_commify_strip : forall n c fuel, is_digit c = false -> c <> backslash -> c <> minus ->
  (List.length (str_of_Z (Z.abs n)) < fuel)%nat ->
  exists s, commify fuel (str_of_Z n) [c] = Some (Ok s) /\ strip_char c s = str_of_Z n.
Proof. exact commify_strip. Qed.
Print Assumptions C02_commify_strip.

(** ... and the decimal text used by the model denotes the integer. *)
Theorem C02_decimal_text : forall n, 0 <= n ->
  all_digits (str_of_Z n) /\ str_of_Z n <> [] /\ digits_value (str_of_Z n) = n.
Proof. exact str_of_Z_nonneg. Qed.
Print Assumptions C02_decimal_text.

Example C02_ex3 : commify 20 (str_of_Z (-12345678901)) (str_of ",") = Some (Ok (str_of "-12,345,678,901")).
Proof. vm_compute. reflexivity. Qed.

(** C03.  With the empty separator every text with at least four leading digits
    makes the loop run for ever; *)
Theorem C03_commify_empty_diverges : forall fuel sign ds rest,
  sign_ok sign -> all_digits ds -> (4 <= List.length ds)%nat -> no_digit_head rest ->
  commify fuel (sign ++ ds ++ rest) [] = None.
Proof. exact commify_empty_loops. Qed.
Print Assumptions C03_commify_empty_diverges.

(** ... with at most three digits it returns at once; *)
Theorem C03_commify_empty_short : forall fuel sign ds rest,
  (0 < fuel)%nat -> sign_ok sign -> all_digits ds -> (1 <= List.length ds <= 3)%nat -> no_digit_head rest ->
  commify fuel (sign ++ ds ++ rest) [] = Some (Ok (sign ++ ds ++ rest)).
Proof. exact commify_empty_short. Qed.
Print Assumptions C03_commify_empty_short.

(** ... and a one-digit separator always raises re.error. *)
Theorem C03_commify_digit_separator : forall fuel num c,
  is_digit c = true -> commify fuel num [c] = Some (Err ReError).
Proof. exact commify_digit_sep. Qed.
Print Assumptions C03_commify_digit_separator.

Example C03_ex : commify 1000 (str_of "1234") [] = None /\ commify 1000 (str_of "123") [] = Some (Ok (str_of "123")).
Proof. vm_compute. auto. Qed.
Example C03_ex2 : commify 1000 (str_of "7") (str_of "5") = Some (Err ReError).
Proof. vm_compute. reflexivity. Qed.
