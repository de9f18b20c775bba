(** Independent vocabulary for the text-formatting properties. *)
From Coq Require Import ZArith String Ascii Bool List.
From Verif Require Import PyBase.
Import ListNotations.
Open Scope Z_scope.

(** Value of one Roman letter; anything else is worth nothing. *)
Definition letter_value (c : ascii) : option Z :=
  match nat_of_ascii c with
  | 73%nat => Some 1     (* I *)
  | 86%nat => Some 5     (* V *)
  | 88%nat => Some 10    (* X *)
  | 76%nat => Some 50    (* L *)
  | 67%nat => Some 100   (* C *)
  | 68%nat => Some 500   (* D *)
  | 77%nat => Some 1000  (* M *)
  | _ => None
  end.

(** The ordinary subtractive reading: a letter counts negatively when a larger
    letter follows it immediately. *)
Fixpoint roman_value (s : str) : option Z :=
  match s with
  | [] => Some 0
  | c :: s' =>
      match letter_value c, roman_value s' with
      | Some v, Some total =>
          match s' with
          | [] => Some (v + total)
          | d :: _ => match letter_value d with
                      | Some w => Some (if v <? w then total - v else v + total)
                      | None => None
                      end
          end
      | _, _ => None
      end
  end.

(** Textbook positional definition: one decimal digit written with the letters
    for one, five and ten. *)
Definition roman_digit (one five ten : string) (d : Z) : str :=
  let o := str_of one in let f := str_of five in let t := str_of ten in
  match d with
  | 1 => o | 2 => o ++ o | 3 => o ++ o ++ o | 4 => o ++ f
  | 5 => f | 6 => f ++ o | 7 => f ++ o ++ o | 8 => f ++ o ++ o ++ o
  | 9 => o ++ t | _ => []
  end.

Definition roman_text (n : Z) : str :=
  roman_digit "M" "?" "?" (n / 1000)
  ++ roman_digit "C" "D" "M" (n / 100 mod 10)
  ++ roman_digit "X" "L" "C" (n / 10 mod 10)
  ++ roman_digit "I" "V" "X" (n mod 10).

(** [grouped sep ds out]: [out] is the digit string [ds] cut in groups of
    three from the right (leading group of one to three digits) and joined by
    [sep]. *)
Definition grouped (sep ds out : str) : Prop :=
  exists (g : str) (gs : list str),
    ds = g ++ concat gs /\
    (1 <= List.length g <= 3)%nat /\
    Forall (fun x => List.length x = 3%nat) gs /\
    out = g ++ concat (map (fun x => sep ++ x) gs).

Definition all_digits (s : str) : Prop := Forall (fun c => is_digit c = true) s.

(** The tail of a string after its leading number does not start with a digit. *)
Definition no_digit_head (s : str) : Prop :=
  match s with [] => True | c :: _ => is_digit c = false end.

(** Decimal value of a digit string (most significant first). *)
Definition digits_value (s : str) : Z :=
  fold_left (fun acc c => 10 * acc + (Z.of_nat (nat_of_ascii c) - 48)) s 0.

(** Deleting every occurrence of one character. *)
Definition strip_char (c : ascii) (s : str) : str :=
  filter (fun x => negb (Ascii.eqb x c)) s.

(** An optional minus sign. *)
Definition sign_ok (sign : str) : Prop := sign = [] \/ sign = [minus].

(** Separators Python's [re] takes literally in the replacement template:
    non-empty, not starting with a digit, no backslash. *)
Definition plain_sep (sep : str) : Prop :=
  match sep with
  | [] => False
  | c :: _ => is_digit c = false
  end /\ ~ In backslash sep.

(** The sign of an integer as printed. *)
Definition sign_text (n : Z) : str := if n <? 0 then [minus] else [].
