(** Independent vocabulary: the Gregorian calendar and format strings. *)
From Coq Require Import ZArith String Ascii Bool List.
From Verif Require Import PyBase HistoricModel.
Import ListNotations.
Open Scope Z_scope.

(** Gregorian leap years. *)
Definition leap (y : Z) : Prop := (4 | y) /\ (~ (100 | y) \/ (400 | y)).

Definition leapb (y : Z) : bool :=
  (y mod 400 =? 0) || ((y mod 4 =? 0) && negb (y mod 100 =? 0)).

Definition month_length (y m : Z) : Z :=
  nth (Z.to_nat (m - 1)) [31; if leapb y then 29 else 28; 31; 30; 31; 30; 31; 31; 30; 31; 30; 31] 0.

Definition days_before_month (y m : Z) : Z :=
  fold_left (fun acc k => acc + month_length y (Z.of_nat k)) (seq 1 (Z.to_nat (m - 1))) 0.

(** Day number of January 1st minus one, year 1 = 0. *)
Definition days_before_year (y : Z) : Z :=
  (y - 1) * 365 + (y - 1) / 4 - (y - 1) / 100 + (y - 1) / 400.

Definition day_of_year (d : dt) : Z := days_before_month (year d) (month d) + day d.
Definition ordinal (d : dt) : Z := days_before_year (year d) + day_of_year d.
(** 0 = Monday; 0001-01-01 was a Monday. *)
Definition weekday (d : dt) : Z := (ordinal d - 1) mod 7.

Definition valid_date (d : dt) : Prop :=
  1 <= year d <= 9999 /\ 1 <= month d <= 12 /\ 1 <= day d <= month_length (year d) (month d).

(** Format strings: literal characters, directives, a dangling percent. *)
Inductive token := TLit (c : ascii) | TDir (c : ascii) | TDangling.

Fixpoint tokenize (s : str) : list token :=
  match s with
  | [] => []
  | c :: s' =>
      if Ascii.eqb c (chr 37) then
        match s' with
        | [] => [TDangling]
        | d :: s'' => TDir d :: tokenize s''
        end
      else TLit c :: tokenize s'
  end.

Definition subst_year (y : str) (t : token) : list token :=
  match t with
  | TDir c => if Ascii.eqb c (chr 89) then map TLit y else [t]
  | _ => [t]
  end.

Definition no_pct (s : str) : Prop := ~ In (chr 37) s.

(** What datetime.strftime does, given the rendering of each directive. *)
Definition render_token (render : ascii -> dt -> str) (dangling : str) (d : dt) (t : token) : str :=
  match t with TLit c => [c] | TDir c => render c d | TDangling => dangling end.
Definition strftime_sem (render : ascii -> dt -> str) (dangling : str) (d : dt) (format : str) : res str :=
  Ok (flat_map (render_token render dangling d) (tokenize format)).

(** A directive that only looks at the month, day, time of day, day of week,
    day of year, leap status and last two digits of the year. *)
Definition cycle_directive (render : ascii -> dt -> str) (c : ascii) : Prop :=
  forall a b, month a = month b -> day a = day b -> tod a = tod b ->
    weekday a = weekday b -> day_of_year a = day_of_year b ->
    leapb (year a) = leapb (year b) -> year a mod 100 = year b mod 100 ->
    render c a = render c b.
