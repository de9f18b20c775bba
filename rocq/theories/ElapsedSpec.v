(** Independent vocabulary for elapsed times. *)
From Coq Require Import ZArith String Ascii Bool List.
From Verif Require Import PyBase.
Import ListNotations.
Open Scope Z_scope.

(** Number of microseconds between 0001-01-01 and 9999-12-31T23:59:59.999999. *)
Definition datetime_span : Z := 315537897600 * 1000000.

(** "1 week", "2 weeks", "0 days", ... *)
Definition phrase (n : Z) (unit : string) : str :=
  str_of_Z n ++ str_of " " ++ str_of unit ++ (if n =? 1 then [] else str_of "s").

(** The text for a whole number of seconds, from the seconds alone. *)
Definition elapsed_text (s : Z) : str :=
  if 604800 <=? s then phrase (s / 604800) "week" ++ str_of ", " ++ phrase (s mod 604800 / 86400) "day"
  else if 86400 <=? s then phrase (s / 86400) "day" ++ str_of ", " ++ phrase (s mod 86400 / 3600) "hour"
  else if 3600 <=? s then phrase (s / 3600) "hour" ++ str_of ", " ++ phrase (s mod 3600 / 60) "minute"
  else if 60 <=? s then phrase (s / 60) "minute" ++ str_of ", " ++ phrase (s mod 60) "second"
  else phrase s "second".
