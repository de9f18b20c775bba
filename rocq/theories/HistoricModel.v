(** Model of /repo/impactutils/time/ancient_time.py. *)
From Coq Require Import ZArith String Ascii Bool List.
From Verif Require Import PyBase.
Import ListNotations.
Open Scope Z_scope.

(** The fields of a datetime; [tod] stands for hour, minute, second,
    microsecond and tzinfo, which the code never touches. *)
Record dt := { year : Z; month : Z; day : Z; tod : Z }.

(** Python's calendar (datetime._is_leap, _days_in_month). *)
Definition py_leap (y : Z) : bool :=
  (y mod 4 =? 0) && (negb (y mod 100 =? 0) || (y mod 400 =? 0)).
Definition py_days_in_month (y m : Z) : Z :=
  if m =? 2 then (if py_leap y then 29 else 28)
  else if (m =? 4) || (m =? 6) || (m =? 9) || (m =? 11) then 30 else 31.

(** [datetime.replace(year=...)]: ValueError when the date does not exist. *)
Definition replace_year (d : dt) (y : Z) : res dt :=
  if (1 <=? y) && (y <=? 9999) && (1 <=? day d) && (day d <=? py_days_in_month y (month d))
  then Ok {| year := y; month := month d; day := day d; tod := tod d |}
  else Err ValueError.

Definition pct : ascii := chr 37.
Definition chY : ascii := chr 89.

(** ancient_time.py:20-28  Specifier('%Y').replace_in(format, by).  The regular
    expression of line 13 is  (%*%Y) ; its leftmost matches are the maximal
    runs of '%' followed by Y.  [n] counts the '%' signs of the current run. *)
Fixpoint replace_run (by_ : str) (n : nat) (s : str) : str :=
  match s with
  | [] => repeat pct n
  | c :: s' =>
      if Ascii.eqb c pct then replace_run by_ (S n) s'
      else if Ascii.eqb c chY && (0 <? n)%nat then
        if Nat.odd n then repeat pct (n - 1) ++ by_ ++ replace_run by_ 0 s'     (* 23-25 *)
        else repeat pct n ++ c :: replace_run by_ 0 s'                          (* 26-27 *)
      else repeat pct n ++ c :: replace_run by_ 0 s'
  end.
Definition replace_in (format : str) (by_ : str) : str := replace_run by_ 0 format.

(** ancient_time.py:16-18  Specifier('%x').ispresent_in(format): only the first
    match is examined. *)
Fixpoint present_run (x : ascii) (n : nat) (s : str) : bool :=
  match s with
  | [] => false
  | c :: s' =>
      if Ascii.eqb c pct then present_run x (S n) s'
      else if Ascii.eqb c x && (0 <? n)%nat then Nat.odd n
      else present_run x 0 s'
  end.
Definition ispresent_in (x : ascii) (format : str) : bool := present_run x 0 format.

(** ancient_time.py:33-52  HistoricTime.strftime.  [sup] is datetime.strftime. *)
Definition historic_strftime (sup : dt -> str -> res str) (self : dt) (format : str) : res str :=
  if 1900 <=? year self then sup self format                                    (* 35-36 *)
  else
    let factor := (1900 - year self - 1) / 400 + 1 in                           (* 38 *)
    let future_year := year self + factor * 400 in                              (* 39 *)
    if negb (1900 <? future_year) then Err AssertionError                       (* 40 *)
    else
      let format := replace_in format (str_of_Z (year self)) in                 (* 42 *)
      bind (replace_year self future_year) (fun f =>
      (* f.strftime is HistoricTime.strftime again; its year is past 1900 *)
      bind (if 1900 <=? year f then sup f format else Err NotModelled) (fun result =>  (* 43 *)
      if ispresent_in (chr 99) format || ispresent_in (chr 120) format
      then Err NameErr                                                          (* 44-47: `force` is undefined *)
      else if negb (future_year mod 100 =? year self mod 100) then Err AssertionError (* 50-51 *)
      else Ok result)).
