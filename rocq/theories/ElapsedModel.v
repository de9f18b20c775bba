(** Model of ElapsedTime, /repo/impactutils/time/timeutils.py:84-195.

    A datetime is an integer number of microseconds since a fixed origin; only
    differences matter.  Floats are binary64 through [rnd]. *)
From Coq Require Import ZArith Reals String Ascii Bool List.
From Flocq Require Import Core.
From Verif Require Import PyBase FloatBase.
Import ListNotations.
Open Scope Z_scope.

(** datetime.timedelta normal form of a difference in microseconds. *)
Definition td_days (us : Z) : Z := us / 86400000000.
Definition td_seconds (us : Z) : Z := (us mod 86400000000) / 1000000.

Record elapsed := { weeks : Z; days : Z; hours : Z; minutes : Z; seconds : Z }.

(** [round(((n / b) - q) * b)] with [n], [q] integers and [b] the float
    60.0, 24.0 or 7.0 (timeutils.py:117, 120, 123, 126). *)
Definition float_rem (n b q : Z) : Z :=
  ZnearestE (rnd (rnd (rnd (rnd (IZR n) / IZR b) - rnd (IZR q)) * IZR b)).

(** timeutils.py:88-133  getTimeElapsed *)
Definition get_time_elapsed (time1 time2 : Z) : res elapsed :=
  if time2 <? time1 then Err Generic                                   (* 106-107 *)
  else
    let td := time2 - time1 in                                         (* 108 *)
    let nseconds := td_seconds td + td_days td * 86400 in              (* 114 *)
    if 60 <=? nseconds then                                            (* 115 *)
      let nminutes := nseconds / 60 in
      let nseconds := float_rem nseconds 60 nminutes in
      if 60 <=? nminutes then                                          (* 118 *)
        let nhours := nminutes / 60 in
        let nminutes := float_rem nminutes 60 nhours in
        if 24 <=? nhours then                                          (* 121 *)
          let ndays := nhours / 24 in
          let nhours := float_rem nhours 24 ndays in
          if 7 <=? ndays then                                          (* 124 *)
            let nweeks := ndays / 7 in
            let ndays := float_rem ndays 7 nweeks in
            Ok {| weeks := nweeks; days := ndays; hours := nhours; minutes := nminutes; seconds := nseconds |}
          else Ok {| weeks := 0; days := ndays; hours := nhours; minutes := nminutes; seconds := nseconds |}
        else Ok {| weeks := 0; days := 0; hours := nhours; minutes := nminutes; seconds := nseconds |}
      else Ok {| weeks := 0; days := 0; hours := 0; minutes := nminutes; seconds := nseconds |}
    else Ok {| weeks := 0; days := 0; hours := 0; minutes := 0; seconds := nseconds |}.

(** timeutils.py:186  periods *)
Definition periods : list str :=
  map str_of ["second"; "minute"; "hour"; "day"; "week"; "month"; "year"]%string.

Fixpoint index_of (u : str) (l : list str) : option nat :=
  match l with
  | [] => None
  | x :: l' => if str_eqb x u then Some O else option_map S (index_of u l')
  end.

Definition s_ : str := str_of "s".
Definition sp : str := str_of " ".

(** timeutils.py:173-195  getTimeStr.  [periods[i - 1]] with [i = 0] is Python's
    last element. *)
Definition get_time_str (bigtime smalltime : Z) (unit : str) : res str :=
  match index_of unit periods with
  | None => Err Generic                                                (* 187-188 *)
  | Some i =>
      let bigunit := nth i periods [] in                               (* 190 *)
      let smallunit := nth (match i with O => Nat.pred (List.length periods) | S j => j end) periods [] in (* 191 *)
      let bigunit := if bigtime =? 1 then bigunit else bigunit ++ s_ in
      let smallunit := if smalltime =? 1 then smallunit else smallunit ++ s_ in
      Ok (str_of_Z bigtime ++ sp ++ bigunit ++ str_of ", " ++ str_of_Z smalltime ++ sp ++ smallunit)
  end.

(** timeutils.py:135-171  getElapsedString with both times given. *)
Definition get_elapsed_string (thentime nowtime : Z) : res str :=
  bind (get_time_elapsed thentime nowtime) (fun e =>
    if negb (weeks e =? 0) then get_time_str (weeks e) (days e) (str_of "week")
    else if negb (days e =? 0) then get_time_str (days e) (hours e) (str_of "day")
    else if negb (hours e =? 0) then get_time_str (hours e) (minutes e) (str_of "hour")
    else if negb (minutes e =? 0) then get_time_str (minutes e) (seconds e) (str_of "minute")
    else if negb (seconds e =? 1) then Ok (str_of_Z (seconds e) ++ str_of " seconds")
    else Ok (str_of "1 second")).
