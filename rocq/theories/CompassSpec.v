(** The compass rose: sixteen points, clockwise from north. *)
From Coq Require Import ZArith Reals String Ascii Bool List.
From Verif Require Import PyBase PyStr.
Import ListNotations.
Open Scope R_scope.

Definition rose : list (string * string) :=
  [("N", "North"); ("NNE", "North-northeast"); ("NE", "Northeast"); ("ENE", "East-northeast");
   ("E", "East"); ("ESE", "East-southeast"); ("SE", "Southeast"); ("SSE", "South-southeast");
   ("S", "South"); ("SSW", "South-southwest"); ("SW", "Southwest"); ("WSW", "West-southwest");
   ("W", "West"); ("WNW", "West-northwest"); ("NW", "Northwest"); ("NNW", "North-northwest")]%string.
(** How many points of the sixteen a resolution skips to the next. *)
Inductive every : str -> nat -> Prop :=
| every4 : every (str_of "cardinal") 4 | every2 : every (str_of "intercardinal") 2 | every1 : every (str_of "meteorological") 1.
Inductive name_of (i : nat) : str -> str -> Prop :=
| short_name : forall s l, nth_error rose i = Some (s, l) -> name_of i (str_of "short") (str_of s)
| long_name : forall s l, nth_error rose i = Some (s, l) -> name_of i (str_of "long") (str_of l).
(** The bearing of the [i]th point, and the angle between two bearings. *)
Definition bearing (i : nat) : R := INR i * 22.5.
Definition angle (a b : R) : R := Rmin (Rabs (a - b)) (360 - Rabs (a - b)).
