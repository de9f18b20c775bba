(** The texts of a Point of extern/openquake/point.py, and its comparison by !=.  Coordinates are
    exact finite reals without a negative zero, as in WriteModel. *)
From Coq Require Import ZArith Reals String Ascii Bool List.
From Flocq Require Import Core.
From Verif Require Import PyBase VecModel GeoModel RuptModel PolyModel WriteModel.
Import ListNotations.
Open Scope R_scope.

(** f"{x:.6f}": the nearest multiple of a millionth, a tie to the even one *)
Definition fixed6 (x : R) : str :=
  let n := ZnearestE (Rabs x * 1000000) in
  let w := (n / 1000000)%Z in let r := (n mod 1000000)%Z in
  (if Rlt_dec x 0 then str_of "-" else []) ++ str_of_Z w ++ str_of "." ++
  [digit_char (r / 100000); digit_char (r / 10000 mod 10); digit_char (r / 1000 mod 10); digit_char (r / 100 mod 10); digit_char (r / 10 mod 10); digit_char (r mod 10)].
(** point.py:188-195  __str__ *)
Definition point_str (p : point) : str :=
  let '(lon, lat, dep) := p in
  str_of "<Latitude=" ++ fixed6 lat ++ str_of ", Longitude=" ++ fixed6 lon ++ str_of ", Depth=" ++ fixed4 dep ++ str_of ">".
(** point.py:197-202  __repr__ *)
Definition point_repr (p : point) : str := point_str p.
(** point.py:86-92  wkt2d; [repr] is the text of a float in an f-string *)
Definition wkt2d (repr : R -> str) (p : point) : str :=
  let '(lon, lat, dep) := p in str_of "POINT(" ++ repr lon ++ str_of " " ++ repr lat ++ str_of ")".
(** point.py:221-222  __ne__ *)
Definition point_ne (a : point) (b : option point) : bool := negb (point_eq a b).
