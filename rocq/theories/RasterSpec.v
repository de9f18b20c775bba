(** Vocabulary for raster lookups in binary64. *)
From Coq Require Import ZArith Reals String Ascii Bool List.
From Verif Require Import PyBase FloatBase ZoneModel.
Open Scope R_scope.

(** The numbers of the raster are doubles of the size of angles. *)
Definition angle (x : R) : Prop := is_double x /\ -360 <= x <= 360.
Definition angles (c : raster_cfg) : Prop :=
  angle (min_lon c) /\ angle (max_lon c) /\ angle (min_lat c) /\ angle (max_lat c) /\ angle (resx c) /\ angle (resy c) /\ min_lon c <= max_lon c.
(** The nearest value of an interval. *)
Definition nearest_in (lo hi x y : R) : Prop :=
  lo <= y <= hi /\ (x < lo -> y = lo) /\ (hi < x -> y = hi) /\ (lo <= x <= hi -> y = x).
(** Where a coordinate [x], measured from the edge of [n] cells of size [s], may lie if
    cell [k] is read, but for [eps]; the last cell takes all that is beyond. *)
Definition read_by (m : str) (eps : R) (n : Z) (s x : R) (k : Z) : Prop :=
  (m = str_of "floor" -> IZR k * s - eps <= x /\ ((k = n - 1)%Z \/ x < (IZR k + 1) * s + eps)) /\
  (m = str_of "ceil" -> (IZR k - 1) * s - eps < x /\ ((k = n - 1)%Z \/ x <= IZR k * s + eps)) /\
  (m = str_of "round" -> (IZR k - / 2) * s - eps <= x /\ ((k = n - 1)%Z \/ x <= (IZR k + / 2) * s + eps)).
