(** Model of the constructor of MercatorMap and of repeated calls of drawCities,
    /repo/impactutils/mapping/mercatormap.py, over exact reals for the middle of the map. *)
From Coq Require Import ZArith Reals String Ascii Bool List.
From Verif Require Import PyBase PyStr CityModel CollideModel.
Import ListNotations.
Open Scope R_scope.

(** mercatormap.py:68-71: the central longitude of the projection *)
Definition central_longitude (xmin xmax : R) : R :=
  if Rlt_dec xmax 0 then (if Rlt_dec xmax xmin then (xmin + (xmax + 360)) / 2 else (xmin + xmax) / 2) else (xmin + xmax) / 2.
(** mercatormap.py:66-67: the cities of the map; bounds are (xmin, xmax, ymin, ymax) *)
Definition map_cities (xmin xmax ymin ymax : R) (cities : frame) : res frame :=
  limit_by_bounds (Some xmin) (Some xmax) (Some ymin) (Some ymax) cities.

(** mercatormap.py:185-227: drawCities leaves the cities that were drawn in the object
    (lines 213, 289), and the next call starts from them.  [n] calls. *)
Section Draws.
Variable rd : R -> R.
Variable sort_pop : list city -> list city.
Variable extents : city -> box.
Variable padding : fl.
Variables axmin axmax aymin aymax : fl.
Fixpoint draws (n : nat) (f : frame) : res frame :=
  match n with
  | O => Ok f
  | S n' => match draw_cities rd sort_pop extents padding axmin axmax aymin aymax f with Err e => Err e | Ok g => draws n' g end
  end.
End Draws.
