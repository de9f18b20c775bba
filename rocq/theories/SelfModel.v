(** Model of line_intersects_itself of /repo/impactutils/extern/openquake/utils.py, over exact
    reals; point_at and shapely's LineString.is_simple are parameters. *)
From Coq Require Import ZArith Reals String Ascii Bool List.
From Verif Require Import PyBase PyStr VecModel GeoModel MiddleModel.
Import ListNotations.
Open Scope R_scope.

Section Shapely.
Variable point_at : R -> R -> R -> R -> R * R.
Variable is_simple : list (R * R) -> bool.
(** numpy.roll(l, 1) *)
Definition roll1 (l : list (R * R)) : list (R * R) := match l with [] => [] | a :: _ => last l a :: removelast l end.
(** utils.py:100-136  line_intersects_itself *)
Definition line_intersects_itself (lons lats : list R) (closed_shape : bool) : res bool :=
  if negb (Nat.eqb (length lons) (length lats)) then Err AssertionError
  else if Nat.leb (length lons) 3 then Ok false
  else
    bind (spherical_bounding_box lons lats) (fun '(west, east, north, south) =>
    let c := ortho_centre point_at west east north south in
    bind (project_all _ fst snd c (combine lons lats)) (fun xy =>
    if negb (is_simple xy) then Ok true
    else if closed_shape then
      bind (project_all _ fst snd c (roll1 (combine lons lats))) (fun xy =>
      if negb (is_simple xy) then Ok true else Ok false)
    else Ok false)).
End Shapely.
