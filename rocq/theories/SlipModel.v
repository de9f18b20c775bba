(** Model of get_quad_slip of /repo/impactutils/rupture/utils.py, over exact reals; not-a-number is None.
    openquake's get_middle_point is a parameter. *)
From Coq Require Import ZArith Reals String Ascii Bool List.
From Verif Require Import PyBase VecModel GeoModel RuptModel SizeModel.
Import ListNotations.
Open Scope R_scope.

Section Slip.
(** openquake geo/utils.py get_middle_point(lon1, lat1, lon2, lat2) *)
Variable middle : R -> R -> R -> R -> R * R.
(** utils.py:290-291  OrthographicProjection(min lon, max lon, min lat, max lat): the third argument is called
    north and the fourth south; the middle is that of (west, north) and (east, south) *)
Definition slip_centre (q : quad) : R * R :=
  let '(x0, y0, _) := q0 q in let '(x1, y1, _) := q1 q in let '(x2, y2, _) := q2 q in let '(x3, y3, _) := q3 q in
  middle (rmin4 x0 x1 x2 x3) (rmin4 y0 y1 y2 y3) (rmax4 x0 x1 x2 x3) (rmax4 y0 y1 y2 y3).
(** utils.py:271-298  get_quad_slip *)
Definition get_quad_slip (q : quad) (rake : R) : option vec :=
  let '(x0, y0, _) := q0 q in let '(x1, y1, _) := q1 q in
  let strike := azimuth x0 y0 x1 y1 in
  match get_quad_dip q with
  | None => None
  | Some dip =>
      let s1_local := slip strike dip rake in
      let '(lon0, lat0) := slip_centre q in
      let '(s1_lon, s1_lat) := ortho_reverse lon0 lat0 (vx s1_local) (vy s1_local) in
      let '(s0_lon, s0_lat) := ortho_reverse lon0 lat0 0 0 in
      norm (vsub (latlon2ecef s1_lat s1_lon (vz s1_local)) (latlon2ecef s0_lat s0_lon 0))
  end.
End Slip.
