(** Models of /repo/impactutils/extern/openquake/geodetic.py, of the coordinate
    functions of extern/openquake/utils.py and of vectorutils/ecef.py, for single
    points and in exact real arithmetic. *)
From Coq Require Import ZArith Reals String Ascii Bool List.
From Flocq Require Import Core.
From Verif Require Import PyBase PyStr VecModel.
Import ListNotations.
Open Scope R_scope.

Definition radians (d : R) : R := d * (PI / 180).
Definition degrees (r : R) : R := r * (180 / PI).
Definition rltb (x y : R) : bool := if Rlt_dec x y then true else false.
Definition rleb (x y : R) : bool := if Rle_dec x y then true else false.

(** numpy.arctan2, without signed zeros *)
Definition arctan2 (y x : R) : R :=
  if rltb 0 x then atan (y / x)
  else if rltb x 0 then if rleb 0 y then atan (y / x) + PI else atan (y / x) - PI
  else if rltb 0 y then PI / 2 else if rltb y 0 then - (PI / 2) else 0.
(** numpy.mod, for a positive modulus *)
Definition pymod (x m : R) : R := x - m * IZR (Zfloor (x / m)).

(** geodetic.py:31-32 *)
Definition EARTH_RADIUS : R := 6371.
(** geodetic.py:38-58  geodetic_distance *)
Definition geodetic_distance (lon1 lat1 lon2 lat2 : R) : R :=
  let lons1 := radians lon1 in let lats1 := radians lat1 in let lons2 := radians lon2 in let lats2 := radians lat2 in
  2 * EARTH_RADIUS * asin (sqrt (sin ((lats1 - lats2) / 2) ^ 2 + cos lats1 * cos lats2 * sin ((lons1 - lons2) / 2) ^ 2)).
(** geodetic.py:61-81  azimuth *)
Definition azimuth (lon1 lat1 lon2 lat2 : R) : R :=
  let lons1 := radians lon1 in let lats1 := radians lat1 in let lons2 := radians lon2 in let lats2 := radians lat2 in
  let cos_lat2 := cos lats2 in
  let true_course := degrees (arctan2 (sin (lons1 - lons2) * cos_lat2) (cos lats1 * sin lats2 - sin lats1 * cos_lat2 * cos (lons1 - lons2))) in
  pymod (360 - true_course) 360.
(** geodetic.py:84-100  distance *)
Definition geo_distance (lon1 lat1 dep1 lon2 lat2 dep2 : R) : R :=
  let hdist := geodetic_distance lon1 lat1 lon2 lat2 in let vdist := dep1 - dep2 in sqrt (hdist ^ 2 + vdist ^ 2).

(** utils.py:309-341  spherical_to_cartesian *)
Definition spherical_to_cartesian (lon lat : R) (depth : option R) : vec :=
  let phi := radians lon in let theta := radians lat in
  let rr := match depth with None => EARTH_RADIUS | Some d => EARTH_RADIUS - d end in
  let cos_theta_r := rr * cos theta in mkvec (cos_theta_r * cos phi) (cos_theta_r * sin phi) (rr * sin theta).
Definition clip (lo hi x : R) : R := Rmin (Rmax x lo) hi.
(** utils.py:344-365  cartesian_to_spherical; [None] for the latitude: not a number *)
Definition cartesian_to_spherical (v : vec) : R * option R * R :=
  let rr := sqrt (vx v * vx v + vy v * vy v + vz v * vz v) in
  (degrees (arctan2 (vy v) (vx v)), if reqd rr 0 then None else Some (degrees (asin (clip (-1) 1 (vz v / rr)))), EARTH_RADIUS - rr).
(** utils.py:368-388  triangle_area *)
Definition triangle_area (e1 e2 e3 : vec) : R :=
  let l1 := sqrt (vdot e1 e1) in let l2 := sqrt (vdot e2 e2) in let l3 := sqrt (vdot e3 e3) in
  let s := (l1 + l2 + l3) / 2 in sqrt (s * (s - l1) * (s - l2) * (s - l3)).

(** utils.py:200-246  OrthographicProjection with centre [lon0], [lat0] (degrees) *)
Definition ortho_forward (lon0 lat0 lon lat : R) : res (R * R) :=
  let lambda0 := radians lon0 in let phi0 := radians lat0 in
  let lambdas := radians lon - lambda0 in let phis := radians lat in
  let sin_dist := sqrt (sin ((phi0 - phis) / 2) ^ 2 + cos phi0 * cos phis * sin (lambdas / 2) ^ 2) in
  if rltb (sqrt 2 / 2) sin_dist then Err ValueError                                     (* 222-224 *)
  else Ok (cos phis * sin lambdas * EARTH_RADIUS, (cos phi0 * sin phis - sin phi0 * cos phis * cos lambdas) * EARTH_RADIUS).
Definition ortho_reverse (lon0 lat0 x y : R) : R * R :=
  let lambda0 := radians lon0 in let phi0 := radians lat0 in
  let xx := x / EARTH_RADIUS in let yy := y / EARTH_RADIUS in
  let cos_c := sqrt (1 - (xx ^ 2 + yy ^ 2)) in
  let phis := asin (cos_c * sin phi0 + yy * cos phi0) in
  let lambdas := arctan2 xx (cos phi0 * cos_c - yy * sin phi0) in
  let lon := degrees (lambda0 + lambdas) in
  let lon := if rleb 180 lon then lon - 360 else lon in                                 (* 242-243 *)
  let lon := if rleb lon (-180) then lon + 360 else lon in                              (* 244-245 *)
  (lon, degrees phis).

(** utils.py:139-150  get_longitudinal_extent *)
Definition longitudinal_extent (lon1 lon2 : R) : R := pymod (lon2 - lon1 + 180) 360 - 180.
Fixpoint rmin_list (l : list R) : option R := match l with [] => None | x :: l' => match rmin_list l' with None => Some x | Some m => Some (Rmin x m) end end.
Fixpoint rmax_list (l : list R) : option R := match l with [] => None | x :: l' => match rmax_list l' with None => Some x | Some m => Some (Rmax x m) end end.
(** utils.py:153-184  get_spherical_bounding_box: west, east, north, south *)
Definition spherical_bounding_box (lons lats : list R) : res (R * R * R * R) :=
  match rmax_list lats, rmin_list lats, rmin_list lons, rmax_list lons with
  | Some north, Some south, Some west, Some east =>
      if rleb (-180) west && rleb west 180 && (rleb (-180) east && rleb east 180) then
        if rltb (longitudinal_extent west east) 0 then
          match rmin_list (filter (rltb 0) lons), rmax_list (filter (fun l => rltb l 0) lons) with
          | Some west, Some east =>
              if forallb (fun lon => rleb 0 (longitudinal_extent west lon) && rleb 0 (longitudinal_extent lon east)) lons
              then Ok (west, east, north, south) else Err ValueError                    (* 179-183 *)
          | _, _ => Err ValueError                                                      (* min of nothing *)
          end
        else Ok (west, east, north, south)
      else Err AssertionError
  | _, _, _, _ => Err ValueError
  end.
(** utils.py:436-460  cross_idl *)
Definition cross_idl (lon1 lon2 : R) : bool := rltb (lon1 * lon2) 0 && rltb 180 (Rabs (lon1 - lon2)).
(** utils.py:483-494  fix_lons_idl *)
Definition fix_lons_idl (lons : list R) : res (list R * bool) :=
  match rmin_list lons, rmax_list lons with
  | Some lo, Some hi => if cross_idl lo hi then Ok (map (fun l => if rltb l 0 then l + 360 else l) lons, true) else Ok (lons, false)
  | _, _ => Err ValueError
  end.
(** utils.py:497-515  fix_bounding_box_idl; [None] when no branch returns *)
Definition fix_bounding_box_idl (bb : R * R * R * R) (fix_idl : bool) : option (R * R * R * R) :=
  let '(min_lon, min_lat, max_lon, max_lat) := bb in
  if cross_idl min_lon max_lon || fix_idl then
    if rltb min_lon 0 && rltb 0 max_lon then Some (max_lon, min_lat, min_lon + 360, max_lat)
    else if rltb min_lon 0 && rltb max_lon 0 then Some (min_lon + 360, min_lat, max_lon + 360, max_lat)
    else if rltb 0 min_lon && rltb 0 max_lon then Some (min_lon, min_lat, max_lon, max_lat)
    else if rltb 0 min_lon && rltb max_lon 0 then Some (max_lon + 360, min_lat, min_lon, max_lat)
    else None
  else Some (min_lon, min_lat, max_lon, max_lat).

(** ecef.py:8-9 *)
Definition WGS84_A : R := 6378137.
Definition WGS84_E : R := 0.081819190842622.
(** ecef.py:76-103  latlon2ecef *)
Definition latlon2ecef (lat lon dep : R) : vec :=
  let alt := - dep * 1000 in
  let clat := cos (radians lat) in let slat := sin (radians lat) in let clon := cos (radians lon) in let slon := sin (radians lon) in
  let N := WGS84_A / sqrt (1 - WGS84_E * WGS84_E * slat * slat) in
  mkvec ((N + alt) * clat * clon) ((N + alt) * clat * slon) ((N * (1 - WGS84_E * WGS84_E) + alt) * slat).
(** ecef.py:17-73  ecef2latlon: latitude, longitude, depth *)
Definition ecef2latlon (x y z : R) : R * R * R :=
  let a := WGS84_A in let e := WGS84_E in
  let b := sqrt (a ^ 2 * (1 - e ^ 2)) in
  let ep := sqrt ((a ^ 2 - b ^ 2) / b ^ 2) in
  let p := sqrt (x ^ 2 + y ^ 2) in
  let th := arctan2 (a * z) (b * p) in
  let lon := arctan2 y x in
  let lat := arctan2 (z + ep ^ 2 * b * sin th ^ 3) (p - e ^ 2 * a * cos th ^ 3) in
  let N := a / sqrt (1 - e ^ 2 * sin lat ^ 2) in
  let alt := if rltb (Rabs x) 1 && rltb (Rabs y) 1 then Rabs z - b else p / cos lat - N in     (* 60-61 *)
  let lon := degrees (pymod lon (2 * PI)) in
  let lon := if rltb 180 lon then lon - 360 else lon in
  (degrees lat, lon, - alt / 1000).
(** vector.py:33-48  fromPoint, for longitude, latitude, depth *)
Definition from_point (lon lat dep : R) : vec := latlon2ecef lat lon dep.
(** vector.py:249-258  toPoint: longitude, latitude, depth *)
Definition to_point (v : vec) : R * R * R := let '(lat, lon, dep) := ecef2latlon (vx v) (vy v) (vz v) in (lon, lat, dep).

(** point.py:52-69  Point.__init__: longitude, latitude, depth *)
Definition new_point (lon lat dep : R) : res (R * R * R) :=
  if negb (rltb dep EARTH_RADIUS) then Err ValueError
  else if negb (rltb (-8.848) dep) then Err ValueError
  else if negb (rleb (-180) lon && rleb lon 180) then Err ValueError
  else if negb (rleb (-90) lat && rleb lat 90) then Err ValueError
  else Ok (lon, lat, dep).
(** point.py:204-219  Point.__eq__ *)
Definition point_eq (a : R * R * R) (b : option (R * R * R)) : bool :=
  match b with
  | None => false
  | Some (lon2, lat2, dep2) => let '(lon1, lat1, dep1) := a in rleb (Rabs (geo_distance lon1 lat1 dep1 lon2 lat2 dep2)) 0.001
  end.
(** utils.py:85-97  clean_points *)
Definition clean_points (points : list (R * R * R)) : list (R * R * R) :=
  match points with
  | [] => []
  | p0 :: _ => rev (fold_left (fun acc p => match acc with last :: _ => if point_eq p (Some last) then acc else p :: acc | [] => acc end) points [p0])
  end.
