(** Model of /repo/impactutils/rupture/utils.py and of the distances of
    rupture/quad_rupture.py over exact reals.  Arrays of sites are treated one
    site at a time; a degenerate quadrilateral, whose normal vector has
    not-a-number components, is left out ([NotModelled]). *)
From Coq Require Import ZArith Reals String Ascii Bool List.
From Flocq Require Import Core.
From Verif Require Import PyBase PyStr VecModel GeoModel.
Import ListNotations.
Open Scope R_scope.

(** A point: longitude, latitude, depth. *)
Notation point := (R * R * R)%type.
Record quad := mkquad { q0 : point; q1 : point; q2 : point; q3 : point }.
(** vectorutils/vector.py:33-48  Vector.fromPoint *)
Definition ecef (p : point) : vec := let '(lon, lat, dep) := p in from_point lon lat dep.
(** rupture/constants.py:6, 11 *)
Definition DEPTH_TOL : R := 0.05.
Definition OFFPLANE_TOLERANCE : R := 0.05.

(** numpy.linalg.det of a three by three matrix given by its rows *)
Definition det3 (u v w : vec) : R :=
  vx u * (vy v * vz w - vz v * vy w) - vy u * (vx v * vz w - vz v * vx w) + vz u * (vx v * vy w - vy v * vx w).
(** utils.py:493-531  get_distance_to_plane *)
Definition get_distance_to_plane (p0 p1 p2 other : vec) : R :=
  let D := det3 p0 p1 p2 in
  if negb (reqd D 0) then
    let d := -1 in
    let at_ := det3 (mkvec 1 (vy p0) (vz p0)) (mkvec 1 (vy p1) (vz p1)) (mkvec 1 (vy p2) (vz p2)) in
    let bt := det3 (mkvec (vx p0) 1 (vz p0)) (mkvec (vx p1) 1 (vz p1)) (mkvec (vx p2) 1 (vz p2)) in
    let ct := det3 (mkvec (vx p0) (vy p0) 1) (mkvec (vx p1) (vy p1) 1) (mkvec (vx p2) (vy p2) 1) in
    let a := (- d / D) * at_ in let b := (- d / D) * bt in let c := (- d / D) * ct in
    let numer := Rabs (a * vx other + b * vy other + c * vz other + d) in
    let denom := sqrt (a ^ 2 + b ^ 2 + c ^ 2) in
    numer / denom
  else 0.
(** utils.py:16-62  is_quad: the verdict, and the new position of the third point
    (the other points are unchanged); [None]: the top edge has no length.  A
    zero [d] makes the ratio not-a-number, which does not exceed the tolerance;
    0 / 0 = 0 has the same effect here. *)
Definition is_quad (p0 p1 p2 p3 : vec) : bool * option vec :=
  let v0 := norm (vsub p1 p0) in
  let d := mag (vsub p3 p2) in
  let new_p2 := option_map (fun v0 => vadd p3 (vscale d v0)) v0 in
  let dist := get_distance_to_plane p0 p1 p2 p2 in
  let on_plane := if rltb OFFPLANE_TOLERANCE (dist / d) then false else true in
  (on_plane, new_p2).

(** utils.py:65-85  get_quad_width, from the positions *)
Definition get_quad_width (p0 p1 p3 : vec) : option R :=
  let AB := vsub p0 p1 in let AC := vsub p0 p3 in
  option_map (fun t1 => vdot t1 AC / 1000) (norm (vcross (vcross AB AC) AB)).

(** utils.py:179-203  get_local_unit_slip_vector *)
Definition slip (strike dip rake : R) : vec :=
  let strike := radians strike in let dip := radians dip in let rake := radians rake in
  mkvec (sin rake * cos dip * cos strike + cos rake * sin strike) (sin rake * cos dip * sin strike + cos rake * cos strike) (sin rake * sin dip).
(** utils.py:206-228  get_local_unit_slip_vector_DS *)
Definition slip_DS (strike dip rake : R) : vec :=
  let strike := radians strike in let dip := radians dip in let rake := radians rake in
  mkvec (sin rake * cos dip * cos strike) (sin rake * cos dip * sin strike) (sin rake * sin dip).
(** utils.py:231-253  get_local_unit_slip_vector_SS *)
Definition slip_SS (strike dip rake : R) : vec :=
  let strike := radians strike in let dip := radians dip in let rake := radians rake in
  mkvec (cos rake * sin strike) (cos rake * cos strike) 0.
(** utils.py:256-268  reverse_quad *)
Definition reverse_quad (q : quad) : quad := mkquad (q1 q) (q0 q) (q3 q) (q2 q).

(** utils.py:301-316  get_quad_length *)
Definition get_quad_length (p0 p1 : vec) : R := mag (vsub p1 p0) / 1000.
(** utils.py:336-354  get_quad_normal *)
Definition get_quad_normal (p0 p1 p3 : vec) : option vec := norm (vcross (vsub p3 p0) (vsub p1 p0)).
(** utils.py:357-374  get_quad_strike_vector *)
Definition get_quad_strike_vector (p0 p1 : vec) : option vec := norm (vsub p1 p0).
(** utils.py:377-397  get_quad_down_dip_vector *)
Definition get_quad_down_dip_vector (p0 p1 p3 : vec) : option vec :=
  match get_quad_normal p0 p1 p3 with None => None | Some qnv => norm (vcross (vsub p1 p0) qnv) end.
(** utils.py:400-419  get_vertical_vector of the first point *)
Definition get_vertical_vector (P0 : point) : option vec :=
  let '(lon, lat, dep) := P0 in norm (vsub (ecef (lon, lat, dep - 1)) (ecef P0)).
(** utils.py:319-333  get_quad_dip *)
Definition get_quad_dip (q : quad) : option R :=
  match get_quad_normal (ecef (q0 q)) (ecef (q1 q)) (ecef (q3 q)), get_vertical_vector (q0 q) with
  | Some n, Some v => Some (degrees (acos (vdot n v)))
  | _, _ => None
  end.

(** utils.py:534-587  _distance_sq_to_segment: later assignments replace earlier ones *)
Definition distance_sq_to_segment (p0 p1 : vec) : R :=
  let dist := 0 in
  let idx_equal := reqd (vx p0) (vx p1) && reqd (vy p0) (vy p1) && reqd (vz p0) (vz p1) in
  let dist := if idx_equal then sqrt (vx p0 ^ 2 + vy p0 ^ 2 + vz p0 ^ 2) else dist in
  let v := vsub p1 p0 in
  let c1 := -1 * vdot p0 v in
  let idx_neg := rleb c1 0 in
  let dist := if idx_neg then vx p0 ^ 2 + vy p0 ^ 2 + vz p0 ^ 2 else dist in
  let c2 := vdot v v in
  let idx_less_c1 := rleb c2 c1 in
  let dist := if idx_less_c1 then vx p1 ^ 2 + vy p1 ^ 2 + vz p1 ^ 2 else dist in
  let idx_other := negb (idx_neg || idx_equal || idx_less_c1) in
  let t1 := c1 / c2 in
  let tmp := vadd p0 (vscale t1 v) in
  if idx_other then vx tmp ^ 2 + vy tmp ^ 2 + vz tmp ^ 2 else dist.

(** numpy.signbit *)
Definition signbit (x : R) : bool := rltb x 0.
(** utils.py:439-490  _quad_distance, from the positions of the corners and of the site *)
Definition quad_distance_from (p0 p1 p2 p3 site : vec) (horizontal : bool) : res R :=
  match norm (vcross (vsub p1 p0) (vsub p2 p0)) with
  | None => Err NotModelled
  | Some normalVector =>
    let p0d := vsub p0 site in let p1d := vsub p1 site in let p2d := vsub p2 site in let p3d := vsub p3 site in
    let n0 := vcross (vsub p1 p0) normalVector in let n1 := vcross (vsub p2 p1) normalVector in
    let n2 := vcross (vsub p3 p2) normalVector in let n3 := vcross (vsub p0 p3) normalVector in
    let sgn0 := signbit (vdot n0 p0d) in let sgn1 := signbit (vdot n1 p1d) in
    let sgn2 := signbit (vdot n2 p2d) in let sgn3 := signbit (vdot n3 p3d) in
    let inside := eqb sgn0 sgn1 && eqb sgn1 sgn2 && eqb sgn2 sgn3 in
    let s0 := distance_sq_to_segment p0d p1d in let s1 := distance_sq_to_segment p1d p2d in
    let s2 := distance_sq_to_segment p2d p3d in let s3 := distance_sq_to_segment p3d p0d in
    let smin := Rmin (Rmin s0 s1) (Rmin s2 s3) in
    let dist := if inside then (if horizontal then 0 else Rabs (vdot p0d normalVector) ^ 2) else smin in
    Ok (sqrt dist / 1000)
  end.
(** utils.py:417-490  _quad_distance: with [horizontal] the corners are moved to the surface *)
Definition at_surface (p : point) : point := let '(lon, lat, _) := p in (lon, lat, 0).
Definition quad_distance (q : quad) (site : vec) (horizontal : bool) : res R :=
  let f := if horizontal then at_surface else fun p => p in
  quad_distance_from (ecef (f (q0 q))) (ecef (f (q1 q))) (ecef (f (q2 q))) (ecef (f (q3 q))) site horizontal.
(** quad_rupture.py:1026-1074, 1076-1114  computeRjb, computeRrup at one site *)
Fixpoint min_distance (f : quad -> res R) (quads : list quad) (least : R) : res R :=
  match quads with
  | [] => Ok least
  | q :: rest => bind (f q) (fun d => min_distance f rest (Rmin least d))
  end.
Definition BIG : R := 10 ^ 16.
Definition compute_rrup (quads : list quad) (site : point) : res R := min_distance (fun q => quad_distance q (ecef site) false) quads BIG.
Definition flatten (q : quad) : quad := mkquad (at_surface (q0 q)) (at_surface (q1 q)) (at_surface (q2 q)) (at_surface (q3 q)).
Definition compute_rjb (quads : list quad) (site : point) : res R := min_distance (fun q => quad_distance (flatten q) (ecef site) true) quads BIG.

(** utils.py:590-610  rake_to_mech; [None]: no rake *)
Inductive mech := SS | NM | RS | ALL.
Definition between (lo hi x : R) : bool := rleb lo x && rleb x hi.
Definition rake_to_mech (rake : option R) : mech :=
  match rake with
  | None => ALL
  | Some rake =>
    let mech := ALL in
    let mech := if between (-180) (-150) rake || between (-30) 30 rake || between 150 180 rake then SS else mech in
    let mech := if between (-120) (-60) rake then NM else mech in
    if between 60 120 rake then RS else mech
  end.
(** rupture/constants.py:13  RAKEDICT *)
Definition rakedict (m : mech) : option R := match m with SS => Some 0 | NM => Some (-90) | RS => Some 90 | ALL => None end.

(** ** Meshes *)
(** numpy.linspace(0, 1, n) *)
Definition linspace (n : nat) : list R := map (fun i => INR i / INR (n - 1)) (seq 0 n).
(** round(x, 0) + 1, at least 2, as an integer *)
Definition mesh_count (x : R) : nat := Z.to_nat (Z.max (ZnearestE x + 1) 2).
Definition along (a b : vec) (t : R) : vec := vadd a (vscale t (vsub b a)).
Definition rmean (l : list R) : R := fold_right Rplus 0 l / INR (length l).
(** utils.py:88-176  get_quad_mesh: the rows of points, from top to bottom; [None]: a
    division by a zero spacing *)
Definition quad_mesh (p0 p1 p2 p3 : vec) (dx : R) : option (list (list vec)) :=
  if reqd dx 0 then None else
  let nx := mesh_count (get_quad_length p0 p1 / dx) in
  let topp := map (along p0 p1) (linspace nx) in
  let botp := map (along p3 p2) (linspace nx) in
  let ylen_km := map (fun tb => mag (vsub (fst tb) (snd tb)) / 1000) (combine topp botp) in
  let ny := mesh_count (rmean ylen_km / dx) in
  Some (map (fun a => map (fun tb => along (fst tb) (snd tb) a) (combine topp botp)) (linspace ny)).
(** mesh[1:, 0:-1] and the like: pairs of neighbours in a row, rows of cells as
    (upper left, upper right, lower right, lower left) *)
Fixpoint pairs {A} (l : list A) : list (A * A) := match l with a :: ((b :: _) as r) => (a, b) :: pairs r | _ => [] end.
Definition cells (m : list (list vec)) : list (list (vec * vec * vec * vec)) :=
  map (fun ul => map (fun t => let '((a, b), (d, c)) := t in (a, b, c, d)) (combine (pairs (fst ul)) (pairs (snd ul)))) (pairs m).
(** 156-172: the centre of a cell *)
Definition centre (c : vec * vec * vec * vec) : vec :=
  let '(pp0, pp1, pp2, pp3) := c in
  let mp0 := vadd pp0 (vscale 0.5 (vsub pp1 pp0)) in
  let mp1 := vadd pp3 (vscale 0.5 (vsub pp2 pp3)) in
  vadd mp0 (vscale 0.5 (vsub mp1 mp0)).
