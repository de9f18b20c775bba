(** Model of the sizes and orientations of ruptures: getLength, getWidth, getArea, getStrike,
    getDip, getDepthToTop and getDepthAtPoint of /repo/impactutils/rupture/quad_rupture.py and the
    same of edge_rupture.py with computeRrup and computeRjb, over exact reals.  Sites are treated
    one at a time; [None] is not-a-number (or an infinity, for a width). *)
From Coq Require Import ZArith Reals String Ascii Bool List.
From Verif Require Import PyBase PyStr VecModel GeoModel RuptModel PolyModel.
Import ListNotations.
Open Scope R_scope.

Definition oadd (a b : option R) : option R := match a, b with Some x, Some y => Some (x + y) | _, _ => None end.
Definition osum (l : list (option R)) : option R := fold_left oadd l (Some 0).
(** sum divided by len, by Python's floats *)
Definition omean (l : list (option R)) : res (option R) :=
  match l with [] => Err ZeroDivisionError | _ => Ok (option_map (fun s => s / INR (length l)) (osum l)) end.

(** ** QuadRupture *)
Definition q_length (q : quad) : R := get_quad_length (ecef (q0 q)) (ecef (q1 q)).
Definition q_width (q : quad) : option R := get_quad_width (ecef (q0 q)) (ecef (q1 q)) (ecef (q3 q)).
(** quad_rupture.py:156-167  getLength *)
Definition get_length (quads : list quad) : R := fold_left (fun s q => s + q_length q) quads 0.
(** quad_rupture.py:169-181  getWidth *)
Definition get_width (quads : list quad) : res (option R) := omean (map q_width quads).
(** quad_rupture.py:183-196  getArea *)
Definition get_area (quads : list quad) : option R := osum (map (fun q => option_map (fun w => w * q_length q) (q_width q)) quads).
(** quad_rupture.py:685-709  getStrike *)
Definition p_azimuth (P0 P1 : point) : R := let '(lon1, lat1, _) := P0 in let '(lon2, lat2, _) := P1 in azimuth lon1 lat1 lon2 lat2.
Definition rsum (l : list R) : R := fold_right Rplus 0 l.
Definition get_strike (quads : list quad) : option R :=
  let strikes := map (fun q => p_azimuth (q0 q) (q1 q)) quads in
  let lengths := map q_length quads in
  let x := map (fun s => sin (radians s)) strikes in
  let y := map (fun s => cos (radians s)) strikes in
  let total := rsum lengths in
  if reqd total 0 then None else
  let xbar := rsum (map (fun p => fst p * snd p) (combine x lengths)) / total in
  let ybar := rsum (map (fun p => fst p * snd p) (combine y lengths)) / total in
  Some (degrees (arctan2 xbar ybar)).
(** quad_rupture.py:711-724  getDepthToTop *)
Definition depth_of (p : point) : R := snd p.
Definition get_depth_to_top (quads : list quad) : R :=
  fold_left (fun mindep q =>
    let m := Rmin (Rmin (depth_of (q0 q)) (depth_of (q1 q))) (Rmin (depth_of (q2 q)) (depth_of (q3 q))) in
    if rltb m mindep then m else mindep) quads 9999999.
(** quad_rupture.py:726-740  getDip *)
Definition get_dip (quads : list quad) : res (option R) := omean (map get_quad_dip quads).
(** quad_rupture.py:742-772  getIndividualWidths, getIndividualTopLengths *)
Definition get_individual_widths (quads : list quad) : list (option R) := map q_width quads.
Definition get_individual_top_lengths (quads : list quad) : list R := map q_length quads.

(** quad_rupture.py:103-113: the first quadrilateral at the least horizontal distance *)
Fixpoint nearest_quad (quads : list quad) (site : vec) (best : option quad) (dmin : R) : res (option quad) :=
  match quads with
  | [] => Ok best
  | q :: rest =>
      bind (quad_distance q site true) (fun rjb =>
      if rltb rjb dmin then nearest_quad rest site (Some q) rjb else nearest_quad rest site best dmin)
  end.
(** quad_rupture.py:81-154  getDepthAtPoint.  The middle of the projection is a parameter; [imin] = -1
    is the last quadrilateral. *)
Section At.
Variable middle : R -> R -> R -> R -> R * R.
Definition rmin4 (a b c d : R) : R := Rmin (Rmin a b) (Rmin c d).
Definition rmax4 (a b c d : R) : R := Rmax (Rmax a b) (Rmax c d).
Definition depth_in_quad (q : quad) (lat lon : R) : res (option R) :=
  let '(x0, y0, z0) := q0 q in let '(x1, y1, z1) := q1 q in let '(x2, y2, z2) := q2 q in let '(x3, y3, z3) := q3 q in
  let '(lon0, lat0) := middle (rmin4 x0 x1 x2 x3) (rmax4 y0 y1 y2 y3) (rmax4 x0 x1 x2 x3) (rmin4 y0 y1 y2 y3) in
  bind (ortho_forward lon0 lat0 x0 y0) (fun s0 => bind (ortho_forward lon0 lat0 x1 y1) (fun s1 =>
  bind (ortho_forward lon0 lat0 x2 y2) (fun _ => bind (ortho_forward lon0 lat0 x3 y3) (fun s3 =>
  bind (ortho_forward lon0 lat0 lon lat) (fun sx =>
  let s0 := mkvec (fst s0) (snd s0) 0 in let s1 := mkvec (fst s1) (snd s1) 0 in
  let s3 := mkvec (fst s3) (snd s3) 0 in let sx := mkvec (fst sx) (snd sx) 0 in
  let s0s1 := vsub s1 s0 in let s0s3 := vsub s3 s0 in let s0sx := vsub sx s0 in
  let s0normal := vcross s0s3 s0s1 in let dd := vcross s0s1 s0normal in
  match norm dd, q_width q, get_quad_dip q with
  | Some ddn, Some w, Some dip =>
      let sxdd := vdot ddn s0sx in
      let w := w * 1000 in
      let ws := w * cos (radians dip) in
      if reqd ws 0 then Ok None else
      let wtt := (ws - sxdd) / ws in let wtb := sxdd / ws in
      Ok (Some (wtt * z0 + wtb * z3 * 1000))
  | _, _, _ => Ok None
  end))))).
Definition get_depth_at_point (quads : list quad) (lat lon : R) : res (option R) :=
  bind (compute_rjb quads (lon, lat, 0)) (fun tmp =>
  if rltb 0.002 tmp then Ok None else
  bind (nearest_quad quads (ecef (lon, lat, 0)) None 9999999999999999) (fun best =>
  match (match best with Some q => Some q | None => last (map Some quads) None end) with
  | None => Err IndexError
  | Some q => depth_in_quad q lat lon
  end)).
End At.

(** ** EdgeRupture *)
(** The positions of the segments: all but the last of each group *)
Definition segments (e : edges) : list nat := flat_map (fun g => removelast (where_group g (e_group e))) (unique (e_group e)).
Definition get {A} (l : list A) (i : nat) : res A := match nth_error l i with Some x => Ok x | None => Err IndexError end.
(** the four corners belonging to the position *)
Definition corners_at (e : edges) (i j : nat) : res (point * point * point * point) :=
  bind (get (e_top e) i) (fun P0 => bind (get (e_top e) j) (fun P1 => bind (get (e_bot e) j) (fun P2 => bind (get (e_bot e) i) (fun P3 => Ok (P0, P1, P2, P3))))).
Fixpoint rsum_res (f : nat -> res R) (is : list nat) (acc : R) : res R :=
  match is with [] => Ok acc | i :: rest => bind (f i) (fun x => rsum_res f rest (acc + x)) end.
(** edge_rupture.py:183-206  getLength *)
Definition e_step (e : edges) (i : nat) : res R :=
  bind (get (e_top e) i) (fun P0 => bind (make_point (Some (at_surface P0))) (fun P0 =>
  bind (get (e_top e) (i + 1)) (fun P1 => bind (make_point (Some (at_surface P1))) (fun P1 =>
  let '(lon1, lat1, dep1) := P0 in let '(lon2, lat2, dep2) := P1 in Ok (geo_distance lon1 lat1 dep1 lon2 lat2 dep2))))).
Definition e_length (e : edges) : res R := rsum_res (e_step e) (segments e) 0.
(** Heron's formula from the lengths of the sides *)
Definition heron (a b c : R) : R := let s := (a + b + c) / 2 in sqrt (s * (s - a) * (s - b) * (s - c)).
(** edge_rupture.py:220-274  getArea *)
Definition e_patch_area (e : edges) (i : nat) : res R :=
  bind (corners_at e i (i + 1)) (fun c =>
  let '(P0, P1, P2, P3) := c in let p0 := ecef P0 in let p1 := ecef P1 in let p2 := ecef P2 in let p3 := ecef P3 in
  let A1 := heron (mag (vsub p1 p0)) (mag (vsub p2 p0)) (mag (vsub p2 p1)) in
  let A2 := heron (mag (vsub p0 p3)) (mag (vsub p2 p3)) (mag (vsub p0 p2)) in
  Ok ((A1 + A2) / 1000 / 1000)).
Definition e_area (e : edges) : res R := rsum_res (e_patch_area e) (segments e) 0.
(** edge_rupture.py:208-218  getWidth; with no segment both are Python integers *)
Definition e_width (e : edges) : res (option R) :=
  bind (e_area e) (fun area => bind (e_length e) (fun length =>
  match segments e with
  | [] => Err ZeroDivisionError
  | _ => if reqd length 0 then Ok None else Ok (Some (area / length))
  end)).
(** edge_rupture.py:482-487  getDepthToTop *)
Definition e_depth_to_top (e : edges) : res R := match rmin_list (map depth_of (e_top e)) with Some d => Ok d | None => Err ValueError end.

(** edge_rupture.py:375-455: the three sums, normals and areas of the two triangles of a segment *)
Definition above (p : point) : point := let '(lon, lat, dep) := p in (lon, lat, dep - 1).
Definition northward_of (p : point) : point := let '(lon, lat, dep) := p in (lon, lat + 0.001, dep).
Definition osub_norm (a b : point) : option vec := norm (vsub (ecef a) (ecef b)).
Definition vlin (o : option vec) (k1 : R) (a : option vec) (k2 : R) (b : option vec) : option vec :=
  match o, a, b with Some o, Some a, Some b => Some (vadd (vadd o (vscale k1 a)) (vscale k2 b)) | _, _, _ => None end.
Definition three := (option vec * option vec * option vec)%type.
Definition sd_step (e : edges) (i : nat) (acc : three) : res three :=
  bind (corners_at e i (i + 1)) (fun c =>
  let '(P0, P1, P2, P3) := c in
  bind (make_point (Some P0)) (fun P0 => bind (make_point (Some P1)) (fun P1 =>
  bind (make_point (Some P2)) (fun P2 => bind (make_point (Some P3)) (fun P3 =>
  bind (make_point (Some (above P1))) (fun P1up => bind (make_point (Some (northward_of P1))) (fun P1N =>
  bind (make_point (Some (above P3))) (fun P3up => bind (make_point (Some (northward_of P3))) (fun P3N =>
  let p0 := ecef P0 in let p1 := ecef P1 in let p2 := ecef P2 in let p3 := ecef P3 in
  let s01 := vsub p1 p0 in let s02 := vsub p2 p0 in let s03 := vsub p3 p0 in
  let s21 := vsub p1 p2 in let s23 := vsub p3 p2 in
  let t1norm := norm (vcross s02 s01) in
  let A1 := heron (mag s01) (mag s02) (mag s21) / 1000 in
  let t2norm := norm (vcross s03 s02) in
  let A2 := heron (mag s03) (mag s23) (mag s02) / 1000 in
  let '(norm_vec, north_vec, up_vec) := acc in
  Ok (vlin norm_vec A1 t1norm A2 t2norm, vlin north_vec A1 (osub_norm P1N P1) A2 (osub_norm P3N P3), vlin up_vec A1 (osub_norm P1up P1) A2 (osub_norm P3up P3))))))))))).
Fixpoint sd_sums (e : edges) (is : list nat) (acc : three) : res three :=
  match is with [] => Ok acc | i :: rest => bind (sd_step e i acc) (sd_sums e rest) end.
(** numpy.sign *)
Definition sign (x : R) : R := if rltb 0 x then 1 else if rltb x 0 then -1 else 0.
(** edge_rupture.py:457-480: dip and strike from the three unit vectors *)
Definition orient (norm_vec north_vec up_vec : vec) : R * option R :=
  let flip := sign (vdot up_vec norm_vec) in
  let norm_vec := vscale flip norm_vec in
  let dip := asin (mag (vcross up_vec norm_vec)) * 180 / PI in
  (dip, option_map (fun nvph =>
     let cp := vcross nvph north_vec in
     let sg := sign (vdot cp up_vec) in
     let dp := vdot nvph north_vec in
     let strike := arctan2 (sg * mag cp) dp * 180 / PI - 90 in
     if rltb strike (-180) then strike + 360 else strike)
   (norm (vsub norm_vec (vscale (vdot up_vec norm_vec) up_vec)))).
Definition onorm (o : option vec) : option vec := match o with Some v => norm v | None => None end.
(** edge_rupture.py:375-480  _computeStrikeDip: dip and strike *)
Definition strike_dip (e : edges) : res (option R * option R) :=
  let zero := Some (mkvec 0 0 0) in
  bind (sd_sums e (segments e) (zero, zero, zero)) (fun t =>
  let '(a, b, c) := t in
  Ok (match onorm a, onorm b, onorm c with
      | Some a, Some b, Some c => (Some (fst (orient a b c)), snd (orient a b c))
      | _, _, _ => (None, None)
      end)).

(** edge_rupture.py:555-584, 632-661: the mesh of every quadrilateral; here the second vertex is the
    next one of the group *)
Definition mesh_of (f : point -> point) (mesh_dx : R) (e : edges) (ij : nat * nat) : res (list vec) :=
  bind (corners_at e (fst ij) (snd ij)) (fun c =>
  let '(P0, P1, P2, P3) := c in
  bind (make_point (Some (f P0))) (fun P0 => bind (make_point (Some (f P1))) (fun P1 =>
  bind (make_point (Some (f P2))) (fun P2 => bind (make_point (Some (f P3))) (fun P3 =>
  match quad_mesh (ecef P0) (ecef P1) (ecef P2) (ecef P3) mesh_dx with None => Err NotModelled | Some m => Ok (concat m) end))))).
Fixpoint meshes (f : point -> point) (mesh_dx : R) (e : edges) (ps : list (nat * nat)) : res (list vec) :=
  match ps with [] => Ok [] | ij :: rest => bind (mesh_of f mesh_dx e ij) (fun m => bind (meshes f mesh_dx e rest) (fun r => Ok (m ++ r))) end.
Definition e_mesh (f : point -> point) (mesh_dx : R) (e : edges) : res (list vec) :=
  meshes f mesh_dx e (flat_map (fun g => pairs (where_group g (e_group e))) (unique (e_group e))).
Definition mesh_distance (mesh : list vec) (site : vec) : res R :=
  match rmin_list (map (fun m => mag (vsub site m)) mesh) with Some d => Ok (d / 1000) | None => Err ValueError end.
(** edge_rupture.py:522-597, 599-674  computeRrup, computeRjb at one site *)
Definition e_rrup (mesh_dx : R) (e : edges) (site : point) : res R :=
  bind (e_mesh (fun p => p) mesh_dx e) (fun m => mesh_distance m (ecef site)).
Definition e_rjb (mesh_dx : R) (e : edges) (site : point) : res R :=
  bind (e_mesh at_surface mesh_dx e) (fun m => mesh_distance m (ecef site)).
