(** Models of get_middle_point, GeographicObjects and Point of
    /repo/impactutils/extern/openquake/utils.py and point.py, over exact reals.  What these
    modules import from the installed openquake package (point_at, min_idx_dst,
    intervals_between) and rtree's index are parameters. *)
From Coq Require Import ZArith Reals String Ascii Bool List.
From Verif Require Import PyBase PyStr VecModel GeoModel.
Import ListNotations.
Open Scope R_scope.

Definition pt := (R * R * R)%type.
Section Openquake.
(** geodetic.point_at(lon, lat, azimuth, distance) *)
Variable point_at : R -> R -> R -> R -> R * R.
(** utils.py:292-306  get_middle_point *)
Definition get_middle_point (lon1 lat1 lon2 lat2 : R) : R * R :=
  if reqd lon1 lon2 && reqd lat1 lat2 then (lon1, lat1)
  else point_at lon1 lat1 (azimuth lon1 lat1 lon2 lat2) (geodetic_distance lon1 lat1 lon2 lat2 / 2).
(** utils.py:200-209: the centre of OrthographicProjection(west, east, north, south) *)
Definition ortho_centre (west east north south : R) : R * R := get_middle_point west north east south.

(** point.py:94-120  Point.point_at *)
Definition move_point (p : pt) (horizontal vertical az : R) : res pt :=
  let '(lon, lat, dep) := p in let '(lon', lat') := point_at lon lat az horizontal in new_point lon' lat' (dep + vertical).
(** geodetic.intervals_between: the coordinates of the points between *)
Variable intervals_between : R -> R -> R -> R -> R -> R -> R -> list pt.
Fixpoint new_points (l : list pt) : res (list pt) :=
  match l with
  | [] => Ok []
  | (lon, lat, dep) :: l' => bind (new_point lon lat dep) (fun p => bind (new_points l') (fun ps => Ok (p :: ps)))
  end.
(** point.py:233-256  equally_spaced_points *)
Definition equally_spaced_points (p q : pt) (distance : R) : res (list pt) :=
  let '(lon, lat, dep) := p in let '(lon2, lat2, dep2) := q in new_points (intervals_between lon lat dep lon2 lat2 dep2 distance).

(** utils.py:40-82  GeographicObjects with rtree installed: the centre of the projection and
    the projected objects; the index answers with a number from this list *)
Variable A : Type.
Variables getlon getlat : A -> R.
(** list(index.nearest((x, y, x, y), 1))[0] *)
Variable index_nearest : list (R * R) -> R * R -> nat.
Fixpoint project_all (c : R * R) (l : list A) : res (list (R * R)) :=
  match l with
  | [] => Ok []
  | a :: l' => bind (ortho_forward (fst c) (snd c) (getlon a) (getlat a)) (fun x => bind (project_all c l') (fun xs => Ok (x :: xs)))
  end.
(** utils.py:49-63 *)
Definition new_objects (objects : list A) : res ((R * R) * list (R * R)) :=
  bind (spherical_bounding_box (map getlon objects) (map getlat objects)) (fun '(west, east, north, south) =>
  let c := ortho_centre west east north south in
  bind (project_all c objects) (fun xs => Ok (c, xs))).
(** utils.py:65-82  get_closest *)
Definition get_closest (objects : list A) (lon lat : R) : res (A * R) :=
  bind (new_objects objects) (fun '(c, xs) =>
  bind (ortho_forward (fst c) (snd c) lon lat) (fun x =>
  match nth_error objects (index_nearest xs x) with
  | None => Err IndexError
  | Some a => Ok (a, geodetic_distance lon lat (getlon a) (getlat a))
  end)).
End Openquake.

(** point.py:305-317  from_vector; a latitude that is not a number is out of range *)
Definition from_vector (v : vec) : res pt :=
  match cartesian_to_spherical v with
  | (lon, Some lat, dep) => new_point lon lat dep
  | (_, None, _) => Err ValueError
  end.
(** point.py:224-231  on_surface *)
Definition on_surface (p : pt) : bool := reqd (snd p) 0.
(** A mesh is its points, with or without depths. *)
Record mesh := mkmesh { m_places : list (R * R); m_depths : option (list R) }.
Definition depth_list (m : mesh) : list R := match m_depths m with None => map (fun _ => 0) (m_places m) | Some l => l end.
(** point.py:160-186  distance_to_mesh *)
Definition distance_to_mesh (p : pt) (m : mesh) (with_depths : bool) : list R :=
  let '(lon, lat, dep) := p in
  if with_depths then map (fun xd => geo_distance lon lat dep (fst (fst xd)) (snd (fst xd)) (snd xd)) (combine (m_places m) (depth_list m))
  else map (fun x => geodetic_distance lon lat (fst x) (snd x)) (m_places m).
(** point.py:282-302  closer_than *)
Definition closer_than (p : pt) (m : mesh) (radius : R) : list bool := map (fun d => rleb d radius) (distance_to_mesh p m true).
