(** Model of /repo/impactutils/rupture/plotrupture.py: what is handed to matplotlib.  Coordinates
    are exact reals.  The background picture, the coast lines and the labels are left out. *)
From Coq Require Import Reals Bool List.
From Verif Require Import PyBase GeoModel RuptModel PolyModel.
Import ListNotations.
Open Scope R_scope.

(** What is asked of a rupture: getQuadrilaterals() and the arrays lons and lats together.
    A PointRupture gives None and two Python floats (point_rupture.py:110-125). *)
Inductive shape := PointShape (at_ : point) | QuadShape (quads : list quad) (border : list (option point)).
(** One call of ax.plot(x, y, z): the points joined by a line *)
Definition wire := list (R * R * R).
(** plotrupture.py:34-41: one quadrilateral *)
Definition quad_wire (q : quad) : wire :=
  let at_ (p : point) := let '(lon, lat, dep) := p in (lon, lat, - dep) in
  map at_ [q0 q; q1 q; q2 q; q3 q] ++ [at_ (q0 q)].
(** plotrupture.py:13-47  plot_rupture_wire3d; [axes]: whether the given axes have the property xlim3d *)
Definition plot_rupture_wire3d (r : shape) (axes : option bool) : res (list wire) :=
  match axes with
  | Some false => Err TypeError
  | _ => match r with
         | PointShape _ => Err TypeError               (* None is not iterable *)
         | QuadShape qs _ => Ok (map quad_wire qs)
         end
  end.
(** plotrupture.py:7 *)
Definition MAP_WIDTH : R := 10.
(** a[~numpy.isnan(a)] *)
Definition present {A} (l : list (option A)) : list A := flat_map (fun o => match o with Some x => [x] | None => [] end) l.
Record picture := mkpicture { west : R; east : R; south : R; north : R; path : list (R * R) }.
(** plotrupture.py:50-84  map_rupture; numpy.nanmin of an empty array is a ValueError, and of one
    without numbers is not-a-number, which set_extent refuses *)
Definition map_rupture (r : shape) : res picture :=
  match r with
  | PointShape _ => Err TypeError                      (* a float has no items *)
  | QuadShape _ border =>
      let lons := map (fun p : point => fst (fst p)) (present border) in
      let lats := map (fun p : point => snd (fst p)) (present border) in
      match rmin_list lats, rmax_list lats, rmin_list lons, rmax_list lons with
      | Some lat1, Some lat2, Some lon1, Some lon2 =>
          let bufx := MAP_WIDTH / 2 in
          let bufy := MAP_WIDTH / 2 in
          Ok (mkpicture (lon1 - bufx) (lon2 + bufx) (lat1 - bufy) (lat2 + bufy) (combine lons lats))
      | _, _, _, _ => Err ValueError
      end
  end.
