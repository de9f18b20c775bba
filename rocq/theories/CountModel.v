(** What a QuadRupture tells about itself: rupture/quad_rupture.py.  The mesh of
    openquake made by getRuptureAsMesh (lines 1016-1024) is left out. *)
From Coq Require Import ZArith Reals String Ascii Bool List.
From Verif Require Import PyBase PyStr VecModel GeoModel RuptModel PolyModel.
Import ListNotations.

(** The parts of a QuadRupture that the getters read; None is not-a-number. *)
Record quadrupt := mkqr { qr_lon : list (option R); qr_lat : list (option R); qr_dep : list (option R); qr_quads : list quad; qr_group : list nat }.
Definition lon_of (p : point) : R := fst (fst p).
Definition lat_of (p : point) : R := snd (fst p).
Definition dep_of (p : point) : R := snd p.
(** quad_rupture.py:50-62: one of the three arrays *)
Definition array_of (f : point -> R) (polygons : list (list point)) : list (option R) :=
  fold_left (fun acc p => acc ++ map Some (removelast (map f p)) ++ [None]) polygons [].
(** quad_rupture.py:39-79  QuadRupture.__init__, without the metadata (see CastModel and BuildModel) *)
Definition make (polygons : list (list point)) : res quadrupt :=
  bind (set_quadrilaterals polygons) (fun r =>
  Ok (mkqr (array_of lon_of polygons) (array_of lat_of polygons) (array_of dep_of polygons) (fst r) (snd r))).
(** quad_rupture.py:867-875  _getGroupIndex: a copy *)
Definition get_group_index (r : quadrupt) : list nat := qr_group r.
(** quad_rupture.py:975-982  getDeps: a copy *)
Definition get_deps (r : quadrupt) : list (option R) := qr_dep r.
(** quad_rupture.py:984-992  getNumGroups *)
Definition get_num_groups (r : quadrupt) : nat := length (unique (qr_group r)).
(** quad_rupture.py:994-1001  getNumQuads *)
Definition get_num_quads (r : quadrupt) : nat := length (qr_quads r).
(** quad_rupture.py:1003-1014  getRuptureAsArrays *)
Definition get_rupture_as_arrays (r : quadrupt) : list (option R) * list (option R) * list (option R) := (qr_lon r, qr_lat r, qr_dep r).
(** quad_rupture.py:878-973  lons, lats, depths: see [outline] in PolyModel *)
Definition get_outline (r : quadrupt) : list (option point) := outline (qr_quads r) (qr_group r).
