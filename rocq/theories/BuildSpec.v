(** Vocabulary for ruptures built from vertices, traces and orientations. *)
From Coq Require Import Reals List.
From Verif Require Import VecModel PolySpec GeoSpec.
Import ListNotations.
Open Scope R_scope.

Definition lon_of (v : vertex) : R := fst (fst v).
Definition lat_of (v : vertex) : R := snd (fst v).
Definition dep_of (v : vertex) : R := snd v.
(** Every patch begins where the one before it ends. *)
Inductive joined : list patch -> Prop :=
| joined_nil : joined []
| joined_one : forall c, joined [c]
| joined_more : forall c d l, p_tl d = p_tr c -> p_bl d = p_br c -> joined (d :: l) -> joined (c :: d :: l).
(** The patches [l'] have the right corners of [l], and begin where the one before, first of all [c], ends. *)
Inductive follows : patch -> list patch -> list patch -> Prop :=
| follows_nil : forall c, follows c [] []
| follows_more : forall c d l l', follows d l l' -> follows c (d :: l) (mkpatch (p_tr c) (p_tr d) (p_br d) (p_br c) :: l').
(** The same with the first patch kept. *)
Definition pulled (l l' : list patch) : Prop :=
  (l = [] /\ l' = []) \/ exists c r r', l = c :: r /\ l' = c :: r' /\ follows c r r'.
(** Patches that agree in all corners; in their right corners. *)
Definition same_right (c d : patch) : Prop := p_tr c = p_tr d /\ p_br c = p_br d.
(** Lists of patches that agree except for the left corners of all but the first. *)
Definition same_start (l l' : list patch) : Prop :=
  match l, l' with c :: r, c' :: r' => c = c' /\ Forall2 same_right r r' | [], [] => True | _, _ => False end.

(** A place is shown at [x], [y] (km) east and north of the middle of a view from far above. *)
Definition shown (lon0 lat0 : R) (lon lat : R) (x y : R) : Prop :=
  0 <= vdot (place lon0 lat0) (place lon lat) /\
  x = 6371 * vdot (east_of lon0) (place lon lat) /\ y = 6371 * vdot (north_of lon0 lat0) (place lon lat).
(** [theta] is the direction of a displacement, from the second axis towards the first; no
    displacement counts as one along the second axis. *)
Definition heads (theta dx dy : R) : Prop := exists d, 0 <= d /\ dx = d * sin theta /\ dy = d * cos theta /\ (d = 0 -> theta = 0).
(** A row of a trace: the ends of the top edge, its depth, the width and the dip (degrees). *)
Record row := mkrow { r_start : R * R; r_end : R * R; r_top : R; r_width : R; r_dip : R }.
(** The patch of a row: as seen from above both ends of the top edge are moved to the right of
    the strike direction by the horizontal extent of the width, and down by its vertical extent. *)
Definition dips_from (lon0 lat0 : R) (strike : option R) (r : row) (c : patch) : Prop :=
  exists x0 y0 x1 y1 theta,
    shown lon0 lat0 (fst (r_start r)) (snd (r_start r)) x0 y0 /\ shown lon0 lat0 (fst (r_end r)) (snd (r_end r)) x1 y1 /\
    match strike with Some s => theta = deg s | None => heads theta (x1 - x0) (y1 - y0) end /\
    let across := r_width r * cos (deg (r_dip r)) in let down := r_width r * sin (deg (r_dip r)) in
    p_tl c = (r_start r, r_top r) /\ p_tr c = (r_end r, r_top r) /\ dep_of (p_bl c) = r_top r + down /\ dep_of (p_br c) = r_top r + down /\
    shown lon0 lat0 (lon_of (p_bl c)) (lat_of (p_bl c)) (x0 + across * cos theta) (y0 - across * sin theta) /\
    shown lon0 lat0 (lon_of (p_br c)) (lat_of (p_br c)) (x1 + across * cos theta) (y1 - across * sin theta).
(** The direction at a place: [a] along the heading [s] (degrees) and [b] to the right of it. *)
Definition tangent (lon lat s a b : R) : vec :=
  vadd (vscale (a * sin (deg s) + b * cos (deg s)) (east_of lon)) (vscale (a * cos (deg s) - b * sin (deg s)) (north_of lon lat)).
(** Going from a place straight on for a distance (km) along a vector of that length leads to another. *)
Definition reached (lon lat : R) (v : vec) (lon' lat' : R) : Prop :=
  exists d, 0 <= d /\ mag v = d /\ (d = 0 -> place lon' lat' = place lon lat) /\
  (d <> 0 -> place lon' lat' = vadd (vscale (cos (d / 6371)) (place lon lat)) (vscale (sin (d / 6371) / d) v)).
(** The strike of each row: none, one for all, or one each. *)
Definition strikes (n : nat) (given : option (list R)) (ss : list (option R)) : Prop :=
  match given with
  | None => ss = repeat None n
  | Some l => (length l = n /\ ss = map Some l) \/ (exists s, l = [s] /\ ss = repeat (Some s) n)
  end.
(** A known point of a plane, how far it is along strike and down dip from the upper corner, and the plane. *)
Record known := mkknown { k_at : R * R; k_depth : R; k_along : R; k_down : R; k_length : R; k_width : R; k_strike : R; k_dip : R }.
(** The row of a plane through a known point: back along the strike and up the dip. *)
Definition oriented (k : known) (r : row) : Prop :=
  reached (fst (k_at k)) (snd (k_at k)) (tangent (fst (k_at k)) (snd (k_at k)) (k_strike k) (- k_along k) (- (k_down k * cos (deg (k_dip k))))) (fst (r_start r)) (snd (r_start r)) /\
  reached (fst (r_start r)) (snd (r_start r)) (tangent (fst (r_start r)) (snd (r_start r)) (k_strike k) (k_length k) 0) (fst (r_end r)) (snd (r_end r)) /\
  r_top r = k_depth k - Rabs (k_down k * sin (deg (k_dip k))) /\ r_width r = k_width k /\ r_dip r = k_dip k.
(** A faithful way to go from a place in a direction (degrees) for a distance (km). *)
Definition goes (point_at : R -> R -> R -> R -> R * R) : Prop := forall lon lat az d,
  place (fst (point_at lon lat az d)) (snd (point_at lon lat az d)) =
  vadd (vscale (cos (d / 6371)) (place lon lat)) (vscale (sin (d / 6371)) (vadd (vscale (sin (deg az)) (east_of lon)) (vscale (cos (deg az)) (north_of lon lat)))).
