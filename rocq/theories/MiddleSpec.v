(** Vocabulary for places and the index of places. *)
From Coq Require Import ZArith Reals List.
From Verif Require Import VecModel GeoSpec.
Import ListNotations.
Open Scope R_scope.

(** Where one gets from a place in the direction [az] (degrees) after [d] km on a sphere of radius 6371 km. *)
Definition travelled (lon lat az d : R) : vec :=
  vadd (vscale (cos (d / 6371)) (place lon lat)) (vscale (sin (d / 6371)) (vadd (vscale (sin (deg az)) (east_of lon)) (vscale (cos (deg az)) (north_of lon lat)))).
Definition travels (point_at : R -> R -> R -> R -> R * R) : Prop :=
  forall lon lat az d, let '(lon', lat') := point_at lon lat az d in place lon' lat' = travelled lon lat az d /\ -180 <= lon' <= 180 /\ -90 <= lat' <= 90.
(** The straight-line distance of two places on the unit sphere. *)
Definition chord (u w : vec) : R := sqrt ((vx u - vx w) ^ 2 + (vy u - vy w) ^ 2 + (vz u - vz w) ^ 2).
(** The distance of two points of the plane. *)
Definition apart2 (a b : R * R) : R := sqrt ((fst a - fst b) ^ 2 + (snd a - snd b) ^ 2).
(** A nearest point of a list. *)
Definition finds_nearest (f : list (R * R) -> R * R -> nat) : Prop :=
  forall l x, l <> [] -> exists y, nth_error l (f l x) = Some y /\ forall z, In z l -> apart2 x y <= apart2 x z.
