(** Vocabulary for slip. *)
From Coq Require Import Reals.
From Verif Require Import VecModel RuptSpec GeoSpec.
Open Scope R_scope.

(** The motion of the hanging wall along a fault of the given strike, dip and rake (degrees): eastwards, northwards and
    upwards.  The fault dips towards strike + 90; rake 0 is along the strike and rake 90 is up the dip. *)
Definition hanging_wall (strike dip rake : R) : R * R * R :=
  (cos (deg rake) * sin (deg strike) - sin (deg rake) * cos (deg dip) * cos (deg strike),
   cos (deg rake) * cos (deg strike) + sin (deg rake) * cos (deg dip) * sin (deg strike),
   sin (deg rake) * sin (deg dip)).
(** The components of a vector at a place: eastwards and upwards. *)
Definition east_part (lon lat : R) (v : vec) : R := scalar v (east_of lon).
Definition up_part (lon lat : R) (v : vec) : R := scalar v (place lon lat).
