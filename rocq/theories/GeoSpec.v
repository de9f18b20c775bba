(** Vocabulary of the sphere: directions, angles, longitudes. *)
From Coq Require Import ZArith Reals List.
From Verif Require Import VecModel.
Import ListNotations.
Open Scope R_scope.

(** An angle in degrees as a real number. *)
Definition deg (d : R) : R := PI * d / 180.
(** The direction of a place, and the directions east and north there. *)
Definition place (lon lat : R) : vec := mkvec (cos (deg lat) * cos (deg lon)) (cos (deg lat) * sin (deg lon)) (sin (deg lat)).
Definition east_of (lon : R) : vec := mkvec (- sin (deg lon)) (cos (deg lon)) 0.
Definition north_of (lon lat : R) : vec := mkvec (- sin (deg lat) * cos (deg lon)) (- sin (deg lat) * sin (deg lon)) (cos (deg lat)).
(** [t] is the angle between two unit vectors. *)
Definition angle (u w : vec) (t : R) : Prop := 0 <= t <= PI /\ cos t = vx u * vx w + vy u * vy w + vz u * vz w.
(** The same meridian. *)
Definition same_lon (a b : R) : Prop := exists k : Z, a - b = 360 * IZR k.
(** Going east from [w] one reaches [e] after [d] degrees, less than a turn, and
    [x] on the way. *)
Definition arc_to (w e d : R) : Prop := 0 <= d < 360 /\ same_lon e (w + d).
Definition on_arc (w e x : R) : Prop := exists d t : R, arc_to w e d /\ 0 <= t <= d /\ same_lon x (w + t).
Definition smallest (l : list R) (m : R) : Prop := In m l /\ forall x, In x l -> m <= x.
Definition largest (l : list R) (m : R) : Prop := In m l /\ forall x, In x l -> x <= m.
