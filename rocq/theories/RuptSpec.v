(** Vocabulary for ruptures: segments, quadrilaterals and distances in space. *)
From Coq Require Import Reals List.
From Verif Require Import VecModel.
Import ListNotations.
Open Scope R_scope.

(** The point a fraction [t] of the way from [a] to [b]. *)
Definition between_pts (a b : vec) (t : R) : vec := mkvec ((1 - t) * vx a + t * vx b) ((1 - t) * vy a + t * vy b) ((1 - t) * vz a + t * vz b).
Definition on_segment (a b u : vec) : Prop := exists t, 0 <= t <= 1 /\ u = between_pts a b t.
(** Weighted mean of four corners. *)
Definition mix (w0 w1 w2 w3 : R) (p0 p1 p2 p3 : vec) : vec :=
  mkvec (w0 * vx p0 + w1 * vx p1 + w2 * vx p2 + w3 * vx p3) (w0 * vy p0 + w1 * vy p1 + w2 * vy p2 + w3 * vy p3) (w0 * vz p0 + w1 * vz p1 + w2 * vz p2 + w3 * vz p3).
Definition in_quad (p0 p1 p2 p3 u : vec) : Prop := exists w0 w1 w2 w3, 0 <= w0 /\ 0 <= w1 /\ 0 <= w2 /\ 0 <= w3 /\ w0 + w1 + w2 + w3 = 1 /\ u = mix w0 w1 w2 w3 p0 p1 p2 p3.
Definition parallel (u v : vec) : Prop := vy u * vz v = vz u * vy v /\ vz u * vx v = vx u * vz v /\ vx u * vy v = vy u * vx v.
(** A proper plane quadrilateral with corners in order: its diagonals cross inside. *)
Definition proper (p0 p1 p2 p3 : vec) : Prop :=
  ~ parallel (vsub p1 p0) (vsub p2 p0) /\ exists s t, 0 < s < 1 /\ 0 < t < 1 /\ between_pts p0 p2 s = between_pts p1 p3 t.
(** Euclidean distance, and the distance of a point from a set. *)
Definition dist (u w : vec) : R := sqrt ((vx u - vx w) ^ 2 + (vy u - vy w) ^ 2 + (vz u - vz w) ^ 2).
Definition nearest (S : vec -> Prop) (x : vec) (d : R) : Prop := (exists u, S u /\ dist u x = d) /\ forall u, S u -> d <= dist u x.
(** [x] is above or below a point of the quadrilateral, seen along its normal. *)
Definition over_quad (p0 p1 p2 p3 x : vec) : Prop :=
  exists u, in_quad p0 p1 p2 p3 u /\ forall a b, In a [p0; p1; p2; p3] -> In b [p0; p1; p2; p3] -> vx (vsub x u) * vx (vsub b a) + vy (vsub x u) * vy (vsub b a) + vz (vsub x u) * vz (vsub b a) = 0.
(** The plane through three points, the line through two. *)
Definition in_plane (a b c u : vec) : Prop := exists s t, u = mkvec (vx a + s * (vx b - vx a) + t * (vx c - vx a)) (vy a + s * (vy b - vy a) + t * (vy c - vy a)) (vz a + s * (vz b - vz a) + t * (vz c - vz a)).
Definition on_line (a b u : vec) : Prop := exists t, u = between_pts a b t.
(** The boundary of a quadrilateral. *)
Definition on_edge (p0 p1 p2 p3 u : vec) : Prop := on_segment p0 p1 u \/ on_segment p1 p2 u \/ on_segment p2 p3 u \/ on_segment p3 p0 u.
(** Scalar product and the mixed product of three vectors. *)
Definition scalar (u w : vec) : R := vx u * vx w + vy u * vy w + vz u * vz w.
Definition mixed (u v w : vec) : R := vx u * (vy v * vz w - vz v * vy w) + vy u * (vz v * vx w - vx v * vz w) + vz u * (vx v * vy w - vy v * vx w).
