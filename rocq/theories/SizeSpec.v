(** Vocabulary for the sizes and orientations of ruptures. *)
From Coq Require Import Reals List.
From Verif Require Import VecModel RuptSpec GeoSpec PolySpec.
Import ListNotations.
Open Scope R_scope.

Fixpoint total (l : list R) : R := match l with [] => 0 | x :: r => x + total r end.
(** [m] is the mean of the numbers. *)
Definition mean_is (l : list R) (m : R) : Prop := l <> [] /\ total l = INR (length l) * m.
(** [Q] is seen from [P] in the direction [a], degrees east of north; a place at the same or the
    opposite spot counts as north. *)
Definition bears (P Q : vertex) (a : R) : Prop :=
  let '(lon1, lat1, _) := P in let '(lon2, lat2, _) := Q in
  0 <= a < 360 /\ exists d, 0 <= d /\ (d = 0 -> a = 0) /\
  scalar (east_of lon1) (place lon2 lat2) = d * sin (deg a) /\ scalar (north_of lon1 lat1) (place lon2 lat2) = d * cos (deg a).
(** Angles in degrees at most [h] apart. *)
Definition within (h a m : R) : Prop := exists t, - h <= t <= h /\ same_lon a (m + t).
(** The area of a triangle, and of a quadrilateral cut along its first diagonal. *)
Definition tri_area (a b c : vec) : R := mag (vcross (vsub b a) (vsub c a)) / 2.
Definition two_triangles (p0 p1 p2 p3 : vec) : R := tri_area p0 p1 p2 + tri_area p0 p2 p3.
(** The length (km) of a line over the sphere through some places. *)
Inductive over_ground : list vertex -> R -> Prop :=
| ground_end : forall v, over_ground [v] 0
| ground_next : forall lon1 lat1 d1 lon2 lat2 d2 l t x, angle (place lon1 lat1) (place lon2 lat2) t -> over_ground ((lon2, lat2, d2) :: l) x ->
    over_ground ((lon1, lat1, d1) :: (lon2, lat2, d2) :: l) (6371 * t + x).
(** [u] lies on the surface spanned by four corners. *)
Definition spanned (p0 p1 p2 p3 u : vec) : Prop := exists s t, 0 <= s <= 1 /\ 0 <= t <= 1 /\ u = between_pts (between_pts p0 p1 s) (between_pts p3 p2 s) t.
(** The lengths of a quadrilateral do not vary by more than a factor [k]: the lower edge against the
    upper one, and the lines down from the upper edge against each other. *)
Definition even (k : R) (p0 p1 p2 p3 : vec) : Prop :=
  dist p2 p3 <= k * dist p1 p0 /\
  forall s s', 0 <= s <= 1 -> 0 <= s' <= 1 -> dist (between_pts p0 p1 s) (between_pts p3 p2 s) <= k * dist (between_pts p0 p1 s') (between_pts p3 p2 s').
(** The patches of several pairs of edges, one after the other. *)
Inductive all_patches : list (list vertex) -> list (list vertex) -> list patch -> Prop :=
| all_none : all_patches [] [] []
| all_more : forall t ts b bs ps qs, patches t b ps -> all_patches ts bs qs -> all_patches (t :: ts) (b :: bs) (ps ++ qs).
(** The sum of vectors. *)
Fixpoint vtotal (l : list vec) : vec := match l with [] => mkvec 0 0 0 | v :: r => vadd v (vtotal r) end.
(** A plane with normal [n] leans by [dip] degrees where [up] is upwards. *)
Definition leans (n up : vec) (dip : R) : Prop := 0 <= dip <= 90 /\ cos (deg dip) * (mag n * mag up) = Rabs (scalar n up).
(** The level part of [n], reversed if [n] points down: the direction in which the plane goes down. *)
Definition downhill (n up v : vec) : Prop := exists k, k = (if Rle_dec 0 (scalar n up) then 1 else -1) /\ v = vscale k (vsub (vscale (scalar up up) n) (vscale (scalar n up) up)).
(** [v] makes the angle [a], in degrees, with [north], clockwise as seen from above. *)
Definition clockwise (v north up : vec) (a : R) : Prop :=
  scalar v north = mag v * mag north * cos (deg a) /\ mag (vcross v north) = mag v * mag north * Rabs (sin (deg a)) /\ 0 <= mixed v north up * sin (deg a).
(** A place one kilometre higher and a place a thousandth of a degree further north. *)
Definition raised (v : vertex) : vertex := let '(lon, lat, d) := v in (lon, lat, d - 1).
Definition nudged (v : vertex) : vertex := let '(lon, lat, d) := v in (lon, lat + 0.001, d).
(** The vector [u] has the direction of [v] and length one. *)
Definition direction (v u : vec) : Prop := mag u = 1 /\ exists k, 0 < k /\ v = vscale k u.
(** On a map, [o] is how far [x] lies from the line through [a] and [b], on the side of [c]. *)
Definition beside (a b c x : R * R) (o : R) : Prop :=
  exists d : R * R, fst d ^ 2 + snd d ^ 2 = 1 /\ fst d * (fst b - fst a) + snd d * (snd b - snd a) = 0 /\ 0 < fst d * (fst c - fst a) + snd d * (snd c - snd a) /\
  o = fst d * (fst x - fst a) + snd d * (snd x - snd a).
