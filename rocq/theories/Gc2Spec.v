(** Vocabulary for the GC2 coordinates of a site about a rupture. *)
From Coq Require Import Reals List.
From Verif Require Import VecModel RuptSpec GeoSpec PolySpec BuildSpec SizeSpec.
Import ListNotations.
Open Scope R_scope.

(** On a map, [s] lies [u] along and [t] to the right of the line from [a] to [b], seen from [a]. *)
Definition strike_coords (a b s : R * R) (u t : R) : Prop :=
  exists d ex ey, 0 < d /\ ex ^ 2 + ey ^ 2 = 1 /\ fst b - fst a = d * ex /\ snd b - snd a = d * ey /\
  fst s - fst a = u * ex + t * ey /\ snd s - snd a = u * ey - t * ex.
(** [w] is the integral of [f] from [a] to [b], by way of an antiderivative. *)
Definition integral (f : R -> R) (a b w : R) : Prop := exists F, (forall x, a <= x <= b -> derivable_pt_lim F x (f x)) /\ w = F b - F a.
(** The inverse squares of the distances of the points of a segment of length [l], added up. *)
Definition pull (u t l w : R) : Prop := integral (fun x => / ((x - u) ^ 2 + t ^ 2)) 0 l w.
Definition on_it (u t l : R) : Prop := t = 0 /\ 0 <= u <= l.
(** How a segment is seen from a site: its coordinates, its length (km), where it begins on the axis of
    the whole rupture, and its weight. *)
Record view := mkview { v_u : R; v_t : R; v_l : R; v_start : R; v_w : R }.
Definition flat_map_of (c : R * R) (v : vertex) (a : R * R) : Prop := let '(lon, lat, _) := v in shown (fst c) (snd c) lon lat (fst a) (snd a).
Definition viewed (c : R * R) (site : vertex) (P Q : vertex) (v : view) : Prop :=
  (exists a b s, flat_map_of c P a /\ flat_map_of c Q b /\ flat_map_of c site s /\ strike_coords a b s (v_u v) (v_t v)) /\
  0 < v_l v /\ pull (v_u v) (v_t v) (v_l v) (v_w v).
(** How far [x] lies outside the interval. *)
Definition beyond (lo hi x r : R) : Prop := (lo <= x <= hi -> r = 0) /\ (x < lo -> lo <= hi -> r = lo - x) /\ (hi < x -> r = x - hi).
(** [T] and [U] are the means of the coordinates, by weight. *)
Definition weighed (vs : list view) (T U : R) : Prop :=
  let W := total (map v_w vs) in 0 < W /\ T * W = total (map (fun v => v_w v * v_t v) vs) /\ U * W = total (map (fun v => v_w v * (v_u v + v_start v)) vs).
(** The site can be seen beside the segment: both are on the map, and the site is not on the segment. *)
Definition clear_of (c : R * R) (site : vertex) (P Q : vertex) (at_P at_Q : vec) : Prop :=
  exists a b s u t, flat_map_of c P a /\ flat_map_of c Q b /\ flat_map_of c site s /\ strike_coords a b s u t /\
  0 < dist at_Q at_P /\ ~ on_it u t (dist at_Q at_P / 1000).
(** All segments belong to the same trace. *)
Definition one_trace (groups : list nat) : Prop := exists g, groups <> [] /\ Forall (fun x => g = x) groups.

(** ** Several traces *)
(** Distance over the ground. *)
Definition apart (P Q : vertex) (r : R) : Prop := let '(lon1, lat1, _) := P in let '(lon2, lat2, _) := Q in exists t, angle (place lon1 lat1) (place lon2 lat2) t /\ r = 6371 * t.
(** One list is the other backwards, with every element turned. *)
Inductive backwards {A} (turn : A -> A -> Prop) : list A -> list A -> Prop :=
| back_nil : backwards turn [] []
| back_cons : forall x y l r, turn x y -> backwards turn l r -> backwards turn (x :: l) (r ++ [y]).
(** The groups are numbered from zero to [n]. *)
Definition numbered_to (n : nat) (groups : list nat) : Prop := forall g, In g groups <-> (g < n)%nat.
(** The first and the last element. *)
Definition begins {A} (l : list A) (x : A) : Prop := exists r, l = x :: r.
Definition finishes {A} (l : list A) (x : A) : Prop := exists r, l = r ++ [x].
