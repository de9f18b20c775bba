(** Vocabulary of lines and rings in the plane. *)
From Coq Require Import ZArith Reals List.
Import ListNotations.
Open Scope R_scope.

Definition on_segment (a b x : R * R) : Prop := exists t, 0 <= t <= 1 /\ fst x = fst a + t * (fst b - fst a) /\ snd x = snd a + t * (snd b - snd a).
(** The [i]th piece of a line leads from [a] to [b]. *)
Definition piece (l : list (R * R)) (i : nat) (a b : R * R) : Prop := nth_error l i = Some a /\ nth_error l (S i) = Some b.
Definition no_repeats (l : list (R * R)) : Prop := forall i a b, piece l i a b -> a <> b.
(** A line is simple if it passes no point twice, except that it may end where it starts. *)
Definition simple_line (l : list (R * R)) : Prop :=
  forall i j a b c d x, (i < j)%nat -> piece l i a b -> piece l j c d -> on_segment a b x -> on_segment c d x ->
  (j = S i /\ x = b) \/ (i = 0%nat /\ S (S j) = length l /\ x = a /\ x = d).
Definition knows_simple (f : list (R * R) -> bool) : Prop := forall l, no_repeats l -> (f l = true <-> simple_line l).
(** The side [i] of the polygon with the corners [l]. *)
Definition side (l : list (R * R)) (i : nat) (a b : R * R) : Prop := nth_error l i = Some a /\ nth_error l (if Nat.eqb (S i) (length l) then 0%nat else S i) = Some b.
(** A polygon is simple if two sides meet only in the corner between them. *)
Definition simple_polygon (l : list (R * R)) : Prop :=
  forall i j a b c d x, (i < j)%nat -> side l i a b -> side l j c d -> on_segment a b x -> on_segment c d x ->
  (j = S i /\ x = b) \/ (i = 0%nat /\ S j = length l /\ x = a).
