(** The bounding box of a quadrilateral. *)
From Coq Require Import Reals.
From Verif Require Import RuptModel.
Open Scope R_scope.

(** The value of one of the four corners that is not above (not below) that of any other. *)
Definition lowest_corner (f : point -> R) (q : quad) (m : R) : Prop :=
  (m = f (q0 q) \/ m = f (q1 q) \/ m = f (q2 q) \/ m = f (q3 q)) /\ m <= f (q0 q) /\ m <= f (q1 q) /\ m <= f (q2 q) /\ m <= f (q3 q).
Definition highest_corner (f : point -> R) (q : quad) (m : R) : Prop :=
  (m = f (q0 q) \/ m = f (q1 q) \/ m = f (q2 q) \/ m = f (q3 q)) /\ f (q0 q) <= m /\ f (q1 q) <= m /\ f (q2 q) <= m /\ f (q3 q) <= m.
Definition box_of (q : quad) (west east south north : R) : Prop :=
  lowest_corner (fun p => fst (fst p)) q west /\ highest_corner (fun p => fst (fst p)) q east /\
  lowest_corner (fun p => snd (fst p)) q south /\ highest_corner (fun p => snd (fst p)) q north.
