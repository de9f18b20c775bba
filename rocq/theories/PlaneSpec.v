(** Vocabulary of planes and singular values. *)
From Coq Require Import ZArith Reals List.
From Verif Require Import VecModel.
Import ListNotations.
Open Scope R_scope.

Definition inner (a b : vec) : R := vx a * vx b + vy a * vy b + vz a * vz b.
(** The distance of a point from the plane through [q] with the unit normal [n] is |(p - q) n|. *)
Definition off_plane (q n p : vec) : R := (vx p - vx q) * vx n + (vy p - vy q) * vy n + (vz p - vz q) * vz n.
(** The sum of the squared distances of points from a plane. *)
Definition misfit (points : list vec) (q n : vec) : R := fold_right (fun p s => off_plane q n p ^ 2 + s) 0 points.
(** Three mutually perpendicular unit vectors that make up space. *)
Definition axes (a b c : vec) : Prop :=
  inner a a = 1 /\ inner b b = 1 /\ inner c c = 1 /\ inner a b = 0 /\ inner a c = 0 /\ inner b c = 0 /\
  forall w, w = mkvec (inner w a * vx a + inner w b * vx b + inner w c * vx c) (inner w a * vy a + inner w b * vy b + inner w c * vy c) (inner w a * vz a + inner w b * vz b + inner w c * vz c).
(** The image of a vector under the matrix with columns [c1], [c2], [c3]. *)
Definition image (c1 c2 c3 w : vec) : vec := mkvec (vx w * vx c1 + vy w * vx c2 + vz w * vx c3) (vx w * vy c1 + vy w * vy c2 + vz w * vy c3) (vx w * vz c1 + vy w * vz c2 + vz w * vz c3).
(** A singular value decomposition, in descending order. *)
Definition decomposes (c1 c2 c3 u1 u2 u3 : vec) (s1 s2 s3 : R) (v1 v2 v3 : vec) : Prop :=
  axes u1 u2 u3 /\ axes v1 v2 v3 /\ s1 >= s2 /\ s2 >= s3 /\ s3 >= 0 /\
  image c1 c2 c3 v1 = mkvec (s1 * vx u1) (s1 * vy u1) (s1 * vz u1) /\
  image c1 c2 c3 v2 = mkvec (s2 * vx u2) (s2 * vy u2) (s2 * vz u2) /\
  image c1 c2 c3 v3 = mkvec (s3 * vx u3) (s3 * vy u3) (s3 * vz u3).
