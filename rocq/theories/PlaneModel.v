(** Model of plane_fit of /repo/impactutils/extern/openquake/utils.py, for a list of points of
    space and in exact reals; numpy.linalg.svd is a parameter. *)
From Coq Require Import ZArith Reals String Ascii Bool List.
From Verif Require Import PyBase PyStr VecModel.
Import ListNotations.
Open Scope R_scope.

(** A matrix is its three columns. *)
Definition mat := (vec * vec * vec)%type.
(** numpy.linalg.svd: the columns of u, the singular values, the rows of vh *)
Definition svd_result := (mat * (R * R * R) * mat)%type.
Section Svd.
Variable svd : mat -> svd_result.
Definition vsum (l : list vec) : vec := fold_right vadd (mkvec 0 0 0) l.
(** points.mean(axis=1) *)
Definition mean_point (l : list vec) : vec := vscale (/ INR (length l)) (vsum l).
(** numpy.dot(x, x.T) *)
Definition scatter (l : list vec) : mat := (vsum (map (fun p => vscale (vx p) p) l), vsum (map (fun p => vscale (vy p) p) l), vsum (map (fun p => vscale (vz p) p) l)).
(** utils.py:463-480  plane_fit *)
Definition plane_fit (points : list vec) : res (vec * vec) :=
  if negb (Nat.ltb 3 (length points)) then Err AssertionError                           (* 476 *)
  else
    let ctr := mean_point points in
    let x := map (fun p => vsub p ctr) points in
    let '((_, _, u3), _, _) := svd (scatter x) in
    Ok (ctr, u3).
(** utils.py:391-404  normalized, of a single vector; None: not a number *)
Definition normalized (v : vec) : option vec :=
  let length := sqrt (vx v * vx v + vy v * vy v + vz v * vz v) in
  if reqd length 0 then None else Some (mkvec (vx v / length) (vy v / length) (vz v / length)).
End Svd.
