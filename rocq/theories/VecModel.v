(** Model of /repo/impactutils/vectorutils/vector.py.  Components are exact
    reals; rounding, infinities and not-a-number components are left out. *)
From Coq Require Import ZArith Reals String Ascii Bool List.
From Verif Require Import PyBase PyStr.
Import ListNotations.
Open Scope R_scope.

(** vector.py:17-31  Vector.__init__ *)
Record vec := mkvec { vx : R; vy : R; vz : R }.
(** An operand: a vector, a number, a text (with the number it denotes, if any)
    or anything else. *)
Inductive operand := OVec (v : vec) | ONum (x : R) | OText (x : option R) | OOther.

(** vector.py:50-62  fromTuple, from a tuple of numbers *)
Definition from_tuple (l : list R) : res vec := match l with [x; y; z] => Ok (mkvec x y z) | _ => Err ValueError end.
(** vector.py:223-228, 216-221  getTuple, getArray *)
Definition get_tuple (v : vec) : list R := [vx v; vy v; vz v].

Definition vadd (u w : vec) : vec := mkvec (vx u + vx w) (vy u + vy w) (vz u + vz w).
Definition vsub (u w : vec) : vec := mkvec (vx u - vx w) (vy u - vy w) (vz u - vz w).
Definition vscale (k : R) (u : vec) : vec := mkvec (vx u * k) (vy u * k) (vz u * k).
(** numpy.dot and numpy.cross of three numbers each *)
Definition vdot (u w : vec) : R := vx u * vx w + vy u * vy w + vz u * vz w.
Definition vcross (u w : vec) : vec := mkvec (vy u * vz w - vz u * vy w) (vz u * vx w - vx u * vz w) (vx u * vy w - vy u * vx w).

Definition with_vec {A} (o : operand) (f : vec -> A) : res A := match o with OVec w => Ok (f w) | _ => Err TypeError end.
(** vector.py:64-79  __add__ *)
Definition add (u : vec) (o : operand) : res vec := with_vec o (vadd u).
(** vector.py:81-97  __sub__ *)
Definition sub (u : vec) (o : operand) : res vec := with_vec o (vsub u).
(** float(): ValueError for a text that is not a number *)
Definition py_float (o : operand) : res R :=
  match o with ONum x => Ok x | OText (Some x) => Ok x | OText None => Err ValueError | _ => Err TypeError end.
(** vector.py:99-117, 119-137  __mul__, __rmul__ *)
Definition mul (u : vec) (o : operand) : res vec :=
  match py_float o with Ok k => Ok (vscale k u) | Err ValueError => Err TypeError | Err e => Err e end.
(** vector.py:139-157  __eq__ *)
Definition reqd (x y : R) : bool := if Req_EM_T x y then true else false.
Definition eq (u : vec) (o : operand) : res bool := with_vec o (fun w => reqd (vx w) (vx u) && reqd (vy w) (vy u) && reqd (vz w) (vz u)).
(** vector.py:159-176  distance *)
Definition distance (u : vec) (o : operand) : res R :=
  with_vec o (fun w => sqrt ((vx u - vx w) ^ 2 + (vy u - vy w) ^ 2 + (vz u - vz w) ^ 2)).
(** vector.py:178-195  cross *)
Definition cross (u : vec) (o : operand) : res vec := with_vec o (vcross u).
(** vector.py:197-214  dot *)
Definition dot (u : vec) (o : operand) : res R := with_vec o (vdot u).
(** vector.py:241-247  mag *)
Definition mag (u : vec) : R := sqrt (vx u ^ 2 + vy u ^ 2 + vz u ^ 2).
(** vector.py:230-239  norm; [None]: three times not-a-number *)
Definition norm (u : vec) : option vec :=
  let length := mag u in if reqd length 0 then None else Some (mkvec (vx u / length) (vy u / length) (vz u / length)).
