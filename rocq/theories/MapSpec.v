(** Vocabulary for maps. *)
From Coq Require Import ZArith Reals List.
From Verif Require Import PyBase CityModel FloatBase.
Open Scope R_scope.

(** The width of a map that goes eastwards from one meridian to another. *)
Definition width (west east : R) : R := if Rlt_dec east west then east + 360 - west else east - west.
(** Two names of one meridian. *)
Definition same_meridian (a b : R) : Prop := exists k : Z, a = b + 360 * IZR k.
(** The meridian in the middle of the map. *)
Definition in_middle (west east c : R) : Prop := same_meridian c (west + width west east / 2).
(** A longitude on the map. *)
Definition on_this_map (west east lon : R) : Prop := exists k : Z, west <= lon + 360 * IZR k <= west + width west east.

(** The coordinates that are there are doubles. *)
Definition double_rows (f : frame) : Prop :=
  forall r x, In r (f_rows f) -> c_lon r = Some x \/ c_lat r = Some x -> is_double x.
