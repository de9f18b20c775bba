(** Vocabulary for C91-C94, independent of the functions of [DistModel]. *)
From Coq Require Import ZArith Reals String Ascii Bool List.
From Verif Require Import PyBase PyStr GeoModel OriginModel OriginSpec DistModel.
Import ListNotations.
Open Scope R_scope.

Definition is_one_of (l : list string) (k : str) : Prop := exists x, In x l /\ k = str_of x.
Definition known_measure : str -> Prop := is_one_of ["U"; "T"; "rx"; "ry"; "ry0"; "rhypo"; "repi"; "rrup"; "rjb"; "rvolc"]%string.
Definition gc2_measure : str -> Prop := is_one_of ["U"; "T"; "rx"; "ry"; "ry0"]%string.
(** What a request brings along. *)
Definition asked (ms : list str) (k : str) : Prop :=
  In k ms \/ (k = str_of "rrup_var" /\ In (str_of "rrup") ms) \/ (k = str_of "rjb_var" /\ In (str_of "rjb") ms) \/ (gc2_measure k /\ exists m, gc2_measure m /\ In m ms).
(** The value of a measure. *)
Definition value_of {V} (zeros_like : V -> V) (r : rupture (V := V)) (lat lon dep : V) (k : str) (v : V) : Prop :=
  (k = str_of "rhypo" /\ r_rhyp r lon lat dep = Ok v) \/
  (k = str_of "repi" /\ r_repi r lon lat dep = Ok v) \/
  (k = str_of "rrup" /\ exists w, r_rrup r (r_mesh r) lon lat dep = Ok (v, w)) \/
  (k = str_of "rrup_var" /\ exists w, r_rrup r (r_mesh r) lon lat dep = Ok (w, v)) \/
  (k = str_of "rjb" /\ exists w, r_rjb r (r_mesh r) lon lat dep = Ok (v, w)) \/
  (k = str_of "rjb_var" /\ exists w, r_rjb r (r_mesh r) lon lat dep = Ok (w, v)) \/
  (gc2_measure k /\ exists g, r_gc2 r lon lat dep = Ok g /\ In (k, v) g) \/
  (k = str_of "rvolc" /\ v = zeros_like lon).
(** Some measure that is asked for cannot be had. *)
Definition measure_fails {V} (r : rupture (V := V)) (lat lon dep : V) (ms : list str) (e : exn) : Prop :=
  (In (str_of "rhypo") ms /\ r_rhyp r lon lat dep = Err e) \/
  (In (str_of "repi") ms /\ r_repi r lon lat dep = Err e) \/
  (In (str_of "rrup") ms /\ r_rrup r (r_mesh r) lon lat dep = Err e) \/
  (In (str_of "rjb") ms /\ r_rjb r (r_mesh r) lon lat dep = Err e) \/
  ((exists m, gc2_measure m /\ In m ms) /\ r_gc2 r lon lat dep = Err e).
(** GC2 coordinates come as five measures. *)
Definition five_measures {V} (r : rupture (V := V)) : Prop := forall lon lat dep g, r_gc2 r lon lat dep = Ok g -> distinct g /\ forall k, has g k <-> gc2_measure k.
(** A rupture with another mesh spacing. *)
Definition with_mesh {V} (r r' : rupture (V := V)) (dx : R) : Prop :=
  r_edge r' = r_edge r /\ r_mesh r' = Some dx /\ r_rhyp r' = r_rhyp r /\ r_repi r' = r_repi r /\ r_rrup r' = r_rrup r /\ r_rjb r' = r_rjb r /\ r_gc2 r' = r_gc2 r.
