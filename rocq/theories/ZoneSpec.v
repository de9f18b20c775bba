(** Vocabulary for the zone-lookup properties. *)
From Coq Require Import ZArith Reals String Ascii Bool List.
From Verif Require Import PyBase ZoneModel.
Import ListNotations.
Open Scope Z_scope.

(** The point lies in the feature's bounding box (edges included). *)
Definition box_contains (f : feature) (lat lon : R) : Prop :=
  (ymin f <= lat <= ymax f /\ xmin f <= lon <= xmax f)%R.

(** The polygon contains the point: by the projected test or, when that one
    cannot be evaluated, by the geographic test. *)
Definition poly_contains (f : feature) : Prop :=
  projected f = Inside \/ projected f = Raises /\ geographic f = Inside.

Definition covers (f : feature) (lat lon : R) : Prop := box_contains f lat lon /\ poly_contains f.

(** A raster of [rows] lines of [cols] cells. *)
Definition good_raster (c : raster_cfg) : Prop :=
  1 <= rows c /\ 1 <= cols c /\ (0 < resx c)%R /\ (0 < resy c)%R /\ (min_lat c <= max_lat c)%R /\
  List.length (raster c) = Z.to_nat (rows c) /\
  Forall (fun line => List.length line = Z.to_nat (cols c)) (raster c).

(** The cell contents. *)
Definition cell (c : raster_cfg) (row col : Z) : option Z :=
  match nth_error (raster c) (Z.to_nat row) with
  | Some line => nth_error line (Z.to_nat col)
  | None => None
  end.

(** [k] is the first name in the table with code [v]. *)
Definition first_named (c : raster_cfg) (v : Z) (k : str) : Prop :=
  exists pre post, timezones c = pre ++ (k, v) :: post /\ forall k' v', In (k', v') pre -> v' <> v.

(** pytz's [utcoffset] of a naive time [t] in a zone whose offset at the UTC
    instant [u] is [o u]: defined iff exactly one instant has local time [t]. *)
Definition pytz_localizes (o : Z -> Z) (loc : Z -> option Z) : Prop :=
  forall t d, loc t = Some d <-> exists u, u + o u = t /\ o u = d /\ forall u', u' + o u' = t -> u' = u.
