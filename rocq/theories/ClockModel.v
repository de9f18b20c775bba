(** The objects LocalTime and LocalTimeNE of time/timeutils.py, from their making
    over updates to the getters.  The search itself is in ZoneModel. *)
From Coq Require Import ZArith Reals String Ascii Bool List.
From Verif Require Import PyBase ZoneModel.
Import ListNotations.
Open Scope Z_scope.

(** The shape file as seen from a latitude and longitude (the containment tests of a
    feature depend on these). *)
Definition view := R -> R -> list feature.
Inductive kind := Boundaries | NaturalEarth.                        (* LocalTime, LocalTimeNE *)
(** timeutils.py:215-256 and 306-363  _find_time_zone of the two classes *)
Definition locate (k : kind) (pytz : pytz_db) (input : view) (utctime : Z) (lat lon : R) : res local :=
  match k with
  | Boundaries => find_time_zone pytz utctime lat lon (input lat lon) None
  | NaturalEarth => find_time_zone_ne pytz utctime lon (input lat lon) None
  end.
(** The attributes of an object: _input, _lat, _lon, _utctime, and the three set together by
    _find_time_zone (_local_time, _timezone_str, _utcoffset), absent until it has returned once. *)
Record clock := mkclock { c_kind : kind; c_input : view; c_lat : R; c_lon : R; c_utctime : Z; c_found : option local }.
(** timeutils.py:254-256: the attributes are set at the very end *)
Definition search (pytz : pytz_db) (c : clock) : clock * res unit :=
  match locate (c_kind c) pytz (c_input c) (c_utctime c) (c_lat c) (c_lon c) with
  | Ok l => (mkclock (c_kind c) (c_input c) (c_lat c) (c_lon c) (c_utctime c) (Some l), Ok tt)
  | Err e => (c, Err e)
  end.
(** timeutils.py:199-213 and 287-304  __init__; [opened] is what collection(shpfile, 'r') gives *)
Definition new_clock (k : kind) (pytz : pytz_db) (opened : res view) (utctime : Z) (lat lon : R) : res clock :=
  bind opened (fun input =>
  let (c, r) := search pytz (mkclock k input lat lon utctime None) in bind r (fun _ => Ok c)).
(** timeutils.py:277-281  update *)
Definition update (pytz : pytz_db) (c : clock) (utctime : Z) (lat lon : R) : clock * res unit :=
  search pytz (mkclock (c_kind c) (c_input c) lat lon utctime (c_found c)).
(** timeutils.py:258-264  getLocalTime *)
Definition get_local_time (c : clock) : res Z := match c_found c with Some l => Ok (local_time l) | None => Err AttributeError end.
(** timeutils.py:266-272  getUTCOffset *)
Definition get_utc_offset (c : clock) : res offset := match c_found c with Some l => Ok (utc_offset l) | None => Err AttributeError end.
(** timeutils.py:274-275  getTimeZone: returns self._timezone, an attribute that no method sets *)
Definition get_time_zone (c : clock) : res str := Err AttributeError.
