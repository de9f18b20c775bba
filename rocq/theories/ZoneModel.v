(** Model of the zone lookups of /repo/impactutils/time/timeutils.py:
    _get_utm_zone, LocalTime, LocalTimeNE and TimeConversion.

    Coordinates are exact reals (rounding of the index arithmetic is not
    modelled).  Polygon containment, pytz and the raster contents are inputs. *)
From Coq Require Import ZArith Reals String Ascii Bool List.
From Flocq Require Import Core.
From Verif Require Import PyBase.
Import ListNotations.
Open Scope Z_scope.

(** timeutils.py:79-81  _get_utm_zone *)
Definition get_utm_zone (clon : R) : Z := (Zfloor ((clon + 180) / 6) mod 60) + 1.

(** ** LocalTime *)

(** Outcome of a shapely containment test. *)
Inductive contained := Inside | Outside | Raises.

(** One feature of the shape file: bounds, zone name, the projected containment
    test (line 236) and the geographic fallback (line 239), and the hour offset
    property used by the Natural Earth variant (line 352). *)
Record feature := {
  xmin : R; ymin : R; xmax : R; ymax : R;
  tzid : str;
  projected : contained;
  geographic : contained;
  zone_hours : Z
}.

(** timeutils.py:235-242 (and 332-339): is_inside *)
Definition is_inside (f : feature) : bool :=
  match projected f with
  | Inside => true
  | Outside => false
  | Raises => match geographic f with Inside => true | _ => false end
  end.

(** The stored offset is a timedelta (in seconds) or, in the fallback, the bare
    number of hours. *)
Inductive offset := ODelta (seconds : Z) | OHours (hours : Z).
Record local := { local_time : Z; timezone_str : str; utc_offset : offset }.

(** timeutils.py:251-253: nautical time, [round(lon / 15)] hours. *)
Definition nautical (lon : R) : Z := ZnearestE (lon / 15).

(** timeutils.py:215-256  LocalTime._find_time_zone.  Times in seconds; [tz] is
    the last value of the local variable [timezone], unbound before the first
    iteration.  [pytz name] is None for an unknown zone (UnknownTimeZoneError is
    a KeyError); otherwise the zone's [utcoffset] method on a naive datetime
    (which pytz takes as local time), None when that raises
    AmbiguousTimeError/NonExistentTimeError.  Simplified: an error raised by the
    reprojection itself (lines 233-234, outside the try) is not modelled. *)
Definition pytz_db := str -> option (Z -> option Z).

Fixpoint find_time_zone (pytz : pytz_db) (utctime : Z) (lat lon : R)
         (feats : list feature) (tz : option str) : res local :=
  match feats with
  | [] =>
      let hours := nautical lon in                                          (* 251-253 *)
      match tz with
      | None => Err Unbound                                                 (* 255 *)
      | Some z => Ok {| local_time := utctime + hours * 3600; timezone_str := z; utc_offset := OHours hours |}
      end
  | f :: fs =>
      if Rlt_bool lat (ymin f) || Rlt_bool (ymax f) lat || Rlt_bool lon (xmin f) || Rlt_bool (xmax f) lon
      then find_time_zone pytz utctime lat lon fs (Some (tzid f))           (* 231-232 *)
      else if is_inside f then
        match pytz (tzid f) with                                            (* 245-247 *)
        | None => Err KeyError
        | Some utcoffset =>
            match utcoffset utctime with
            | None => Err AmbiguousTime
            | Some off => Ok {| local_time := utctime + off; timezone_str := tzid f; utc_offset := ODelta off |}
            end
        end
      else find_time_zone pytz utctime lat lon fs (Some (tzid f))
  end.

(** timeutils.py:306-363  LocalTimeNE._find_time_zone: no bounding-box test; an
    unknown zone name falls back on the feature's hour offset. *)
Fixpoint find_time_zone_ne (pytz : pytz_db) (utctime : Z) (lon : R)
         (feats : list feature) (tz : option str) : res local :=
  match feats with
  | [] =>
      let hours := nautical lon in
      match tz with
      | None => Err Unbound
      | Some z => Ok {| local_time := utctime + hours * 3600; timezone_str := z; utc_offset := OHours hours |}
      end
  | f :: fs =>
      if is_inside f then
        let timezone := match pytz (tzid f) with None => str_of "undefined" | Some _ => tzid f end in
        if negb (str_eqb timezone (str_of "undefined")) then
          match pytz timezone with
          | None => Err KeyError
          | Some utcoffset =>
              match utcoffset utctime with
              | None => Err AmbiguousTime
              | Some off => Ok {| local_time := utctime + off; timezone_str := timezone; utc_offset := ODelta off |}
              end
          end
        else
          let off := zone_hours f * 3600 in
          Ok {| local_time := utctime + off; timezone_str := str_of "undefined"; utc_offset := ODelta off |}
      else find_time_zone_ne pytz utctime lon fs (Some (tzid f))
  end.

(** ** TimeConversion *)
Record raster_cfg := {
  rows : Z; cols : Z;                    (* self._shape *)
  resx : R; resy : R;                    (* self._resolution *)
  min_lon : R; max_lon : R; min_lat : R; max_lat : R;  (* from self._extents *)
  raster : list (list Z);
  timezones : list (str * Z)             (* OrderedDict: name -> code *)
}.

(** Python indexing with negative indices. *)
Definition py_index {A} (l : list A) (i : Z) : res A :=
  let n := Z.of_nat (List.length l) in
  let j := if i <? 0 then n + i else i in
  if (0 <=? j) && (j <? n) then
    match nth_error l (Z.to_nat j) with Some x => Ok x | None => Err IndexError end
  else Err IndexError.

(** timeutils.py:515-517: first key whose value equals the raster value. *)
Fixpoint first_key (v : Z) (l : list (str * Z)) : res str :=
  match l with
  | [] => Err IndexError
  | (k, x) :: l' => if x =? v then Ok k else first_key v l'
  end.

(** timeutils.py:481-488: clamping to the extents. *)
Definition clamp (lo hi x : R) : R :=
  if Rlt_bool hi x then hi else if Rlt_bool x lo then lo else x.

(** timeutils.py:493-512: the cell that is read. *)
Definition cell_index (rnd : R -> Z) (c : raster_cfg) (lat lon : R) : Z * Z :=
  let lon := clamp (min_lon c) (max_lon c) lon in
  let lat := clamp (min_lat c) (max_lat c) lat in
  let lon := if Rlt_bool (max_lon c) (min_lon c) && Rlt_bool lon (min_lon c) then (lon + 360)%R else lon in (* 493-494 *)
  let col := rnd ((lon - min_lon c) / resx c)%R in
  let row := rnd ((max_lat c - lat) / resy c)%R in
  let row := if rows c <=? row then rows c - 1 else row in               (* 509-510 *)
  let col := if cols c <=? col then cols c - 1 else col in               (* 511-512 *)
  (row, col).

Definition rounding (method : str) : option (R -> Z) :=
  if str_eqb method (str_of "round") then Some ZnearestE
  else if str_eqb method (str_of "floor") then Some Zfloor
  else if str_eqb method (str_of "ceil") then Some Zceil
  else None.

(** timeutils.py:450-518  get_timezone_code *)
Definition get_timezone_code (c : raster_cfg) (lat lon : R) (method : str) : res str :=
  match rounding method with
  | None => Err UnsupportedArgumentError                                 (* 469-471 *)
  | Some r =>
      let (row, col) := cell_index r c lat lon in
      bind (py_index (raster c) row) (fun line =>                        (* 513 *)
      bind (py_index line col) (fun v => first_key v (timezones c)))     (* 515-517 *)
  end.

(** A pytz zone: offset at a UTC instant, and [localize] of a naive local time
    (pytz's default is_dst=False always resolves), giving the offset chosen. *)
Record zone := { offset_at : Z -> Z; localize : Z -> Z }.

(** timeutils.py:533-551  to_localtime: [rounding_method] is not passed on; the
    default of get_timezone_code is "floor". *)
Definition to_localtime (pytz : str -> option zone) (c : raster_cfg) (utctime : Z) (lat lon : R) (method : str) : res Z :=
  bind (get_timezone_code c lat lon (str_of "floor")) (fun code =>
    match pytz code with None => Err KeyError | Some z => Ok (utctime + offset_at z utctime) end).

(** timeutils.py:553-575  to_utctime *)
Definition to_utctime (pytz : str -> option zone) (c : raster_cfg) (localtime : Z) (lat lon : R) (method : str) : res Z :=
  bind (get_timezone_code c lat lon (str_of "floor")) (fun code =>
    match pytz code with None => Err KeyError | Some z => Ok (localtime - localize z localtime) end).

(** timeutils.py:367-448  the argument checks of __init__ for a custom tiff:
    each flag says whether the argument is not None. *)
Definition conversion_args (tiff shape extents resolution coding : bool) : res unit :=
  if negb tiff then Ok tt
  else if negb shape then Err RequiredArgumentError
  else if negb extents then Err RequiredArgumentError
  else if negb resolution then Err RequiredArgumentError
  else if negb coding then Err RequiredArgumentError
  else Ok tt.
