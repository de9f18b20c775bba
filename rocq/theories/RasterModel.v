(** Model of TimeConversion.get_timezone_code (/repo/impactutils/time/timeutils.py:450-518)
    with rounding of the index arithmetic; [ZoneModel.get_timezone_code] is the same in
    exact arithmetic. *)
From Coq Require Import ZArith Reals String Ascii Bool List.
From Flocq Require Import Core.
From Verif Require Import PyBase ZoneModel.
Import ListNotations.
Open Scope Z_scope.

Section Raster.
(** rounding of each operation *)
Variable rd : R -> R.
(** timeutils.py:481-512 *)
Definition cell_index_rd (to_int : R -> Z) (c : raster_cfg) (lat lon : R) : Z * Z :=
  let lon := clamp (min_lon c) (max_lon c) lon in
  let lat := clamp (min_lat c) (max_lat c) lat in
  let lon := if Rlt_bool (max_lon c) (min_lon c) && Rlt_bool lon (min_lon c) then rd (lon + 360)%R else lon in
  let col := to_int (rd (rd (lon - min_lon c) / resx c))%R in
  let row := to_int (rd (rd (max_lat c - lat) / resy c))%R in
  let row := if rows c <=? row then rows c - 1 else row in
  let col := if cols c <=? col then cols c - 1 else col in
  (row, col).
(** timeutils.py:450-518 *)
Definition get_timezone_code_rd (c : raster_cfg) (lat lon : R) (method : str) : res str :=
  match rounding method with
  | None => Err UnsupportedArgumentError
  | Some r =>
      let (row, col) := cell_index_rd r c lat lon in
      bind (py_index (raster c) row) (fun line =>
      bind (py_index line col) (fun v => first_key v (timezones c)))
  end.
End Raster.
