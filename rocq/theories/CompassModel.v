(** Model of /repo/impactutils/mapping/compass.py.  The azimuth is a finite float
    or NaN (None). *)
From Coq Require Import ZArith Reals String Ascii Bool List.
From Verif Require Import PyBase PyStr CityModel NpModel.
Import ListNotations.
Open Scope R_scope.

(** compass.py:9-24 *)
Definition long_cardinal : list str := map str_of ["North"; "East"; "South"; "West"; "North"]%string.
Definition short_cardinal : list str := map str_of ["N"; "E"; "S"; "W"; "N"]%string.
Definition long_intercardinal : list str := map str_of
  ["North"; "Northeast"; "East"; "Southeast"; "South"; "Southwest"; "West"; "Northwest"; "North"]%string.
Definition short_intercardinal : list str := map str_of ["N"; "NE"; "E"; "SE"; "S"; "SW"; "W"; "NW"; "N"]%string.
Definition long_meteorological : list str := map str_of
  ["North"; "North-northeast"; "Northeast"; "East-northeast"; "East"; "East-southeast"; "Southeast"; "South-southeast";
   "South"; "South-southwest"; "Southwest"; "West-southwest"; "West"; "West-northwest"; "Northwest"; "North-northwest"; "North"]%string.
Definition short_meteorological : list str := map str_of
  ["N"; "NNE"; "NE"; "ENE"; "E"; "ESE"; "SE"; "SSE"; "S"; "SSW"; "SW"; "WSW"; "W"; "WNW"; "NW"; "NNW"; "N"]%string.

(** np.arange(0, 360 + step, step); the step is given in quarters of a degree *)
Definition arange (step4 : Z) : list R := map (fun k => IZR (Z.of_nat k * step4) / 4) (seq 0 (Z.to_nat (1440 / step4 + 1))).

Section Compass.
Variable rd : R -> R.
(** compass.py:59-60 and 45-46 *)
Definition positive (az : fl) : fl := if flt az (Some 0) then fop rd Rplus az (Some 360) else az.

(** compass.py:84-86; argmin of NaNs is 0 *)
Definition pick (az : fl) (angles : list R) (points : list str) : res str :=
  let i := match az with None => 0%nat | Some a => argmin (map (fun t => Rabs (rd (a - t))) angles) end in
  match nth_error points i with Some p => Ok p | None => Err IndexError end.

(** compass.py:48-86  get_compass_dir_azimuth *)
Definition compass_dir_azimuth (az : fl) (resolution format : str) : res str :=
  let az := positive az in
  if negb (str_eqb format (str_of "short") || str_eqb format (str_of "long")) then Err KeyError
  else if str_eqb resolution (str_of "cardinal") then
    pick az (arange 360) (if str_eqb format (str_of "long") then long_cardinal else short_cardinal)
  else if str_eqb resolution (str_of "intercardinal") then
    pick az (arange 180) (if str_eqb format (str_of "long") then long_intercardinal else short_intercardinal)
  else if str_eqb resolution (str_of "meteorological") then
    pick az (arange 90) (if str_eqb format (str_of "long") then long_meteorological else short_meteorological)
  else Err KeyError.

(** compass.py:27-47  get_compass_dir; [az] is the azimuth between the points *)
Definition compass_dir (az : fl) (resolution format : str) : res str := compass_dir_azimuth (positive az) resolution (str_of "short").
End Compass.
