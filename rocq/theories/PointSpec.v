(** Vocabulary for C93 and C94. *)
From Coq Require Import ZArith Reals String Ascii Bool List.
From Verif Require Import PyBase PyStr GeoModel GeoSpec OriginModel OriginSpec DistModel.
Import ListNotations.
Open Scope R_scope.

(** The way a point's distances are adjusted: by region and mechanism. *)
Inductive by_region : string -> string -> params -> Prop :=
| active_all : by_region "Active Shallow Crust" "ALL" (mkparams WC94 MechA 10 90 1.7)
| active_rs : by_region "Active Shallow Crust" "RS" (mkparams HB08 MechR 35 50 1.7)
| active_nm : by_region "Active Shallow Crust" "NM" (mkparams HB08 MechN 40 60 1.7)
| active_ss : by_region "Active Shallow Crust" "SS" (mkparams HB08 MechSS 75 90 1.7)
| stable_all : by_region "Stable Shallow Crust" "ALL" (mkparams S14 MechA 10 90 1)
| stable_rs : by_region "Stable Shallow Crust" "RS" (mkparams S14 MechR 30 60 1)
| stable_nm : by_region "Stable Shallow Crust" "NM" (mkparams S14 MechN 40 60 1)
| stable_ss : by_region "Stable Shallow Crust" "SS" (mkparams S14 MechSS 60 90 1).
Definition known_region (v : value) : Prop := v = VStr (str_of "Active Shallow Crust") \/ v = VStr (str_of "Stable Shallow Crust").
Inductive adjusted_by (o : dict value) : params -> Prop :=
| in_region r m p : In (str_of "_tectonic_region", VStr (str_of r)) o -> In (str_of "mech", VStr (str_of m)) o \/ (~ has o (str_of "mech") /\ m = "ALL"%string) -> by_region r m p -> adjusted_by o p
| elsewhere : (forall v, In (str_of "_tectonic_region", v) o -> ~ known_region v) -> adjusted_by o (mkparams WC94 MechA 10 90 1.7).

(** [y] is where the straight line between two neighbouring rows is at [x]. *)
Definition between_rows (table : list row) (f : row -> R) (x y : R) : Prop :=
  exists before a b after, table = before ++ a :: b :: after /\ w_repi a <= x <= w_repi b /\ (y - f a) * (w_repi b - w_repi a) = (f b - f a) * (x - w_repi a).
Inductive rising : list row -> Prop :=
| rising_one a : rising [a]
| rising_more a b l : w_repi a < w_repi b -> rising (b :: l) -> rising (a :: b :: l).
Definition reaches (table : list row) (lo hi : R) : Prop := exists a l b, table = a :: l ++ [b] /\ w_repi a <= lo /\ hi <= w_repi b.
Definition least (x : R) (l : list R) : Prop := In x l /\ forall y, In y l -> x <= y.
Definition greatest (x : R) (l : list R) : Prop := In x l /\ forall y, In y l -> y <= x.
(** The distance to a place given by depth, on a sphere of 6371 km with depths as a third, straight dimension. *)
Definition away (lon0 lat0 dep0 : R) (s : site) (r : R) : Prop :=
  let '(lon, lat, dep) := s in exists t, angle (place lon0 lat0) (place lon lat) t /\ 0 <= r /\ r ^ 2 = (6371 * t) ^ 2 + (dep - dep0) ^ 2.
(** Not nearer than ten centimetres. *)
Definition epicentral (o s : site) (r : R) : Prop := let '(lon0, lat0, _) := o in exists d, away lon0 lat0 0 s d /\ ((d <= / 10000 /\ r = / 10000) \/ (/ 10000 <= d /\ r = d)).
(** The same with angles as real numbers. *)
Definition real_angles (p : params) : params := mkparams (p_scale p) (p_mech p) (deg (p_mindip p)) (deg (p_maxdip p)) (p_aspect p).

(** What an origin says about the rake. *)
Inductive rake_says (o : dict value) : value -> Prop :=
| own_rake v : In (str_of "rake", v) o -> rake_says o v
| strike_slip : ~ has o (str_of "rake") -> In (str_of "mech", VStr (str_of "SS")) o -> rake_says o (VFloat (Fin 0))
| normal : ~ has o (str_of "rake") -> In (str_of "mech", VStr (str_of "NM")) o -> rake_says o (VFloat (Fin (-90)))
| reverse : ~ has o (str_of "rake") -> In (str_of "mech", VStr (str_of "RS")) o -> rake_says o (VFloat (Fin 90))
| any_kind : ~ has o (str_of "rake") -> In (str_of "mech", VStr (str_of "ALL")) o -> rake_says o VNone
| unsaid : ~ has o (str_of "rake") -> ~ has o (str_of "mech") -> rake_says o VNone.
