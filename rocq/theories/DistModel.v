(** Model of /repo/impactutils/rupture/distance.py, base.py and point_rupture.py.  Arrays are
    any type [V] with a shape in the first part; later they are the lists of their values.
    ps2ff's [single_event_adjustment] is given. *)
From Coq Require Import ZArith Reals String Ascii Bool List.
From Verif Require Import PyBase PyStr GeoModel PolyModel OriginModel.
Import ListNotations.
Open Scope R_scope.

(** distance.py:108-119  get_distance_measures *)
Definition measures : list str := map str_of ["repi"; "rhypo"; "rjb"; "rrup"; "rx"; "ry"; "ry0"; "U"; "T"; "rvolc"]%string.
Definition mem (k : str) (l : list str) : bool := existsb (str_eqb k) l.
(** distance.py:204 *)
Definition gc2_distances : list str := map str_of ["rx"; "ry"; "ry0"; "U"; "T"]%string.

Section Dispatch.
Context {V : Type}.
Variable shape : V -> list nat.
Variable zeros_like : V -> V.
Definition shape_eqb (a b : V) : bool := if list_eq_dec Nat.eq_dec (shape a) (shape b) then true else false.

(** A rupture: is it an EdgeRupture, its attribute [_mesh_dx], and its methods, called with
    longitudes, latitudes and depths.  Those that look at [_mesh_dx] are given it. *)
Record rupture := mkrupture {
  r_edge : bool; r_mesh : option R;
  r_rhyp : V -> V -> V -> res V; r_repi : V -> V -> V -> res V;
  r_rrup : option R -> V -> V -> V -> res (V * V); r_rjb : option R -> V -> V -> V -> res (V * V);
  r_gc2 : V -> V -> V -> res (dict V) }.
Definition set_mesh (r : rupture) (dx : R) : rupture :=
  mkrupture (r_edge r) (Some dx) (r_rhyp r) (r_repi r) (r_rrup r) (r_rjb r) (r_gc2 r).

(** distance.py:176-178: one name, or a list of names *)
Inductive request := One (m : str) | Many (l : list str).
Definition name_list (m : request) : list str := match m with One m => [m] | Many l => l end.

(** distance.py:192-218: the measures, once the arguments are in order *)
Definition measure (ms : list str) (lat lon dep : V) (r : rupture) : res (dict V) :=
  let d := [] in
  bind (if mem (str_of "rhypo") ms then bind (r_rhyp r lon lat dep) (fun v => Ok (dset (str_of "rhypo") v d)) else Ok d) (fun d =>
  bind (if mem (str_of "repi") ms then bind (r_repi r lon lat dep) (fun v => Ok (dset (str_of "repi") v d)) else Ok d) (fun d =>
  bind (if mem (str_of "rrup") ms then bind (r_rrup r (r_mesh r) lon lat dep) (fun vv => Ok (dset (str_of "rrup_var") (snd vv) (dset (str_of "rrup") (fst vv) d))) else Ok d) (fun d =>
  bind (if mem (str_of "rjb") ms then bind (r_rjb r (r_mesh r) lon lat dep) (fun vv => Ok (dset (str_of "rjb_var") (snd vv) (dset (str_of "rjb") (fst vv) d))) else Ok d) (fun d =>
  bind (if existsb (fun m => mem m gc2_distances) ms then bind (r_gc2 r lon lat dep) (fun g => Ok (dupdate d g)) else Ok d) (fun d =>
  Ok (if mem (str_of "rvolc") ms then dset (str_of "rvolc") (zeros_like lon) d else d)))))).
(** distance.py:122-220  get_distance: the rupture afterwards and the distances *)
Definition get_distance (m : request) (lat lon dep : V) (rup : option rupture) (dx : R) : option rupture * res (dict V) :=
  match rup with
  | None => (None, Err AttributeError)
  | Some r =>
      let r := set_mesh r dx in
      let ms := name_list m in
      (Some r,
       if negb (forallb (fun m => mem m measures) ms) then Err NotImplementedErr
       else if negb (shape_eqb lat lon) || negb (shape_eqb lat dep) then Err ConsistentLengthError
       else measure ms lat lon dep r)
  end.

(** A GMPE with the distances it requires, or any other object. *)
Inductive gmpe := Gmpe (req : list str) | Other.
Inductive gmpes := OneGmpe (g : gmpe) | ManyGmpes (l : list gmpe).
Fixpoint all_requires (gs : list gmpe) (requires : list str) : res (list str) :=
  match gs with
  | [] => Ok requires
  | Other :: _ => Err TypeError
  | Gmpe req :: gs' => all_requires gs' (requires ++ req)
  end.
(** distance.py:100-103 *)
Fixpoint fill (requires : list str) (ddict ctx : dict V) : res (dict V) :=
  match requires with
  | [] => Ok ctx
  | m :: rest =>
      bind (ditem m ddict) (fun v =>
      let ctx := dset m v ctx in
      bind (if mem m [str_of "rrup"; str_of "rjb"] then bind (ditem (m ++ str_of "_var") ddict) (fun v => Ok (dset (m ++ str_of "_var") v ctx)) else Ok ctx) (fun ctx =>
      fill rest ddict ctx))
  end.
(** distance.py:61-105  _calcDistanceContext.  The order in which a set is gone through is
    given: [order] lists the members of the set of the members of a list. *)
Definition distance_context (order : list str -> list str) (g : gmpes) (lat lon dep : V) (rup : option rupture) : option rupture * res (dict V) :=
  let gs := match g with OneGmpe g => [g] | ManyGmpes l => l end in
  match all_requires gs (map str_of ["repi"; "rhypo"; "rrup"; "rjb"]%string) with
  | Err e => (rup, Err e)
  | Ok requires =>
      let requires := order requires in
      match rup with
      | Some r =>
          if r_edge r then
            match r_mesh r with
            | None => (rup, Err AttributeError)
            | Some dx => let (r', d) := get_distance (Many requires) lat lon dep rup dx in (r', bind d (fun d => fill requires d []))
            end
          else let (r', d) := get_distance (Many requires) lat lon dep rup 0.5 in (r', bind d (fun d => fill requires d []))
      | None => let (r', d) := get_distance (Many requires) lat lon dep rup 0.5 in (r', bind d (fun d => fill requires d []))
      end
  end.
End Dispatch.

(** The place of an origin: longitude, latitude and depth. *)
Definition site := (R * R * R)%type.
(** base.py:177-195  computeRhyp, at one site *)
Definition compute_rhyp (o s : site) : R := let '(lon0, lat0, dep0) := o in let '(lon, lat, dep) := s in geo_distance lon0 lat0 dep0 lon lat dep.
(** base.py:197-215  computeRepi, at one site *)
Definition compute_repi (o s : site) : R := let '(lon0, lat0, _) := o in let '(lon, lat, dep) := s in geo_distance lon0 lat0 0 lon lat dep.

(** base.py:139-175  getRuptureContext *)
Record context := mkcontext { c_mag : value; c_strike : option R; c_dip : option R; c_ztor : option R; c_width : option R; c_rake : value; c_lat : value; c_lon : value; c_depth : value }.
Definition attr (k : str) (o : dict value) : res value := match dget k o with Some v => Ok v | None => Err AttributeError end.
Definition rupture_context (o : dict value) (strike dip ztor width : res (option R)) : res context :=
  bind (attr (str_of "mag") o) (fun mag => bind strike (fun strike => bind dip (fun dip => bind ztor (fun ztor => bind width (fun width =>
  bind (match dget (str_of "rake") o with
        | Some r => Ok r
        | None =>
            match dget (str_of "mech") o with
            | Some (VStr m) => match rake_of m with Some (Some r) => Ok (VFloat (Fin r)) | Some None => Ok VNone | None => Err KeyError end
            | Some _ => Err KeyError
            | None => Ok VNone
            end
        end) (fun rake =>
  bind (attr (str_of "lat") o) (fun lat => bind (attr (str_of "lon") o) (fun lon => bind (attr (str_of "depth") o) (fun dep =>
  Ok (mkcontext mag strike dip ztor width rake lat lon dep)))))))))).

(** point_rupture.py:68-108, constants.py:17-21 *)
Definition point_length : option R := None.
Definition point_width : R := 0.
Definition point_area : option R := None.
Definition point_strike : R := 0.
Definition point_dip : R := 90.
Definition point_ztor : R := 0.
(** point_rupture.py:272-296  computeGC2 *)
Definition point_gc2 {V} (zeros_like : V -> V) (lon : V) : dict V :=
  map (fun k => (str_of k, zeros_like lon)) ["rx"; "ry"; "ry0"; "U"; "T"]%string.

(** ps2ff's enumerations *)
Inductive scaling := WC94 | HB08 | S14.
Inductive fault_kind := MechA | MechR | MechN | MechSS.
Record params := mkparams { p_scale : scaling; p_mech : fault_kind; p_mindip : R; p_maxdip : R; p_aspect : R }.
(** point_rupture.py:185-241: aspect and angles in degrees.  A name that is not bound is
    noticed where it is first used, mindip_deg in line 243: UnboundLocalError. *)
Definition ps2ff_params (o : dict value) : res params :=
  let mech := match dget (str_of "mech") o with Some m => m | None => VStr (str_of "ALL") end in
  let is m := match mech with VStr s => str_eqb s (str_of m) | _ => false end in
  match dget (str_of "_tectonic_region") o with
  | None => Ok (mkparams WC94 MechA 10 90 1.7)
  | Some region =>
      let region_is m := match region with VStr s => str_eqb s (str_of m) | _ => false end in
      if region_is "Active Shallow Crust"%string then
        if is "ALL"%string then Ok (mkparams WC94 MechA 10 90 1.7)
        else if is "RS"%string then Ok (mkparams HB08 MechR 35 50 1.7)
        else if is "NM"%string then Ok (mkparams HB08 MechN 40 60 1.7)
        else if is "SS"%string then Ok (mkparams HB08 MechSS 75 90 1.7)
        else Err Unbound
      else if region_is "Stable Shallow Crust"%string then
        if is "ALL"%string then Ok (mkparams S14 MechA 10 90 1)
        else if is "RS"%string then Ok (mkparams S14 MechR 30 60 1)
        else if is "NM"%string then Ok (mkparams S14 MechN 40 60 1)
        else if is "SS"%string then Ok (mkparams S14 MechSS 60 90 1)
        else Err Unbound
      else Ok (mkparams WC94 MechA 10 90 1.7)
  end.

(** One row of the table of ps2ff: distance, Rjb, Rrup and their variances. *)
Record row := mkrow { w_repi : R; w_rjb : R; w_rrup : R; w_rjb_var : R; w_rrup_var : R }.
(** scipy.interpolate.interp1d, kind 'linear', assume_sorted: between the last two rows whose
    first one lies before [x], between the first two rows if there is none; outside of the
    table ValueError *)
Fixpoint bracket (f : row -> R) (x : R) (r0 : row) (rest : list row) : option (row * row) :=
  match rest with
  | [] => None
  | r1 :: [] => Some (r0, r1)
  | r1 :: (_ :: _) as rest' => if rltb (f r1) x then bracket f x r1 rest' else Some (r0, r1)
  end.
Definition line (x0 y0 x1 y1 x : R) : R := (y1 - y0) / (x1 - x0) * (x - x0) + y0.
Definition interp (table : list row) (f : row -> R) (x : R) : res R :=
  match table with
  | r0 :: (_ :: _) as rest =>
      match bracket w_repi x r0 rest with
      | None => Err NotModelled
      | Some (a, b) =>
          if rltb x (w_repi r0) || rltb (w_repi (last rest r0)) x then Err ValueError
          else Ok (line (w_repi a) (f a) (w_repi b) (f b) x)
      end
  | _ => Err NotModelled
  end.
Fixpoint map_res {A B} (f : A -> res B) (l : list A) : res (list B) :=
  match l with [] => Ok [] | x :: l' => bind (f x) (fun y => bind (map_res f l') (fun r => Ok (y :: r))) end.

Section Point.
(** single_event_adjustment(mag, depth, ar, mechanism, mag_scaling, n_repi = 13, min_repi,
    max_repi, nxny = 7, n_theta = 19, n_dip = 4, min_dip, max_dip, n_eps = 5, trunc = 2):
    the table *)
Variable adjustment : value -> value -> params -> R -> R -> res (list row).
(** np.clip(repis, 0.0001, None) *)
Definition near_zero : R := 1 / 10000.
Definition repis (o : site) (sites : list site) : list R := map (fun s => Rmax (compute_repi o s) near_zero) sites.
Definition list_min (l : list R) : res R := match l with [] => Err ValueError | x :: r => Ok (fold_left Rmin r x) end.
Definition list_max (l : list R) : res R := match l with [] => Err ValueError | x :: r => Ok (fold_left Rmax r x) end.
(** radians of the dips *)
Definition in_radians (p : params) : params := mkparams (p_scale p) (p_mech p) (p_mindip p * PI / 180) (p_maxdip p * PI / 180) (p_aspect p).
(** point_rupture.py:164-270  _computeRdist; [o] are the attributes of the origin and [at_o] its place *)
Definition compute_rdist (o : dict value) (at_o : site) (rtype : str) (sites : list site) : res (list R * list R) :=
  bind (ps2ff_params o) (fun p =>
  let rs := repis at_o sites in
  bind (attr (str_of "mag") o) (fun mag => bind (attr (str_of "depth") o) (fun dep =>
  bind (list_min rs) (fun lo => bind (list_max rs) (fun hi =>
  bind (adjustment mag dep (in_radians p) (lo - 1 / 100000) (hi + 1 / 10)) (fun table =>
  if str_eqb rtype (str_of "Rjb") then bind (map_res (interp table w_rjb) rs) (fun a => bind (map_res (interp table w_rjb_var) rs) (fun b => Ok (a, b)))
  else if str_eqb rtype (str_of "Rrup") then bind (map_res (interp table w_rrup) rs) (fun a => bind (map_res (interp table w_rrup_var) rs) (fun b => Ok (a, b)))
  else Err ValueError)))))).
(** point_rupture.py:134-162  computeRjb, computeRrup *)
Definition point_rjb (o : dict value) (at_o : site) (sites : list site) : res (list R * list R) := compute_rdist o at_o (str_of "Rjb") sites.
Definition point_rrup (o : dict value) (at_o : site) (sites : list site) : res (list R * list R) := compute_rdist o at_o (str_of "Rrup") sites.
End Point.
