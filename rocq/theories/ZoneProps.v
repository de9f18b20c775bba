(** Properties C12-C15 and C60: zone lookups. *)
From Coq Require Import ZArith Reals String Ascii Bool List Lia Lra.
From Flocq Require Import Core.
From Verif Require Import PyBase ZoneModel ZoneSpec ZoneProofs.
Import ListNotations.
Open Scope Z_scope.

(** C12.  The zone number is always between 1 and 60. *)
Theorem C12_range : forall lon, 1 <= get_utm_zone lon <= 60.
Proof. exact utm_range. Qed.
Print Assumptions C12_range.

(** C12.  Period 360 degrees. *)
Theorem C12_periodic : forall lon k, get_utm_zone (lon + 360 * IZR k) = get_utm_zone lon.
Proof. exact utm_periodic. Qed.
Print Assumptions C12_periodic.

(** C12.  Zone z covers exactly its half-open six-degree band. *)
Theorem C12_band : forall lon z, (-180 <= lon < 180)%R ->
  (get_utm_zone lon = z <-> 1 <= z <= 60 /\ (-180 + 6 * (IZR z - 1) <= lon < -180 + 6 * IZR z)%R).
Proof. exact utm_band. Qed.
Print Assumptions C12_band.

Example C12_ex : get_utm_zone (-122) = 10 /\ get_utm_zone (-122 + 360 * IZR 3) = 10.
Proof.
  assert (H : get_utm_zone (-122) = 10) by (apply C12_band; [lra|split; [lia|lra]]).
  split; [exact H|]. rewrite C12_periodic. exact H.
Qed.

(** C13.  Every lookup reads a cell inside the raster. *)
Theorem C13_inside_raster : forall c lat lon m, good_raster c -> (min_lon c <= max_lon c)%R ->
  In m (map str_of ["round"; "floor"; "ceil"]%string) ->
  exists row col v, 0 <= row < rows c /\ 0 <= col < cols c /\ cell c row col = Some v /\
    get_timezone_code c lat lon m = first_key v (timezones c).
Proof. exact lookup_in_raster. Qed.
Print Assumptions C13_inside_raster.

(** C13.  Floor rounding reads the cell containing the point. *)
Theorem C13_containing_cell : forall c lat lon, good_raster c ->
  (IZR (cols c) * resx c = max_lon c - min_lon c)%R -> (IZR (rows c) * resy c = max_lat c - min_lat c)%R ->
  (min_lon c <= lon < max_lon c)%R -> (min_lat c < lat <= max_lat c)%R ->
  exists row col v, 0 <= row < rows c /\ 0 <= col < cols c /\ cell c row col = Some v /\
    get_timezone_code c lat lon (str_of "floor") = first_key v (timezones c) /\
    (min_lon c + IZR col * resx c <= lon < min_lon c + (IZR col + 1) * resx c)%R /\
    (max_lat c - (IZR row + 1) * resy c < lat <= max_lat c - IZR row * resy c)%R.
Proof. exact floor_cell. Qed.
Print Assumptions C13_containing_cell.

(** C13.  A point outside is looked up at the nearest point of the extent. *)
Theorem C13_clamped : forall c lat lon m, good_raster c -> (min_lon c <= max_lon c)%R ->
  get_timezone_code c lat lon m =
  get_timezone_code c (Rmax (min_lat c) (Rmin (max_lat c) lat)) (Rmax (min_lon c) (Rmin (max_lon c) lon)) m.
Proof. exact clamp_minmax. Qed.
Print Assumptions C13_clamped.

(** C13.  The name returned is the first one with the cell's code. *)
Theorem C13_first_name : forall c v k, first_key v (timezones c) = Ok k <-> first_named c v k.
Proof. exact (fun c v => first_key_spec v (timezones c)). Qed.
Print Assumptions C13_first_name.

Theorem C13_missing_code : forall c v, (forall k, ~ In (k, v) (timezones c)) -> first_key v (timezones c) = Err IndexError.
Proof. exact (fun c v => first_key_none v (timezones c)). Qed.
Print Assumptions C13_missing_code.

(** C13.  Any other rounding method is refused, whatever the rest. *)
Theorem C13_bad_method : forall c lat lon m, ~ In m (map str_of ["round"; "floor"; "ceil"]%string) ->
  get_timezone_code c lat lon m = Err UnsupportedArgumentError.
Proof. exact lookup_bad_method. Qed.
Print Assumptions C13_bad_method.

(** C13.  Custom rasters need all four arguments. *)
Theorem C13_required_arguments : forall tiff shape extents resolution coding,
  conversion_args tiff shape extents resolution coding = Ok tt <->
  (tiff = true -> shape = true /\ extents = true /\ resolution = true /\ coding = true).
Proof. exact conversion_args_spec. Qed.
Print Assumptions C13_required_arguments.

(** C13.  to_localtime silently ignores its rounding method, even an invalid one. *)
Theorem C13_conversion_ignores_method : forall pytz c t lat lon m,
  to_localtime pytz c t lat lon m = to_localtime pytz c t lat lon (str_of "floor").
Proof. exact localtime_ignores_method. Qed.
Print Assumptions C13_conversion_ignores_method.

(** C13.  Converting to local time and back returns the same instant whenever
    the local time is unambiguous in the zone. *)
Theorem C13_roundtrip : forall pytz c t lat lon m m' l,
  to_localtime pytz c t lat lon m = Ok l ->
  (forall name z, pytz name = Some z -> localize z l = offset_at z (l - localize z l)) ->
  (forall name z, pytz name = Some z -> forall u, u + offset_at z u = l -> u = t) ->
  to_utctime pytz c l lat lon m' = Ok t.
Proof. exact local_utc_roundtrip. Qed.
Print Assumptions C13_roundtrip.

Definition demo_raster : raster_cfg :=
  {| rows := 2; cols := 3; resx := 10; resy := 10; min_lon := -10; max_lon := 20; min_lat := 0; max_lat := 20;
     raster := [[1; 2; 3]; [4; 5; 1]]; timezones := [(str_of "A", 1); (str_of "B", 5); (str_of "C", 5)] |}.
Example C13_ex : good_raster demo_raster /\ (min_lon demo_raster <= max_lon demo_raster)%R /\
  (IZR (cols demo_raster) * resx demo_raster = max_lon demo_raster - min_lon demo_raster)%R /\
  get_timezone_code demo_raster 5 5 (str_of "floor") = Ok (str_of "B").
Proof.
  assert (G : good_raster demo_raster).
  { unfold good_raster, demo_raster; simpl. repeat split; try lia; try lra. repeat constructor. }
  split; [exact G|]. split; [simpl; lra|]. split; [simpl; lra|].
  destruct (C13_containing_cell demo_raster 5 5 G) as (row & col & v & Hr & Hc & Hv & -> & H1 & H2); simpl in *; try lra.
  assert (row = 1).
  { assert (0 < row) by (apply lt_IZR; simpl; lra). lia. }
  assert (col = 1).
  { assert (0 < col) by (apply lt_IZR; simpl; lra). assert (col < 2) by (apply lt_IZR; simpl; lra). lia. }
  subst. injection Hv as <-. reflexivity.
Qed.

(** C14.  With extents crossing the antimeridian only the first or the last
    column is ever read: the last one for longitudes east of the east edge. *)
Theorem C14_edge_columns : forall c lat lon m, good_raster c ->
  (max_lon c < min_lon c)%R -> (IZR (cols c) * resx c = max_lon c + 360 - min_lon c)%R ->
  In m (map str_of ["round"; "floor"; "ceil"]%string) ->
  exists row v, 0 <= row < rows c /\
    cell c row (if Rlt_bool (max_lon c) lon then cols c - 1 else 0) = Some v /\
    get_timezone_code c lat lon m = first_key v (timezones c).
Proof. exact wrap_columns. Qed.
Print Assumptions C14_edge_columns.

Definition wrapped_raster : raster_cfg :=
  {| rows := 1; cols := 4; resx := 5; resy := 10; min_lon := 170; max_lon := -170; min_lat := 0; max_lat := 10;
     raster := [[1; 2; 3; 4]]; timezones := [(str_of "A", 1); (str_of "B", 2); (str_of "C", 3); (str_of "D", 4)] |}.
Example C14_ex : good_raster wrapped_raster /\
  (* 178E lies in the second column, but the last one is returned *)
  get_timezone_code wrapped_raster 5 178 (str_of "floor") = Ok (str_of "D").
Proof.
  assert (G : good_raster wrapped_raster).
  { unfold good_raster, wrapped_raster; simpl. repeat split; try lia; try lra. repeat constructor. }
  split; [exact G|].
  destruct (C14_edge_columns wrapped_raster 5 178 (str_of "floor") G) as (row & v & Hr & Hv & ->); simpl in *; try lra; [tauto|].
  rewrite Rlt_bool_true in Hv by lra. assert (row = 0) by lia. subst. injection Hv as <-. reflexivity.
Qed.

(** C15.  The first feature covering the point decides, whatever follows. *)
Theorem C15_first_feature : forall pytz t lat lon pre f post tz,
  (forall g, In g pre -> ~ covers g lat lon) -> covers f lat lon ->
  find_time_zone pytz t lat lon (pre ++ f :: post) tz =
  match pytz (tzid f) with
  | None => Err KeyError
  | Some utcoffset =>
      match utcoffset t with
      | None => Err AmbiguousTime
      | Some off => Ok {| local_time := t + off; timezone_str := tzid f; utc_offset := ODelta off |}
      end
  end.
Proof. exact find_first. Qed.
Print Assumptions C15_first_feature.

(** C15.  Without one: nautical time, under the name of the last feature; the
    stored offset is then a bare number of hours. *)
Theorem C15_fallback : forall pytz t lat lon feats f,
  (forall g, In g (feats ++ [f]) -> ~ covers g lat lon) ->
  find_time_zone pytz t lat lon (feats ++ [f]) None =
  Ok {| local_time := t + nautical lon * 3600; timezone_str := tzid f; utc_offset := OHours (nautical lon) |}.
Proof. exact find_fallback. Qed.
Print Assumptions C15_fallback.

(** C15.  An empty shape file makes the constructor fail. *)
Theorem C15_empty : forall pytz t lat lon, find_time_zone pytz t lat lon [] None = Err Unbound.
Proof. reflexivity. Qed.
Print Assumptions C15_empty.

(** C15.  The nautical hour is the nearest multiple of 15 degrees. *)
Theorem C15_nautical : forall lon, (Rabs (lon - 15 * IZR (nautical lon)) <= 15 / 2)%R.
Proof. exact nautical_spec. Qed.
Print Assumptions C15_nautical.

(** C15.  The Natural Earth variant: same rule without bounding boxes; a zone
    unknown to pytz uses the hours recorded in the feature. *)
Theorem C15_natural_earth : forall pytz t lon pre f post tz,
  (forall g, In g pre -> ~ poly_contains g) -> poly_contains f -> tzid f <> str_of "undefined" ->
  find_time_zone_ne pytz t lon (pre ++ f :: post) tz =
  match pytz (tzid f) with
  | Some utcoffset =>
      match utcoffset t with
      | None => Err AmbiguousTime
      | Some off => Ok {| local_time := t + off; timezone_str := tzid f; utc_offset := ODelta off |}
      end
  | None => Ok {| local_time := t + zone_hours f * 3600; timezone_str := str_of "undefined";
                  utc_offset := ODelta (zone_hours f * 3600) |}
  end.
Proof. exact find_ne_first. Qed.
Print Assumptions C15_natural_earth.

Theorem C15_natural_earth_fallback : forall pytz t lon feats f,
  (forall g, In g (feats ++ [f]) -> ~ poly_contains g) ->
  find_time_zone_ne pytz t lon (feats ++ [f]) None =
  Ok {| local_time := t + nautical lon * 3600; timezone_str := tzid f; utc_offset := OHours (nautical lon) |}.
Proof. exact find_ne_fallback. Qed.
Print Assumptions C15_natural_earth_fallback.

Definition feat (x0 x1 : R) (n : string) (p g : contained) : feature :=
  {| xmin := x0; ymin := 0; xmax := x1; ymax := 10; tzid := str_of n; projected := p; geographic := g; zone_hours := 5 |}.
Example C15_ex :
  find_time_zone (fun n => if str_eqb n (str_of "B") then Some (fun _ => Some 3600) else None) 1000 5 5
    [feat 6 9 "A" Inside Inside; feat 0 9 "B" Raises Inside; feat 0 9 "C" Inside Inside] None
  = Ok {| local_time := 4600; timezone_str := str_of "B"; utc_offset := ODelta 3600 |} /\
  find_time_zone (fun _ => None) 1000 5 (-122) [feat 6 9 "A" Inside Inside; feat 0 9 "B" Raises Inside] None
  = Ok {| local_time := 1000 + nautical (-122) * 3600; timezone_str := str_of "B"; utc_offset := OHours (nautical (-122)) |}.
Proof.
  split.
  - etransitivity; [apply (C15_first_feature _ 1000 5 5 [feat 6 9 "A" Inside Inside]
        (feat 0 9 "B" Raises Inside) [feat 0 9 "C" Inside Inside])|reflexivity].
    + intros g [<-|[]]. unfold covers, box_contains, feat; simpl. lra.
    + unfold covers, box_contains, poly_contains, feat; simpl. split; [lra|tauto].
  - apply (C15_fallback _ 1000 5 (-122) [feat 6 9 "A" Inside Inside] (feat 0 9 "B" Raises Inside)).
    intros g [<-|[<-|[]]]; unfold covers, box_contains, feat; simpl; lra.
Qed.

(** C60.  LocalTime hands the UTC time to pytz, which reads it as local time.
    Far enough from any change of offset the answer is right. *)
Theorem C60_steady_offset : forall o loc t M,
  pytz_localizes o loc -> (forall u, Z.abs (o u) <= M) ->
  (forall u, t - M <= u <= t + M -> o u = o t) -> loc t = Some (o t).
Proof. exact pytz_far. Qed.
Print Assumptions C60_steady_offset.

(** A zone moving from UTC-8 to UTC-7 at instant 0. *)
Definition pacific_o (u : Z) : Z := if u <? 0 then -28800 else -25200.
Definition pacific_loc (t : Z) : option Z :=
  if t <? -28800 then Some (-28800) else if t <? -25200 then None else Some (-25200).

(** C60.  ... but within hours of a change the reported offset can be wrong, or
    the constructor can fail although a UTC instant is never ambiguous. *)
Theorem C60_near_change_refuted : pytz_localizes pacific_o pacific_loc /\
  (exists t f d, covers f 5 5 /\
    find_time_zone (fun _ => Some pacific_loc) t 5 5 [f] None =
      Ok {| local_time := t + d; timezone_str := tzid f; utc_offset := ODelta d |} /\ d <> pacific_o t) /\
  (exists t f, covers f 5 5 /\ find_time_zone (fun _ => Some pacific_loc) t 5 5 [f] None = Err AmbiguousTime).
Proof.
  assert (C : covers (feat 0 9 "A" Inside Inside) 5 5)
    by (unfold covers, box_contains, poly_contains, feat; simpl; split; [lra|tauto]).
  split; [|split].
  - intros t d. unfold pacific_o, pacific_loc. split.
    + destruct (Z.ltb_spec t (-28800)); [|destruct (Z.ltb_spec t (-25200)); [discriminate|]];
        intro E; injection E as <-.
      * exists (t + 28800). destruct (Z.ltb_spec (t + 28800) 0); [|lia].
        split; [lia|]. split; [reflexivity|]. intro u'. destruct (Z.ltb_spec u' 0); lia.
      * exists (t + 25200). destruct (Z.ltb_spec (t + 25200) 0); [lia|].
        split; [lia|]. split; [reflexivity|]. intro u'. destruct (Z.ltb_spec u' 0); lia.
    + intros (u & E1 & E2 & E3). destruct (Z.ltb_spec u 0).
      * destruct (Z.ltb_spec t (-28800)); [congruence|lia].
      * destruct (Z.ltb_spec t (-28800)); [lia|]. destruct (Z.ltb_spec t (-25200)); [lia|congruence].
  - exists (-3600), (feat 0 9 "A" Inside Inside), (-25200). split; [exact C|]. split.
    + etransitivity; [apply (C15_first_feature _ _ _ _ [] _ []); [intros ? []|exact C]|reflexivity].
    + vm_compute. discriminate.
  - exists (-27000), (feat 0 9 "A" Inside Inside). split; [exact C|].
    etransitivity; [apply (C15_first_feature _ _ _ _ [] _ []); [intros ? []|exact C]|reflexivity].
Qed.
Print Assumptions C60_near_change_refuted.

Example C60_ex : pacific_loc (-200000) = Some (pacific_o (-200000)).
Proof.
  apply (C60_steady_offset pacific_o pacific_loc (-200000) 28800).
  - exact (proj1 C60_near_change_refuted).
  - intro u. unfold pacific_o. destruct (u <? 0); lia.
  - intros u Hu. unfold pacific_o. destruct (Z.ltb_spec u 0); [reflexivity|lia].
Qed.
