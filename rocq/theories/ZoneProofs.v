(** Proofs about zone lookups. *)
From Coq Require Import ZArith Reals String Ascii Bool List Lia Lra.
From Flocq Require Import Core.
From Verif Require Import PyBase FloatBase ZoneModel ZoneSpec.
Import ListNotations.
Open Scope Z_scope.

(** ** UTM zones *)
Lemma utm_range : forall lon, 1 <= get_utm_zone lon <= 60.
Proof. intro lon. unfold get_utm_zone. pose proof (Z.mod_pos_bound (Zfloor ((lon + 180) / 6)) 60 ltac:(lia)). lia. Qed.

Lemma Zfloor_add : forall x n, Zfloor (x + IZR n) = Zfloor x + n.
Proof.
  intros x n. apply Zfloor_imp. pose proof (Zfloor_lb x). pose proof (Zfloor_ub x).
  rewrite !plus_IZR. lra.
Qed.

Lemma utm_periodic : forall lon k, get_utm_zone (lon + 360 * IZR k) = get_utm_zone lon.
Proof.
  intros lon k. unfold get_utm_zone. f_equal.
  replace ((lon + 360 * IZR k + 180) / 6)%R with ((lon + 180) / 6 + IZR (k * 60))%R
    by (rewrite mult_IZR; field).
  rewrite Zfloor_add. apply Z.mod_add. lia.
Qed.

Lemma utm_band : forall lon z, (-180 <= lon < 180)%R ->
  (get_utm_zone lon = z <-> 1 <= z <= 60 /\ (-180 + 6 * (IZR z - 1) <= lon < -180 + 6 * IZR z)%R).
Proof.
  intros lon z Hl. unfold get_utm_zone.
  pose proof (Zfloor_lb ((lon + 180) / 6)) as H1. pose proof (Zfloor_ub ((lon + 180) / 6)) as H2.
  set (f := Zfloor ((lon + 180) / 6)) in *.
  assert (Hf : 0 <= f < 60).
  { split.
    - apply Z.lt_succ_r. apply lt_IZR. rewrite succ_IZR. lra.
    - apply lt_IZR. lra. }
  rewrite Z.mod_small by assumption. split.
  - intros <-. split; [lia|]. rewrite plus_IZR. lra.
  - intros [Hz Hb]. assert (f = z - 1); [|lia]. unfold f. apply Zfloor_imp.
    replace (z - 1 + 1) with z by lia. rewrite minus_IZR. lra.
Qed.

(** ** LocalTime *)
Lemma is_inside_iff : forall f, is_inside f = true <-> poly_contains f.
Proof.
  intro f. unfold is_inside, poly_contains. destruct (projected f), (geographic f); intuition congruence.
Qed.

Lemma box_test : forall f lat lon,
  (Rlt_bool lat (ymin f) || Rlt_bool (ymax f) lat || Rlt_bool lon (xmin f) || Rlt_bool (xmax f) lon) = false
  <-> box_contains f lat lon.
Proof.
  intros f lat lon. rewrite !orb_false_iff. unfold box_contains.
  destruct (Rlt_bool_spec lat (ymin f)); destruct (Rlt_bool_spec (ymax f) lat);
  destruct (Rlt_bool_spec lon (xmin f)); destruct (Rlt_bool_spec (xmax f) lon); intuition (try congruence; try lra).
Qed.

Lemma covers_iff : forall f lat lon, covers f lat lon <-> box_contains f lat lon /\ is_inside f = true.
Proof. intros. unfold covers. rewrite is_inside_iff. tauto. Qed.

Lemma find_first : forall pytz t lat lon pre f post tz,
  (forall g, In g pre -> ~ covers g lat lon) -> covers f lat lon ->
  find_time_zone pytz t lat lon (pre ++ f :: post) tz =
  match pytz (tzid f) with
  | None => Err KeyError
  | Some utcoffset =>
      match utcoffset t with
      | None => Err AmbiguousTime
      | Some off => Ok {| local_time := t + off; timezone_str := tzid f; utc_offset := ODelta off |}
      end
  end.
Proof.
  induction pre as [|g pre IH]; intros f post tz Hpre Hc; pose proof Hc as Hc'; apply covers_iff in Hc as [Hb Hi].
  - cbn [app find_time_zone]. apply box_test in Hb. rewrite Hb, Hi. reflexivity.
  - cbn [app find_time_zone].
    destruct (Rlt_bool lat (ymin g) || Rlt_bool (ymax g) lat || Rlt_bool lon (xmin g) || Rlt_bool (xmax g) lon) eqn:E.
    + apply IH; auto. intros h Hh. apply Hpre. right. assumption.
    + destruct (is_inside g) eqn:Ei.
      * exfalso. apply (Hpre g); [left; reflexivity|]. apply covers_iff. split; [apply box_test|]; assumption.
      * apply IH; auto. intros h Hh. apply Hpre. right. assumption.
Qed.

Lemma find_none : forall pytz t lat lon feats tz,
  (forall g, In g feats -> ~ covers g lat lon) ->
  find_time_zone pytz t lat lon feats tz =
  match rev feats, tz with
  | f :: _, _ => Ok {| local_time := t + nautical lon * 3600; timezone_str := tzid f; utc_offset := OHours (nautical lon) |}
  | [], Some z => Ok {| local_time := t + nautical lon * 3600; timezone_str := z; utc_offset := OHours (nautical lon) |}
  | [], None => Err Unbound
  end.
Proof.
  intros pytz t lat lon. induction feats as [|g feats IH]; intros tz Hn.
  - cbn [find_time_zone rev]. destruct tz; reflexivity.
  - cbn [find_time_zone].
    assert (Hrec : find_time_zone pytz t lat lon feats (Some (tzid g)) =
       match rev (g :: feats), tz with
       | f :: _, _ => Ok {| local_time := t + nautical lon * 3600; timezone_str := tzid f; utc_offset := OHours (nautical lon) |}
       | [], Some z => Ok {| local_time := t + nautical lon * 3600; timezone_str := z; utc_offset := OHours (nautical lon) |}
       | [], None => Err Unbound
       end).
    { rewrite IH by (intros h Hh; apply Hn; right; assumption). cbn [rev].
      destruct (rev feats); reflexivity. }
    destruct (Rlt_bool lat (ymin g) || Rlt_bool (ymax g) lat || Rlt_bool lon (xmin g) || Rlt_bool (xmax g) lon) eqn:E;
      [exact Hrec|].
    destruct (is_inside g) eqn:Ei; [|exact Hrec].
    exfalso. apply (Hn g); [left; reflexivity|]. apply covers_iff. split; [apply box_test|]; assumption.
Qed.

Lemma nautical_spec : forall lon, (Rabs (lon - 15 * IZR (nautical lon)) <= 15 / 2)%R.
Proof.
  intro lon. unfold nautical. pose proof (nearest_half (lon / 15)) as H.
  replace (lon - 15 * IZR (ZnearestE (lon / 15)))%R with (- (15 * (IZR (ZnearestE (lon / 15)) - lon / 15)))%R by field.
  rewrite Rabs_Ropp, Rabs_mult, (Rabs_pos_eq 15) by lra. lra.
Qed.

Lemma find_ne_first : forall pytz t lon pre f post tz,
  (forall g, In g pre -> ~ poly_contains g) -> poly_contains f -> tzid f <> str_of "undefined" ->
  find_time_zone_ne pytz t lon (pre ++ f :: post) tz =
  match pytz (tzid f) with
  | Some utcoffset =>
      match utcoffset t with
      | None => Err AmbiguousTime
      | Some off => Ok {| local_time := t + off; timezone_str := tzid f; utc_offset := ODelta off |}
      end
  | None => Ok {| local_time := t + zone_hours f * 3600; timezone_str := str_of "undefined";
                  utc_offset := ODelta (zone_hours f * 3600) |}
  end.
Proof.
  induction pre as [|g pre IH]; intros f post tz Hpre Hi Hu.
  - apply is_inside_iff in Hi. cbn [app find_time_zone_ne]. rewrite Hi. destruct (pytz (tzid f)) as [off|] eqn:E.
    + rewrite (proj2 (str_eqb_neq (tzid f) (str_of "undefined")) Hu). cbn [negb]. rewrite E. reflexivity.
    + rewrite str_eqb_refl. reflexivity.
  - cbn [app find_time_zone_ne]. destruct (is_inside g) eqn:Eg.
    + exfalso. apply (Hpre g); [left; reflexivity|]. apply is_inside_iff. assumption.
    + apply IH; auto. intros h Hh. apply Hpre. right. assumption.
Qed.

Lemma find_ne_none : forall pytz t lon feats tz,
  (forall g, In g feats -> ~ poly_contains g) ->
  find_time_zone_ne pytz t lon feats tz =
  match rev feats, tz with
  | f :: _, _ => Ok {| local_time := t + nautical lon * 3600; timezone_str := tzid f; utc_offset := OHours (nautical lon) |}
  | [], Some z => Ok {| local_time := t + nautical lon * 3600; timezone_str := z; utc_offset := OHours (nautical lon) |}
  | [], None => Err Unbound
  end.
Proof.
  intros pytz t lon. induction feats as [|g feats IH]; intros tz Hn.
  - cbn [find_time_zone_ne rev]. destruct tz; reflexivity.
  - cbn [find_time_zone_ne]. destruct (is_inside g) eqn:Ei.
    + exfalso. apply (Hn g); [left; reflexivity|]. apply is_inside_iff. assumption.
    + rewrite IH by (intros h Hh; apply Hn; right; assumption). cbn [rev]. destruct (rev feats); reflexivity.
Qed.

(** Naive UTC time read as local time: right away from offset changes. *)
Lemma pytz_far : forall o loc t M,
  pytz_localizes o loc -> (forall u, Z.abs (o u) <= M) ->
  (forall u, t - M <= u <= t + M -> o u = o t) -> loc t = Some (o t).
Proof.
  intros o loc t M Hl HM Hc. apply Hl. exists (t - o t).
  pose proof (HM t).
  assert (E : o (t - o t) = o t) by (apply Hc; lia).
  split; [rewrite E; lia|]. split; [assumption|].
  intros u Hu. pose proof (HM u). assert (o u = o t) by (apply Hc; lia). lia.
Qed.

Lemma find_fallback : forall pytz t lat lon feats f,
  (forall g, In g (feats ++ [f]) -> ~ covers g lat lon) ->
  find_time_zone pytz t lat lon (feats ++ [f]) None =
  Ok {| local_time := t + nautical lon * 3600; timezone_str := tzid f; utc_offset := OHours (nautical lon) |}.
Proof. intros. rewrite find_none by assumption. rewrite rev_app_distr. reflexivity. Qed.

Lemma find_ne_fallback : forall pytz t lon feats f,
  (forall g, In g (feats ++ [f]) -> ~ poly_contains g) ->
  find_time_zone_ne pytz t lon (feats ++ [f]) None =
  Ok {| local_time := t + nautical lon * 3600; timezone_str := tzid f; utc_offset := OHours (nautical lon) |}.
Proof. intros. rewrite find_ne_none by assumption. rewrite rev_app_distr. reflexivity. Qed.

(** ** Raster lookup *)
Lemma clamp_range : forall lo hi x, (lo <= hi)%R -> (lo <= clamp lo hi x <= hi)%R.
Proof.
  intros lo hi x H. unfold clamp. destruct (Rlt_bool_spec hi x); [lra|]. destruct (Rlt_bool_spec x lo); lra.
Qed.

Lemma clamp_id : forall lo hi x, (lo <= x <= hi)%R -> clamp lo hi x = x.
Proof.
  intros lo hi x H. unfold clamp. destruct (Rlt_bool_spec hi x); [lra|]. destruct (Rlt_bool_spec x lo); [lra|reflexivity].
Qed.

Lemma clamp_idem : forall lo hi x, (lo <= hi)%R -> clamp lo hi (clamp lo hi x) = clamp lo hi x.
Proof. intros. apply clamp_id, clamp_range. assumption. Qed.

Definition rounding_fn (r : R -> Z) : Prop := r = ZnearestE \/ r = Zfloor \/ r = Zceil.

Lemma rounding_cases : forall m r, rounding m = Some r -> rounding_fn r.
Proof.
  intros m r H. unfold rounding in H.
  destruct (str_eqb m (str_of "round")); [inversion H; subst; left; reflexivity|].
  destruct (str_eqb m (str_of "floor")); [inversion H; subst; right; left; reflexivity|].
  destruct (str_eqb m (str_of "ceil")); [inversion H; subst; right; right; reflexivity|discriminate].
Qed.

Lemma rounding_nonneg : forall r x, rounding_fn r -> (0 <= x)%R -> 0 <= r x.
Proof.
  intros r x [->|[->| ->]] H.
  - apply nearest_ge. assumption.
  - apply Zfloor_lub. assumption.
  - apply le_IZR. eapply Rle_trans; [apply H|]. apply Zceil_ub.
Qed.

Lemma rounding_int : forall r n, rounding_fn r -> r (IZR n) = n.
Proof.
  intros r n [->|[->| ->]]; [apply nearest_int|apply Zfloor_IZR|apply Zceil_IZR].
Qed.

Lemma py_index_in : forall {A} (l : list A) i, 0 <= i < Z.of_nat (List.length l) ->
  exists x, py_index l i = Ok x /\ nth_error l (Z.to_nat i) = Some x.
Proof.
  intros A l i H. unfold py_index. destruct (i <? 0) eqn:E; [lia|].
  destruct (0 <=? i) eqn:E1; [|lia]. destruct (i <? Z.of_nat (List.length l)) eqn:E2; [|lia]. cbn [andb].
  destruct (nth_error l (Z.to_nat i)) eqn:En; [eauto|].
  apply nth_error_None in En. lia.
Qed.

Lemma read_cell : forall c row col, good_raster c -> 0 <= row < rows c -> 0 <= col < cols c ->
  exists v, cell c row col = Some v /\
  bind (py_index (raster c) row) (fun line => bind (py_index line col) (fun v => first_key v (timezones c)))
  = first_key v (timezones c).
Proof.
  intros c row col (Hr & Hc & _ & _ & _ & Hl & Hf) H1 H2.
  destruct (py_index_in (raster c) row) as (line & E1 & E2); [rewrite Hl; lia|].
  assert (Hll : List.length line = Z.to_nat (cols c)).
  { rewrite Forall_forall in Hf. apply Hf. eapply nth_error_In. eassumption. }
  destruct (py_index_in line col) as (v & E3 & E4); [rewrite Hll; lia|].
  exists v. unfold cell. rewrite E2, E4. split; [reflexivity|]. rewrite E1. cbn [bind]. rewrite E3. reflexivity.
Qed.

Lemma cell_index_range : forall r c lat lon, rounding_fn r -> good_raster c -> (min_lon c <= max_lon c)%R ->
  0 <= fst (cell_index r c lat lon) < rows c /\ 0 <= snd (cell_index r c lat lon) < cols c.
Proof.
  intros r c lat lon Hr (Hrow & Hcol & Hx & Hy & Hlat & _) Hlon. unfold cell_index.
  rewrite (Rlt_bool_false (max_lon c) (min_lon c)) by assumption. cbn [andb fst snd].
  pose proof (clamp_range (min_lon c) (max_lon c) lon Hlon) as C1.
  pose proof (clamp_range (min_lat c) (max_lat c) lat Hlat) as C2.
  assert (N1 : 0 <= r ((clamp (min_lon c) (max_lon c) lon - min_lon c) / resx c)%R).
  { apply rounding_nonneg; [assumption|]. apply Rmult_le_pos; [lra|]. left. apply Rinv_0_lt_compat. assumption. }
  assert (N2 : 0 <= r ((max_lat c - clamp (min_lat c) (max_lat c) lat) / resy c)%R).
  { apply rounding_nonneg; [assumption|]. apply Rmult_le_pos; [lra|]. left. apply Rinv_0_lt_compat. assumption. }
  split.
  - destruct (rows c <=? _) eqn:E; lia.
  - destruct (cols c <=? _) eqn:E; lia.
Qed.

Lemma lookup_in_raster : forall c lat lon m, good_raster c -> (min_lon c <= max_lon c)%R ->
  In m (map str_of ["round"; "floor"; "ceil"]%string) ->
  exists row col v, 0 <= row < rows c /\ 0 <= col < cols c /\ cell c row col = Some v /\
    get_timezone_code c lat lon m = first_key v (timezones c).
Proof.
  intros c lat lon m Hg Hlon Hm.
  assert (Hr : exists r, rounding m = Some r).
  { destruct Hm as [<-|[<-|[<-|[]]]]; eexists; reflexivity. }
  destruct Hr as (r & Hr). unfold get_timezone_code. rewrite Hr.
  pose proof (cell_index_range r c lat lon (rounding_cases m r Hr) Hg Hlon) as [H1 H2].
  destruct (cell_index r c lat lon) as [row col]. cbn [fst snd] in *.
  destruct (read_cell c row col Hg H1 H2) as (v & Ev & Er). exists row, col, v. auto.
Qed.

Lemma lookup_bad_method : forall c lat lon m, ~ In m (map str_of ["round"; "floor"; "ceil"]%string) ->
  get_timezone_code c lat lon m = Err UnsupportedArgumentError.
Proof.
  intros c lat lon m Hm. unfold get_timezone_code, rounding.
  destruct (str_eqb_spec m (str_of "round")) as [->|]; [exfalso; apply Hm; left; reflexivity|].
  destruct (str_eqb_spec m (str_of "floor")) as [->|]; [exfalso; apply Hm; right; left; reflexivity|].
  destruct (str_eqb_spec m (str_of "ceil")) as [->|]; [exfalso; apply Hm; right; right; left; reflexivity|].
  reflexivity.
Qed.

(** The containing cell for floor rounding of an inside point. *)
Lemma floor_cell : forall c lat lon, good_raster c ->
  (IZR (cols c) * resx c = max_lon c - min_lon c)%R -> (IZR (rows c) * resy c = max_lat c - min_lat c)%R ->
  (min_lon c <= lon < max_lon c)%R -> (min_lat c < lat <= max_lat c)%R ->
  exists row col v, 0 <= row < rows c /\ 0 <= col < cols c /\ cell c row col = Some v /\
    get_timezone_code c lat lon (str_of "floor") = first_key v (timezones c) /\
    (min_lon c + IZR col * resx c <= lon < min_lon c + (IZR col + 1) * resx c)%R /\
    (max_lat c - (IZR row + 1) * resy c < lat <= max_lat c - IZR row * resy c)%R.
Proof.
  intros c lat lon Hg Hcs Hrs Hlon Hlat.
  pose proof Hg as (Hrow & Hcol & Hx & Hy & _).
  assert (Hi : cell_index Zfloor c lat lon =
    (Zfloor ((max_lat c - lat) / resy c), Zfloor ((lon - min_lon c) / resx c))).
  { unfold cell_index. rewrite !clamp_id by lra.
    rewrite (Rlt_bool_false (max_lon c) (min_lon c)) by lra. cbn [andb].
    assert (A : Zfloor ((max_lat c - lat) / resy c) < rows c).
    { apply lt_IZR. eapply Rle_lt_trans; [apply Zfloor_lb|].
      apply (Rmult_lt_reg_r (resy c)); [assumption|]. unfold Rdiv. rewrite Rmult_assoc, Rinv_l by lra. lra. }
    assert (B : Zfloor ((lon - min_lon c) / resx c) < cols c).
    { apply lt_IZR. eapply Rle_lt_trans; [apply Zfloor_lb|].
      apply (Rmult_lt_reg_r (resx c)); [assumption|]. unfold Rdiv. rewrite Rmult_assoc, Rinv_l by lra. lra. }
    destruct (rows c <=? _) eqn:E1; [lia|]. destruct (cols c <=? _) eqn:E2; [lia|]. reflexivity. }
  pose proof (cell_index_range Zfloor c lat lon (or_intror (or_introl eq_refl)) Hg ltac:(lra)) as [H1 H2].
  rewrite Hi in H1, H2. cbn [fst snd] in *.
  destruct (read_cell c _ _ Hg H1 H2) as (v & Ev & Er).
  exists (Zfloor ((max_lat c - lat) / resy c)), (Zfloor ((lon - min_lon c) / resx c)), v.
  split; [assumption|]. split; [assumption|]. split; [assumption|]. split.
  { unfold get_timezone_code. change (rounding (str_of "floor")) with (Some Zfloor). cbv iota beta.
    rewrite Hi. exact Er. }
  pose proof (Zfloor_lb ((lon - min_lon c) / resx c)) as L1. pose proof (Zfloor_ub ((lon - min_lon c) / resx c)) as U1.
  pose proof (Zfloor_lb ((max_lat c - lat) / resy c)) as L2. pose proof (Zfloor_ub ((max_lat c - lat) / resy c)) as U2.
  apply (Rmult_le_compat_r (resx c)) in L1; [|lra]. apply (Rmult_lt_compat_r (resx c)) in U1; [|lra].
  apply (Rmult_le_compat_r (resy c)) in L2; [|lra]. apply (Rmult_lt_compat_r (resy c)) in U2; [|lra].
  unfold Rdiv in L1, L2, U1, U2. rewrite (Rmult_assoc (lon - min_lon c)), Rinv_l in L1, U1 by lra.
  rewrite (Rmult_assoc (max_lat c - lat)), Rinv_l in L2, U2 by lra.
  split; lra.
Qed.

Lemma clamp_outside : forall c lat lon m, good_raster c -> (min_lon c <= max_lon c)%R ->
  get_timezone_code c lat lon m =
  get_timezone_code c (clamp (min_lat c) (max_lat c) lat) (clamp (min_lon c) (max_lon c) lon) m.
Proof.
  intros c lat lon m Hg Hlon. unfold get_timezone_code, cell_index.
  rewrite !clamp_idem; try assumption; [reflexivity|]. apply Hg.
Qed.

Lemma first_key_spec : forall v l k, first_key v l = Ok k <->
  exists pre post, l = pre ++ (k, v) :: post /\ forall k' v', In (k', v') pre -> v' <> v.
Proof.
  intros v. induction l as [|[k0 x] l IH]; intro k; simpl.
  - split; [discriminate|]. intros (pre & post & E & _). destruct pre; discriminate.
  - destruct (Z.eqb_spec x v) as [->|Hx].
    + split.
      * intro E. inversion E; subst. exists [], l. split; [reflexivity|]. intros ? ? [].
      * intros (pre & post & E & Hp). destruct pre as [|[k1 x1] pre]; inversion E; subst; [reflexivity|].
        exfalso. apply (Hp k1 x1); [left; reflexivity|reflexivity].
    + rewrite IH. split.
      * intros (pre & post & -> & Hp). exists ((k0, x) :: pre), post. split; [reflexivity|].
        intros k' v' [E|Hi]; [inversion E; subst; assumption|eauto].
      * intros (pre & post & E & Hp). destruct pre as [|[k1 x1] pre]; inversion E; subst.
        -- congruence.
        -- exists pre, post. split; [reflexivity|]. intros k' v' Hi. apply (Hp k' v'). right. assumption.
Qed.

Lemma first_key_none : forall v l, (forall k, ~ In (k, v) l) -> first_key v l = Err IndexError.
Proof.
  intros v. induction l as [|[k0 x] l IH]; intro H; simpl; [reflexivity|].
  destruct (Z.eqb_spec x v) as [->|Hx]; [exfalso; apply (H k0); left; reflexivity|].
  apply IH. intros k Hk. apply (H k). right. assumption.
Qed.

Lemma clamp_is_minmax : forall lo hi x, (lo <= hi)%R -> clamp lo hi x = Rmax lo (Rmin hi x).
Proof.
  intros lo hi x H. unfold clamp, Rmax, Rmin.
  destruct (Rlt_bool_spec hi x), (Rlt_bool_spec x lo), (Rle_dec hi x); destruct (Rle_dec lo _); lra.
Qed.

Lemma clamp_minmax : forall c lat lon m, good_raster c -> (min_lon c <= max_lon c)%R ->
  get_timezone_code c lat lon m =
  get_timezone_code c (Rmax (min_lat c) (Rmin (max_lat c) lat)) (Rmax (min_lon c) (Rmin (max_lon c) lon)) m.
Proof.
  intros c lat lon m Hg Hl. rewrite <- !clamp_is_minmax by (try assumption; apply Hg). apply clamp_outside; assumption.
Qed.

(** ** C14: extents crossing the antimeridian *)
Lemma wrap_columns : forall c lat lon m, good_raster c ->
  (max_lon c < min_lon c)%R -> (IZR (cols c) * resx c = max_lon c + 360 - min_lon c)%R ->
  In m (map str_of ["round"; "floor"; "ceil"]%string) ->
  exists row v, 0 <= row < rows c /\
    cell c row (if Rlt_bool (max_lon c) lon then cols c - 1 else 0) = Some v /\
    get_timezone_code c lat lon m = first_key v (timezones c).
Proof.
  intros c lat lon m Hg Hw Hcs Hm.
  assert (Hr : exists r, rounding m = Some r).
  { destruct Hm as [<-|[<-|[<-|[]]]]; eexists; reflexivity. }
  destruct Hr as (r & Hr). pose proof (rounding_cases m r Hr) as Hrf.
  pose proof Hg as (Hrow & Hcol & Hx & Hy & Hlat & _).
  unfold get_timezone_code. rewrite Hr.
  set (row0 := r ((max_lat c - clamp (min_lat c) (max_lat c) lat) / resy c)%R).
  assert (N2 : 0 <= row0).
  { apply rounding_nonneg; [assumption|]. pose proof (clamp_range (min_lat c) (max_lat c) lat Hlat).
    apply Rmult_le_pos; [lra|]. left. apply Rinv_0_lt_compat. assumption. }
  set (row := if rows c <=? row0 then rows c - 1 else row0).
  assert (Hrw : 0 <= row < rows c) by (unfold row; destruct (rows c <=? row0) eqn:E; lia).
  assert (Hi : cell_index r c lat lon = (row, if Rlt_bool (max_lon c) lon then cols c - 1 else 0)).
  { unfold cell_index. fold row0. fold row. f_equal.
    unfold clamp. destruct (Rlt_bool_spec (max_lon c) lon) as [H1|H1].
    - rewrite (Rlt_bool_true (max_lon c) (min_lon c)) by assumption. cbn [andb].
      replace ((max_lon c + 360 - min_lon c) / resx c)%R with (IZR (cols c)) by (rewrite <- Hcs; field; lra).
      rewrite rounding_int by assumption. rewrite Z.leb_refl. reflexivity.
    - rewrite (Rlt_bool_true lon (min_lon c)) by lra.
      rewrite (Rlt_bool_true (max_lon c) (min_lon c)) by assumption.
      rewrite (Rlt_bool_false (min_lon c) (min_lon c)) by lra. cbn [andb].
      replace ((min_lon c - min_lon c) / resx c)%R with (IZR 0) by (field; lra).
      rewrite rounding_int by assumption. destruct (cols c <=? 0) eqn:E; [lia|reflexivity]. }
  rewrite Hi.
  assert (Hc2 : 0 <= (if Rlt_bool (max_lon c) lon then cols c - 1 else 0) < cols c).
  { destruct (Rlt_bool (max_lon c) lon); lia. }
  destruct (read_cell c _ _ Hg Hrw Hc2) as (v & Ev & Er). exists row, v. auto.
Qed.

Lemma localtime_ignores_method : forall pytz c t lat lon m,
  to_localtime pytz c t lat lon m = to_localtime pytz c t lat lon (str_of "floor").
Proof. reflexivity. Qed.

Lemma local_utc_roundtrip : forall pytz c t lat lon m m' l,
  to_localtime pytz c t lat lon m = Ok l ->
  (forall name z, pytz name = Some z -> localize z l = offset_at z (l - localize z l)) ->
  (forall name z, pytz name = Some z -> forall u, u + offset_at z u = l -> u = t) ->
  to_utctime pytz c l lat lon m' = Ok t.
Proof.
  intros pytz c t lat lon m m' l. unfold to_localtime, to_utctime.
  destruct (get_timezone_code c lat lon (str_of "floor")) as [code|e]; cbn [bind]; [|discriminate].
  destruct (pytz code) as [z|] eqn:E; [|discriminate].
  intros _ H1 H2. f_equal. apply (H2 _ _ E). rewrite <- (H1 _ _ E). lia.
Qed.

Lemma conversion_args_spec : forall tiff shape extents resolution coding,
  conversion_args tiff shape extents resolution coding = Ok tt <->
  (tiff = true -> shape = true /\ extents = true /\ resolution = true /\ coding = true).
Proof.
  intros [] [] [] [] []; simpl; split; intro H; try discriminate; try reflexivity; try (intros; repeat split; congruence);
    destruct (H eq_refl) as (A & B & C & D); discriminate.
Qed.
