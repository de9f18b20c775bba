(** C45, C46, C62, C63: spherical coordinates, projection, longitudes, areas, points. *)
From Coq Require Import ZArith Reals List Bool Lra Psatz Lia.
From Flocq Require Import Core.
From Verif Require Import PyBase VecModel VecProofs GeoModel GeoSpec GeoTrig GeoProofs SphereProofs.
Import ListNotations.
Open Scope R_scope.

(** ** C45 *)
(** Cartesian coordinates are the direction of the place, as long as the distance
    from the centre; they are recovered, both ways. *)
Theorem C45_roundtrip : forall lon lat d, d < 6371 ->
  spherical_to_cartesian lon lat (Some d) = vscale (6371 - d) (place lon lat) /\ spherical_to_cartesian lon lat None = spherical_to_cartesian lon lat (Some 0) /\
  (-180 < lon <= 180 -> -90 < lat < 90 -> cartesian_to_spherical (spherical_to_cartesian lon lat (Some d)) = (lon, Some lat, d)) /\
  (-90 <= lat <= 90 -> exists l, cartesian_to_spherical (spherical_to_cartesian lon lat (Some d)) = (l, Some lat, d)).
Proof.
  intros lon lat d Hd. split; [apply cartesian_place|]. split; [rewrite !cartesian_place; f_equal; ring|].
  assert (G : -90 <= lat <= 90 -> exists l, cartesian_to_spherical (spherical_to_cartesian lon lat (Some d)) = (l, Some lat, d) /\ (-180 < lon <= 180 -> -90 < lat < 90 -> l = lon)).
  { intro Hl. rewrite cartesian_place. unfold cartesian_to_spherical. cbv zeta. rewrite scale_mag by lra. set (r := 6371 - d). destruct (reqd r 0) eqn:Z; [apply reqd_iff in Z; unfold r in Z; lra|].
    eexists. split.
    - f_equal; [f_equal; f_equal|unfold EARTH_RADIUS, r; lra]. unfold vscale, place. cbn [vx vy vz]. replace (sin (deg lat) * r / r) with (sin (deg lat)) by (field; unfold r; lra).
      rewrite clip_id by (pose proof (SIN_bound (deg lat)); lra). apply asin_deg. assumption.
    - intros H1 H2. destruct (lat_inner lat H2) as [_ P]. unfold vscale, place. cbn [vx vy vz].
      replace (cos (deg lat) * sin (deg lon) * r) with ((r * cos (deg lat)) * sin (deg lon)) by ring. replace (cos (deg lat) * cos (deg lon) * r) with ((r * cos (deg lat)) * cos (deg lon)) by ring.
      rewrite arctan2_polar; [apply degrees_deg|apply Rmult_lt_0_compat; [unfold r; lra|assumption]|apply lon_bounds; assumption]. }
  split.
  - intros H1 H2. destruct G as (l & E & El); [lra|]. rewrite E, (El H1 H2). reflexivity.
  - intro H. destruct (G H) as (l & E & _). eauto.
Qed.
Print Assumptions C45_roundtrip.
Theorem C45_back : forall v, (v = mkvec 0 0 0 <-> exists l d, cartesian_to_spherical v = (l, None, d)) /\
  (forall lon lat d, cartesian_to_spherical v = (lon, Some lat, d) -> spherical_to_cartesian lon lat (Some d) = v /\ -180 < lon <= 180 /\ -90 <= lat <= 90 /\ d < 6371).
Proof.
  intros v. assert (M : sqrt (vx v * vx v + vy v * vy v + vz v * vz v) = mag v) by (unfold mag; f_equal; ring). split.
  - unfold cartesian_to_spherical. cbv zeta. rewrite M. split.
    + intros ->. assert (Z : mag (mkvec 0 0 0) = 0) by (apply mag_zero; reflexivity). rewrite Z, (proj2 (reqd_iff 0 0) eq_refl). eauto.
    + intros (l & d & E). destruct (reqd (mag v) 0) eqn:Z; [|discriminate]. apply reqd_iff, mag_zero in Z. exact Z.
  - intros lon lat d E. unfold cartesian_to_spherical in E. cbv zeta in E. rewrite M in E. destruct (reqd (mag v) 0) eqn:Z; [discriminate|]. injection E as <- <- <-.
    assert (N : mag v <> 0) by (intro Q; apply reqd_iff in Q; congruence). pose proof (mag_nonneg v) as P0. assert (P : 0 < mag v) by lra. set (r := mag v) in *.
    assert (Hr : r * r = vx v * vx v + vy v * vy v + vz v * vz v) by (unfold r; apply mag_sq).
    assert (Zr : -1 <= vz v / r <= 1). { assert (Hz : vz v = r * (vz v / r)) by (field; lra). assert (Hb : - r <= vz v <= r) by (clear Hz; split; nra). set (q := vz v / r) in *. clearbody q. split; apply Rmult_le_reg_l with r; lra. }
    rewrite clip_id by exact Zr. pose proof pi_pos as Pp. split; [|split; [|split]].
    + rewrite cartesian_place. unfold EARTH_RADIUS. replace (6371 - (6371 - r)) with r by ring. unfold place, vscale. cbn [vx vy vz]. rewrite !deg_degrees, sin_asin, cos_asin by exact Zr.
      set (x := vx v) in *. set (y := vy v) in *. set (z := vz v) in *.
      assert (Q : sqrt (1 - Rsqr (z / r)) * r = sqrt (x ^ 2 + y ^ 2)).
      { rewrite <- (sqrt_pow2 r) at 2 by lra. rewrite <- sqrt_mult_alt by (unfold Rsqr; nra). f_equal. unfold Rsqr. replace ((1 - z / r * (z / r)) * r ^ 2) with (r * r - z * z) by (field; lra). rewrite Hr. ring. }
      replace (sqrt (1 - Rsqr (z / r)) * cos (arctan2 y x) * r) with (sqrt (1 - Rsqr (z / r)) * r * cos (arctan2 y x)) by ring.
      replace (sqrt (1 - Rsqr (z / r)) * sin (arctan2 y x) * r) with (sqrt (1 - Rsqr (z / r)) * r * sin (arctan2 y x)) by ring. rewrite Q.
      apply vec_ext; cbn [vx vy vz]; fold x y z; [| |field; lra];
        (destruct (Req_dec x 0) as [X0|X0]; [destruct (Req_dec y 0) as [Y0|Y0]|]; [rewrite X0, Y0; replace (0 ^ 2 + 0 ^ 2) with 0 by ring; rewrite sqrt_0; ring| |]).
      all: first [destruct (arctan2_spec y x (or_intror Y0)) as [S C]; pose proof (hyp_pos x y (or_intror Y0))|destruct (arctan2_spec y x (or_introl X0)) as [S C]; pose proof (hyp_pos x y (or_introl X0))]; rewrite ?S, ?C; field; lra.
    + pose proof (arctan2_range (vy v) (vx v)). assert (D := deg_degrees (arctan2 (vy v) (vx v))). unfold deg in D at 1. split; apply Rnot_le_lt || apply Rnot_lt_le; intro Q; nra.
    + pose proof (asin_bound (vz v / r)). assert (D := deg_degrees (asin (vz v / r))). unfold deg in D at 1. split; apply Rnot_lt_le; intro Q; nra.
    + unfold EARTH_RADIUS. lra.
Qed.
Print Assumptions C45_back.
Example C45_ex : cartesian_to_spherical (spherical_to_cartesian 120 30 (Some 10)) = (120, Some 30, 10).
Proof. destruct (C45_roundtrip 120 30 10) as (_ & _ & H & _); [lra|]. apply H; lra. Qed.

(** The projection shows the eastward and northward coordinates of a place, and
    is refused for places on the far side. *)
Theorem C45_forward : forall lon0 lat0 lon lat t, angle (place lon0 lat0) (place lon lat) t ->
  (t <= PI / 2 -> ortho_forward lon0 lat0 lon lat = Ok (6371 * vdot (east_of lon0) (place lon lat), 6371 * vdot (north_of lon0 lat0) (place lon lat))) /\
  (PI / 2 < t -> ortho_forward lon0 lat0 lon lat = Err ValueError).
Proof.
  intros lon0 lat0 lon lat t A. unfold ortho_forward. cbv zeta. rewrite !radians_deg, (sin_far _ _ _ _ _ A). split; intro H.
  - rewrite (proj2 (rltb_f _ _) H). destruct (forward_coords lon0 lat0 lon lat) as [E1 E2]. rewrite E1, E2. unfold EARTH_RADIUS, eastward, northward. f_equal. f_equal; ring.
  - rewrite (proj2 (rltb_iff _ _) H). reflexivity.
Qed.
Print Assumptions C45_forward.
(** On the near side the projection can be reversed. *)
Theorem C45_reverse : forall lon0 lat0 lon lat x y, -180 <= lon0 <= 180 -> -180 < lon <= 180 -> -90 < lat < 90 ->
  ortho_forward lon0 lat0 lon lat = Ok (x, y) -> ortho_reverse lon0 lat0 x y = (lon, lat).
Proof.
  intros lon0 lat0 lon lat x y H0 H1 H2 E. destruct (dist_angle lon0 lat0 lon lat) as (t & A & _). destruct (C45_forward _ _ _ _ _ A) as [F1 F2].
  destruct (Rle_dec t (PI / 2)) as [Ht|Ht]; [|rewrite F2 in E by lra; discriminate]. rewrite (F1 Ht) in E. injection E as Ex Ey.
  fold (eastward lon0 lat0 lon lat) in Ex. fold (northward lon0 lat0 lon lat) in Ey. pose proof (components lon0 lat0 lon lat) as Cp. set (e := eastward lon0 lat0 lon lat) in *. set (n := northward lon0 lat0 lon lat) in *.
  assert (Xx : x / 6371 = e) by (rewrite <- Ex; field). assert (Yy : y / 6371 = n) by (rewrite <- Ey; field). destruct A as [Rt Et]. change (cos t = vdot (place lon0 lat0) (place lon lat)) in Et. rewrite <- Et in Cp.
  assert (C0 : 0 <= cos t) by (apply cos_ge_0; lra).
  destruct (reverse_place lon0 lat0 x y) as (Rp & Rl & Ra); [rewrite Xx, Yy; nra|assumption|]. rewrite Xx, Yy, Cp in Rp.
  replace (1 - (1 - cos t ^ 2)) with (cos t ^ 2) in Rp by ring. rewrite sqrt_pow2 in Rp by assumption. unfold e, n in Rp. rewrite Et in Rp. rewrite <- place_frame in Rp.
  apply place_eq in Rp as (Ea & Eo); [|assumption|lra]. destruct (ortho_reverse lon0 lat0 x y) as [l a]. cbn [fst snd] in *. subst a. destruct Eo as [(k & Ek)|Q].
  - f_equal. assert (-1 < IZR k < 1) as [B1 B2] by (split; lra). apply lt_IZR in B1, B2. assert (k = 0%Z) by lia. subst k. lra.
  - unfold Rabs in Q. destruct Rcase_abs in Q; lra.
Qed.
Print Assumptions C45_reverse.
(** Every point of the disc is the projection of the place it is reversed to. *)
Theorem C45_disc : forall lon0 lat0 x y, -180 <= lon0 <= 180 -> x * x + y * y <= 6371 * 6371 ->
  let r := ortho_reverse lon0 lat0 x y in -180 < fst r <= 180 /\ -90 <= snd r <= 90 /\ ortho_forward lon0 lat0 (fst r) (snd r) = Ok (x, y).
Proof.
  intros lon0 lat0 x y H0 H r. assert (Q : (x / 6371) ^ 2 + (y / 6371) ^ 2 <= 1). { replace ((x / 6371) ^ 2 + (y / 6371) ^ 2) with ((x * x + y * y) / (6371 * 6371)) by field. lra. }
  destruct (reverse_place lon0 lat0 x y Q H0) as (Rp & Rl & Ra). fold r in Rp, Rl, Ra. split; [exact Rl|]. split; [exact Ra|].
  destruct (dist_angle lon0 lat0 (fst r) (snd r)) as (t & A & _). destruct (frame_coords lon0 lat0 (sqrt (1 - ((x / 6371) ^ 2 + (y / 6371) ^ 2))) (x / 6371) (y / 6371)) as (G1 & G2 & G3). rewrite <- Rp in G1, G2, G3.
  destruct (C45_forward _ _ _ _ _ A) as [F1 _]. rewrite F1; [rewrite G2, G3; f_equal; f_equal; field|].
  destruct A as [Rt Et]. change (cos t = vdot (place lon0 lat0) (place (fst r) (snd r))) in Et. rewrite G1 in Et. pose proof pi_pos as P. apply Rnot_lt_le. intro L.
  assert (cos t < 0) by (apply cos_lt_0; lra). pose proof (sqrt_pos (1 - ((x / 6371) ^ 2 + (y / 6371) ^ 2))). lra.
Qed.
Print Assumptions C45_disc.
Example C45_ex_forward : ortho_forward 10 20 10 20 = Ok (0, 0) /\ ortho_forward 0 0 180 0 = Err ValueError.
Proof.
  pose proof pi_pos. split.
  - destruct (C45_forward 10 20 10 20 0) as [F _]; [apply angle_zero; [apply place_unit|apply place_unit|reflexivity]|]. rewrite F by lra. f_equal. unfold vdot, east_of, north_of, place. cbn [vx vy vz].
    f_equal; [ring|]. pose proof (sc2 (deg 10)). transitivity (6371 * (sin (deg 20) * cos (deg 20) * (1 - (sin (deg 10) * sin (deg 10) + cos (deg 10) * cos (deg 10))))); [ring|rewrite H0; ring].
  - apply (C45_forward 0 0 180 0 PI); [|lra]. split; [lra|]. unfold place. cbn [vx vy vz]. rewrite deg_180. replace (deg 0) with 0 by (unfold deg; field). rewrite cos_PI, sin_PI, cos_0, sin_0. ring.
Qed.

(** ** C62: area of a triangle *)
(** Heron's formula gives half the length of the cross product of two edges. *)
Theorem C62_area : forall a b c, vadd (vadd a b) c = mkvec 0 0 0 -> triangle_area a b c = mag (vcross a b) / 2 /\ triangle_area a b c = triangle_area b c a /\ triangle_area a b c = triangle_area b a c.
Proof.
  assert (H : forall a b c, vadd (vadd a b) c = mkvec 0 0 0 -> triangle_area a b c = mag (vcross a b) / 2).
  { intros a b c E. unfold triangle_area. cbv zeta. rewrite <- !mag_dot. assert (Ec : mag c * mag c = mag a * mag a + 2 * vdot a b + mag b * mag b).
    { rewrite !mag_sq. unfold vadd in E. injection E as E1 E2 E3. unfold vdot. replace (vx c) with (- (vx a + vx b)) by lra. replace (vy c) with (- (vy a + vy b)) by lra. replace (vz c) with (- (vz a + vz b)) by lra. ring. }
    pose proof (lagrange a b) as L. rewrite <- !mag_sq in L. pose proof (mag_nonneg (vcross a b)) as Pm. set (m := mag (vcross a b)) in *. set (x := mag a) in *. set (y := mag b) in *. set (z := mag c) in *. set (d := vdot a b) in *.
    replace (m / 2) with (sqrt ((m / 2) ^ 2)) by (apply sqrt_pow2; lra). f_equal. clearbody m x y z d.
    transitivity ((4 * (x * x) * (y * y) - (x * x + y * y - z * z) * (x * x + y * y - z * z)) / 16); [field|]. rewrite Ec. replace ((m / 2) ^ 2) with (m * m / 4) by field. rewrite L. field. }
  intros a b c E. split; [apply H; exact E|]. split.
  - assert (E' : vadd (vadd b c) a = mkvec 0 0 0) by (rewrite <- E; vring). rewrite (H a b c E), (H b c a E'). f_equal. rewrite !mag_dot. f_equal.
    unfold vadd in E. injection E as E1 E2 E3. unfold vdot, vcross. cbn [vx vy vz]. replace (vx c) with (- (vx a + vx b)) by lra. replace (vy c) with (- (vy a + vy b)) by lra. replace (vz c) with (- (vz a + vz b)) by lra. ring.
  - unfold triangle_area. cbv zeta. f_equal. field.
Qed.
Print Assumptions C62_area.
Example C62_ex : vadd (vadd (mkvec 3 0 0) (mkvec (-3) 4 0)) (mkvec 0 (-4) 0) = mkvec 0 0 0.
Proof. unfold vadd. cbn. f_equal; ring. Qed.
