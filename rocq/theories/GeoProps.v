(** C42, C43: distance and azimuth on the sphere (exact real arithmetic). *)
From Coq Require Import ZArith Reals List Lra Psatz Lia.
From Flocq Require Import Core.
From Verif Require Import PyBase VecModel VecProofs GeoModel GeoSpec GeoTrig GeoProofs.
Import ListNotations.
Open Scope R_scope.

(** ** C42 *)
(** The distance is the radius times the angle between the two places. *)
Theorem C42_angle : forall lon1 lat1 lon2 lat2, exists t, angle (place lon1 lat1) (place lon2 lat2) t /\
  geodetic_distance lon1 lat1 lon2 lat2 = 6371 * t /\ forall t', angle (place lon1 lat1) (place lon2 lat2) t' -> t' = t.
Proof. intros. destruct (dist_angle lon1 lat1 lon2 lat2) as (t & A & E). exists t. repeat split; try apply A; [exact E|]. intros t' A'. exact (angle_det _ _ _ _ A' A). Qed.
Print Assumptions C42_angle.
(** It is a distance: bounded by half the circumference, symmetric, zero for the
    same place only, and subject to the triangle inequality. *)
Theorem C42_metric : forall lon1 lat1 lon2 lat2,
  0 <= geodetic_distance lon1 lat1 lon2 lat2 <= 6371 * PI /\
  geodetic_distance lon1 lat1 lon2 lat2 = geodetic_distance lon2 lat2 lon1 lat1 /\
  (-90 <= lat1 <= 90 -> -90 <= lat2 <= 90 -> (geodetic_distance lon1 lat1 lon2 lat2 = 0 <-> lat1 = lat2 /\ (same_lon lon1 lon2 \/ Rabs lat1 = 90))) /\
  (forall lon3 lat3, geodetic_distance lon1 lat1 lon3 lat3 <= geodetic_distance lon1 lat1 lon2 lat2 + geodetic_distance lon2 lat2 lon3 lat3) /\
  (forall lon3, same_lon lon1 lon3 -> geodetic_distance lon3 lat1 lon2 lat2 = geodetic_distance lon1 lat1 lon2 lat2).
Proof.
  intros lon1 lat1 lon2 lat2. destruct (dist_angle lon1 lat1 lon2 lat2) as (t & A & E). rewrite E. pose proof A as [B _]. split; [lra|].
  split. { destruct (dist_angle lon2 lat2 lon1 lat1) as (t' & A' & E'). rewrite E'. rewrite (angle_det _ _ _ _ A (angle_sym _ _ _ A')). reflexivity. }
  split. { intros H1 H2. rewrite <- place_eq by assumption. rewrite <- (angle_zero _ _ (place_unit lon1 lat1) (place_unit lon2 lat2)). split.
           - intro Z. replace 0 with t by lra. exact A.
           - intro Z. rewrite (angle_det _ _ _ _ A Z). ring. }
  split.
  - intros lon3 lat3. destruct (dist_angle lon1 lat1 lon3 lat3) as (t3 & A3 & E3). destruct (dist_angle lon2 lat2 lon3 lat3) as (t2 & A2 & E2). rewrite E3, E2.
    pose proof (angle_triangle _ _ _ _ _ _ (place_unit lon1 lat1) (place_unit lon2 lat2) (place_unit lon3 lat3) A A2 A3). lra.
  - intros lon3 S. destruct (dist_angle lon3 lat1 lon2 lat2) as (t3 & A3 & E3). rewrite E3. apply same_lon_trig in S as [Ss Sc].
    assert (P : place lon3 lat1 = place lon1 lat1) by (unfold place; rewrite Ss, Sc; reflexivity). rewrite P in A3. rewrite (angle_det _ _ _ _ A3 A). reflexivity.
Qed.
Print Assumptions C42_metric.
(** Depths are combined with it by Pythagoras, which gives a distance again. *)
Lemma pyth_triangle : forall a b c x y z : R, 0 <= c <= a + b -> 0 <= a -> 0 <= b -> Rabs z <= Rabs x + Rabs y -> sqrt (c ^ 2 + z ^ 2) <= sqrt (a ^ 2 + x ^ 2) + sqrt (b ^ 2 + y ^ 2).
Proof.
  intros a b c x y z Hc Ha Hb Hz. pose proof (triangle (mkvec a (Rabs x) 0) (mkvec b (Rabs y) 0)) as T. unfold mag, vadd in T. cbn [vx vy vz] in T.
  replace ((0 + 0) ^ 2) with 0 in T by ring. replace (0 ^ 2) with 0 in T by ring. rewrite !Rplus_0_r in T.
  assert (Q : forall u, Rabs u ^ 2 = u ^ 2) by (intro u; unfold Rabs; destruct (Rcase_abs u); ring). rewrite !Q in T. eapply Rle_trans; [|exact T]. apply sqrt_le_1_alt.
  rewrite <- (Q z). pose proof (Rabs_pos z). pose proof (Rabs_pos x). pose proof (Rabs_pos y). nra.
Qed.
Lemma pyth : forall D h z : R, 0 <= D -> 0 <= h -> D * D = h * h + z * z -> h <= D /\ Rabs z <= D /\ (D = 0 <-> h = 0 /\ z = 0).
Proof.
  intros D h z H1 H2 E. split; [nra|]. split; [apply Rsqr_incr_0_var; [|assumption]; rewrite <- Rsqr_abs; unfold Rsqr; nra|]. split; [intros ->; split; nra|intros [-> ->]; nra].
Qed.
Theorem C42_depth : forall lon1 lat1 d1 lon2 lat2 d2,
  let D := geo_distance lon1 lat1 d1 lon2 lat2 d2 in let h := geodetic_distance lon1 lat1 lon2 lat2 in
  0 <= D /\ D * D = h * h + (d2 - d1) * (d2 - d1) /\ D = geo_distance lon2 lat2 d2 lon1 lat1 d1 /\ h <= D /\ Rabs (d2 - d1) <= D /\
  (-90 <= lat1 <= 90 -> -90 <= lat2 <= 90 -> (D = 0 <-> lat1 = lat2 /\ (same_lon lon1 lon2 \/ Rabs lat1 = 90) /\ d1 = d2)) /\
  (forall lon3 lat3 d3, geo_distance lon1 lat1 d1 lon3 lat3 d3 <= D + geo_distance lon2 lat2 d2 lon3 lat3 d3).
Proof.
  intros lon1 lat1 d1 lon2 lat2 d2 D h. destruct (C42_metric lon1 lat1 lon2 lat2) as (B & S & Z & T & _). fold h in B, S, Z, T.
  assert (DD : D * D = h * h + (d2 - d1) * (d2 - d1)). { unfold D, geo_distance. cbv zeta. fold h. rewrite sqrt_sqrt by (pose proof (pow2_ge_0 h); pose proof (pow2_ge_0 (d1 - d2)); lra). ring. }
  assert (D0 : 0 <= D) by apply sqrt_pos. split; [exact D0|]. split; [exact DD|].
  split. { unfold D, geo_distance. cbv zeta. fold h. rewrite <- S. f_equal. ring. }
  destruct (pyth D h (d2 - d1) D0 (proj1 B) DD) as (Q1 & Q2 & Q3). split; [exact Q1|]. split; [exact Q2|]. split.
  - intros H1 H2. specialize (Z H1 H2). rewrite Q3. split.
    + intros [E1 E2]. apply Z in E1. split; [tauto|]. split; [tauto|lra].
    + intros (L & M & <-). split; [apply Z; auto|lra].
  - intros lon3 lat3 d3. unfold D, geo_distance. cbv zeta. fold h. destruct (C42_metric lon2 lat2 lon3 lat3) as (B2 & _). destruct (C42_metric lon1 lat1 lon3 lat3) as (B3 & _). specialize (T lon3 lat3).
    apply pyth_triangle; [lra|lra|lra|]. replace (d1 - d3) with ((d1 - d2) + (d2 - d3)) by ring. apply Rabs_triang.
Qed.
Print Assumptions C42_depth.
(** A quarter of the circumference between the pole and the equator. *)
Example C42_ex : geodetic_distance 0 0 50 90 = 6371 * (PI / 2).
Proof.
  destruct (dist_angle 0 0 50 90) as (t & A & E). rewrite E. f_equal. refine (angle_det _ _ _ _ A _). pose proof pi_pos. split; [lra|].
  rewrite cos_PI2. unfold place. cbn [vx vy vz]. rewrite deg_90, cos_PI2, sin_PI2. replace (deg 0) with 0 by (unfold deg; field). rewrite sin_0, cos_0. ring.
Qed.
Example C42_ex_same : same_lon 190 (-170).
Proof. exists 1%Z. lra. Qed.

(** ** C43 *)
(** Going from the first place in the direction of the azimuth, for the angle
    between the places, leads to the second one. *)
Theorem C43_course : forall lon1 lat1 lon2 lat2, let az := azimuth lon1 lat1 lon2 lat2 in
  0 <= az < 360 /\ exists t, angle (place lon1 lat1) (place lon2 lat2) t /\
    place lon2 lat2 = vadd (vscale (cos t) (place lon1 lat1)) (vscale (sin t) (vadd (vscale (sin (deg az)) (east_of lon1)) (vscale (cos (deg az)) (north_of lon1 lat1)))).
Proof.
  intros lon1 lat1 lon2 lat2 az. destruct (azimuth_trig lon1 lat1 lon2 lat2) as (B & Te & Tn & _). fold az in B, Te, Tn. split; [exact B|].
  destruct (dist_angle lon1 lat1 lon2 lat2) as (t & A & _). exists t. split; [exact A|]. destruct A as [Rt Et]. change (cos t = vdot (place lon1 lat1) (place lon2 lat2)) in Et.
  rewrite components, <- Et in Te, Tn. assert (Q : sqrt (1 - cos t ^ 2) = sin t). { replace (1 - cos t ^ 2) with (sin t ^ 2) by (pose proof (sc2 t); lra). apply sqrt_pow2, sin_ge_0; lra. }
  rewrite Q in Te, Tn. rewrite (frame lon1 lat1 (place lon2 lat2)) at 1. fold (eastward lon1 lat1 lon2 lat2) (northward lon1 lat1 lon2 lat2). rewrite Te, Tn, <- Et. vring.
Qed.
Print Assumptions C43_course.
(** No other azimuth does, unless the places are the same or opposite. *)
Theorem C43_unique : forall lon1 lat1 lon2 lat2 t a, angle (place lon1 lat1) (place lon2 lat2) t -> t <> 0 -> t <> PI -> 0 <= a < 360 ->
  place lon2 lat2 = vadd (vscale (cos t) (place lon1 lat1)) (vscale (sin t) (vadd (vscale (sin (deg a)) (east_of lon1)) (vscale (cos (deg a)) (north_of lon1 lat1)))) ->
  a = azimuth lon1 lat1 lon2 lat2.
Proof.
  intros lon1 lat1 lon2 lat2 t a [Rt _] N0 N1 Ha E. symmetry. pose proof (sc2 (deg lon1)) as A. pose proof (sc2 (deg lat1)) as B.
  assert (G : forall w, vdot (east_of lon1) (vadd (vscale (cos t) (place lon1 lat1)) (vscale (sin t) (vadd (vscale (sin w) (east_of lon1)) (vscale (cos w) (north_of lon1 lat1))))) = sin t * sin w /\
                       vdot (north_of lon1 lat1) (vadd (vscale (cos t) (place lon1 lat1)) (vscale (sin t) (vadd (vscale (sin w) (east_of lon1)) (vscale (cos w) (north_of lon1 lat1))))) = sin t * cos w).
  { intro w. unfold vdot, vadd, vscale, place, east_of, north_of. cbn [vx vy vz]. set (sl := sin (deg lon1)) in *. set (cl := cos (deg lon1)) in *. set (sp := sin (deg lat1)) in *. set (cp := cos (deg lat1)) in *. clearbody sl cl sp cp. split.
    - transitivity (sin t * sin w * (sl * sl + cl * cl)); [ring|rewrite A; ring].
    - transitivity (sin t * cos w * (sp * sp * (sl * sl + cl * cl) + cp * cp) + cos t * sp * cp * (1 - (sl * sl + cl * cl))); [ring|]. rewrite A. replace (sp * sp * 1 + cp * cp) with 1 by lra. ring. }
  apply azimuth_is with (s := sin t); [apply sin_gt_0; lra|assumption| |]; unfold eastward, northward; rewrite E; apply G.
Qed.
Print Assumptions C43_unique.
(** The cardinal directions. *)
Theorem C43_cardinal : forall lon1 lat1 lon2 lat2, -90 <= lat1 <= 90 -> -90 <= lat2 <= 90 ->
  (same_lon lon1 lon2 -> lat1 < lat2 -> lat2 - lat1 < 180 -> azimuth lon1 lat1 lon2 lat2 = 0) /\
  (same_lon lon1 lon2 -> lat2 < lat1 -> lat1 - lat2 < 180 -> azimuth lon1 lat1 lon2 lat2 = 180) /\
  (lat1 = 0 -> lat2 = 0 -> 0 < lon2 - lon1 < 180 -> azimuth lon1 lat1 lon2 lat2 = 90) /\
  (lat1 = 0 -> lat2 = 0 -> -180 < lon2 - lon1 < 0 -> azimuth lon1 lat1 lon2 lat2 = 270) /\
  (same_lon lon1 lon2 -> lat1 = lat2 -> azimuth lon1 lat1 lon2 lat2 = 0).
Proof.
  intros lon1 lat1 lon2 lat2 H1 H2. pose proof pi_pos as P.
  assert (M : same_lon lon1 lon2 -> eastward lon1 lat1 lon2 lat2 = 0 /\ northward lon1 lat1 lon2 lat2 = sin (deg (lat2 - lat1))).
  { intro S. apply same_lon_trig in S as [Ss Sc]. unfold eastward, northward, vdot, east_of, north_of, place. cbn [vx vy vz]. rewrite <- Ss, <- Sc, deg_sub, sin_minus. pose proof (sc2 (deg lon1)) as A. split; [ring|].
    transitivity (cos (deg lat1) * sin (deg lat2) - sin (deg lat1) * cos (deg lat2) * (sin (deg lon1) * sin (deg lon1) + cos (deg lon1) * cos (deg lon1))); [ring|rewrite A; ring]. }
  assert (D0 : deg 0 = 0) by (unfold deg; field).
  assert (Eq : eastward lon1 0 lon2 0 = sin (deg (lon2 - lon1)) /\ northward lon1 0 lon2 0 = 0).
  { unfold eastward, northward, vdot, east_of, north_of, place. cbn [vx vy vz]. rewrite D0, sin_0, cos_0, deg_sub, sin_minus. split; ring. }
  split; [|split; [|split; [|split]]].
  - intros S L W. destruct (M S) as [Me Mn]. apply azimuth_is with (s := sin (deg (lat2 - lat1))); [apply sin_gt_0; unfold deg; nra|lra| |]; rewrite ?Me, ?Mn, D0, ?sin_0, ?cos_0; ring.
  - intros S L W. destruct (M S) as [Me Mn]. apply azimuth_is with (s := sin (deg (lat1 - lat2))); [apply sin_gt_0; unfold deg; nra|lra| |]; rewrite ?Me, ?Mn, deg_180, ?sin_PI, ?cos_PI; [ring|].
    rewrite !deg_sub, !sin_minus. ring.
  - intros -> -> L. destruct Eq as [Me Mn]. apply azimuth_is with (s := sin (deg (lon2 - lon1))); [apply sin_gt_0; unfold deg; nra|lra| |]; rewrite ?Me, ?Mn, deg_90, ?sin_PI2, ?cos_PI2; ring.
  - intros -> -> L. destruct Eq as [Me Mn]. assert (T : sin (deg 270) = -1 /\ cos (deg 270) = 0). { replace (deg 270) with (PI / 2 + PI) by (unfold deg; field). rewrite neg_sin, neg_cos, sin_PI2, cos_PI2. split; ring. }
    destruct T as [Ts Tc]. apply azimuth_is with (s := sin (deg (lon1 - lon2))); [apply sin_gt_0; unfold deg; nra|lra| |]; rewrite ?Me, ?Mn, ?Ts, ?Tc; [rewrite !deg_sub, !sin_minus; ring|ring].
  - intros S <-. destruct (M S) as [Me Mn]. replace (deg (lat1 - lat1)) with 0 in Mn by (unfold deg; field). rewrite sin_0 in Mn. apply azimuth_trig; assumption.
Qed.
Print Assumptions C43_cardinal.
Example C43_ex : azimuth 10 0 40 0 = 90 /\ azimuth 179 20 (-181) 30 = 0.
Proof.
  split; [apply (C43_cardinal 10 0 40 0); lra|]. destruct (C43_cardinal 179 20 (-181) 30 ltac:(lra) ltac:(lra)) as (N & _). apply N; [exists 1%Z; lra|lra|lra].
Qed.
Example C43_ex_unique : exists t, angle (place 0 0) (place 50 90) t /\ t <> 0 /\ t <> PI.
Proof.
  exists (PI / 2). pose proof pi_pos. split; [|lra]. split; [lra|]. rewrite cos_PI2. unfold place. cbn [vx vy vz]. rewrite deg_90, cos_PI2, sin_PI2. replace (deg 0) with 0 by (unfold deg; field). rewrite sin_0, cos_0. ring.
Qed.
