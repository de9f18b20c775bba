(** Great circles: distance and azimuth. *)
From Coq Require Import ZArith Reals Lra Psatz Lia.
From Flocq Require Import Core.
From Verif Require Import PyBase VecModel VecProofs GeoModel GeoSpec GeoTrig.
Open Scope R_scope.

Lemma half_sq : forall x, sin (x / 2) ^ 2 = (1 - cos x) / 2.
Proof. intro x. replace x with (2 * (x / 2)) at 2 by field. rewrite cos_2a_sin. field. Qed.
Lemma place_unit : forall lon lat, vdot (place lon lat) (place lon lat) = 1.
Proof.
  intros. unfold vdot, place. cbn [vx vy vz]. pose proof (sc2 (deg lon)) as A. pose proof (sc2 (deg lat)) as B.
  transitivity (cos (deg lat) * cos (deg lat) * (sin (deg lon) * sin (deg lon) + cos (deg lon) * cos (deg lon)) + sin (deg lat) * sin (deg lat)); [ring|]. rewrite A. lra.
Qed.
Definition hav (lon1 lat1 lon2 lat2 : R) : R := sin ((deg lat1 - deg lat2) / 2) ^ 2 + cos (deg lat1) * cos (deg lat2) * sin ((deg lon1 - deg lon2) / 2) ^ 2.
Lemma hav_dot : forall lon1 lat1 lon2 lat2, hav lon1 lat1 lon2 lat2 = (1 - vdot (place lon1 lat1) (place lon2 lat2)) / 2.
Proof. intros. unfold hav. rewrite !half_sq, !cos_minus. unfold vdot, place. cbn [vx vy vz]. field. Qed.
Lemma dot_range : forall u w, vdot u u = 1 -> vdot w w = 1 -> -1 <= vdot u w <= 1.
Proof.
  intros u w Hu Hw. pose proof (lagrange u w) as L. rewrite Hu, Hw in L. pose proof (dot_pos (vcross u w)). nra.
Qed.
Lemma hav_range : forall lon1 lat1 lon2 lat2, 0 <= hav lon1 lat1 lon2 lat2 <= 1.
Proof. intros. rewrite hav_dot. pose proof (dot_range _ _ (place_unit lon1 lat1) (place_unit lon2 lat2)). lra. Qed.
Lemma dist_angle : forall lon1 lat1 lon2 lat2, exists t, angle (place lon1 lat1) (place lon2 lat2) t /\ geodetic_distance lon1 lat1 lon2 lat2 = 6371 * t.
Proof.
  intros. pose proof (hav_range lon1 lat1 lon2 lat2) as H. set (s := sqrt (hav lon1 lat1 lon2 lat2)).
  assert (Ss : s * s = hav lon1 lat1 lon2 lat2) by (apply sqrt_sqrt; lra). assert (S0 : 0 <= s) by apply sqrt_pos. assert (S1 : s <= 1) by nra.
  exists (2 * asin s). split; [split|].
  - pose proof (asin_bound s). split; [|lra]. assert (0 <= asin s); [|lra].
    destruct (Rle_dec 0 (asin s)) as [|N]; [assumption|exfalso]. pose proof pi_pos. assert (sin (asin s) < 0) by (apply sin_lt_0_var; lra). rewrite sin_asin in H2 by lra. lra.
  - rewrite cos_2a_sin, sin_asin by lra. replace (2 * s * s) with (2 * (s * s)) by ring. rewrite Ss, hav_dot. unfold vdot. lra.
  - unfold geodetic_distance. cbv zeta. rewrite !radians_deg. fold (hav lon1 lat1 lon2 lat2). fold s. unfold EARTH_RADIUS. ring.
Qed.
Lemma angle_det : forall u w t t', angle u w t -> angle u w t' -> t = t'.
Proof. intros u w t t' [H1 E1] [H2 E2]. apply cos_inj; lra. Qed.
Lemma angle_sym : forall u w t, angle u w t -> angle w u t.
Proof. intros u w t [H E]. split; [assumption|]. rewrite E. ring. Qed.
(** The triangle inequality on the sphere. *)
Lemma angle_triangle : forall u v w a b c, vdot u u = 1 -> vdot v v = 1 -> vdot w w = 1 -> angle u v a -> angle v w b -> angle u w c -> c <= a + b.
Proof.
  intros u v w a b c Hu Hv Hw [Ra Ea] [Rb Eb] [Rc Ec]. destruct (Rle_dec (a + b) PI) as [L|L]; [|lra].
  destruct (Rle_dec c (a + b)) as [|G]; [assumption|exfalso].
  assert (Lt : cos c < cos (a + b)) by (apply cos_decreasing_1; lra). rewrite cos_plus in Lt.
  change (cos a = vdot u v) in Ea. change (cos b = vdot v w) in Eb. change (cos c = vdot u w) in Ec.
  assert (Sa : 0 <= sin a) by (apply sin_ge_0; lra). assert (Sb : 0 <= sin b) by (apply sin_ge_0; lra).
  pose proof (sc2 a) as A. pose proof (sc2 b) as B.
  (* components of u and w perpendicular to v *)
  set (p := vsub u (vscale (vdot u v) v)). set (q := vsub w (vscale (vdot v w) v)).
  assert (Ep : vdot p p = sin a * sin a). { unfold p. replace (vdot _ _) with (vdot u u - 2 * (vdot u v * vdot u v) + vdot u v * vdot u v * vdot v v) by vring. rewrite Hu, Hv, <- Ea. lra. }
  assert (Eq : vdot q q = sin b * sin b). { unfold q. replace (vdot _ _) with (vdot w w - 2 * (vdot v w * vdot v w) + vdot v w * vdot v w * vdot v v) by vring. rewrite Hw, Hv, <- Eb. lra. }
  assert (Epq : vdot p q = cos c - cos a * cos b). { unfold p, q. replace (vdot _ _) with (vdot u w - 2 * (vdot u v * vdot v w) + vdot u v * vdot v w * vdot v v) by vring. rewrite Hv, <- Ea, <- Eb, <- Ec. lra. }
  pose proof (lagrange p q) as Lg. pose proof (dot_pos (vcross p q)). rewrite Ep, Eq, Epq in Lg.
  assert (- (sin a * sin b) <= cos c - cos a * cos b); [|lra].
  assert (0 <= sin a * sin b) by (apply Rmult_le_pos; assumption). nra.
Qed.
Lemma angle_zero : forall u w, vdot u u = 1 -> vdot w w = 1 -> angle u w 0 <-> u = w.
Proof.
  intros u w Hu Hw. split.
  - intros [_ E]. rewrite cos_0 in E. assert (Z : vsub u w = v0). { apply dot_zero. replace (vdot (vsub u w) (vsub u w)) with (vdot u u - 2 * vdot u w + vdot w w) by vring. unfold vdot at 2. lra. }
    destruct u, w. unfold vsub, v0 in Z. cbn in Z. injection Z as Z1 Z2 Z3. f_equal; lra.
  - intros <-. split; [pose proof pi_pos; lra|]. rewrite cos_0. unfold vdot in Hu. lra.
Qed.
Lemma lat_bounds : forall l, -90 <= l <= 90 -> - (PI / 2) <= deg l <= PI / 2.
Proof. intros l H. pose proof pi_pos. unfold deg. split; nra. Qed.
Lemma lat_inner : forall l, -90 < l < 90 -> - (PI / 2) < deg l < PI / 2 /\ 0 < cos (deg l).
Proof. intros l H. pose proof pi_pos. assert (B : - (PI / 2) < deg l < PI / 2) by (unfold deg; split; nra). split; [exact B|]. apply cos_gt_0; apply B. Qed.
Lemma place_eq : forall lon1 lat1 lon2 lat2, -90 <= lat1 <= 90 -> -90 <= lat2 <= 90 ->
  (place lon1 lat1 = place lon2 lat2 <-> lat1 = lat2 /\ (same_lon lon1 lon2 \/ Rabs lat1 = 90)).
Proof.
  intros lon1 lat1 lon2 lat2 H1 H2. split.
  - intro E. unfold place in E. injection E as Ex Ey Ez. assert (L : lat1 = lat2).
    { assert (deg lat1 = deg lat2); [|unfold deg in H; pose proof pi_pos; nra]. rewrite <- (asin_sin (deg lat1)), <- (asin_sin (deg lat2)), Ez; [reflexivity|apply lat_bounds; assumption|apply lat_bounds; assumption]. }
    split; [exact L|]. subst lat2. destruct (Req_dec (cos (deg lat1)) 0) as [C|C].
    + right. assert (D : lat1 = 90 \/ lat1 = -90 \/ -90 < lat1 < 90) by lra. destruct D as [->|[->|D]]; [apply Rabs_right; lra|rewrite Rabs_left; lra|exfalso].
      destruct (lat_inner lat1 D) as [_ P]. lra.
    + left. apply deg_same; nra.
  - intros (<- & [H|H]).
    + destruct (same_lon_trig _ _ H) as [Es Ec]. unfold place. rewrite Es, Ec. reflexivity.
    + assert (C : cos (deg lat1) = 0). { unfold Rabs in H. destruct (Rcase_abs lat1); [replace lat1 with (-90) by lra; rewrite deg_m90, cos_neg; apply cos_PI2|rewrite H, deg_90; apply cos_PI2]. }
      unfold place. rewrite C. f_equal; ring.
Qed.

(** ** Azimuth *)
Definition eastward (lon1 lat1 lon2 lat2 : R) : R := vdot (east_of lon1) (place lon2 lat2).
Definition northward (lon1 lat1 lon2 lat2 : R) : R := vdot (north_of lon1 lat1) (place lon2 lat2).
Lemma eastward_eq : forall lon1 lat1 lon2 lat2, sin (deg lon1 - deg lon2) * cos (deg lat2) = - eastward lon1 lat1 lon2 lat2.
Proof. intros. unfold eastward, vdot, east_of, place. cbn [vx vy vz]. rewrite sin_minus. ring. Qed.
Lemma northward_eq : forall lon1 lat1 lon2 lat2,
  cos (deg lat1) * sin (deg lat2) - sin (deg lat1) * cos (deg lat2) * cos (deg lon1 - deg lon2) = northward lon1 lat1 lon2 lat2.
Proof. intros. unfold northward, vdot, north_of, place. cbn [vx vy vz]. rewrite cos_minus. ring. Qed.
Lemma frame : forall lon1 lat1 w,
  w = vadd (vscale (vdot (place lon1 lat1) w) (place lon1 lat1)) (vadd (vscale (vdot (east_of lon1) w) (east_of lon1)) (vscale (vdot (north_of lon1 lat1) w) (north_of lon1 lat1))).
Proof.
  intros lon1 lat1 [x y z]. pose proof (sc2 (deg lon1)) as A. pose proof (sc2 (deg lat1)) as B.
  unfold vadd, vscale, vdot, place, east_of, north_of. cbn [vx vy vz]. set (sl := sin (deg lon1)) in *. set (cl := cos (deg lon1)) in *. set (sp := sin (deg lat1)) in *. set (cp := cos (deg lat1)) in *. clearbody sl cl sp cp.
  apply vec_ext; cbn [vx vy vz].
  - transitivity ((x * cl + y * sl) * cl * (sp * sp + cp * cp) + (x * sl - y * cl) * sl); [rewrite B; transitivity (x * (sl * sl + cl * cl)); [rewrite A; ring|ring]|ring].
  - transitivity ((x * cl + y * sl) * sl * (sp * sp + cp * cp) + (y * cl - x * sl) * cl); [rewrite B; transitivity (y * (sl * sl + cl * cl)); [rewrite A; ring|ring]|ring].
  - transitivity (z * (sp * sp + cp * cp)); [rewrite B; ring|ring].
Qed.
Lemma components : forall lon1 lat1 lon2 lat2, eastward lon1 lat1 lon2 lat2 ^ 2 + northward lon1 lat1 lon2 lat2 ^ 2 = 1 - vdot (place lon1 lat1) (place lon2 lat2) ^ 2.
Proof.
  intros. unfold eastward, northward. set (w := place lon2 lat2). assert (U : vdot w w = 1) by apply place_unit. pose proof (frame lon1 lat1 w) as F.
  assert (E : vdot w w = vdot (place lon1 lat1) w ^ 2 + vdot (east_of lon1) w ^ 2 + vdot (north_of lon1 lat1) w ^ 2); [|lra].
  set (p := vdot (place lon1 lat1) w) in *. set (e := vdot (east_of lon1) w) in *. set (n := vdot (north_of lon1 lat1) w) in *.
  assert (G : vdot w w = p * vdot (place lon1 lat1) w + e * vdot (east_of lon1) w + n * vdot (north_of lon1 lat1) w).
  { rewrite F at 1. clearbody p e n. generalize (place lon1 lat1) (east_of lon1) (north_of lon1 lat1) w. intros. vring. }
  rewrite G. fold p e n. ring.
Qed.
Lemma azimuth_trig : forall lon1 lat1 lon2 lat2, let az := azimuth lon1 lat1 lon2 lat2 in
  let e := eastward lon1 lat1 lon2 lat2 in let n := northward lon1 lat1 lon2 lat2 in
  0 <= az < 360 /\ e = sqrt (e ^ 2 + n ^ 2) * sin (deg az) /\ n = sqrt (e ^ 2 + n ^ 2) * cos (deg az) /\ (e = 0 -> n = 0 -> az = 0).
Proof.
  intros lon1 lat1 lon2 lat2 az e n. unfold az, azimuth. cbv zeta. rewrite !radians_deg, (eastward_eq lon1 lat1), northward_eq. fold e n.
  set (tc := arctan2 (- e) n). split; [apply mod_range; lra|].
  destruct (mod_same (360 - degrees tc) 360 ltac:(lra)) as (k & Ek).
  assert (T : sin (deg (pymod (360 - degrees tc) 360)) = - sin tc /\ cos (deg (pymod (360 - degrees tc) 360)) = cos tc).
  { rewrite Ek. replace (360 - degrees tc + 360 * IZR k) with (- degrees tc + 360 * IZR (k + 1)) by (rewrite plus_IZR; ring). rewrite deg_add, deg_turn, sin_periodZ, cos_periodZ.
    replace (deg (- degrees tc)) with (- tc) by (rewrite <- (deg_degrees tc) at 1; unfold deg; field). rewrite sin_neg, cos_neg. auto. }
  destruct T as [Ts Tc]. rewrite Ts, Tc. destruct (Req_dec e 0) as [E0|E0]; [destruct (Req_dec n 0) as [N0|N0]|].
  - unfold tc. rewrite E0, N0. replace (0 ^ 2 + 0 ^ 2) with 0 by ring. rewrite sqrt_0, Ropp_0, arctan2_00. split; [ring|]. split; [ring|]. intros _ _.
    unfold degrees. apply (mod_unique _ _ _ (-1)); [lra|lra|]. ring.
  - destruct (arctan2_spec (- e) n (or_introl N0)) as [S C]. fold tc in S, C. replace (n ^ 2 + (- e) ^ 2) with (e ^ 2 + n ^ 2) in S, C by ring. assert (P : 0 < sqrt (e ^ 2 + n ^ 2)) by (apply hyp_pos; auto). rewrite S, C. split; [field; lra|]. split; [field; lra|]. intros _ N. contradiction.
  - assert (N0 : - e <> 0) by lra. destruct (arctan2_spec (- e) n (or_intror N0)) as [S C]. fold tc in S, C. replace (n ^ 2 + (- e) ^ 2) with (e ^ 2 + n ^ 2) in S, C by ring. assert (P : 0 < sqrt (e ^ 2 + n ^ 2)) by (apply hyp_pos; auto). rewrite S, C. split; [field; lra|]. split; [field; lra|]. intros N _. contradiction.
Qed.
Lemma azimuth_is : forall lon1 lat1 lon2 lat2 s a, 0 < s -> 0 <= a < 360 -> eastward lon1 lat1 lon2 lat2 = s * sin (deg a) -> northward lon1 lat1 lon2 lat2 = s * cos (deg a) ->
  azimuth lon1 lat1 lon2 lat2 = a.
Proof.
  intros lon1 lat1 lon2 lat2 s a Hs Ha Ee En. destruct (azimuth_trig lon1 lat1 lon2 lat2) as (Hz & Te & Tn & _). set (e := eastward lon1 lat1 lon2 lat2) in *. set (n := northward lon1 lat1 lon2 lat2) in *.
  assert (Q : sqrt (e ^ 2 + n ^ 2) = s). { rewrite Ee, En. replace ((s * sin (deg a)) ^ 2 + (s * cos (deg a)) ^ 2) with (s ^ 2 * (sin (deg a) * sin (deg a) + cos (deg a) * cos (deg a))) by ring. rewrite sc2, Rmult_1_r. apply sqrt_pow2. lra. }
  rewrite Q in Te, Tn. destruct (deg_same (azimuth lon1 lat1 lon2 lat2) a) as (k & Ek); [nra|nra|].
  assert (-1 < IZR k < 1) as [A B] by (split; lra). apply lt_IZR in A, B. assert (k = 0%Z) by lia. subst k. lra.
Qed.
