(** Spherical coordinates and the orthographic projection. *)
From Coq Require Import ZArith Reals List Bool Lra Psatz Lia.
From Flocq Require Import Core.
From Verif Require Import PyBase VecModel VecProofs GeoModel GeoSpec GeoTrig GeoProofs.
Import ListNotations.
Open Scope R_scope.

Lemma cartesian_place : forall lon lat d, spherical_to_cartesian lon lat d = vscale (6371 - match d with Some d => d | None => 0 end) (place lon lat).
Proof. intros lon lat d. unfold spherical_to_cartesian, vscale, place, EARTH_RADIUS. cbv zeta. rewrite !radians_deg. cbn [vx vy vz]. destruct d; apply vec_ext; cbn [vx vy vz]; ring. Qed.
Lemma scale_mag : forall r lon lat, 0 <= r -> let v := vscale r (place lon lat) in sqrt (vx v * vx v + vy v * vy v + vz v * vz v) = r.
Proof.
  intros r lon lat Hr v. change (sqrt (vdot v v) = r). assert (E : vdot v v = r ^ 2). { unfold v. replace (vdot _ _) with (r ^ 2 * vdot (place lon lat) (place lon lat)) by vring. rewrite place_unit. ring. }
  rewrite E. apply sqrt_pow2. assumption.
Qed.
Lemma clip_id : forall x, -1 <= x <= 1 -> clip (-1) 1 x = x.
Proof. intros x H. unfold clip. rewrite Rmax_left, Rmin_left; lra. Qed.
Lemma asin_deg : forall lat, -90 <= lat <= 90 -> degrees (asin (sin (deg lat))) = lat.
Proof. intros lat H. rewrite asin_sin by (apply lat_bounds; assumption). apply degrees_deg. Qed.
Lemma lon_bounds : forall l, -180 < l <= 180 -> - PI < deg l <= PI.
Proof. intros l H. pose proof pi_pos. unfold deg. split; nra. Qed.

(** The frame at a place. *)
Definition from_frame (lon0 lat0 c x y : R) : vec := vadd (vscale c (place lon0 lat0)) (vadd (vscale x (east_of lon0)) (vscale y (north_of lon0 lat0))).
Lemma frame_coords : forall lon0 lat0 c x y, vdot (place lon0 lat0) (from_frame lon0 lat0 c x y) = c /\ vdot (east_of lon0) (from_frame lon0 lat0 c x y) = x /\ vdot (north_of lon0 lat0) (from_frame lon0 lat0 c x y) = y.
Proof.
  intros. pose proof (sc2 (deg lon0)) as A. pose proof (sc2 (deg lat0)) as B. unfold from_frame, vdot, vadd, vscale, place, east_of, north_of. cbn [vx vy vz].
  set (sl := sin (deg lon0)) in *. set (cl := cos (deg lon0)) in *. set (sp := sin (deg lat0)) in *. set (cp := cos (deg lat0)) in *. clearbody sl cl sp cp. split; [|split].
  - transitivity (c * (cp * cp * (sl * sl + cl * cl) + sp * sp) + y * (sp * cp * (1 - (sl * sl + cl * cl)))); [ring|]. rewrite A. replace (cp * cp * 1 + sp * sp) with 1 by lra. ring.
  - transitivity (x * (sl * sl + cl * cl)); [ring|rewrite A; ring].
  - transitivity (y * (sp * sp * (sl * sl + cl * cl) + cp * cp) + c * (sp * cp * (1 - (sl * sl + cl * cl)))); [ring|]. rewrite A. replace (sp * sp * 1 + cp * cp) with 1 by lra. ring.
Qed.
Lemma place_frame : forall lon0 lat0 lon lat, place lon lat = from_frame lon0 lat0 (vdot (place lon0 lat0) (place lon lat)) (eastward lon0 lat0 lon lat) (northward lon0 lat0 lon lat).
Proof. intros. apply frame. Qed.

Lemma sin_far : forall lon0 lat0 lon lat t, angle (place lon0 lat0) (place lon lat) t ->
  rltb (sqrt 2 / 2) (sqrt (sin ((deg lat0 - deg lat) / 2) ^ 2 + cos (deg lat0) * cos (deg lat) * sin ((deg lon - deg lon0) / 2) ^ 2)) = rltb (PI / 2) t.
Proof.
  intros lon0 lat0 lon lat t [Rt Et]. change (cos t = vdot (place lon0 lat0) (place lon lat)) in Et. pose proof pi_pos as P.
  assert (E : sin ((deg lat0 - deg lat) / 2) ^ 2 + cos (deg lat0) * cos (deg lat) * sin ((deg lon - deg lon0) / 2) ^ 2 = (1 - cos t) / 2).
  { rewrite Et, <- hav_dot. unfold hav. f_equal. f_equal. replace ((deg lon - deg lon0) / 2) with (- ((deg lon0 - deg lon) / 2)) by field. rewrite sin_neg. ring. }
  rewrite E. assert (H2 : sqrt 2 / 2 = sqrt (1 / 2)). { rewrite sqrt_div by lra. rewrite sqrt_1. assert (sqrt 2 * sqrt 2 = 2) by (apply sqrt_sqrt; lra). assert (0 < sqrt 2) by (apply sqrt_lt_R0; lra). field_simplify_eq; [lra|lra]. }
  rewrite H2. assert (B : -1 <= cos t <= 1) by apply COS_bound.
  destruct (rltb (PI / 2) t) eqn:Q; cmp.
  - apply rltb_iff. apply sqrt_lt_1_alt. assert (cos t < cos (PI / 2)) by (apply cos_decreasing_1; lra). rewrite cos_PI2 in H. lra.
  - apply rltb_f. apply sqrt_le_1_alt. assert (0 <= cos t) by (apply cos_ge_0; lra). lra.
Qed.
Lemma forward_coords : forall lon0 lat0 lon lat,
  cos (deg lat) * sin (deg lon - deg lon0) = eastward lon0 lat0 lon lat /\ cos (deg lat0) * sin (deg lat) - sin (deg lat0) * cos (deg lat) * cos (deg lon - deg lon0) = northward lon0 lat0 lon lat.
Proof.
  intros. split.
  - replace (deg lon - deg lon0) with (- (deg lon0 - deg lon)) by ring. rewrite sin_neg. pose proof (eastward_eq lon0 lat0 lon lat). lra.
  - rewrite <- northward_eq. replace (deg lon - deg lon0) with (- (deg lon0 - deg lon)) by ring. rewrite cos_neg. reflexivity.
Qed.
Lemma shift_lon : forall l, -360 < l <= 360 -> let l1 := if rleb 180 l then l - 360 else l in let l2 := if rleb l1 (-180) then l1 + 360 else l1 in -180 < l2 <= 180 /\ same_lon l2 l.
Proof.
  intros l H l1 l2. unfold l2, l1. destruct (rleb 180 l) eqn:E1; cmp; [destruct (rleb (l - 360) (-180)) eqn:E2|destruct (rleb l (-180)) eqn:E2]; cmp; split; try lra;
    [exists 0%Z|exists (-1)%Z|exists 1%Z|exists 0%Z]; lra.
Qed.
Lemma reverse_place : forall lon0 lat0 x y, let xx := x / 6371 in let yy := y / 6371 in xx ^ 2 + yy ^ 2 <= 1 -> -180 <= lon0 <= 180 ->
  let r := ortho_reverse lon0 lat0 x y in
  place (fst r) (snd r) = from_frame lon0 lat0 (sqrt (1 - (xx ^ 2 + yy ^ 2))) xx yy /\ -180 < fst r <= 180 /\ -90 <= snd r <= 90.
Proof.
  intros lon0 lat0 x y xx yy H Hl r. pose proof pi_pos as P. set (c := sqrt (1 - (xx ^ 2 + yy ^ 2))). assert (Hc : 0 <= c) by apply sqrt_pos. assert (Cc : c * c = 1 - (xx ^ 2 + yy ^ 2)) by (apply sqrt_sqrt; lra).
  set (z := c * sin (deg lat0) + yy * cos (deg lat0)). set (h := cos (deg lat0) * c - yy * sin (deg lat0)). pose proof (sc2 (deg lat0)) as B.
  assert (Z : z * z + xx * xx + h * h = 1). { unfold z, h. transitivity ((c * c + yy * yy) * (sin (deg lat0) * sin (deg lat0) + cos (deg lat0) * cos (deg lat0)) + xx * xx); [ring|]. rewrite B, Cc. ring. }
  assert (Zr : -1 <= z <= 1) by (split; nra).
  set (lam := arctan2 xx h). assert (L : sin lam * sqrt (h ^ 2 + xx ^ 2) = xx /\ cos lam * sqrt (h ^ 2 + xx ^ 2) = h).
  { destruct (Req_dec h 0) as [H0|H0]; [destruct (Req_dec xx 0) as [X0|X0]|].
    - rewrite H0, X0. replace (0 ^ 2 + 0 ^ 2) with 0 by ring. rewrite sqrt_0. split; ring.
    - destruct (arctan2_spec xx h (or_intror X0)) as [S C]. fold lam in S, C. pose proof (hyp_pos h xx (or_intror X0)). rewrite S, C. split; field; lra.
    - destruct (arctan2_spec xx h (or_introl H0)) as [S C]. fold lam in S, C. pose proof (hyp_pos h xx (or_introl H0)). rewrite S, C. split; field; lra. }
  set (l := degrees (deg lon0 + lam)). assert (Rl : -360 < l <= 360). { assert (- PI <= deg lon0 <= PI) by (unfold deg; split; nra). pose proof (arctan2_range xx h) as Rr. fold lam in Rr. assert (El : deg l = deg lon0 + lam) by apply deg_degrees. split; apply Rnot_le_lt || apply Rnot_lt_le; intro Q; unfold deg in El at 1; nra. }
  destruct (shift_lon l Rl) as [S1 S2]. assert (Er : r = (let l1 := if rleb 180 l then l - 360 else l in if rleb l1 (-180) then l1 + 360 else l1, degrees (asin z))).
  { unfold r, ortho_reverse, EARTH_RADIUS. cbv zeta. rewrite !radians_deg. fold xx yy. fold c. fold z h. fold lam. fold l. reflexivity. }
  rewrite Er. cbn [fst snd]. cbv zeta. cbv zeta in S1, S2. split; [|split; [exact S1|]].
  - apply same_lon_trig in S2 as [Ss Sc]. unfold place at 1. rewrite Ss, Sc. unfold l. rewrite !deg_degrees, sin_asin, cos_asin by exact Zr.
    assert (Q : sqrt (1 - Rsqr z) = sqrt (h ^ 2 + xx ^ 2)) by (f_equal; unfold Rsqr; lra). rewrite Q, cos_plus, sin_plus.
    destruct L as [L1 L2]. set (w := sqrt (h ^ 2 + xx ^ 2)) in *.
    replace (w * (cos (deg lon0) * cos lam - sin (deg lon0) * sin lam)) with (cos (deg lon0) * (cos lam * w) - sin (deg lon0) * (sin lam * w)) by ring.
    replace (w * (sin (deg lon0) * cos lam + cos (deg lon0) * sin lam)) with (sin (deg lon0) * (cos lam * w) + cos (deg lon0) * (sin lam * w)) by ring. rewrite L1, L2.
    unfold from_frame, vadd, vscale, place, east_of, north_of. cbn [vx vy vz]. unfold z, h. apply vec_ext; cbn [vx vy vz]; ring.
  - pose proof (asin_bound z). assert (D : deg (degrees (asin z)) = asin z) by apply deg_degrees. unfold deg in D at 1. split; nra.
Qed.
