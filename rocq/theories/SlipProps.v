(** Property C110: the slip vector of a quadrilateral. *)
From Coq Require Import ZArith Reals String Ascii Bool List Lia Lra.
From Flocq Require Import Core.Raux.
From Verif Require Import PyBase VecModel GeoModel RuptModel PolyModel SizeModel SlipModel RuptSpec GeoSpec BoxSpec SlipSpec BoxProofs VecProofs GeoTrig GeoProofs SphereProofs EcefProofs EcefProps RuptProofs RuptProps FrameProps EquatorProofs SizeProofs DipProofs.
Import ListNotations.
Open Scope R_scope.

Lemma place_ecef lon lat lon' lat' dep : place lon lat = place lon' lat' -> latlon2ecef lat lon dep = latlon2ecef lat' lon' dep.
Proof.
  intro E. unfold place in E. injection E as E1 E2 E3. unfold latlon2ecef. rewrite !radians_deg. cbv zeta. rewrite E3. rewrite !(Rmult_assoc _ (cos (deg lat))), E1, E2, !(Rmult_assoc _ (cos (deg lat'))). reflexivity.
Qed.
Lemma place_unit lon lat : vx (place lon lat) * vx (place lon lat) + vy (place lon lat) * vy (place lon lat) + vz (place lon lat) * vz (place lon lat) = 1.
Proof.
  unfold place. cbn [vx vy vz]. pose proof (sc2 (deg lat)) as A. pose proof (sc2 (deg lon)) as B. transitivity (cos (deg lat) * cos (deg lat) * (sin (deg lon) * sin (deg lon) + cos (deg lon) * cos (deg lon)) + sin (deg lat) * sin (deg lat)); [ring|]. rewrite B. lra.
Qed.
(** The ellipsoid through its normals. *)
Lemma surface lon lat : exists n, 6000000 < n /\ n * sqrt (1 - WGS84_E * WGS84_E * vz (place lon lat) * vz (place lon lat)) = WGS84_A /\
  latlon2ecef lat lon 0 = mkvec (n * vx (place lon lat)) (n * vy (place lon lat)) (n * (1 - WGS84_E * WGS84_E) * vz (place lon lat)).
Proof.
  pose proof (place_unit lon lat) as U. set (s := vz (place lon lat)) in *. assert (S : 0 <= s * s <= 1) by (split; [apply Rle_0_sqr|]; pose proof (Rle_0_sqr (vx (place lon lat))) as P1; pose proof (Rle_0_sqr (vy (place lon lat))) as P2; unfold Rsqr in *; lra).
  assert (K : 0.99 <= 1 - WGS84_E * WGS84_E * s * s <= 1). { rewrite (Rmult_assoc _ s s). assert (C : 0 <= WGS84_E * WGS84_E <= 0.01) by (unfold WGS84_E; lra). set (e := WGS84_E * WGS84_E) in *. set (w := s * s) in *. clearbody e w. clear U. assert (e * w <= 0.01 * 1) by (apply Rmult_le_compat; lra). assert (0 <= e * w) by (apply Rmult_le_pos; lra). lra. }
  assert (Q : 0 < sqrt (1 - WGS84_E * WGS84_E * s * s) <= 1). { split; [apply sqrt_lt_R0; lra|]. apply Rle_trans with (sqrt 1); [apply sqrt_le_1_alt; lra|rewrite sqrt_1; lra]. }
  exists (WGS84_A / sqrt (1 - WGS84_E * WGS84_E * s * s)). split; [|split].
  - unfold WGS84_A. apply Rlt_le_trans with (6378137 / 1); [lra|]. unfold Rdiv. apply Rmult_le_compat_l; [lra|]. apply Rinv_le_contravar; lra.
  - field. lra.
  - unfold latlon2ecef. rewrite !radians_deg. cbv zeta. unfold s, place. cbn [vx vy vz]. apply vec_ext; cbn [vx vy vz]; ring.
Qed.
(** It lies below each of its tangent planes. *)
Lemma tangent lon lat lon0 lat0 : scalar (latlon2ecef lat lon 0) (place lon0 lat0) <= scalar (latlon2ecef lat0 lon0 0) (place lon0 lat0).
Proof.
  destruct (surface lon lat) as (n & Hn & En & ->). destruct (surface lon0 lat0) as (m & Hm & Em & ->). pose proof (place_unit lon lat) as U. pose proof (place_unit lon0 lat0) as U0.
  unfold scalar. cbn [vx vy vz]. set (p := place lon lat) in *. set (r := place lon0 lat0) in *. set (k := 1 - WGS84_E * WGS84_E) in *. assert (Kp : 0 < k) by (unfold k, WGS84_E; lra).
  replace (1 - WGS84_E * WGS84_E * vz p * vz p) with (vx p * vx p + vy p * vy p + k * (vz p * vz p)) in En by (unfold k; lra). replace (1 - WGS84_E * WGS84_E * vz r * vz r) with (vx r * vx r + vy r * vy r + k * (vz r * vz r)) in Em by (unfold k; lra).
  set (A := vx p * vx p + vy p * vy p + k * (vz p * vz p)) in *. set (B := vx r * vx r + vy r * vy r + k * (vz r * vz r)) in *. set (D := vx p * vx r + vy p * vy r + k * (vz p * vz r)).
  assert (A0 : 0 <= A) by (unfold A; pose proof (Rle_0_sqr (vx p)); pose proof (Rle_0_sqr (vy p)); pose proof (Rle_0_sqr (vz p)); unfold Rsqr in *; nra). assert (B0 : 0 <= B) by (unfold B; pose proof (Rle_0_sqr (vx r)); pose proof (Rle_0_sqr (vy r)); pose proof (Rle_0_sqr (vz r)); unfold Rsqr in *; nra).
  assert (C : D * D <= A * B).
  { assert (I : A * B - D * D = (vx p * vy r - vy p * vx r) ^ 2 + k * (vx p * vz r - vz p * vx r) ^ 2 + k * (vy p * vz r - vz p * vy r) ^ 2) by (unfold A, B, D; ring).
    pose proof (pow2_ge_0 (vx p * vy r - vy p * vx r)). pose proof (pow2_ge_0 (vx p * vz r - vz p * vx r)) as P2. pose proof (pow2_ge_0 (vy p * vz r - vz p * vy r)) as P3. pose proof (Rmult_le_pos _ _ (Rlt_le _ _ Kp) P2). pose proof (Rmult_le_pos _ _ (Rlt_le _ _ Kp) P3). lra. }
  replace (n * vx p * vx r + n * vy p * vy r + n * k * vz p * vz r) with (n * D) by (unfold D; ring). replace (m * vx r * vx r + m * vy r * vy r + m * k * vz r * vz r) with (m * B) by (unfold B; ring).
  assert (Dle : D <= sqrt A * sqrt B). { rewrite <- sqrt_mult by assumption. apply Rle_trans with (Rabs D); [apply Rle_abs|]. rewrite <- sqrt_Rsqr_abs. apply sqrt_le_1_alt. exact C. }
  assert (E1 : m * B = WGS84_A * sqrt B) by (rewrite <- Em; rewrite Rmult_assoc, sqrt_sqrt by exact B0; reflexivity). rewrite E1, <- En. rewrite Rmult_assoc. apply Rmult_le_compat_l; [lra|exact Dle].
Qed.

(** What the two points differ by. *)
Lemma slip_parts lon0 lat0 sx sy sz : -180 <= lon0 <= 180 -> -90 <= lat0 <= 90 -> Rabs sx <= 2 -> Rabs sy <= 2 -> Rabs sz <= 1 ->
  let r := ortho_reverse lon0 lat0 sx sy in let s := ortho_reverse lon0 lat0 0 0 in
  let d := vsub (latlon2ecef (snd r) (fst r) sz) (latlon2ecef (snd s) (fst s) 0) in
  exists n c k, 900 < n /\ 0 < c /\ k <= 0 /\ scalar d (east_of lon0) = n * sx /\ scalar d (place lon0 lat0) = k - c * sz.
Proof.
  intros Hl Ha Bx By Bz r s d. assert (Sq : forall z, Rabs z <= 2 -> 0 <= (z / 6371) ^ 2 <= 0.000001). { intros z H. apply Rabs_le_inv in H. split; [apply pow2_ge_0|]. assert (Q : z * z <= 4) by nra. replace ((z / 6371) ^ 2) with (z * z / (6371 * 6371)) by field. apply Rle_trans with (4 / (6371 * 6371)); [unfold Rdiv; apply Rmult_le_compat_r; lra|lra]. }
  pose proof (Sq _ Bx) as Qx. pose proof (Sq _ By) as Qy.
  destruct (reverse_place lon0 lat0 sx sy ltac:(cbv zeta; lra) Hl) as (P1 & _ & R1). fold r in P1, R1.
  destruct (reverse_place lon0 lat0 0 0 ltac:(cbv zeta; lra) Hl) as (P0 & _ & R0). fold s in P0, R0.
  set (c := sqrt (1 - ((sx / 6371) ^ 2 + (sy / 6371) ^ 2))) in *. assert (Hc : 0 < c) by (apply sqrt_lt_R0; lra).
  assert (P0' : place (fst s) (snd s) = place lon0 lat0). { rewrite P0. replace (1 - ((0 / 6371) ^ 2 + (0 / 6371) ^ 2)) with 1 by field. rewrite sqrt_1. unfold from_frame, vadd, vscale. apply vec_ext; cbn [vx vy vz]; field. }
  destruct (frame_coords lon0 lat0 c (sx / 6371) (sy / 6371)) as (F1 & F2 & _). rewrite <- P1 in F1, F2.
  assert (D : d = vsub (vsub (latlon2ecef (snd r) (fst r) 0) (vscale (1000 * sz) (place (fst r) (snd r)))) (latlon2ecef lat0 lon0 0)). { unfold d. rewrite (place_ecef _ _ _ _ 0 P0'), (proj1 (C44_normal (snd r) (fst r) sz R1)). reflexivity. }
  clearbody d. subst d. pose proof (tangent (fst r) (snd r) lon0 lat0) as T.
  destruct (surface (fst r) (snd r)) as (n & Hn & _ & En). destruct (surface lon0 lat0) as (m & _ & _ & Em).
  exists ((n - 1000 * sz) / 6371 ), (1000 * c), (scalar (latlon2ecef (snd r) (fst r) 0) (place lon0 lat0) - scalar (latlon2ecef lat0 lon0 0) (place lon0 lat0)).
  assert (Bz' : -1 <= sz <= 1) by (apply Rabs_le_inv; exact Bz). split; [apply Rmult_lt_reg_r with 6371; [lra|]; unfold Rdiv; rewrite Rmult_assoc, Rinv_l by lra; lra|]. split; [lra|]. split; [lra|]. split.
  - assert (Z : scalar (latlon2ecef lat0 lon0 0) (east_of lon0) = 0) by (rewrite Em; unfold scalar, east_of, place; cbn [vx vy vz]; ring).
    assert (Y : scalar (latlon2ecef (snd r) (fst r) 0) (east_of lon0) = n * (sx / 6371)). { rewrite En, <- F2. unfold scalar, vdot, east_of. cbn [vx vy vz]. ring. }
    transitivity (scalar (latlon2ecef (snd r) (fst r) 0) (east_of lon0) - 1000 * sz * vdot (east_of lon0) (place (fst r) (snd r)) - scalar (latlon2ecef lat0 lon0 0) (east_of lon0)); [unfold scalar, vsub, vscale, vdot; cbn [vx vy vz]; ring|]. rewrite Z, Y, F2. field.
  - rewrite <- F1. unfold scalar, vsub, vscale, vdot. cbn [vx vy vz]. ring.
Qed.
Lemma slip_bounds strike dip rake : Rabs (vx (slip strike dip rake)) <= 2 /\ Rabs (vy (slip strike dip rake)) <= 2 /\ Rabs (vz (slip strike dip rake)) <= 1.
Proof.
  unfold slip. cbv zeta. cbn [vx vy vz]. assert (S : forall x, Rabs (sin x) <= 1) by (intro x; apply Rabs_le; apply SIN_bound). assert (C : forall x, Rabs (cos x) <= 1) by (intro x; apply Rabs_le; apply COS_bound).
  assert (M : forall a b, Rabs a <= 1 -> Rabs b <= 1 -> Rabs (a * b) <= 1) by (intros a b A B; rewrite Rabs_mult; rewrite <- (Rmult_1_l 1); apply Rmult_le_compat; auto using Rabs_pos).
  split; [|split; [|auto]]; (eapply Rle_trans; [apply Rabs_triang|]; replace 2 with (1 + 1) by ring; apply Rplus_le_compat; auto).
Qed.

(** ** C110 *)
Section C110.
Variable middle : R -> R -> R -> R -> R * R.
Lemma slip_box q west east south north : box_of q west east south north -> slip_centre middle q = middle west south east north.
Proof.
  intros (W & E & S & N). unfold slip_centre. rewrite <- (lowest_min _ _ _ W), <- (highest_max _ _ _ E), <- (lowest_min _ _ _ S), <- (highest_max _ _ _ N). destruct (q0 q) as [[? ?] ?], (q1 q) as [[? ?] ?], (q2 q) as [[? ?] ?], (q3 q) as [[? ?] ?]. reflexivity.
Qed.
Definition centre_ok (c : R * R) : Prop := -180 <= fst c <= 180 /\ -90 <= snd c <= 90.
Theorem C110_unit : forall q rake v, get_quad_slip middle q rake = Some v -> scalar v v = 1.
Proof.
  intros q rake v. unfold get_quad_slip. destruct (q0 q) as [[x0 y0] z0], (q1 q) as [[x1 y1] z1]. destruct (get_quad_dip q); [|discriminate]. destruct (slip_centre middle q). destruct (ortho_reverse r0 r1 _ _), (ortho_reverse r0 r1 0 0). intro H.
  unfold norm in H. cbv zeta in H. destruct (reqd _ 0) eqn:E; [discriminate|]. set (d := vsub _ _) in *. assert (N : d <> v0). { intros ->. rewrite (proj2 (mag_zero v0) eq_refl) in E. assert (reqd 0 0 = true) by (apply reqd_iff; reflexivity). congruence. }
  destruct (norm_nz d N) as [_ P]. clearbody d. injection H as <-. assert (M : mag d * mag d = vdot d d) by (rewrite mag_dot; apply sqrt_sqrt; unfold vdot; pose proof (Rle_0_sqr (vx d)); pose proof (Rle_0_sqr (vy d)); pose proof (Rle_0_sqr (vz d)); unfold Rsqr in *; lra). match goal with |- scalar ?u ?u = 1 => replace (scalar u u) with (/ mag d * / mag d * vdot d d); [rewrite <- M; field; lra|] end. unfold scalar, vdot, vscale, Rdiv. cbn [vx vy vz]. set (w := / mag d). ring.
Qed.
Lemma slip_signs q rake v dip : get_quad_slip middle q rake = Some v -> centre_ok (slip_centre middle q) -> get_quad_dip q = Some dip ->
  let strike := azimuth (fst (fst (q0 q))) (snd (fst (q0 q))) (fst (fst (q1 q))) (snd (fst (q1 q))) in
  let s := slip strike dip rake in let '(lon0, lat0) := slip_centre middle q in
  exists n c k, 0 < n /\ 0 < c /\ k <= 0 /\ east_part lon0 lat0 v = n * vx s /\ up_part lon0 lat0 v = k - c * vz s.
Proof.
  intros H C D strike s. unfold get_quad_slip in H. rewrite D in H. unfold strike in s. destruct (q0 q) as [[x0 y0] z0], (q1 q) as [[x1 y1] z1]. cbn [fst snd] in s. fold s in H. destruct (slip_centre middle q) as [lon0 lat0]. destruct C as [C1 C2]. cbn [fst snd] in C1, C2.
  destruct (slip_bounds (azimuth x0 y0 x1 y1) dip rake) as (B1 & B2 & B3). fold s in B1, B2, B3. destruct (slip_parts lon0 lat0 (vx s) (vy s) (vz s) C1 C2 B1 B2 B3) as (n & c & k & Hn & Hc & Hk & E1 & E2).
  destruct (ortho_reverse lon0 lat0 (vx s) (vy s)) as [r1 r2], (ortho_reverse lon0 lat0 0 0) as [t1 t2]. cbn [fst snd] in E1, E2. set (d := vsub _ _) in *. 
  assert (N : d <> v0). { intros ->. unfold norm in H. rewrite (proj2 (mag_zero v0) eq_refl) in H. assert (reqd 0 0 = true) as Q by (apply reqd_iff; reflexivity). cbv zeta in H. rewrite Q in H. discriminate. }
  destruct (norm_nz d N) as [E P]. rewrite E in H. injection H as <-. assert (P' : 0 < / mag d) by (apply Rinv_0_lt_compat; exact P). exists (/ mag d * n), (/ mag d * c), (/ mag d * k).
  split; [apply Rmult_lt_0_compat; lra|]. split; [apply Rmult_lt_0_compat; lra|]. split; [rewrite <- (Rmult_0_r (/ mag d)); apply Rmult_le_compat_l; lra|]. unfold east_part, up_part.
  split; [transitivity (/ mag d * scalar d (east_of lon0)); [unfold scalar, vscale; cbn [vx vy vz]; ring|rewrite E1; ring]|transitivity (/ mag d * scalar d (place lon0 lat0)); [unfold scalar, vscale; cbn [vx vy vz]; ring|rewrite E2; ring]].
Qed.
(** Where the hanging wall moves up, the vector points down. *)
Theorem C110_up_refuted : forall q rake v dip west east south north lon0 lat0, get_quad_slip middle q rake = Some v -> box_of q west east south north -> middle west south east north = (lon0, lat0) -> -180 <= lon0 <= 180 -> -90 <= lat0 <= 90 ->
  get_quad_dip q = Some dip -> let strike := azimuth (fst (fst (q0 q))) (snd (fst (q0 q))) (fst (fst (q1 q))) (snd (fst (q1 q))) in
  0 < snd (hanging_wall strike dip rake) -> up_part lon0 lat0 v < 0.
Proof.
  intros q rake v dip west east south north lon0 lat0 H Bx E C1 C2 D strike U. rewrite <- (slip_box q west east south north Bx) in E. pose proof (slip_signs q rake v dip H) as S. rewrite E in S. destruct (S (conj C1 C2) D) as (n & c & k & Hn & Hc & Hk & _ & ->). fold strike. unfold slip. rewrite !radians_deg. cbv zeta. cbn [vz]. cbn [hanging_wall snd] in U.
  pose proof (Rmult_lt_0_compat _ _ Hc U). lra.
Qed.
(** Up the dip of a fault that strikes northwards the hanging wall moves west; the vector points east. *)
Theorem C110_east_refuted : forall q rake v dip west east south north lon0 lat0, get_quad_slip middle q rake = Some v -> box_of q west east south north -> middle west south east north = (lon0, lat0) -> -180 <= lon0 <= 180 -> -90 <= lat0 <= 90 ->
  get_quad_dip q = Some dip -> let strike := azimuth (fst (fst (q0 q))) (snd (fst (q0 q))) (fst (fst (q1 q))) (snd (fst (q1 q))) in
  rake = 90 -> fst (fst (hanging_wall strike dip rake)) < 0 -> 0 < east_part lon0 lat0 v.
Proof.
  intros q rake v dip west east south north lon0 lat0 H Bx E C1 C2 D strike Hr U. rewrite <- (slip_box q west east south north Bx) in E. pose proof (slip_signs q rake v dip H) as S. rewrite E in S. destruct (S (conj C1 C2) D) as (n & c & k & Hn & Hc & Hk & -> & _). fold strike. unfold slip. rewrite !radians_deg. cbv zeta. cbn [vx]. cbn [hanging_wall fst] in U.
  subst rake. assert (Z : cos (deg 90) = 0) by (replace (deg 90) with (PI / 2) by (unfold deg; field); apply cos_PI2). rewrite Z in *. apply Rmult_lt_0_compat; lra.
Qed.
(** Along the strike it points to the right side of the meridian. *)
Theorem C110_strike : forall q rake v dip west east south north lon0 lat0, get_quad_slip middle q rake = Some v -> box_of q west east south north -> middle west south east north = (lon0, lat0) -> -180 <= lon0 <= 180 -> -90 <= lat0 <= 90 ->
  get_quad_dip q = Some dip -> let strike := azimuth (fst (fst (q0 q))) (snd (fst (q0 q))) (fst (fst (q1 q))) (snd (fst (q1 q))) in
  sin (deg rake) = 0 -> (0 < fst (fst (hanging_wall strike dip rake)) -> 0 < east_part lon0 lat0 v) /\ (fst (fst (hanging_wall strike dip rake)) < 0 -> east_part lon0 lat0 v < 0).
Proof.
  intros q rake v dip west east south north lon0 lat0 H Bx E C1 C2 D strike Hr. rewrite <- (slip_box q west east south north Bx) in E. pose proof (slip_signs q rake v dip H) as S. rewrite E in S. destruct (S (conj C1 C2) D) as (n & c & k & Hn & Hc & Hk & -> & _). fold strike. unfold slip. rewrite !radians_deg. cbv zeta. cbn [vx]. cbn [hanging_wall fst]. rewrite Hr.
  set (a := cos (deg rake) * sin (deg strike)). replace (a - 0 * cos (deg dip) * cos (deg strike)) with a by ring. replace (0 * cos (deg dip) * cos (deg strike) + a) with a by ring. split; intro U; nra.
Qed.
End C110.
Print Assumptions C110_unit.
Print Assumptions C110_up_refuted.
Print Assumptions C110_east_refuted.
Print Assumptions C110_strike.
(** A fault that strikes northwards from the equator and dips to the east, and reverse slip. *)
Definition ex_thrust : quad := mkquad (0, 0, 0) (0, 90, 0) (90, 90, 10) (90, 0, 10).
Example C110_ex : exists v dip, get_quad_dip ex_thrust = Some dip /\ get_quad_slip (fun _ _ _ _ => (0, 0)) ex_thrust 90 = Some v /\
  0 < snd (hanging_wall (azimuth 0 0 0 90) dip 90) /\ fst (fst (hanging_wall (azimuth 0 0 0 90) dip 90)) < 0.
Proof.
  assert (D0 : deg 0 = 0) by (unfold deg; field). assert (D9 : deg 90 = PI / 2) by (unfold deg; field).
  assert (Az : azimuth 0 0 0 90 = 0). { apply azimuth_is with 1; [lra|lra| |]; unfold eastward, northward, vdot, east_of, north_of, place; cbn [vx vy vz]; rewrite ?D0, ?D9, ?Rminus_0_r, ?D0, ?sin_0, ?cos_0, ?sin_PI2, ?cos_PI2; ring. }
  destruct (surface 0 90) as (n & Hn & _ & En). unfold place in En. cbn [vx vy vz] in En. rewrite D9, sin_PI2, cos_PI2 in En.
  assert (Q1 : exists B, 0 < B /\ ecef (0, 90, 0) = mkvec 0 0 B). { exists (n * (1 - WGS84_E * WGS84_E)). split; [apply Rmult_lt_0_compat; [lra|unfold WGS84_E; lra]|]. unfold ecef, from_point. rewrite En. apply vec_ext; cbn [vx vy vz]; ring. } clear n Hn En. destruct Q1 as (B & HB & E1).
  assert (E0 : ecef (0, 0, 0) = mkvec WGS84_A 0 0) by (rewrite equator_ecef, D0, cos_0, sin_0; apply vec_ext; cbn [vx vy vz]; ring). assert (E3 : ecef (90, 0, 10) = mkvec 0 (WGS84_A - 10000) 0) by (rewrite equator_ecef, D9, cos_PI2, sin_PI2; apply vec_ext; cbn [vx vy vz]; ring).
  assert (Cr : vcross (vsub (ecef (90, 0, 10)) (ecef (0, 0, 0))) (vsub (ecef (0, 90, 0)) (ecef (0, 0, 0))) = mkvec ((WGS84_A - 10000) * B) (WGS84_A * B) (WGS84_A * (WGS84_A - 10000))) by (rewrite E0, E1, E3; unfold vcross, vsub; apply vec_ext; cbn [vx vy vz]; ring).
  assert (P : 0 < (WGS84_A - 10000) * B) by (apply Rmult_lt_0_compat; [unfold WGS84_A; lra|exact HB]). assert (N : vcross (vsub (ecef (90, 0, 10)) (ecef (0, 0, 0))) (vsub (ecef (0, 90, 0)) (ecef (0, 0, 0))) <> v0) by (rewrite Cr; intro H; injection H; lra).
  destruct (norm_nz _ N) as [En Pm]. set (m := mag _) in *. assert (Pm' : 0 < / m) by (apply Rinv_0_lt_compat; exact Pm).
  assert (Dp : get_quad_dip ex_thrust = Some (degrees (acos (/ m * ((WGS84_A - 10000) * B))))). { unfold get_quad_dip, get_quad_normal, ex_thrust. cbn [q0 q1 q3]. rewrite En, C65_vertical by lra. f_equal. f_equal. f_equal. rewrite Cr. unfold vdot, vscale, place. cbn [vx vy vz]. rewrite D0, cos_0, sin_0. ring. }
  set (t := / m * ((WGS84_A - 10000) * B)) in *. assert (T : 0 < t < 1). { split; [apply Rmult_lt_0_compat; assumption|]. apply Rmult_lt_reg_l with m; [exact Pm|]. unfold t. rewrite <- Rmult_assoc, Rinv_r, Rmult_1_l, Rmult_1_r by lra. unfold m. rewrite Cr. unfold mag. cbn [vx vy vz]. assert (W : 0 < WGS84_A * B) by (apply Rmult_lt_0_compat; [unfold WGS84_A; lra|exact HB]).
    rewrite <- (sqrt_Rsqr ((WGS84_A - 10000) * B)) at 1 by lra. apply sqrt_lt_1_alt. unfold Rsqr. pose proof (Rmult_lt_0_compat _ _ W W). pose proof (Rle_0_sqr (WGS84_A * (WGS84_A - 10000))) as Z. unfold Rsqr in Z. pose proof (Rmult_lt_0_compat _ _ P P). split; lra. }
  assert (Cd : cos (deg (degrees (acos t))) = t) by (rewrite deg_degrees; apply cos_acos; lra). assert (Sd : 0 < sin (deg (degrees (acos t)))). { rewrite deg_degrees. rewrite sin_acos by lra. apply sqrt_lt_R0. unfold Rsqr. nra. }
  assert (U : 0 < snd (hanging_wall 0 (degrees (acos t)) 90)) by (cbn [hanging_wall snd]; rewrite D9, sin_PI2; lra).
  destruct (slip_bounds 0 (degrees (acos t)) 90) as (B1 & B2 & B3). destruct (slip_parts 0 0 _ _ _ ltac:(lra) ltac:(lra) B1 B2 B3) as (n & c & k & _ & Hc & Hk & _ & E2). cbv zeta in E2.
  assert (G : exists v, get_quad_slip (fun _ _ _ _ => (0, 0)) ex_thrust 90 = Some v).
  { unfold get_quad_slip, slip_centre. rewrite Dp. unfold ex_thrust. cbn [q0 q1 q2 q3]. rewrite Az. destruct (ortho_reverse 0 0 _ _) as [r1 r2], (ortho_reverse 0 0 0 0) as [t1 t2]. cbn [fst snd] in E2. match goal with |- exists v, norm ?u = Some v => set (d := u) in * end.
    destruct (norm_nz d) as [Ed _]; [|rewrite Ed; eexists; reflexivity]. intros Z. rewrite Z in E2. unfold slip in E2. rewrite !radians_deg in E2. cbv zeta in E2. cbn [vz] in E2. cbn [hanging_wall snd] in U. pose proof (Rmult_lt_0_compat _ _ Hc U). unfold scalar, v0 in E2. cbn [vx vy vz] in E2. lra. }
  destruct G as (v & G). exists v, (degrees (acos t)). split; [exact Dp|]. split; [exact G|]. rewrite Az. split; [exact U|]. cbn [hanging_wall fst]. rewrite Cd, D0, D9, sin_0, cos_0, sin_PI2, cos_PI2. lra.
Qed.
Example C110_ex_box : box_of ex_thrust 0 90 0 90.
Proof. unfold box_of, lowest_corner, highest_corner, ex_thrust. cbn [q0 q1 q2 q3 fst snd]. repeat split; lra. Qed.
