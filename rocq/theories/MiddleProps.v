(** C121-C123: the middle of two places, the nearest of many, and points. *)
From Coq Require Import ZArith Reals String Ascii Bool List Lra Psatz Lia.
From Flocq Require Import Core.
From Verif Require Import PyBase PyStr VecModel VecProofs GeoModel GeoSpec GeoTrig GeoProofs GeoProps SphereProofs SphereProps LonProps MiddleModel MiddleSpec.
Import ListNotations.
Open Scope R_scope.

(** ** C121 *)
Lemma tangent_unit lon lat a : let u := vadd (vscale (sin a) (east_of lon)) (vscale (cos a) (north_of lon lat)) in vdot (place lon lat) u = 0 /\ vdot u u = 1.
Proof.
  intro u. unfold u, vdot, vadd, vscale, place, east_of, north_of. cbn [vx vy vz]. pose proof (sc2 (deg lon)) as A. pose proof (sc2 (deg lat)) as B. pose proof (sc2 a) as C. set (sl := sin (deg lon)) in *. set (cl := cos (deg lon)) in *. set (sp := sin (deg lat)) in *. set (cp := cos (deg lat)) in *. set (sa := sin a) in *. set (ca := cos a) in *. clearbody sl cl sp cp sa ca. split.
  - transitivity (cp * sp * ca * (1 - (sl * sl + cl * cl))); [ring|rewrite A; ring].
  - transitivity (sa * sa * (sl * sl + cl * cl) + ca * ca * (sp * sp * (sl * sl + cl * cl) + cp * cp)); [ring|]. rewrite A, !Rmult_1_r. rewrite B. lra.
Qed.
Lemma place_dot lon lat : vdot (place lon lat) (place lon lat) = 1.
Proof. exact (place_unit lon lat). Qed.
(** The middle has half the distance to both. *)
Theorem C121_middle : forall point_at lon1 lat1 lon2 lat2, travels point_at -> let m := get_middle_point point_at lon1 lat1 lon2 lat2 in let d := geodetic_distance lon1 lat1 lon2 lat2 in
  geodetic_distance lon1 lat1 (fst m) (snd m) = d / 2 /\ geodetic_distance (fst m) (snd m) lon2 lat2 = d / 2.
Proof.
  intros point_at lon1 lat1 lon2 lat2 T m d. unfold m, get_middle_point. destruct (reqd lon1 lon2 && reqd lat1 lat2) eqn:E.
  - apply andb_true_iff in E as [E1 E2]. apply reqd_iff in E1. apply reqd_iff in E2. subst lon2 lat2. cbn [fst snd]. fold d. assert (Z : d = 0). { unfold d. destruct (dist_angle lon1 lat1 lon1 lat1) as (t & A & ->). rewrite (angle_det _ _ _ _ A (proj2 (angle_zero _ _ (place_unit lon1 lat1) (place_unit lon1 lat1)) eq_refl)). ring. } rewrite Z. split; field.
  - fold d. destruct (C43_course lon1 lat1 lon2 lat2) as (_ & t & A & P2). set (az := azimuth lon1 lat1 lon2 lat2) in *. destruct (dist_angle lon1 lat1 lon2 lat2) as (t' & A' & D). rewrite (angle_det _ _ _ _ A' A) in D. fold d in D. clear t' A'.
    assert (T' := T lon1 lat1 az (d / 2)). clear T. rename T' into T. destruct (point_at lon1 lat1 az (d / 2)) as [lon lat]. cbn [fst snd]. destruct T as [T _]. unfold travelled in T. replace (d / 2 / 6371) with (t / 2) in T by (rewrite D; field). destruct (tangent_unit lon1 lat1 (deg az)) as [U1 U2]. set (u := vadd (vscale (sin (deg az)) (east_of lon1)) (vscale (cos (deg az)) (north_of lon1 lat1))) in *.
    pose proof (place_dot lon1 lat1) as U0. destruct A as [[B0 B1] _]. pose proof PI_RGT_0.
    assert (H1 : angle (place lon1 lat1) (place lon lat) (t / 2)). { split; [lra|]. rewrite T. change (cos (t / 2) = vdot (place lon1 lat1) (vadd (vscale (cos (t / 2)) (place lon1 lat1)) (vscale (sin (t / 2)) u))). transitivity (cos (t / 2) * vdot (place lon1 lat1) (place lon1 lat1) + sin (t / 2) * vdot (place lon1 lat1) u); [rewrite U0, U1; ring|unfold vdot, vadd, vscale; cbn [vx vy vz]; ring]. }
    assert (H2 : angle (place lon lat) (place lon2 lat2) (t / 2)). { split; [lra|]. rewrite T, P2. change (cos (t / 2) = vdot (vadd (vscale (cos (t / 2)) (place lon1 lat1)) (vscale (sin (t / 2)) u)) (vadd (vscale (cos t) (place lon1 lat1)) (vscale (sin t) u))).
      transitivity (cos t * cos (t / 2) * vdot (place lon1 lat1) (place lon1 lat1) + sin t * sin (t / 2) * vdot u u + (cos (t / 2) * sin t + sin (t / 2) * cos t) * vdot (place lon1 lat1) u); [rewrite U0, U1, U2|unfold vdot, vadd, vscale; cbn [vx vy vz]; ring]. replace (t / 2) with (t - t / 2) at 1 by field. rewrite cos_minus. ring. }
    destruct (dist_angle lon1 lat1 lon lat) as (t1 & A1 & ->). destruct (dist_angle lon lat lon2 lat2) as (t2 & A2 & ->). rewrite (angle_det _ _ _ _ A1 H1), (angle_det _ _ _ _ A2 H2), D. split; field.
Qed.
Print Assumptions C121_middle.
(** So both are on the map around the middle, at opposite points. *)
Theorem C121_opposite : forall point_at west east north south, travels point_at -> let c := ortho_centre point_at west east north south in
  exists x y, ortho_forward (fst c) (snd c) west north = Ok (x, y) /\ ortho_forward (fst c) (snd c) east south = Ok (- x, - y).
Proof.
  intros point_at west east north south T c. destruct (C121_middle point_at west north east south T) as [H1 H2]. change (get_middle_point point_at west north east south) with c in H1, H2. set (lon := fst c) in *. set (lat := snd c) in *. clearbody lon lat. clear c.
  destruct (dist_angle west north east south) as (t & A & D). rewrite D in H1, H2. clear D. destruct (dist_angle west north lon lat) as (t1 & A1 & D1). destruct (dist_angle lon lat east south) as (t2 & A2 & D2). rewrite D1 in H1. rewrite D2 in H2. assert (E1 : t1 = t / 2) by lra. assert (E2 : t2 = t / 2) by lra. subst t1 t2. clear D1 D2 H1 H2.
  pose proof (proj1 A) as B. apply angle_sym in A1. destruct (C45_forward _ _ _ _ _ A1) as [F1 _]. destruct (C45_forward _ _ _ _ _ A2) as [F2 _]. rewrite F1, F2 by lra. eexists. eexists. split; [reflexivity|].
  (* the two places add up to a multiple of the middle *)
  assert (S : vadd (place west north) (place east south) = vscale (2 * cos (t / 2)) (place lon lat)).
  { set (p := place west north) in *. set (q := place east south) in *. set (m := place lon lat) in *. assert (Up : vdot p p = 1) by apply place_dot. assert (Uq : vdot q q = 1) by apply place_dot. assert (Um : vdot m m = 1) by apply place_dot.
    destruct A as [_ Ep]. destruct A1 as [_ E1]. destruct A2 as [_ E2]. change (cos t = vdot p q) in Ep. change (cos (t / 2) = vdot m p) in E1. change (cos (t / 2) = vdot m q) in E2.
    set (w := vsub (vadd p q) (vscale (2 * cos (t / 2)) m)). assert (Z : vdot w w = 0). { transitivity (vdot p p + vdot q q + 2 * vdot p q - 4 * cos (t / 2) * (vdot m p + vdot m q) + 4 * cos (t / 2) * cos (t / 2) * vdot m m); [unfold w, vdot, vsub, vadd, vscale; cbn [vx vy vz]; ring|]. rewrite Up, Uq, Um, <- Ep, <- E1, <- E2. replace t with (2 * (t / 2)) at 1 by field. rewrite cos_2a_cos. ring. }
    unfold vdot in Z. pose proof (Rle_0_sqr (vx w)) as Wx. pose proof (Rle_0_sqr (vy w)) as Wy. pose proof (Rle_0_sqr (vz w)) as Wz. unfold Rsqr in *. assert (X : vx w = 0) by (apply Rsqr_0_uniq; unfold Rsqr; lra). assert (Y : vy w = 0) by (apply Rsqr_0_uniq; unfold Rsqr; lra). assert (V : vz w = 0) by (apply Rsqr_0_uniq; unfold Rsqr; lra).
    unfold w, vsub in X, Y, V. cbn [vx vy vz] in X, Y, V. unfold vadd, vscale in *. cbn [vx vy vz] in *. apply vec_ext; cbn [vx vy vz]; lra. }
  assert (G : forall v, vdot v (place lon lat) = 0 -> vdot v (place east south) = - vdot v (place west north)). { intros v Hv. assert (Q : vdot v (vadd (place west north) (place east south)) = 0) by (rewrite S; transitivity (2 * cos (t / 2) * vdot v (place lon lat)); [unfold vdot, vscale; cbn [vx vy vz]; ring|rewrite Hv; ring]). unfold vdot, vadd in *. cbn [vx vy vz] in Q. lra. }
  rewrite (G (east_of lon)), (G (north_of lon lat)).
  - f_equal. f_equal; ring.
  - pose proof (sc2 (deg lon)) as Q. unfold vdot, north_of, place. cbn [vx vy vz]. transitivity (sin (deg lat) * cos (deg lat) * (1 - (sin (deg lon) * sin (deg lon) + cos (deg lon) * cos (deg lon)))); [ring|rewrite Q; ring].
  - unfold vdot, east_of, place. cbn [vx vy vz]. ring.
Qed.
Print Assumptions C121_opposite.
(** There is such a point_at. *)
Example C121_ex : exists point_at, travels point_at.
Proof.
  exists (fun lon lat az d => let '(l, o, _) := cartesian_to_spherical (travelled lon lat az d) in (l, match o with Some x => x | None => 0 end)). intros lon lat az d. set (v := travelled lon lat az d).
  assert (U : vdot v v = 1). { destruct (tangent_unit lon lat (deg az)) as [U1 U2]. pose proof (place_dot lon lat) as U0. unfold v, travelled. set (u := vadd (vscale (sin (deg az)) (east_of lon)) (vscale (cos (deg az)) (north_of lon lat))) in *. set (p := place lon lat) in *. set (h := d / 6371). transitivity (cos h * cos h * vdot p p + sin h * sin h * vdot u u + 2 * cos h * sin h * vdot p u); [unfold vdot, vadd, vscale; cbn [vx vy vz]; ring|]. rewrite U0, U1, U2. pose proof (sc2 h). lra. }
  destruct (C45_back v) as [Z B]. destruct (cartesian_to_spherical v) as [[l [x|]] dep] eqn:E.
  - destruct (B _ _ _ eq_refl) as (S & L & X & D). rewrite cartesian_place in S. split; [|lra]. pose proof (place_dot l x) as Q. set (r := 6371 - dep) in *. assert (R2 : r * r = 1). { rewrite <- U, <- S. transitivity (r * r * vdot (place l x) (place l x)); [rewrite Q; ring|unfold vdot, vscale; cbn [vx vy vz]; ring]. } assert (r = 1) by (unfold r in *; nra). rewrite H in S. rewrite <- S. apply vec_ext; unfold vscale; cbn [vx vy vz]; ring.
  - assert (V : v = mkvec 0 0 0) by (apply Z; eauto). rewrite V in U. unfold vdot in U. cbn [vx vy vz] in U. lra.
Qed.

(** ** C122 *)
(** from_vector finds the point of a vector between the centre and the highest mountain. *)
Theorem C122_vector : forall v, (0 < mag v < 6371 + 8.848 -> exists lon lat dep, from_vector v = Ok (lon, lat, dep) /\ -180 < lon <= 180 /\ -90 <= lat <= 90 /\ dep = 6371 - mag v /\ v = vscale (mag v) (place lon lat)) /\
  (~ 0 < mag v < 6371 + 8.848 -> from_vector v = Err ValueError).
Proof.
  intro v. assert (M : sqrt (vx v * vx v + vy v * vy v + vz v * vz v) = mag v) by (unfold mag; f_equal; ring). destruct (C45_back v) as [Z B]. pose proof (mag_nonneg v) as N. unfold from_vector.
  assert (D : snd (cartesian_to_spherical v) = 6371 - mag v) by (unfold cartesian_to_spherical; cbv zeta; cbn [snd]; rewrite M; reflexivity).
  destruct (cartesian_to_spherical v) as [[l [x|]] dep] eqn:E; cbn [snd] in D; subst dep.
  - destruct (B _ _ _ eq_refl) as (S & L & X & Q). rewrite cartesian_place in S. replace (6371 - (6371 - mag v)) with (mag v) in S by ring. unfold new_point, EARTH_RADIUS. rewrite (proj2 (rltb_iff (6371 - mag v) 6371) Q). cbn [negb]. split; intro H.
    + rewrite (proj2 (rltb_iff (-8.848) (6371 - mag v))) by lra. cbn [negb]. rewrite (proj2 (rleb_iff (-180) l)), (proj2 (rleb_iff l 180)), (proj2 (rleb_iff (-90) x)), (proj2 (rleb_iff x 90)) by lra. cbn. exists l, x, (6371 - mag v). repeat split; try tauto; symmetry; exact S.
    + rewrite (proj2 (rltb_f (-8.848) (6371 - mag v))) by lra. reflexivity.
  - split; intro H; [|reflexivity]. assert (V : v = mkvec 0 0 0) by (apply Z; eauto). assert (mag v = 0) by (apply mag_zero; exact V). lra.
Qed.
Print Assumptions C122_vector.
Example C122_ex_vector : from_vector (mkvec 0 6000 0) = Ok (90, 0, 371).
Proof.
  assert (M : mag (mkvec 0 6000 0) = 6000) by (unfold mag; cbn [vx vy vz]; replace (0 * 0 + 6000 * 6000 + 0 * 0) with (6000 * 6000) by ring; first [apply sqrt_square; lra|replace (0 ^ 2 + 6000 ^ 2 + 0 ^ 2) with (6000 * 6000) by ring; apply sqrt_square; lra]).
  destruct (C122_vector (mkvec 0 6000 0)) as [H _]. rewrite M in H. destruct H as (lon & lat & dep & E & L & A & D & P); [lra|]. rewrite E, D. assert (P' : place lon lat = place 90 0). { assert (Q : place 90 0 = mkvec 0 1 0). { unfold place. assert (D0 : deg 0 = 0) by (unfold deg; field). assert (D9 : deg 90 = PI / 2) by (unfold deg; field). rewrite D0, D9, cos_0, sin_0, cos_PI2, sin_PI2. f_equal; ring. } rewrite Q. unfold vscale in P. injection P as P1 P2 P3. apply vec_ext; cbn [vx vy vz]; [..|]; unfold place in *; cbn [vx vy vz] in *; lra. }
  apply place_eq in P'; [|lra|lra]. destruct P' as [-> [P'|P']]; [|rewrite Rabs_R0 in P'; lra]. destruct P' as [k K]. assert (k = 0%Z). { assert (IZR (-1) < IZR k < IZR 1) by lra. destruct H as [H1 H2]. apply lt_IZR in H1. apply lt_IZR in H2. lia. } subst k. replace lon with 90 by lra. f_equal. f_equal. lra.
Qed.
(** Point.point_at leads as far, as deep and in the direction asked for. *)
Theorem C122_moved : forall point_at lon lat dep h v az, travels point_at -> -8.848 < dep + v < 6371 -> 0 <= h <= 6371 * PI ->
  exists lon' lat', move_point point_at (lon, lat, dep) h v az = Ok (lon', lat', dep + v) /\ -180 <= lon' <= 180 /\ -90 <= lat' <= 90 /\ geodetic_distance lon lat lon' lat' = h /\
  geo_distance lon lat dep lon' lat' (dep + v) = sqrt (h ^ 2 + v ^ 2) /\ (0 < h < 6371 * PI -> 0 <= az < 360 -> azimuth lon lat lon' lat' = az).
Proof.
  intros point_at lon lat dep h v az T V H. specialize (T lon lat az h). unfold move_point. destruct (point_at lon lat az h) as [lon' lat']. destruct T as (P & L & A). exists lon', lat'. unfold travelled in P. destruct (tangent_unit lon lat (deg az)) as [U1 U2]. set (u := vadd (vscale (sin (deg az)) (east_of lon)) (vscale (cos (deg az)) (north_of lon lat))) in *. pose proof (place_dot lon lat) as U0. pose proof PI_RGT_0.
  assert (An : angle (place lon lat) (place lon' lat') (h / 6371)). { split; [lra|]. rewrite P. change (cos (h / 6371) = vdot (place lon lat) (vadd (vscale (cos (h / 6371)) (place lon lat)) (vscale (sin (h / 6371)) u))). transitivity (cos (h / 6371) * vdot (place lon lat) (place lon lat) + sin (h / 6371) * vdot (place lon lat) u); [rewrite U0, U1; ring|unfold vdot, vadd, vscale; cbn [vx vy vz]; ring]. }
  assert (D : geodetic_distance lon lat lon' lat' = h). { destruct (dist_angle lon lat lon' lat') as (t & At & ->). rewrite (angle_det _ _ _ _ At An). field. }
  unfold new_point, EARTH_RADIUS. rewrite (proj2 (rltb_iff (dep + v) 6371)), (proj2 (rltb_iff (-8.848) (dep + v))) by lra. rewrite (proj2 (rleb_iff (-180) lon')), (proj2 (rleb_iff lon' 180)), (proj2 (rleb_iff (-90) lat')), (proj2 (rleb_iff lat' 90)) by lra. cbn [negb andb]. split; [reflexivity|]. split; [exact L|]. split; [exact A|]. split; [exact D|]. split.
  - unfold geo_distance. cbv zeta. rewrite D. f_equal. ring.
  - intros Hh Ha. symmetry. refine (C43_unique lon lat lon' lat' (h / 6371) az An _ _ Ha _); [lra|lra|exact P].
Qed.
Print Assumptions C122_moved.
(** Out of the depths allowed: ValueError. *)
Theorem C122_refused : forall point_at lon lat dep h v az, ~ -8.848 < dep + v < 6371 -> move_point point_at (lon, lat, dep) h v az = Err ValueError.
Proof.
  intros. unfold move_point. destruct (point_at lon lat az h) as [lon' lat']. unfold new_point, EARTH_RADIUS. destruct (rltb (dep + v) 6371) eqn:E1; [|reflexivity]. apply rltb_iff in E1. rewrite (proj2 (rltb_f (-8.848) (dep + v))) by lra. reflexivity.
Qed.
Print Assumptions C122_refused.
(** The points of a mesh not further than a radius; without depths the mesh is at the surface. *)
Theorem C122_mesh : forall lon lat dep m radius i x y, (forall l, m_depths m = Some l -> length l = length (m_places m)) -> nth_error (m_places m) i = Some (x, y) ->
  exists z, (m_depths m = None -> z = 0) /\ (forall l, m_depths m = Some l -> nth_error l i = Some z) /\
  nth_error (distance_to_mesh (lon, lat, dep) m true) i = Some (geo_distance lon lat dep x y z) /\
  nth_error (distance_to_mesh (lon, lat, dep) m false) i = Some (geodetic_distance lon lat x y) /\
  exists b, nth_error (closer_than (lon, lat, dep) m radius) i = Some b /\ (b = true <-> geo_distance lon lat dep x y z <= radius).
Proof.
  intros lon lat dep m radius i x y W E. assert (Z : exists z, nth_error (depth_list m) i = Some z /\ (m_depths m = None -> z = 0) /\ (forall l, m_depths m = Some l -> nth_error l i = Some z)).
  { unfold depth_list. destruct (m_depths m) as [l|] eqn:D.
    - destruct (nth_error l i) as [z|] eqn:N; [exists z; repeat split; [discriminate|intros ? [= <-]; exact N]|]. apply nth_error_None in N. rewrite (W l eq_refl) in N. apply nth_error_None in N. congruence.
    - exists 0. rewrite (map_nth_error _ _ _ E). repeat split; discriminate. }
  destruct Z as (z & Z & Z1 & Z2). exists z. split; [exact Z1|]. split; [exact Z2|]. assert (C : nth_error (combine (m_places m) (depth_list m)) i = Some ((x, y), z)). { clear - E Z. revert i E Z. generalize (m_places m), (depth_list m). induction l as [|a l IH]; intros [|d l'] [|i]; cbn; intros E Z; try discriminate; [congruence|apply IH; assumption]. }
  assert (A : nth_error (distance_to_mesh (lon, lat, dep) m true) i = Some (geo_distance lon lat dep x y z)) by (unfold distance_to_mesh; rewrite (map_nth_error _ _ _ C); reflexivity). split; [exact A|]. split; [unfold distance_to_mesh; rewrite (map_nth_error _ _ _ E); reflexivity|].
  exists (rleb (geo_distance lon lat dep x y z) radius). split; [unfold closer_than; rewrite (map_nth_error _ _ _ A); reflexivity|apply rleb_iff].
Qed.
Print Assumptions C122_mesh.
(** As many answers as points. *)
Theorem C122_shape : forall p m radius, (forall l, m_depths m = Some l -> length l = length (m_places m)) -> length (distance_to_mesh p m true) = length (m_places m) /\ length (distance_to_mesh p m false) = length (m_places m) /\ length (closer_than p m radius) = length (m_places m).
Proof.
  intros [[lon lat] dep] m radius W. assert (A : length (distance_to_mesh (lon, lat, dep) m true) = length (m_places m)). { unfold distance_to_mesh. rewrite map_length, combine_length. unfold depth_list. destruct (m_depths m) as [l|]; [rewrite (W l eq_refl)|rewrite map_length]; apply Nat.min_id. }
  split; [exact A|]. split; [apply map_length|]. unfold closer_than. rewrite map_length. exact A.
Qed.
Print Assumptions C122_shape.
(** Equally spaced points are the ones between, or none at all. *)
Theorem C122_between : forall ib p q d, match equally_spaced_points ib p q d with
  | Ok l => l = ib (fst (fst p)) (snd (fst p)) (snd p) (fst (fst q)) (snd (fst q)) (snd q) d /\ Forall (fun x => -180 <= fst (fst x) <= 180 /\ -90 <= snd (fst x) <= 90 /\ -8.848 < snd x < 6371) l
  | Err e => e = ValueError /\ Exists (fun x => ~ (-180 <= fst (fst x) <= 180 /\ -90 <= snd (fst x) <= 90 /\ -8.848 < snd x < 6371)) (ib (fst (fst p)) (snd (fst p)) (snd p) (fst (fst q)) (snd (fst q)) (snd q) d)
  end.
Proof.
  intros ib [[lon lat] dep] [[lon2 lat2] dep2] d. unfold equally_spaced_points. cbn [fst snd]. generalize (ib lon lat dep lon2 lat2 dep2 d). clear. induction l as [|[[a b] c] l IH]; cbn [new_points]; [split; [reflexivity|constructor]|].
  assert (N : (new_point a b c = Ok (a, b, c) /\ (-180 <= a <= 180 /\ -90 <= b <= 90 /\ -8.848 < c < 6371)) \/ (new_point a b c = Err ValueError /\ ~ (-180 <= a <= 180 /\ -90 <= b <= 90 /\ -8.848 < c < 6371))).
  { unfold new_point, EARTH_RADIUS. destruct (rltb c 6371) eqn:E1; [apply rltb_iff in E1|apply rltb_f in E1; right; split; [reflexivity|lra]]. destruct (rltb (-8.848) c) eqn:E2; [apply rltb_iff in E2|apply rltb_f in E2; right; split; [reflexivity|lra]]. cbn [negb].
    destruct (rleb (-180) a) eqn:E3; [apply rleb_iff in E3|right; split; [reflexivity|intros (Q & _); rewrite (proj2 (rleb_iff _ _) (proj1 Q)) in E3; discriminate]]. destruct (rleb a 180) eqn:E4; [apply rleb_iff in E4|right; split; [reflexivity|intros (Q & _); rewrite (proj2 (rleb_iff _ _) (proj2 Q)) in E4; discriminate]]. cbn [negb andb].
    destruct (rleb (-90) b) eqn:E5; [apply rleb_iff in E5|right; split; [reflexivity|intros (_ & Q & _); rewrite (proj2 (rleb_iff _ _) (proj1 Q)) in E5; discriminate]]. destruct (rleb b 90) eqn:E6; [apply rleb_iff in E6|right; split; [reflexivity|intros (_ & Q & _); rewrite (proj2 (rleb_iff _ _) (proj2 Q)) in E6; discriminate]]. left. split; [reflexivity|]. repeat split; lra. }
  destruct N as [[-> N]|[-> N]]; cbn [bind]; [|split; [reflexivity|apply Exists_cons_hd; exact N]]. destruct (new_points l) as [l'|e]; cbn [bind]; [destruct IH as [-> IH]; split; [reflexivity|constructor; [exact N|exact IH]]|destruct IH as [-> IH]; split; [reflexivity|apply Exists_cons_tl; exact IH]].
Qed.
Print Assumptions C122_between.
Theorem C122_surface : forall lon lat dep, on_surface (lon, lat, dep) = true <-> dep = 0.
Proof. intros. apply reqd_iff. Qed.
Print Assumptions C122_surface.
Example C122_ex : exists l, equally_spaced_points (fun _ _ _ _ _ _ _ => [(0, 0, 0); (1, 0, 10)]) (0, 0, 0) (2, 0, 20) 1 = Ok l /\ length l = 2%nat.
Proof.
  pose proof (C122_between (fun _ _ _ _ _ _ _ => [(0, 0, 0); (1, 0, 10)]) (0, 0, 0) (2, 0, 20) 1) as H. destruct (equally_spaced_points _ _ _ _) as [l|e]; [destruct H as [-> _]; eexists; split; reflexivity|]. destruct H as [_ H]. exfalso. inversion H as [? ? Q|? ? Q]; cbn [fst snd] in Q; [apply Q; lra|]. inversion Q as [? ? Q'|? ? Q']; cbn [fst snd] in Q'; [apply Q'; lra|inversion Q'].
Qed.

(** ** C123 *)
Lemma frame_dot lon0 lat0 u w : vdot u w = vdot (place lon0 lat0) u * vdot (place lon0 lat0) w + vdot (east_of lon0) u * vdot (east_of lon0) w + vdot (north_of lon0 lat0) u * vdot (north_of lon0 lat0) w.
Proof.
  pose proof (sc2 (deg lon0)) as A. pose proof (sc2 (deg lat0)) as B. unfold vdot, place, east_of, north_of. cbn [vx vy vz]. set (sl := sin (deg lon0)) in *. set (cl := cos (deg lon0)) in *. set (sp := sin (deg lat0)) in *. set (cp := cos (deg lat0)) in *. clearbody sl cl sp cp. destruct u as [a b c], w as [x y z]. cbn [vx vy vz].
  transitivity ((sp * sp + cp * cp) * (c * z + (cl * cl * a * x + cl * sl * (a * y + b * x) + sl * sl * b * y)) + (sl * sl * a * x - sl * cl * (a * y + b * x) + cl * cl * b * y)); [|ring]. rewrite B. transitivity (c * z + (sl * sl + cl * cl) * (a * x + b * y)); [rewrite A; ring|ring].
Qed.
(** Projected distances are at most the straight ones, and at least the straight ones times the cosine
    of the angle to the centre. *)
Lemma shown_apart lon0 lat0 lon1 lat1 lon2 lat2 c x1 x2 : 0 <= c -> c <= vdot (place lon0 lat0) (place lon1 lat1) -> c <= vdot (place lon0 lat0) (place lon2 lat2) ->
  ortho_forward lon0 lat0 lon1 lat1 = Ok x1 -> ortho_forward lon0 lat0 lon2 lat2 = Ok x2 ->
  6371 * c * chord (place lon1 lat1) (place lon2 lat2) <= apart2 x1 x2 <= 6371 * chord (place lon1 lat1) (place lon2 lat2).
Proof.
  intros C0 C1 C2 F1 F2. destruct (dist_angle lon0 lat0 lon1 lat1) as (t1 & A1 & _). destruct (dist_angle lon0 lat0 lon2 lat2) as (t2 & A2 & _).
  destruct (C45_forward _ _ _ _ _ A1) as [G1 G1']. destruct (C45_forward _ _ _ _ _ A2) as [G2 G2']. destruct (Rle_dec t1 (PI / 2)) as [T1|T1]; [|rewrite G1' in F1 by lra; discriminate]. destruct (Rle_dec t2 (PI / 2)) as [T2|T2]; [|rewrite G2' in F2 by lra; discriminate]. rewrite (G1 T1) in F1. rewrite (G2 T2) in F2. injection F1 as <-. injection F2 as <-. clear G1 G2 G1' G2' A1 A2 T1 T2 t1 t2.
  pose proof (place_dot lon1 lat1) as U. pose proof (place_dot lon2 lat2) as W. pose proof (place_dot lon0 lat0) as M. set (u := place lon1 lat1) in *. set (w := place lon2 lat2) in *. set (m := place lon0 lat0) in *.
  pose proof (frame_dot lon0 lat0 (vsub u w) (vsub u w)) as Q. fold m in Q. set (a := vdot m u) in *. set (b := vdot m w) in *.
  assert (Em : vdot m (vsub u w) = a - b) by (unfold a, b, vdot, vsub; cbn [vx vy vz]; ring). assert (Ee : vdot (east_of lon0) (vsub u w) = vdot (east_of lon0) u - vdot (east_of lon0) w) by (unfold vdot, vsub; cbn [vx vy vz]; ring). assert (En : vdot (north_of lon0 lat0) (vsub u w) = vdot (north_of lon0 lat0) u - vdot (north_of lon0 lat0) w) by (unfold vdot, vsub; cbn [vx vy vz]; ring).
  rewrite Em, Ee, En in Q. set (ex := vdot (east_of lon0) u - vdot (east_of lon0) w) in *. set (nx := vdot (north_of lon0 lat0) u - vdot (north_of lon0 lat0) w) in *. set (cc := vdot (vsub u w) (vsub u w)) in *.
  assert (Hc : chord u w = sqrt cc) by (unfold chord, cc, vdot, vsub; cbn [vx vy vz]; f_equal; ring). assert (Ha : apart2 (6371 * vdot (east_of lon0) u, 6371 * vdot (north_of lon0 lat0) u) (6371 * vdot (east_of lon0) w, 6371 * vdot (north_of lon0 lat0) w) = 6371 * sqrt (ex * ex + nx * nx)). { unfold apart2. cbn [fst snd]. rewrite <- (sqrt_square 6371) at 5 by lra. rewrite <- sqrt_mult_alt by lra. f_equal. unfold ex, nx. ring. }
  rewrite Ha, Hc. assert (P0 : 0 <= ex * ex + nx * nx) by (pose proof (Rle_0_sqr ex); pose proof (Rle_0_sqr nx); unfold Rsqr in *; lra). pose proof (Rle_0_sqr (a - b)) as Ab. unfold Rsqr in Ab.
  (* m is decomposed along u + w and u - w *)
  assert (K : (a - b) * (a - b) <= cc * (1 - c * c)).
  { assert (Ecc : cc = 2 - 2 * vdot u w). { transitivity (vdot u u + vdot w w - 2 * vdot u w); [unfold cc, vdot, vsub; cbn [vx vy vz]; ring|rewrite U, W; ring]. } assert (Ess : vdot (vadd u w) (vadd u w) = 4 - cc). { rewrite Ecc. transitivity (vdot u u + vdot w w + 2 * vdot u w); [unfold vdot, vadd; cbn [vx vy vz]; ring|rewrite U, W; ring]. }
    assert (Es : vdot m (vadd u w) = a + b) by (unfold a, b, vdot, vadd; cbn [vx vy vz]; ring). pose proof (dot_range u w U W) as Duw.
    (* Bessel's inequality, multiplied out *)
    assert (B : (a + b) * (a + b) * cc + (a - b) * (a - b) * (4 - cc) <= cc * (4 - cc)).
    { set (s := vadd u w) in *. set (d := vsub u w) in *. set (r := vsub (vscale (cc * (4 - cc)) m) (vadd (vscale ((a + b) * cc) s) (vscale ((a - b) * (4 - cc)) d))). assert (Sd : vdot s d = 0). { transitivity (vdot u u - vdot w w); [unfold s, d, vdot, vadd, vsub; cbn [vx vy vz]; ring|rewrite U, W; ring]. }
      assert (Rr : 0 <= vdot r r) by (unfold vdot; pose proof (Rle_0_sqr (vx r)); pose proof (Rle_0_sqr (vy r)); pose proof (Rle_0_sqr (vz r)); unfold Rsqr in *; lra).
      assert (Er : vdot r r = cc * (4 - cc) * (cc * (4 - cc) - (a + b) * (a + b) * cc - (a - b) * (a - b) * (4 - cc))). { transitivity ((cc * (4 - cc)) * (cc * (4 - cc)) * vdot m m + (a + b) * cc * ((a + b) * cc) * vdot s s + (a - b) * (4 - cc) * ((a - b) * (4 - cc)) * vdot d d - 2 * (cc * (4 - cc)) * ((a + b) * cc * vdot m s + (a - b) * (4 - cc) * vdot m d) + 2 * ((a + b) * cc) * ((a - b) * (4 - cc)) * vdot s d); [unfold r, vdot, vadd, vsub, vscale; cbn [vx vy vz]; ring|]. rewrite M, Ess, Es, Em, Sd. change (vdot d d) with cc. ring. }
      assert (C4 : 0 <= cc <= 4) by lra. destruct (Req_dec cc 0) as [Z|Z].
      - assert (a - b = 0) by (rewrite Z in Q; nra). rewrite H, Z. nra.
      - destruct (Req_dec cc 4) as [Z4|Z4]; [|assert (0 < cc * (4 - cc)) by nra; rewrite Er in Rr; apply Rnot_lt_le; intro N; nra]. rewrite Z4 in Ess |- *. assert (S0 : vdot s s = 0) by lra. assert (Hs : a + b = 0). { rewrite <- Es. unfold vdot in S0. pose proof (Rle_0_sqr (vx s)) as X. pose proof (Rle_0_sqr (vy s)) as Y. pose proof (Rle_0_sqr (vz s)) as V. unfold Rsqr in *. assert (vx s = 0) by (apply Rsqr_0_uniq; unfold Rsqr; lra). assert (vy s = 0) by (apply Rsqr_0_uniq; unfold Rsqr; lra). assert (vz s = 0) by (apply Rsqr_0_uniq; unfold Rsqr; lra). unfold vdot. rewrite H, H0, H1. ring. } rewrite Hs. lra. }
    assert (C4 : 0 <= cc <= 4) by lra. assert (C1' : 0 <= 1 - c * c) by (assert (a <= 1) by (apply (dot_range m u M U)); nra). destruct (Req_dec cc 4) as [Z4|Z4].
    - assert (a - b = 2 \/ True) by (right; exact I). rewrite Z4 in *. assert (Hs : (a + b) * (a + b) = 0) by nra. assert (a = 0 /\ b = 0) as [-> ->] by (split; nra). nra.
    - assert (G : 4 * (c * c) <= (a + b) * (a + b)) by nra. assert ((4 - cc) * ((a - b) * (a - b)) <= (4 - cc) * (cc * (1 - c * c))); [|apply Rmult_le_reg_l with (4 - cc); lra]. assert (0 <= c * c) by nra. nra. }
  split.
  - rewrite Rmult_assoc. apply Rmult_le_compat_l; [lra|]. rewrite <- (sqrt_square c) by exact C0. rewrite <- sqrt_mult_alt by nra. apply sqrt_le_1_alt. replace (ex * ex + nx * nx) with (cc - (a - b) * (a - b)) by lra. lra.
  - apply Rmult_le_compat_l; [lra|]. apply sqrt_le_1_alt. lra.
Qed.
Lemma project_all_spec {A} (getlon getlat : A -> R) c l : forall xs, project_all A getlon getlat c l = Ok xs ->
  length xs = length l /\ forall i a, nth_error l i = Some a -> exists x, nth_error xs i = Some x /\ ortho_forward (fst c) (snd c) (getlon a) (getlat a) = Ok x.
Proof.
  induction l as [|a l IH]; cbn [project_all]; intros xs E; [injection E as <-; split; [reflexivity|intros [|i] a H; discriminate]|].
  destruct (ortho_forward (fst c) (snd c) (getlon a) (getlat a)) as [x|] eqn:F; [|discriminate]. destruct (project_all A getlon getlat c l) as [xs'|]; [|discriminate]. injection E as <-. destruct (IH xs' eq_refl) as [L N]. split; [cbn; rewrite L; reflexivity|]. intros [|i] b H; [injection H as <-; exists x; split; [reflexivity|exact F]|apply N, H].
Qed.
(** The object found is an object, its distance the distance, and it is nearest up to the cosine of the
    widest angle to the middle of the box of all objects. *)
Theorem C123_found : forall point_at (A : Type) (getlon getlat : A -> R) nearest objects lon lat a d, finds_nearest nearest ->
  get_closest point_at A getlon getlat nearest objects lon lat = Ok (a, d) ->
  In a objects /\ d = geodetic_distance lon lat (getlon a) (getlat a) /\
  forall west east north south c, spherical_bounding_box (map getlon objects) (map getlat objects) = Ok (west, east, north, south) -> let m := get_middle_point point_at west north east south in
    0 <= c -> c <= vdot (place (fst m) (snd m)) (place lon lat) -> (forall b, In b objects -> c <= vdot (place (fst m) (snd m)) (place (getlon b) (getlat b))) ->
    forall b, In b objects -> c * chord (place lon lat) (place (getlon a) (getlat a)) <= chord (place lon lat) (place (getlon b) (getlat b)).
Proof.
  intros point_at A getlon getlat nearest objects lon lat a d Hn E. unfold get_closest, new_objects in E. destruct (spherical_bounding_box (map getlon objects) (map getlat objects)) as [[[[west east] north] south]|] eqn:B; [|discriminate]. cbn [bind] in E. unfold ortho_centre in E. set (m := get_middle_point point_at west north east south) in *.
  destruct (project_all A getlon getlat m objects) as [xs|] eqn:P; [|discriminate]. cbn [bind] in E. destruct (ortho_forward (fst m) (snd m) lon lat) as [x|] eqn:F; [|discriminate]. cbn [bind] in E. destruct (nth_error objects (nearest xs x)) as [a'|] eqn:N; [|discriminate]. injection E as <- <-. apply project_all_spec in P as [L P].
  split; [eapply nth_error_In; exact N|]. split; [reflexivity|]. intros ? ? ? ? c [= <- <- <- <-] m' C0 C1 C2 b Hb. change m' with m in *. clear m'. pose proof (nth_error_In _ _ N) as Ha.
  destruct (P _ _ N) as (y & Y & Fy). destruct (Hn xs x) as (y' & Y' & Min); [intro Z; rewrite Z in Y; destruct (nearest [] x); discriminate|]. rewrite Z in Y' || rewrite Y in Y'. injection Y' as <-.
  apply In_nth_error in Hb as [j Hj]. destruct (P _ _ Hj) as (z & Z & Fz). specialize (Min z (nth_error_In _ _ Z)).
  destruct (shown_apart _ _ _ _ _ _ c x y C0 C1 (C2 a' Ha) F Fy) as [S1 _]. destruct (shown_apart _ _ _ _ _ _ c x z C0 C1 (C2 b (nth_error_In _ _ Hj)) F Fz) as [_ S2]. nra.
Qed.
Print Assumptions C123_found.
Lemma on_equator lon : place lon 0 = mkvec (cos (deg lon)) (sin (deg lon)) 0.
Proof. unfold place. replace (deg 0) with 0 by (unfold deg; field). rewrite cos_0, sin_0. f_equal; ring. Qed.
Lemma equator_angle a b : - 180 <= a - b <= 180 -> angle (place a 0) (place b 0) (Rabs (deg a - deg b)).
Proof.
  intro H. rewrite !on_equator. pose proof PI_RGT_0. assert (B : - PI <= deg a - deg b <= PI) by (unfold deg; split; nra). split; [split; [apply Rabs_pos|apply Rabs_le; lra]|]. cbn [vx vy vz]. transitivity (cos (deg a - deg b)); [unfold Rabs; destruct (Rcase_abs _); [rewrite <- cos_neg; f_equal; ring|reflexivity]|rewrite cos_minus; ring].
Qed.
Lemma equator_dist a b : - 180 <= a - b <= 180 -> geodetic_distance a 0 b 0 = 6371 * Rabs (deg a - deg b).
Proof. intro H. destruct (dist_angle a 0 b 0) as (t & A & ->). rewrite (angle_det _ _ _ _ A (equator_angle a b H)). reflexivity. Qed.
(** The nearest on the map need not be the nearest on the sphere: of three objects on the equator, one at
    60 degrees is found for a place nearer to the one at 0. *)
Theorem C123_nearest_refuted : exists q, 0 < q < 60 /\ forall point_at nearest, travels point_at -> finds_nearest nearest ->
  exists d, get_closest point_at R (fun l => l) (fun _ => 0) nearest [-60; 0; 60] q 0 = Ok (60, d) /\ geodetic_distance q 0 0 0 < d.
Proof.
  pose proof PI_RGT_0 as Pp. set (t := asin (45 / 100)). assert (S : sin t = 45 / 100) by (apply sin_asin; lra). assert (B : 0 < t < PI / 6). { pose proof (asin_bound (45 / 100)) as Bt. fold t in Bt. split; apply Rnot_le_lt; intro N; [assert (sin t <= sin 0) by (apply sin_incr_1; lra); rewrite sin_0 in *; lra|assert (sin (PI / 6) <= sin t) by (apply sin_incr_1; lra); rewrite sin_PI6 in *; lra]. }
  exists (degrees t). assert (D : deg (degrees t) = t) by apply deg_degrees. set (q := degrees t) in *. assert (Q : 0 < q < 30). { unfold deg in D. split; apply Rnot_le_lt; intro N; nra. } split; [lra|]. intros point_at nearest T Hn.
  (* the box *)
  assert (Bx : spherical_bounding_box (map (fun l : R => l) [-60; 0; 60]) (map (fun _ : R => 0) [-60; 0; 60]) = Ok (-60, 60, 0, 0)).
  { unfold spherical_bounding_box. cbn [map rmin_list rmax_list]. replace (Rmax 0 (Rmax 0 0)) with 0 by (rewrite !(Rmax_left 0 0) by lra; reflexivity). replace (Rmin 0 (Rmin 0 0)) with 0 by (rewrite !(Rmin_left 0 0) by lra; reflexivity). replace (Rmin (-60) (Rmin 0 60)) with (-60) by (rewrite (Rmin_left 0 60), (Rmin_left (-60) 0) by lra; reflexivity). replace (Rmax (-60) (Rmax 0 60)) with 60 by (rewrite (Rmax_right 0 60), (Rmax_right (-60) 60) by lra; reflexivity).
    rewrite (proj2 (rleb_iff (-180) (-60))), (proj2 (rleb_iff (-60) 180)), (proj2 (rleb_iff (-180) 60)), (proj2 (rleb_iff 60 180)) by lra. cbn [andb]. assert (E : longitudinal_extent (-60) 60 = 120). { unfold longitudinal_extent, pymod. replace (60 - -60 + 180) with 300 by ring. rewrite (Zfloor_imp 0); [ring|cbn; lra]. } rewrite E, (proj2 (rltb_f 120 0)) by lra. reflexivity. }
  (* its middle *)
  set (m := get_middle_point point_at (-60) 0 60 0). assert (M : m = (0, 0)).
  { unfold m, get_middle_point. destruct (reqd (-60) 60) eqn:N; [apply reqd_iff in N; lra|]. cbn [andb]. rewrite equator_dist by lra. assert (Az : azimuth (-60) 0 60 0 = 90). { symmetry. refine (C43_unique _ _ _ _ _ 90 (equator_angle (-60) 60 _) _ _ _ _); [lra| | |lra|].
        1,2: rewrite Rabs_left by (unfold deg; lra); unfold deg; intro; nra.
        replace (Rabs (deg (-60) - deg 60)) with (deg 60 - deg (-60)) by (rewrite Rabs_left by (unfold deg; lra); ring). rewrite !on_equator. unfold vadd, vscale, east_of, north_of. cbn [vx vy vz]. replace (deg 90) with (PI / 2) by (unfold deg; field). replace (deg 0) with 0 by (unfold deg; field). rewrite sin_PI2, cos_PI2, sin_0, cos_0. set (a := deg (-60)). set (b := deg 60). replace b with (b - a + a) at 1 2 by ring. rewrite cos_plus, sin_plus. f_equal; ring. }
    rewrite Az. set (d := 6371 * Rabs (deg (-60) - deg 60) / 2). specialize (T (-60) 0 90 d). destruct (point_at (-60) 0 90 d) as [lon lat]. destruct T as (P & L & A). assert (Ed : d / 6371 = deg 60) by (unfold d; rewrite Rabs_left by (unfold deg; lra); unfold deg; field). unfold travelled in P. rewrite Ed in P.
    assert (P' : place lon lat = place 0 0). { rewrite P, !on_equator. unfold vadd, vscale, east_of, north_of. cbn [vx vy vz]. replace (deg 90) with (PI / 2) by (unfold deg; field). replace (deg 0) with 0 by (unfold deg; field). replace (deg (-60)) with (- deg 60) by (unfold deg; field). rewrite sin_PI2, cos_PI2, sin_0, cos_0, cos_neg, sin_neg. pose proof (sc2 (deg 60)). f_equal; lra. }
    apply place_eq in P'; [|exact A|lra]. destruct P' as [-> [[k K]|K]]; [|rewrite Rabs_R0 in K; lra]. assert (k = 0%Z). { assert (IZR (-1) < IZR k < IZR 1) by lra. destruct H as [H1 H2]. apply lt_IZR in H1. apply lt_IZR in H2. lia. } subst k. f_equal. lra. }
  assert (F : forall l, -90 <= l <= 90 -> ortho_forward 0 0 l 0 = Ok (6371 * sin (deg l), 0)).
  { intros l Hl. destruct (C45_forward 0 0 l 0 _ (equator_angle 0 l ltac:(lra))) as [G _]. rewrite G.
    - rewrite !on_equator. unfold vdot, east_of, north_of. cbn [vx vy vz]. replace (deg 0) with 0 by (unfold deg; field). rewrite sin_0, cos_0. f_equal. f_equal; ring.
    - apply Rabs_le. unfold deg. split; nra. }
  unfold get_closest, new_objects. rewrite Bx. cbn [bind]. unfold ortho_centre. fold m. rewrite M. cbn [fst snd project_all]. repeat (rewrite F by lra; cbn [bind fst snd]). rewrite D, S.
  set (xs := [(6371 * sin (deg (-60)), 0); (6371 * sin (deg 0), 0); (6371 * sin (deg 60), 0)]). destruct (Hn xs (6371 * (45 / 100), 0)) as (y & Y & Min); [discriminate|]. assert (S60 : 86 / 100 < sin (deg 60) < 87 / 100). { replace (deg 60) with (PI / 3) by (unfold deg; field). rewrite sin_PI3. assert (1.73 < sqrt 3 < 1.735); [|lra]. split; [rewrite <- (sqrt_pow2 1.73) by lra|rewrite <- (sqrt_pow2 1.735) by lra]; apply sqrt_lt_1_alt; lra. }
  assert (Ap : forall u, apart2 (6371 * (45 / 100), 0) (6371 * u, 0) = 6371 * Rabs (45 / 100 - u)). { intro u. unfold apart2. cbn [fst snd]. replace ((6371 * (45 / 100) - 6371 * u) ^ 2 + (0 - 0) ^ 2) with (Rsqr (6371 * (45 / 100 - u))) by (unfold Rsqr; ring). rewrite sqrt_Rsqr_abs, Rabs_mult, (Rabs_right 6371) by lra. reflexivity. }
  assert (I : nearest xs (6371 * (45 / 100), 0) = 2%nat).
  { specialize (Min (6371 * sin (deg 60), 0) (or_intror (or_intror (or_introl eq_refl)))). rewrite Ap, (Rabs_left (45 / 100 - sin (deg 60))) in Min by lra. destruct (nearest xs (6371 * (45 / 100), 0)) as [|[|[|n]]]; [| |reflexivity|cbn in Y; destruct n; discriminate]; injection Y as <-; exfalso; rewrite Ap in Min.
    - replace (deg (-60)) with (- deg 60) in Min by (unfold deg; field). rewrite sin_neg, Rabs_right in Min by lra. lra.
    - replace (deg 0) with 0 in Min by (unfold deg; field). rewrite sin_0, Rabs_right in Min by lra. lra. }
  rewrite I. cbn [nth_error]. eexists. split; [reflexivity|]. rewrite !equator_dist by lra. rewrite D. replace (deg 0) with 0 by (unfold deg; field). replace (deg 60) with (PI / 3) by (unfold deg; field). rewrite (Rabs_right (t - 0)), (Rabs_left (t - PI / 3)) by lra. lra.
Qed.
Print Assumptions C123_nearest_refuted.
(** Nothing, or a place more than 90 degrees from the middle: ValueError. *)
Theorem C123_error : forall point_at (A : Type) (getlon getlat : A -> R) nearest objects lon lat,
  get_closest point_at A getlon getlat nearest [] lon lat = Err ValueError /\
  forall west east north south, spherical_bounding_box (map getlon objects) (map getlat objects) = Ok (west, east, north, south) -> let m := get_middle_point point_at west north east south in
  vdot (place (fst m) (snd m)) (place lon lat) < 0 -> get_closest point_at A getlon getlat nearest objects lon lat = Err ValueError.
Proof.
  intros point_at A getlon getlat nearest objects lon lat. split; [reflexivity|]. intros west east north south B m V. unfold get_closest, new_objects. rewrite B. cbn [bind]. unfold ortho_centre. fold m.
  assert (P : forall l, (exists xs, project_all A getlon getlat m l = Ok xs) \/ project_all A getlon getlat m l = Err ValueError). { induction l as [|b l IH]; cbn [project_all]; [eauto|]. destruct (ortho_forward (fst m) (snd m) (getlon b) (getlat b)) as [x|e] eqn:E; [|right; unfold ortho_forward in E; cbv zeta in E; destruct (rltb _ _); [injection E as <-; reflexivity|discriminate]]. cbn [bind]. destruct IH as [[xs ->]| ->]; cbn [bind]; eauto. }
  destruct (P objects) as [[xs ->]| ->]; cbn [bind]; [|reflexivity]. destruct (dist_angle (fst m) (snd m) lon lat) as (t & T & _). destruct (C45_forward _ _ _ _ _ T) as [_ G]. rewrite G; [reflexivity|]. destruct T as [T C]. apply Rnot_le_lt. intro Q. assert (0 <= cos t) by (apply cos_ge_0; lra). unfold vdot in V. lra.
Qed.
Print Assumptions C123_error.
