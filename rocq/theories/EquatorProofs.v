(** Points on the equator, for the examples. *)
From Coq Require Import ZArith Reals String Ascii Bool List Lia Lra.
From Verif Require Import PyBase PyStr VecModel VecProofs GeoModel GeoSpec GeoTrig EcefProofs EcefProps RuptModel RuptSpec RuptProofs RuptProps FrameProps PolyModel PolySpec PolyProofs QuadProofs.
Import ListNotations.
Open Scope R_scope.

Lemma WW0 : WW 0 = 1.
Proof. unfold WW. replace (1 - EE * 0 * 0) with 1 by ring. apply sqrt_1. Qed.
Lemma deg0 : deg 0 = 0. Proof. unfold deg. field. Qed.
Lemma equator_ecef lon dep : ecef (lon, 0, dep) = mkvec ((WGS84_A - 1000 * dep) * cos (deg lon)) ((WGS84_A - 1000 * dep) * sin (deg lon)) 0.
Proof. unfold ecef, from_point. rewrite coords, deg0, sin_0, cos_0, WW0. unfold WGS84_A. apply vec_ext; cbn [vx vy vz]; field. Qed.
Lemma trip_equator lon dep : -180 < lon <= 180 -> Rabs dep <= 1000 -> to_point (ecef (lon, 0, dep)) = (lon, 0, dep).
Proof.
  intros Hl Hd. pose proof (C44_point lon 0 dep ltac:(lra) Hl Hd) as P. unfold ecef. unfold to_point, from_point in *. destruct (reverse_eq 0 lon dep ltac:(lra) Hd) as (d & lon' & E & D1 & D2 & _ & _). rewrite E in P |- *. clear E.
  rewrite deg0, sin_0, cos_0 in *. replace (0.00000001 * (0 * 1 * (0 * 1))) with 0 in D2 by ring. assert (S0 : sin d = 0). { destruct (Req_dec (sin d) 0) as [X|X]; [exact X|]. apply Rabs_pos_lt in X. lra. }
  assert (d = 0). { destruct (Rtotal_order d 0) as [L|[X|L]]; [|exact X|]. - assert (0 < sin (- d)) by (apply sin_gt_0; pose proof PI_RGT_0; lra). rewrite sin_neg in H. lra. - assert (0 < sin d) by (apply sin_gt_0; pose proof PI_RGT_0; lra). lra. } subst d.
  destruct P as (P1 & _ & _). rewrite P1. replace (0 + 0) with 0 by ring. rewrite sin_0, cos_0, WW0. f_equal; [f_equal; unfold degrees; ring|].
  assert (X : rltb (Rabs (WGS84_A * (/ 1 + - dep * 1000 / WGS84_A) * 1 * cos (deg lon))) 1 && rltb (Rabs (WGS84_A * (/ 1 + - dep * 1000 / WGS84_A) * 1 * sin (deg lon))) 1 = false).
  { apply not_true_is_false. intro H. apply andb_true_iff in H. rewrite !rltb_iff in H. destruct H as [H1 H2]. apply abs_bounds in Hd. replace (WGS84_A * (/ 1 + - dep * 1000 / WGS84_A) * 1) with (WGS84_A - 1000 * dep) in H1, H2 by (unfold WGS84_A; field). pose proof (sc2 (deg lon)) as SC. set (c := cos (deg lon)) in *. set (s := sin (deg lon)) in *. clearbody c s. apply Rabs_def2 in H1, H2. unfold WGS84_A in *. set (r := 6378137 - 1000 * dep) in *. assert (5000000 < r) by (unfold r; lra). clearbody r. clear - H1 H2 SC H. assert (r * c * (r * c) < 1) by nra. assert (r * s * (r * s) < 1) by nra. assert (E : r * c * (r * c) + r * s * (r * s) = r * r) by (replace (r * c * (r * c) + r * s * (r * s)) with (r * r * (s * s + c * c)) by ring; rewrite SC; ring). nra. }
  rewrite X. unfold WGS84_A. field.
Qed.
Lemma inside_point lon dep : -180 < lon <= 180 -> -8 < dep <= 1000 -> as_point (Some (ecef (lon, 0, dep))) = Ok (lon, 0, dep).
Proof. intros Hl Hd. unfold as_point. rewrite trip_equator; [|lra|apply Rabs_le; lra]. apply new_point_ok. split; [reflexivity|]. unfold on_earth. lra. Qed.
(** One metre north of a point of the equator. *)
Lemma north_depth : snd (to_point (mkvec WGS84_A 0 1)) < 0.000001.
Proof.
  unfold to_point, ecef2latlon. cbn [vx vy vz]. cbv zeta. rewrite b_eq. replace (WGS84_A ^ 2 + 0 ^ 2) with (WGS84_A * WGS84_A) by ring. rewrite sqrt_square by (unfold WGS84_A; lra). set (b := WGS84_A * QQ). pose proof Q_bounds as QB. pose proof E_bounds as EB. assert (Bb : 6300000 < b < 6378137) by (unfold b, WGS84_A; lra).
  assert (Tx : 0 < b * WGS84_A) by (unfold WGS84_A; nra). assert (Eth : arctan2 (WGS84_A * 1) (b * WGS84_A) = atan (/ b)). { unfold arctan2. rewrite (proj2 (rltb_iff _ _) Tx). f_equal. unfold WGS84_A. field. lra. } rewrite Eth. set (th := atan (/ b)).
  assert (Th : 0 < th < PI / 2). { split; [rewrite <- atan_0; apply atan_increasing; apply Rinv_0_lt_compat; lra|]. pose proof (atan_bound (/ b)). unfold th. lra. }
  pose proof (atan_bound (/ b)) as AB. assert (Ct : 0 < cos th <= 1) by (split; [apply cos_gt_0; lra|pose proof (COS_bound th); lra]). assert (St : 0 < sin th) by (apply sin_gt_0; pose proof PI_RGT_0; lra). assert (Tt : sin th = / b * cos th). { assert (T : tan th = / b) by (apply tan_atan). unfold tan in T. rewrite <- T. field. lra. }
  replace (rltb (Rabs WGS84_A) 1 && rltb (Rabs 0) 1) with false by (symmetry; apply andb_false_iff; left; apply rltb_f; rewrite Rabs_pos_eq; unfold WGS84_A; lra).
  set (y := 1 + sqrt ((WGS84_A ^ 2 - b ^ 2) / b ^ 2) ^ 2 * b * sin th ^ 3). set (x := WGS84_A - WGS84_E ^ 2 * WGS84_A * cos th ^ 3). fold EE in x.
  assert (Hy : 0 < y < 2). { unfold y. replace (sqrt ((WGS84_A ^ 2 - b ^ 2) / b ^ 2) ^ 2) with ((WGS84_A ^ 2 - b ^ 2) / b ^ 2). 2:{ symmetry. rewrite <- Rsqr_pow2. apply Rsqr_sqrt. apply div_nonneg; unfold WGS84_A; nra. }
    assert (Sb : 0 < sin th < 0.000001). { split; [exact St|]. rewrite Tt. assert (/ b < 0.0000002) by (rewrite <- (Rinv_inv 0.0000002); apply Rinv_lt_contravar; [apply Rmult_lt_0_compat; [apply Rinv_0_lt_compat; lra|lra]|lra]). assert (0 < / b) by (apply Rinv_0_lt_compat; lra). nra. }
    assert (Q : (WGS84_A ^ 2 - b ^ 2) / b ^ 2 <= 1 /\ 0 <= (WGS84_A ^ 2 - b ^ 2) / b ^ 2). { split; [|apply div_nonneg; unfold WGS84_A; nra]. apply (Rmult_le_reg_r (b ^ 2)); [nra|]. unfold Rdiv. rewrite Rmult_assoc, Rinv_l by nra. unfold WGS84_A. nra. }
    set (q := (WGS84_A ^ 2 - b ^ 2) / b ^ 2) in *. clearbody q. set (s := sin th) in *. clearbody s. assert (C3 : 0 <= s ^ 3 <= 0.000000000001) by (split; nra). assert (0 <= q * b <= 6378137) by nra. nra. }
  assert (Hx : 6000000 < x). { unfold x. assert (cos th ^ 3 <= 1) by nra. assert (0 <= cos th ^ 3) by (apply pow_le; lra). unfold WGS84_A. nra. } clearbody x y.
  assert (El : arctan2 y x = atan (y / x)) by (unfold arctan2; rewrite (proj2 (rltb_iff 0 x)) by lra; reflexivity). rewrite El. set (l := atan (y / x)).
  assert (Yx : 0 < y / x < 0.000001). { split; [apply Rdiv_lt_0_compat; lra|]. apply (Rmult_lt_reg_r x); [lra|]. unfold Rdiv. rewrite Rmult_assoc, Rinv_l by lra. lra. }
  assert (Hl : 0 < l < PI / 2). { split; [rewrite <- atan_0; apply atan_increasing; lra|]. pose proof (atan_bound (y / x)). unfold l. lra. }
  assert (Cl : 0 < cos l <= 1) by (split; [apply cos_gt_0; lra|pose proof (COS_bound l); lra]). assert (Tl : sin l = y / x * cos l). { assert (T : tan l = y / x) by (apply tan_atan). unfold tan in T. rewrite <- T. field. lra. }
  assert (Sl : 0 <= sin l < 0.000001) by (rewrite Tl; nra). set (s := sin l) in *. clearbody s. cbn [snd]. fold EE. set (N := sqrt (1 - EE * s ^ 2)).
  assert (N2 : N * N = 1 - EE * s ^ 2) by (apply sqrt_sqrt; nra). assert (N0 : 0 <= N) by apply sqrt_pos. clearbody N. assert (NB : 0.99999999999 < N <= 1) by (split; nra).
  assert (A1 : WGS84_A <= WGS84_A / cos l). { apply (Rmult_le_reg_r (cos l)); [lra|]. unfold Rdiv. rewrite Rmult_assoc, Rinv_l by lra. unfold WGS84_A. lra. }
  assert (A2 : WGS84_A / N <= WGS84_A + 0.0001). { apply (Rmult_le_reg_r N); [lra|]. unfold Rdiv. rewrite Rmult_assoc, Rinv_l by lra. unfold WGS84_A. lra. }
  set (u := WGS84_A / cos l) in *. set (v := WGS84_A / N) in *. clearbody u v. unfold WGS84_A in *. lra.
Qed.
(** A vertical patch along the equator, from longitude 0 to [lon] to the west, from the surface to [dep]. *)
Definition wall (lon dep : R) : quad := mkquad (0, 0, 0) (lon, 0, 0) (lon, 0, dep) (0, 0, dep).
Lemma wall_sides lon : -90 <= lon < 0 -> sin (deg lon) < 0.
Proof. intro H. assert (0 < sin (deg (- lon))). { pose proof PI_RGT_0. apply sin_gt_0; unfold deg; nra. } replace (deg (- lon)) with (- deg lon) in H0 by (unfold deg; field). rewrite sin_neg in H0. lra. Qed.
Lemma wall_plane lon dep : -90 <= lon < 0 -> 0 < dep <= 1000 -> exists on, plane_quad (wall lon dep) = Ok (on, wall lon dep).
Proof.
  intros Hl Hd. pose proof (wall_sides lon Hl) as S. unfold plane_quad, wall. cbn [q0 q1 q2 q3]. destruct (is_quad _ _ _ _) as [on new] eqn:E. exists on.
  assert (N : ecef (0, 0, 0) <> ecef (lon, 0, 0)). { rewrite !equator_ecef, deg0, sin_0. intro X. injection X as _ X. unfold WGS84_A in X. nra. }
  destruct (C49_fixed _ _ (ecef (lon, 0, dep)) (ecef (0, 0, dep)) N) as (w & W & D & (k & K & Ek) & _). rewrite E in W. cbn [snd] in W. subst new.
  assert (w = ecef (lon, 0, dep)). { rewrite !equator_ecef, deg0, sin_0, cos_0 in *. set (c := cos (deg lon)) in *. set (s := sin (deg lon)) in *. pose proof (sc2 (deg lon)) as SC. fold c s in SC. clearbody c s. set (r := WGS84_A - 1000 * dep) in *. assert (R0 : 0 < r) by (unfold r, WGS84_A; lra). rewrite !dist_sq in D. apply sqrt_inj in D; [|apply sq_nonneg|apply sq_nonneg]. unfold sq, vsub in D.
    destruct w as [wx wy wz]. unfold vsub, vscale in Ek. cbn [vx vy vz] in *. injection Ek as E1 E2 E3. unfold WGS84_A in *. replace (6378137 - 1000 * 0) with 6378137 in * by ring. assert (F1 : wx - r * 1 = (6378137 * c - 6378137 * 1) * k) by lra. assert (F2 : wy - r * 0 = (6378137 * s - 6378137 * 0) * k) by lra. assert (F3 : wz - 0 = 0) by lra. rewrite F1, F2, F3 in D.
    assert (Q : (6378137 * k) * (6378137 * k) = r * r). { apply (Rmult_eq_reg_r ((c - 1) * (c - 1) + s * s)); [|nra]. transitivity (((6378137 * c - 6378137 * 1) * k) ^ 2 + ((6378137 * s - 6378137 * 0) * k) ^ 2 + 0 ^ 2); [ring|]. rewrite D. ring. }
    assert (k * 6378137 = r) by nra. apply vec_ext; cbn [vx vy vz]; [|rewrite Rmult_0_r in F2|]; nra. }
  subst w. rewrite !inside_point by lra. reflexivity.
Qed.
Lemma wall_direction lon dep : -90 <= lon < 0 -> 0 < dep <= 1000 -> fix_strike_direction (wall lon dep) = wall lon dep.
Proof.
  intros Hl Hd. pose proof (wall_sides lon Hl) as S. unfold fix_strike_direction, wall. cbn [q0 q1 q2 q3]. rewrite !equator_ecef, deg0, sin_0, cos_0. set (s := sin (deg lon)) in *. set (c := cos (deg lon)). clearbody c s.
  set (u := vcross _ _). assert (U : u = mkvec 0 0 (- (1000 * dep * WGS84_A * s))) by (unfold u, vcross, vsub; cbn [vx vy vz]; f_equal; ring). rewrite U. clear u U. set (h := - (1000 * dep * WGS84_A * s)). assert (H : 0 < h). { unfold h, WGS84_A. assert (0 < dep * - s) by nra. nra. } clearbody h.
  unfold norm, mag. cbn [vx vy vz]. replace (0 ^ 2 + 0 ^ 2 + h ^ 2) with (h * h) by ring. rewrite sqrt_square by lra. assert (R0 : reqd h 0 = false) by (apply not_true_is_false; rewrite reqd_iff; lra). rewrite R0.
  replace (mkvec (0 / h) (0 / h) (h / h)) with (mkvec 0 0 1) by (f_equal; field; lra). unfold vadd. cbn [vx vy vz]. replace ((WGS84_A - 1000 * 0) * 1 + 0) with WGS84_A by ring. replace ((WGS84_A - 1000 * 0) * 0 + 0) with 0 by ring. replace (0 + 1) with 1 by ring.
  pose proof north_depth as ND. unfold to_point in ND. cbn [vx vy vz] in ND. destruct (ecef2latlon WGS84_A 0 1) as [[a b] z]. cbn [snd depth_of] in *. rewrite (proj2 (rltb_iff _ _)); [reflexivity|]. unfold depth_of. cbn [snd]. replace (/ 10 ^ 6) with 0.000001 by lra. lra.
Qed.
