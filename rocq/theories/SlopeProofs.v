(** Lemmas for the examples of strike and dip: vectors along the equator and at the pole. *)
From Coq Require Import ZArith Reals String Ascii Bool List Lia Lra.
From Verif Require Import PyBase PyStr VecModel GeoModel RuptModel PolyModel SizeModel RuptSpec GeoSpec PolySpec SizeSpec VecProofs GeoTrig GeoProofs EcefProofs EcefProps RuptProofs EdgeProofs EdgeProps FrameProps EquatorProofs SizeProofs EdgeSizeProofs EdgeSizeProps DipProofs.
Import ListNotations.
Open Scope R_scope.

Definition nudge_out (dep : R) : R := WGS84_A * (/ WW (sin (deg 0.001)) + - dep * 1000 / WGS84_A) * cos (deg 0.001) - (WGS84_A - 1000 * dep).
Definition nudge_up (dep : R) : R := WGS84_A * (QQ * QQ * / WW (sin (deg 0.001)) + - dep * 1000 / WGS84_A) * sin (deg 0.001).
Lemma nudge_vec lon dep : vsub (ecef (nudged (lon, 0, dep))) (ecef (lon, 0, dep)) = mkvec (nudge_out dep * cos (deg lon)) (nudge_out dep * sin (deg lon)) (nudge_up dep).
Proof.
  unfold nudged. rewrite equator_ecef. unfold ecef, from_point. replace (0 + 0.001) with 0.001 by ring. rewrite coords. unfold vsub, nudge_out, nudge_up. apply vec_ext; cbn [vx vy vz]; ring.
Qed.
Lemma nudge_pos dep : Rabs dep <= 1000 -> 0 < nudge_up dep.
Proof.
  intro H. destruct (facts 0.001 dep ltac:(lra) H) as (_ & _ & _ & _ & _ & _ & _ & _ & _ & K). unfold nudge_up. apply Rmult_lt_0_compat; [apply Rmult_lt_0_compat; [unfold WGS84_A; lra|lra]|]. pose proof pi_pos. apply sin_gt_0; unfold deg; lra.
Qed.
Lemma vz_nz v : 0 < vz v -> v <> v0.
Proof. intros H E. rewrite E in H. unfold v0 in H. cbn [vz] in H. lra. Qed.
Lemma direction_up v u : direction v u -> 0 < vz v -> 0 < vz u.
Proof. intros (_ & k & K & E) H. rewrite E in H. unfold vscale in H. cbn [vz] in H. nra. Qed.
Lemma pole_ecef lon : ecef (lon, 90, 0) = mkvec 0 0 (WGS84_A * QQ).
Proof.
  unfold ecef, from_point. rewrite coords, deg_90, sin_PI2, cos_PI2. pose proof Q_bounds. assert (E : WW 1 = QQ) by (unfold WW, QQ; f_equal; ring). rewrite E. apply vec_ext; cbn [vx vy vz]; [ring|ring|]. assert (WGS84_A <> 0) by (unfold WGS84_A; lra). field. split; lra.
Qed.
Lemma place_equator lon : place lon 0 = mkvec (cos (deg lon)) (sin (deg lon)) 0.
Proof. unfold place. rewrite deg0, sin_0, cos_0. apply vec_ext; cbn [vx vy vz]; ring. Qed.
Lemma mag_pos x y z : x <> 0 \/ y <> 0 \/ z <> 0 -> 0 < mag (mkvec x y z).
Proof. intro H. unfold mag. cbn [vx vy vz]. apply sqrt_lt_R0. destruct H as [H|[H|H]]; apply Rsqr_pos_lt in H; unfold Rsqr in H; nra. Qed.
Lemma northness_exists c : 0 < vz (vsub (ecef (nudged (p_tr c))) (ecef (p_tr c))) -> 0 < vz (vsub (ecef (nudged (p_bl c))) (ecef (p_bl c))) ->
  northness c (vadd (vscale (first_area c) (vscale (/ mag (vsub (ecef (nudged (p_tr c))) (ecef (p_tr c)))) (vsub (ecef (nudged (p_tr c))) (ecef (p_tr c))))) (vscale (second_area c) (vscale (/ mag (vsub (ecef (nudged (p_bl c))) (ecef (p_bl c)))) (vsub (ecef (nudged (p_bl c))) (ecef (p_bl c)))))).
Proof. intros A B. constructor; apply direction_exists, vz_nz; assumption. Qed.

(** The wall stands upright. *)
Lemma wall_upright : exists n, Forall sound [wall_patch] /\ first_area wall_patch <> 0 /\ second_area wall_patch <> 0 /\ northness wall_patch n /\
  vtotal (map twist [wall_patch]) <> v0 /\ vtotal [n] <> v0 /\ vtotal (map upness [wall_patch]) <> v0 /\ scalar (vtotal (map twist [wall_patch])) (vtotal (map upness [wall_patch])) = 0.
Proof.
  pose proof (wall_sides (-1) ltac:(lra)) as S.
  assert (A1 : 0 < first_area wall_patch).
  { unfold first_area, tri_area, wall_patch. cbn [p_tl p_tr p_br p_bl]. rewrite !equator_ecef, deg0, sin_0, cos_0. set (s := sin (deg (-1))) in *. set (c := cos (deg (-1))). unfold vcross, vsub. cbn [vx vy vz]. match goal with |- 0 < mag (mkvec ?x ?y ?z) / 2 => assert (P : 0 < mag (mkvec x y z)) end; [|lra]. apply mag_pos. right. right. unfold WGS84_A. clearbody s c. nra. }
  assert (A2 : 0 < second_area wall_patch).
  { unfold second_area, tri_area, wall_patch. cbn [p_tl p_tr p_br p_bl]. rewrite !equator_ecef, deg0, sin_0, cos_0. set (s := sin (deg (-1))) in *. set (c := cos (deg (-1))). unfold vcross, vsub. cbn [vx vy vz]. match goal with |- 0 < mag (mkvec ?x ?y ?z) / 2 => assert (P : 0 < mag (mkvec x y z)) end; [|lra]. apply mag_pos. right. right. unfold WGS84_A. clearbody s c. nra. }
  assert (N1 : 0 < vz (vsub (ecef (nudged (p_tr wall_patch))) (ecef (p_tr wall_patch)))) by (unfold wall_patch; cbn [p_tr]; rewrite nudge_vec; cbn [vz]; apply nudge_pos; rewrite Rabs_R0; lra).
  assert (N2 : 0 < vz (vsub (ecef (nudged (p_bl wall_patch))) (ecef (p_bl wall_patch)))) by (unfold wall_patch; cbn [p_bl]; rewrite nudge_vec; cbn [vz]; apply nudge_pos; rewrite Rabs_right; lra).
  pose proof (northness_exists wall_patch N1 N2) as N. eexists. split; [|split; [|split; [|split; [exact N|]]]].
  - repeat constructor; cbn [wall_patch p_tl p_tr p_br p_bl raised nudged on_earth]; lra.
  - lra.
  - lra.
  - split; [|split; [|split]].
    + cbn [map vtotal]. unfold twist, wall_patch. cbn [p_tl p_tr p_br p_bl]. rewrite !equator_ecef, deg0, sin_0, cos_0. apply vz_nz. set (s := sin (deg (-1))) in *. set (c := cos (deg (-1))). unfold vcross, vsub, vadd. cbn [vx vy vz]. unfold WGS84_A. clearbody s c. nra.
    + apply vz_nz. cbn [vtotal]. generalize (direction_up _ _ (direction_exists _ (vz_nz _ N1)) N1) (direction_up _ _ (direction_exists _ (vz_nz _ N2)) N2). set (d1 := vscale _ (vsub (ecef (nudged (p_tr wall_patch))) _)). set (d2 := vscale _ (vsub (ecef (nudged (p_bl wall_patch))) _)). intros D1 D2. unfold vadd, vscale. cbn [vz]. clearbody d1 d2. nra.
    + cbn [map vtotal]. unfold upness. cbn [wall_patch p_tr p_bl fst snd]. rewrite !place_equator, deg0, sin_0, cos_0. intro E. pose proof PI_4. pose proof pi_pos. assert (C : 0 < cos (deg (-1))) by (apply cos_gt_0; unfold deg; lra). apply (f_equal vx) in E. unfold vadd, vscale, v0 in E. cbn [vx] in E. fold wall_patch in E. nra.
    + cbn [map vtotal]. unfold upness. cbn [wall_patch p_tr p_bl fst snd]. rewrite !place_equator. unfold twist, wall_patch. cbn [p_tl p_tr p_br p_bl]. rewrite !equator_ecef. unfold scalar, vcross, vsub, vadd, vscale. cbn [vx vy vz]. ring.
Qed.
(** A surface from the equator to the pole. *)
Definition slope_patch : patch := mkpatch (0, 0, 10) (90, 0, 0) (0, 90, 0) (0, 0, 0).
Lemma slope_facts : exists n, Forall sound [slope_patch] /\ first_area slope_patch <> 0 /\ second_area slope_patch <> 0 /\ northness slope_patch n /\
  vtotal (map twist [slope_patch]) <> v0 /\ vtotal [n] <> v0 /\ vtotal (map upness [slope_patch]) <> v0 /\ scalar (vtotal (map twist [slope_patch])) (vtotal (map upness [slope_patch])) <> 0 /\
  exists v, downhill (vtotal (map twist [slope_patch])) (vtotal (map upness [slope_patch])) v /\ v <> v0 /\ mixed v (vtotal [n]) (vtotal (map upness [slope_patch])) <> 0.
Proof.
  set (a := WGS84_A). set (b := WGS84_A * QQ). pose proof Q_bounds as QB. assert (Ha : 6000000 < a) by (unfold a, WGS84_A; lra). assert (Hb : 6000000 < b < a) by (unfold b, a, WGS84_A; lra).
  assert (E0 : ecef (p_tl slope_patch) = mkvec (a - 10000) 0 0) by (unfold slope_patch; cbn [p_tl]; rewrite equator_ecef, deg0, sin_0, cos_0; unfold a; apply vec_ext; cbn [vx vy vz]; ring).
  assert (E1 : ecef (p_tr slope_patch) = mkvec 0 a 0) by (unfold slope_patch; cbn [p_tr]; rewrite equator_ecef, deg_90, sin_PI2, cos_PI2; unfold a; apply vec_ext; cbn [vx vy vz]; ring).
  assert (E2 : ecef (p_br slope_patch) = mkvec 0 0 b) by (unfold slope_patch; cbn [p_br]; apply pole_ecef).
  assert (E3 : ecef (p_bl slope_patch) = mkvec a 0 0) by (unfold slope_patch; cbn [p_bl]; rewrite equator_ecef, deg0, sin_0, cos_0; unfold a; apply vec_ext; cbn [vx vy vz]; ring).
  assert (A2 : second_area slope_patch = 5000 * b).
  { unfold second_area, tri_area. rewrite E0, E2, E3. unfold vcross, vsub, mag. cbn [vx vy vz]. replace (sqrt _) with (10000 * b); [field|]. symmetry. rewrite <- (sqrt_square (10000 * b)) by lra. f_equal. ring. }
  assert (A1 : 5000 * b < first_area slope_patch).
  { unfold first_area, tri_area. rewrite E0, E1, E2. unfold vcross, vsub. cbn [vx vy vz]. match goal with |- _ < mag ?v / 2 => assert (M : a * b <= mag v) end; [|nra]. rewrite mag_dot. rewrite <- (sqrt_square (a * b)) by nra. apply sqrt_le_1_alt. unfold vdot. cbn [vx vy vz]. nra. }
  assert (T : twist slope_patch = mkvec (- (a * b)) (- (a * b)) (- ((a - 10000) * a))) by (unfold twist; rewrite E0, E1, E2, E3; unfold vcross, vsub, vadd; apply vec_ext; cbn [vx vy vz]; ring).
  set (k1 := first_area slope_patch) in *. set (k2 := second_area slope_patch) in *.
  assert (U : upness slope_patch = mkvec k2 k1 0) by (unfold upness; fold k1 k2; cbn [slope_patch p_tr p_bl fst snd]; rewrite !place_equator, deg0, deg_90, sin_0, cos_0, sin_PI2, cos_PI2; unfold vadd, vscale; apply vec_ext; cbn [vx vy vz]; ring).
  assert (Nu : 0 < nudge_up 0) by (apply nudge_pos; rewrite Rabs_R0; lra). set (o := nudge_out 0). set (z := nudge_up 0) in *.
  assert (V1 : vsub (ecef (nudged (p_tr slope_patch))) (ecef (p_tr slope_patch)) = mkvec 0 o z) by (unfold slope_patch; cbn [p_tr]; rewrite nudge_vec, deg_90, sin_PI2, cos_PI2; unfold o, z; apply vec_ext; cbn [vx vy vz]; ring).
  assert (V2 : vsub (ecef (nudged (p_bl slope_patch))) (ecef (p_bl slope_patch)) = mkvec o 0 z) by (unfold slope_patch; cbn [p_bl]; rewrite nudge_vec, deg0, sin_0, cos_0; unfold o, z; apply vec_ext; cbn [vx vy vz]; ring).
  pose proof (northness_exists slope_patch) as N. rewrite V1, V2 in N. specialize (N Nu Nu). fold k1 k2 in N. assert (R2 : mag (mkvec o 0 z) = mag (mkvec 0 o z)) by (unfold mag; cbn [vx vy vz]; f_equal; ring). rewrite R2 in N. pose proof (mag_pos 0 o z ltac:(right; right; lra)) as Rp. apply Rinv_0_lt_compat in Rp. set (r := / mag (mkvec 0 o z)) in *.
  match type of N with northness _ ?x => set (n := x) in *; assert (En : n = mkvec (k2 * r * o) (k1 * r * o) ((k1 + k2) * r * z)) by (unfold n, vadd, vscale; apply vec_ext; cbn [vx vy vz]; ring) end. clearbody n.
  assert (Tw : vtotal (map twist [slope_patch]) = mkvec (- (a * b)) (- (a * b)) (- ((a - 10000) * a))) by (cbn [map vtotal]; rewrite T; unfold vadd; apply vec_ext; cbn [vx vy vz]; ring).
  assert (Uw : vtotal (map upness [slope_patch]) = mkvec k2 k1 0) by (cbn [map vtotal]; rewrite U; unfold vadd; apply vec_ext; cbn [vx vy vz]; ring).
  assert (Nw : vtotal [n] = mkvec (k2 * r * o) (k1 * r * o) ((k1 + k2) * r * z)) by (cbn [vtotal]; rewrite En; unfold vadd; apply vec_ext; cbn [vx vy vz]; ring).
  rewrite Tw, Uw. exists n. rewrite Nw. clear Tw Uw Nw T U E0 E1 E2 E3 V1 V2 R2 En. clearbody a b k1 k2 o z r. assert (Pab : 0 < a * b) by nra. assert (Sc : - (a * b) * k2 + - (a * b) * k1 + - ((a - 10000) * a) * 0 < 0) by nra.
  split.
  { constructor; [|constructor]. unfold sound. rewrite Forall_forall. cbn [slope_patch p_tl p_tr p_br p_bl raised nudged In]. clear. intros x I. repeat (destruct I as [<-|I]; [cbn [on_earth]; repeat split; lra|]). contradiction. }
  split; [lra|]. split; [lra|]. split; [exact N|]. split; [intro E; apply (f_equal vx) in E; unfold v0 in E; cbn [vx] in E; lra|].
  split; [apply vz_nz; cbn [vz]; apply Rmult_lt_0_compat; [apply Rmult_lt_0_compat; lra|exact Nu]|]. split; [intro E; apply (f_equal vx) in E; unfold v0 in E; cbn [vx] in E; lra|]. split; [unfold scalar; cbn [vx vy vz]; lra|].
  set (w := mkvec _ _ _). set (u := mkvec k2 k1 0). set (m := mkvec (k2 * r * o) _ _).
  assert (Mx : mixed w m u <> 0). { replace (mixed w m u) with ((a * b) * ((k1 + k2) * (r * z)) * (k1 - k2)) by (unfold mixed, w, m, u; cbn [vx vy vz]; ring). assert (0 < (a * b) * ((k1 + k2) * (r * z)) * (k1 - k2)); [|lra]. assert (0 < r * z) by (apply Rmult_lt_0_compat; assumption). assert (0 < (k1 + k2) * (r * z)) by (apply Rmult_lt_0_compat; lra). apply Rmult_lt_0_compat; [apply Rmult_lt_0_compat; assumption|lra]. }
  eexists. split; [eexists; split; [reflexivity|reflexivity]|]. destruct (Rle_dec 0 (scalar w u)) as [G|G]; [exfalso; unfold scalar, w, u in G; cbn [vx vy vz] in G; lra|].
  match goal with |- ?v <> v0 /\ _ => assert (Mv : mixed v m u <> 0) end.
  - match goal with |- mixed ?v m u <> 0 => replace (mixed v m u) with (- (scalar u u * mixed w m u)) by (unfold mixed, vscale, vsub; cbn [vx vy vz]; ring) end. assert (0 < scalar u u) by (unfold scalar, u; cbn [vx vy vz]; nra). intro E. assert (scalar u u * mixed w m u = 0) by lra. apply Rmult_integral in H0. destruct H0; [lra|contradiction].
  - split; [|exact Mv]. intro E. apply Mv. rewrite E. unfold mixed, v0. cbn [vx vy vz]. ring.
Qed.
