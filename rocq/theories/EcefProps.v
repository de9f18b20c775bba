(** C44: earth-centred coordinates. *)
From Coq Require Import ZArith Reals List Bool Lra Psatz Lia.
From Verif Require Import PyBase VecModel VecProofs GeoModel GeoSpec GeoTrig GeoProofs SphereProofs EcefProofs.
Open Scope R_scope.

Lemma small_angle : forall d, - (PI / 2) < d < PI / 2 -> Rabs (sin d) <= 1 / 2 -> Rabs d <= 2 * Rabs (sin d).
Proof.
  assert (P : forall d, 0 < d < PI / 2 -> sin d <= 1 / 2 -> d <= 2 * sin d).
  { intros d H S. pose proof pi_pos as Pp. assert (L : d <= PI / 6). { apply Rnot_lt_le. intro L. assert (sin (PI / 6) < sin d) by (apply sin_increasing_1; lra). rewrite sin_PI6 in H0. lra. }
    destruct (MVT_cor2 sin cos 0 d) as (x & E & Hx); [lra|intros; apply derivable_pt_lim_sin|]. rewrite sin_0 in E. assert (cos (PI / 3) < cos x) by (apply cos_decreasing_1; lra). rewrite cos_PI3 in H0. nra. }
  intros d H S. destruct (Rtotal_order d 0) as [L|[->|L]].
  - rewrite (Rabs_left d) by lra. assert (sin d < 0) by (apply sin_lt_0_var; lra). rewrite Rabs_left in S |- * by lra. specialize (P (- d)). rewrite sin_neg in P. lra.
  - rewrite Rabs_R0. pose proof (Rabs_pos (sin 0)). lra.
  - rewrite (Rabs_right d) by lra. assert (0 < sin d) by (apply sin_gt_0; lra). rewrite Rabs_right in S |- * by lra. apply P; lra.
Qed.

(** The coordinates through the abbreviations of the proofs. *)
Lemma coords : forall lat lon dep, let s := sin (deg lat) in let c := cos (deg lat) in let V := / WW s in let k := - dep * 1000 / WGS84_A in
  latlon2ecef lat lon dep = mkvec (WGS84_A * (V + k) * c * cos (deg lon)) (WGS84_A * (V + k) * c * sin (deg lon)) (WGS84_A * (QQ * QQ * V + k) * s).
Proof.
  intros. unfold latlon2ecef. cbv zeta. rewrite !radians_deg. fold s c. pose proof Q_sq. replace (WGS84_E * WGS84_E) with EE by (unfold EE; ring). fold (WW s). rewrite H.
  assert (A : WGS84_A <> 0) by (unfold WGS84_A; lra). assert (Ws : WW s <> 0). { assert (s * s <= 1) by (pose proof (sc2 (deg lat)); fold s c in H0; pose proof (Rle_0_sqr c); unfold Rsqr in *; lra). pose proof (W_bounds s H0). pose proof Q_bounds. lra. }
  unfold V, k. apply vec_ext; cbn [vx vy vz]; field; auto.
Qed.
Lemma facts : forall lat dep, -90 <= lat <= 90 -> Rabs dep <= 1000 -> let s := sin (deg lat) in let c := cos (deg lat) in let W := WW s in let V := / W in let k := - dep * 1000 / WGS84_A in
  s * s + c * c = 1 /\ 0 <= c /\ 1 <= V /\ V * QQ <= 1 /\ QQ <= W <= 1 /\ V * W = 1 /\ W * W = 1 - EE * s * s /\ -0.1568 <= k <= 0.1568 /\ 0.8 <= V + k <= 1.2 /\ 0.8 <= QQ * QQ * V + k <= 1.2.
Proof.
  intros lat dep Hl Hd s c W V k. pose proof (sc2 (deg lat)) as SC. fold s c in SC. pose proof (lat_bounds lat Hl) as B. assert (Pc : 0 <= c) by (apply cos_ge_0; lra). assert (Hs : s * s <= 1) by (pose proof (Rle_0_sqr c); unfold Rsqr in *; lra).
  pose proof (W_bounds s Hs) as WB. pose proof (W_sq s Hs) as WS. fold W in WB, WS. pose proof Q_bounds as QB. pose proof E_bounds as EB. pose proof Q_sq as QS. assert (VW : V * W = 1) by (unfold V; field; lra).
  assert (V1 : 1 <= V) by nra. assert (Vq : V * QQ <= 1) by nra. apply abs_bounds in Hd. assert (K : -0.1568 <= k <= 0.1568) by (unfold k, WGS84_A; split; lra).
  assert (V2 : V <= 1.0034) by nra. assert (Q2 : 0.993 <= QQ * QQ * V <= 1) by (split; nra). repeat (split; [first [assumption|lra]|]). lra.
Qed.

(** The latitude found differs by a tiny angle, by none on the surface. *)
Lemma lat_error : forall lat dep, -90 <= lat <= 90 -> Rabs dep <= 1000 -> let s := sin (deg lat) in let c := cos (deg lat) in let V := / WW s in let k := - dep * 1000 / WGS84_A in
  let p := WGS84_A * (V + k) * c in let z := WGS84_A * (QQ * QQ * V + k) * s in let b := WGS84_A * QQ in let th := arctan2 (WGS84_A * z) (b * p) in
  let l := arctan2 (z + WGS84_A * EE / QQ * sin th ^ 3) (p - WGS84_E ^ 2 * WGS84_A * cos th ^ 3) in
  exists d, l = deg lat + d /\ - (PI / 2) < d < PI / 2 /\ Rabs (sin d) <= 0.00000001 * ((s * c) * (s * c)) /\ (dep = 0 -> d = 0).
Proof.
  intros lat dep Hl Hd s c V k p z b th l. destruct (facts lat dep Hl Hd) as (SC & Pc & V1 & Vq & WB & VW & WS & K & K1 & K2). fold s c V k in SC, Pc, V1, Vq, WB, VW, WS, K, K1, K2.
  pose proof Q_bounds as QB. pose proof E_bounds as EB. pose proof Q_sq as QS. assert (Ap : 0 < WGS84_A) by (unfold WGS84_A; lra).
  assert (NZ : b * p <> 0 \/ WGS84_A * z <> 0).
  { destruct (Req_dec c 0) as [C0|C0]; [right|left].
    - unfold z. assert (s <> 0) by (intro S0; rewrite S0, C0 in SC; lra). apply Rmult_integral_contrapositive_currified; [lra|]. apply Rmult_integral_contrapositive_currified; [apply Rmult_integral_contrapositive_currified; lra|assumption].
    - unfold b, p. apply Rmult_integral_contrapositive_currified; [apply Rmult_integral_contrapositive_currified; lra|]. apply Rmult_integral_contrapositive_currified; [apply Rmult_integral_contrapositive_currified; lra|assumption]. }
  destruct (arctan2_spec (WGS84_A * z) (b * p) NZ) as [ST CT]. fold th in ST, CT. pose proof (hyp_pos _ _ NZ) as MP. set (M := sqrt ((b * p) ^ 2 + (WGS84_A * z) ^ 2)) in *.
  set (num := (QQ * QQ * V + k) * s + EE / QQ * (sin th * sin th * sin th)). set (den := (V + k) * c - EE * (cos th * cos th * cos th)).
  assert (Hm : 0 < M / (WGS84_A * WGS84_A)) by (apply Rdiv_lt_0_compat; nra).
  destruct (bowring EE QQ s c V (WW s) k (sin th) (cos th) (M / (WGS84_A * WGS84_A)) num den EB QB QS SC Pc V1 Vq WB VW WS K (sc2 th) Hm) as (B1 & B2 & B3); [| |reflexivity|reflexivity|].
  { rewrite CT. unfold b, p. field. split; lra. }
  { rewrite ST. unfold z. field. split; lra. }
  assert (El : l = arctan2 (WGS84_A * num) (WGS84_A * den)).
  { unfold l. f_equal; [unfold z, num|unfold p, den; fold EE]; [field; lra|ring]. }
  assert (NZ2 : WGS84_A * den <> 0 \/ WGS84_A * num <> 0).
  { destruct (Req_dec num 0) as [N0|N0]; [left|right; apply Rmult_integral_contrapositive_currified; lra]. apply Rmult_integral_contrapositive_currified; [lra|]. intro D0. rewrite N0, D0 in B2. lra. }
  destruct (arctan2_spec _ _ NZ2) as [SL CL]. rewrite <- El in SL, CL. pose proof (hyp_pos _ _ NZ2) as DP. set (D := sqrt ((WGS84_A * den) ^ 2 + (WGS84_A * num) ^ 2)) in *.
  assert (SD : sin (l - deg lat) = WGS84_A / D * (num * c - den * s)) by (rewrite sin_minus, SL, CL; fold s c; field; lra).
  assert (CD : cos (l - deg lat) = WGS84_A / D * (num * s + den * c)) by (rewrite cos_minus, SL, CL; fold s c; field; lra).
  assert (AD : 0 < WGS84_A / D) by (apply Rdiv_lt_0_compat; lra). assert (CP : 0 < cos (l - deg lat)) by (rewrite CD; apply Rmult_lt_0_compat; lra).
  pose proof (arctan2_range (WGS84_A * num) (WGS84_A * den)) as LR. rewrite <- El in LR. pose proof (lat_bounds lat Hl) as LB. pose proof pi_pos as Pp.
  assert (DR : - (PI / 2) < l - deg lat < PI / 2).
  { split; apply Rnot_le_lt; intro L.
    - assert (cos (l - deg lat) <= 0); [|lra]. rewrite <- cos_neg. apply cos_le_0; lra.
    - assert (cos (l - deg lat) <= 0); [|lra]. apply cos_le_0; lra. }
  exists (l - deg lat). split; [ring|]. split; [exact DR|].
  assert (ADu : WGS84_A / D * (num * s + den * c) <= 1) by (rewrite <- CD; apply COS_bound).
  split.
  - rewrite SD, Rabs_mult, Rabs_right by lra. set (r := WGS84_A / D) in *. assert (R1 : r <= 1 / 0.826) by (clear - B2 ADu AD; set (x := num * s + den * c) in *; clearbody x; nra).
    pose proof (Rabs_pos (num * c - den * s)) as P0. set (y := Rabs (num * c - den * s)) in *. assert (P1 : 0 <= s * c * (s * c)) by exact (Rle_0_sqr _). set (w := s * c * (s * c)) in *. clearbody r y w. clear - R1 AD P0 P1 B1. nra.
  - intros ->. assert (k = 0) by (unfold k; field; lra). rewrite (B3 H), Rmult_0_r in SD. apply angle_unique; [lra|lra|rewrite SD, sin_0; reflexivity|].
    rewrite cos_0. pose proof (sc2 (l - deg lat)) as X. rewrite SD in X. nra.
Qed.

(** What the reverse function returns. *)
Lemma reverse_eq : forall lat lon dep, -90 <= lat <= 90 -> Rabs dep <= 1000 -> let s := sin (deg lat) in let c := cos (deg lat) in let V := / WW s in let k := - dep * 1000 / WGS84_A in
  let p := WGS84_A * (V + k) * c in let z := WGS84_A * (QQ * QQ * V + k) * s in let x := p * cos (deg lon) in let y := p * sin (deg lon) in
  exists d lon', ecef2latlon (vx (latlon2ecef lat lon dep)) (vy (latlon2ecef lat lon dep)) (vz (latlon2ecef lat lon dep)) =
    (degrees (deg lat + d), lon', - (if rltb (Rabs x) 1 && rltb (Rabs y) 1 then Rabs z - WGS84_A * QQ else p / cos (deg lat + d) - WGS84_A / WW (sin (deg lat + d))) / 1000) /\
  - (PI / 2) < d < PI / 2 /\ Rabs (sin d) <= 0.00000001 * ((s * c) * (s * c)) /\ (dep = 0 -> d = 0) /\ (-90 < lat < 90 -> -180 < lon' <= 180 /\ same_lon lon' lon).
Proof.
  intros lat lon dep Hl Hd s c V k p z x y. rewrite coords. cbn [vx vy vz]. fold s c V k p z x y. destruct (facts lat dep Hl Hd) as (SC & Pc & _ & _ & _ & _ & _ & _ & K1 & _). fold s c V k in SC, Pc, K1.
  destruct (lat_error lat dep Hl Hd) as (d & Ed & Hd1 & Hd2 & Hd3). fold s c V k p z in Ed, Hd2. unfold ecef2latlon. cbv zeta.
  assert (Pp : 0 <= p) by (unfold p; apply Rmult_le_pos; [apply Rmult_le_pos; [unfold WGS84_A; lra|lra]|exact Pc]).
  assert (Ep : sqrt (x ^ 2 + y ^ 2) = p). { pose proof (sc2 (deg lon)) as L. replace (x ^ 2 + y ^ 2) with (p ^ 2) by (unfold x, y; transitivity (p ^ 2 * (sin (deg lon) * sin (deg lon) + cos (deg lon) * cos (deg lon))); [rewrite L; ring|ring]). apply sqrt_pow2. exact Pp. }
  rewrite Ep, b_eq, ep_eq, Ed. replace (1 - WGS84_E ^ 2 * sin (deg lat + d) ^ 2) with (1 - EE * sin (deg lat + d) * sin (deg lat + d)) by (unfold EE; ring). fold (WW (sin (deg lat + d))). eexists d, _. split; [reflexivity|]. split; [exact Hd1|]. split; [exact Hd2|]. split; [exact Hd3|]. intro Hi.
  assert (Pc' : 0 < c) by (apply lat_inner; exact Hi). assert (Pp' : 0 < p) by (unfold p; apply Rmult_lt_0_compat; [apply Rmult_lt_0_compat; [unfold WGS84_A; lra|lra]|exact Pc']).
  assert (NZ : x <> 0 \/ y <> 0). { destruct (Req_dec x 0) as [X0|X0]; [|left; exact X0]. right. intro Y0. rewrite X0, Y0 in Ep. replace (0 ^ 2 + 0 ^ 2) with 0 in Ep by ring. rewrite sqrt_0 in Ep. lra. }
  destruct (arctan2_spec y x NZ) as [S1 C1]. rewrite Ep in S1, C1. assert (S2 : sin (arctan2 y x) = sin (deg lon)) by (rewrite S1; unfold y; field; lra). assert (C2 : cos (arctan2 y x) = cos (deg lon)) by (rewrite C1; unfold x; field; lra).
  pose proof pi_pos as P. destruct (mod_same (arctan2 y x) (2 * PI) ltac:(lra)) as (j & Ej). pose proof (mod_range (arctan2 y x) (2 * PI) ltac:(lra)) as Rj. set (t := pymod (arctan2 y x) (2 * PI)) in *.
  assert (B : 0 <= degrees t < 360). { unfold degrees. assert (E : t * (180 / PI) * PI = 180 * t) by (field; lra). split; nra. }
  assert (T : sin (deg (degrees t)) = sin (deg lon) /\ cos (deg (degrees t)) = cos (deg lon)). { rewrite deg_degrees, Ej. replace (arctan2 y x + 2 * PI * IZR j) with (arctan2 y x + 2 * IZR j * PI) by ring. rewrite sin_periodZ, cos_periodZ. split; assumption. }
  pose proof (deg_same _ _ (proj1 T) (proj2 T)) as (i & Ei). destruct (rltb 180 (degrees t)) eqn:Q; cmp; split; try lra; [exists (i - 1)%Z; rewrite minus_IZR; lra|exists i; lra].
Qed.

Lemma cosine_near : forall s c sd cd, s * s + c * c = 1 -> 0 <= c -> sd * sd + cd * cd = 1 -> 0 <= cd -> Rabs sd <= 0.00000001 * (s * c * (s * c)) ->
  Rabs (c - (c * cd - s * sd)) <= 0.000000011 * c.
Proof.
  intros s c sd cd SC Pc SD Pd H. assert (Hs : s * s <= 1) by (pose proof (Rle_0_sqr c); unfold Rsqr in *; lra). assert (Hc : c <= 1) by nra. assert (S1 : -1 <= s <= 1) by (split; nra).
  assert (W : 0 <= s * c * (s * c) <= c * c). { replace (s * c * (s * c)) with (s * s * (c * c)) by ring. split; [pose proof (Rle_0_sqr s); pose proof (Rle_0_sqr c); unfold Rsqr in *; nra|]. rewrite <- (Rmult_1_l (c * c)) at 2. apply Rmult_le_compat_r; nra. }
  assert (B : Rabs sd <= 0.00000001 * c) by nra. apply abs_bounds in B. assert (D : 0 <= 1 - cd <= sd * sd) by (split; nra). assert (D2 : sd * sd <= 0.00000001 * 0.00000001) by nra.
  assert (X : - (0.00000001 * c) <= s * sd <= 0.00000001 * c) by (split; nra). apply abs_le. replace (c - (c * cd - s * sd)) with (c * (1 - cd) + s * sd) by ring. split; nra.
Qed.
Lemma radius_near : forall s s', s * s <= 1 -> s' * s' <= 1 -> Rabs (s * s - s' * s') <= 0.000000025 -> Rabs (/ WW s - / WW s') <= 0.0000000002.
Proof.
  intros s s' Hs Hs' H. pose proof (W_sq s Hs) as W1. pose proof (W_sq s' Hs') as W2. pose proof (W_bounds s Hs) as B1. pose proof (W_bounds s' Hs') as B2. pose proof Q_bounds as QB. pose proof E_bounds as EB. set (w := WW s) in *. set (w' := WW s') in *. clearbody w w'.
  assert (D : (w' - w) * (w' + w) = EE * (s * s - s' * s')) by lra. replace (/ w - / w') with ((w' - w) / (w * w')) by (field; lra). apply abs_bounds in H. assert (D1 : -0.00000000017 <= EE * (s * s - s' * s') <= 0.00000000017) by (set (x := s * s - s' * s') in *; clearbody x; split; nra). rewrite <- D in D1.
  assert (D2 : -0.0000000001 <= w' - w <= 0.0000000001) by (split; nra). assert (P : 0.9 <= w * w') by nra. apply abs_le. assert (E : (w' - w) / (w * w') * (w * w') = w' - w) by (field; lra). set (r := (w' - w) / (w * w')) in *. set (pp := w * w') in *. clearbody r pp. split; nra.
Qed.

(** Going there and back changes the latitude by less than a third of a millionth of a
    degree and the depth by less than ten centimetres, and the longitude not at all. *)
Theorem C44_roundtrip : forall lat lon dep, -90 <= lat <= 90 -> Rabs dep <= 1000 ->
  let v := latlon2ecef lat lon dep in let '(lat', lon', dep') := ecef2latlon (vx v) (vy v) (vz v) in
  Rabs (lat' - lat) <= 0.0000003 /\ Rabs (dep' - dep) <= 0.0001 /\ (-90 < lat < 90 -> -180 < lon' <= 180 /\ same_lon lon' lon).
Proof.
  intros lat lon dep Hl Hd v. destruct (reverse_eq lat lon dep Hl Hd) as (d & lon' & E & D1 & D2 & _ & L). unfold v. rewrite E. clear E v. destruct (facts lat dep Hl Hd) as (SC & Pc & V1 & Vq & WB & VW & WS & K & K1 & K2).
  set (s := sin (deg lat)) in *. set (c := cos (deg lat)) in *. set (V := / WW s) in *. set (k := - dep * 1000 / WGS84_A) in *. pose proof pi_pos as P. pose proof PI2_3_2 as P3. unfold PI2 in P3.
  assert (S2 : Rabs (sin d) <= 0.0000000025). { eapply Rle_trans; [exact D2|]. assert (-0.5 <= s * c <= 0.5) by (pose proof (Rle_0_sqr (s - c)); pose proof (Rle_0_sqr (s + c)); unfold Rsqr in *; lra). set (w := s * c) in *. clearbody w. nra. }
  assert (Cd : 0 < cos d) by (apply cos_gt_0; lra). pose proof (sc2 d) as SCd.
  split; [|split; [|exact L]].
  - replace (degrees (deg lat + d) - lat) with (d * (180 / PI)) by (unfold degrees, deg; field; lra). rewrite Rabs_mult, (Rabs_right (180 / PI)) by (apply Rle_ge, Rmult_le_pos; [lra|left; apply Rinv_0_lt_compat; lra]).
    pose proof (small_angle d D1 ltac:(lra)) as SA. assert (B : 0 <= 180 / PI <= 60). { split; [apply Rmult_le_pos; [lra|left; apply Rinv_0_lt_compat; lra]|]. apply Rmult_le_reg_r with PI; [lra|]. replace (180 / PI * PI) with 180 by (field; lra). lra. }
    pose proof (Rabs_pos d). nra.
  - assert (Ap : WGS84_A = 6378137) by reflexivity. pose proof Q_bounds as QB. pose proof E_bounds as EB. pose proof Q_sq as QS. assert (Ek : dep = - (WGS84_A * k) / 1000) by (unfold k; field; lra). destruct (_ && _) eqn:T.
    + rewrite andb_true_iff, !rltb_iff in T. destruct T as [T1 T2]. set (p := WGS84_A * (V + k) * c) in *.
      assert (P2 : p * p <= 2). { pose proof (sc2 (deg lon)) as SL. assert (X1 : (p * cos (deg lon)) * (p * cos (deg lon)) <= 1) by (apply Rlt_le, abs_bounds in T1; nra). assert (X2 : (p * sin (deg lon)) * (p * sin (deg lon)) <= 1) by (apply Rlt_le, abs_bounds in T2; nra).
        replace (p * p) with ((p * sin (deg lon)) * (p * sin (deg lon)) + (p * cos (deg lon)) * (p * cos (deg lon))) by (transitivity (p * p * (sin (deg lon) * sin (deg lon) + cos (deg lon) * cos (deg lon))); [ring|rewrite SL; ring]). lra. }
      assert (C2 : c * c <= 0.0000000000001). { assert (5000000 * c <= p) by (unfold p; rewrite Ap; nra). assert (25000000000000 * (c * c) <= p * p) by nra. lra. }
      rewrite Rabs_mult, (Rabs_right (WGS84_A * _)) by (rewrite Ap; lra). assert (As : 0 <= 1 - Rabs s <= c * c). { pose proof (Rabs_pos s). assert (Rabs s * Rabs s = s * s) by (unfold Rabs; destruct Rcase_abs; ring). pose proof (Rle_0_sqr c) as C0. unfold Rsqr in C0. split; nra. }
      assert (Wq : 0 <= WW s - QQ <= c * c). { split; [lra|]. assert (H : (WW s - QQ) * (WW s + QQ) = EE * (c * c)) by (replace (c * c) with (1 - s * s) by lra; lra). pose proof (Rle_0_sqr c) as C0. unfold Rsqr in C0. set (w := WW s) in *. set (cc := c * c) in *. clearbody w cc.
        apply Rle_trans with ((w - QQ) * (w + QQ)); [rewrite <- (Rmult_1_r (w - QQ)) at 1; apply Rmult_le_compat_l; lra|]. rewrite H. rewrite <- (Rmult_1_l cc) at 2. apply Rmult_le_compat_r; lra. }
      assert (X : -0.0000000000004 <= (QQ * QQ * V + k) * Rabs s - QQ - k <= 0.0000000000004).
      { replace ((QQ * QQ * V + k) * Rabs s - QQ - k) with (- (QQ * QQ * V + k) * (1 - Rabs s) + QQ * (QQ * V - V * WW s)) by (rewrite VW; ring). replace (QQ * V - V * WW s) with (- V * (WW s - QQ)) by ring. set (u := QQ * QQ * V + k) in *. set (r := 1 - Rabs s) in *. set (w := WW s - QQ) in *. clearbody u r w.
        assert (0 <= u * r <= 0.00000000000012) by (split; nra). assert (0 <= QQ * (V * w) <= 0.0000000000001). { assert (0 <= QQ * V <= 1) by nra. replace (QQ * (V * w)) with (QQ * V * w) by ring. split; nra. } lra. }
      rewrite Ek. replace (- (WGS84_A * (QQ * QQ * V + k) * Rabs s - WGS84_A * QQ) / 1000 - - (WGS84_A * k) / 1000) with (- (WGS84_A / 1000) * ((QQ * QQ * V + k) * Rabs s - QQ - k)) by (field). rewrite Ap. apply abs_le. lra.
    + assert (Pc' : 0 < c). { destruct (Rle_lt_or_eq_dec 0 c Pc) as [|C0]; [assumption|]. exfalso. rewrite <- C0 in T. rewrite !Rmult_0_r, !Rmult_0_l, !Rabs_R0 in T. rewrite (proj2 (rltb_iff 0 1)) in T by lra. discriminate. }
      rewrite cos_plus, sin_plus. fold s c. pose proof (cosine_near s c (sin d) (cos d) SC Pc SCd ltac:(lra) D2) as CN. set (c' := c * cos d - s * sin d) in *. set (s' := s * cos d + c * sin d).
      assert (SC' : s' * s' + c' * c' = 1). { unfold s', c'. transitivity ((s * s + c * c) * (sin d * sin d + cos d * cos d)); [ring|rewrite SC, SCd; ring]. }
      assert (Cc : 0.99999998 * c <= c' <= 1.00000002 * c) by (apply abs_bounds in CN; lra). assert (c <= 1) by (pose proof (Rle_0_sqr s) as S0; unfold Rsqr in S0; clear - SC S0 Pc; clearbody s c; nra).
      assert (RN : Rabs (V - / WW s') <= 0.0000000002).
      { apply radius_near; [pose proof (Rle_0_sqr c); unfold Rsqr in *; lra|pose proof (Rle_0_sqr c'); unfold Rsqr in *; lra|]. replace (s * s - s' * s') with ((c' - c) * (c' + c)) by lra. rewrite Rabs_mult, Rabs_minus_sym, (Rabs_right (c' + c)) by lra. pose proof (Rabs_pos (c - c')). nra. }
      assert (RT : Rabs ((c - c') / c') <= 0.000000012). { unfold Rdiv. rewrite Rabs_mult, Rabs_inv, (Rabs_right c') by lra. apply Rmult_le_reg_r with c'; [lra|]. rewrite Rmult_assoc, Rinv_l by lra. nra. }
      assert (Wn : WW s' <> 0) by (assert (s' * s' <= 1) by (pose proof (Rle_0_sqr c'); unfold Rsqr in *; lra); pose proof (W_bounds s' H0); lra).
      rewrite Ek. replace (- (WGS84_A * (V + k) * c / c' - WGS84_A / WW s') / 1000 - - (WGS84_A * k) / 1000) with (- (WGS84_A / 1000) * ((V + k) * ((c - c') / c') + (V - / WW s'))) by (field; split; [assumption|lra]).
      rewrite Ap. apply abs_bounds in RN, RT. set (x := (c - c') / c') in *. set (y := V - / WW s') in *. clearbody x y. assert (-0.0000000144 <= (V + k) * x <= 0.0000000144) by (set (u := V + k) in *; clearbody u; clear - K1 RT; split; nra). apply abs_le. lra.
Qed.
Print Assumptions C44_roundtrip.
(** On the surface the latitude is exact, and so is the depth unless the point is within
    a metre of the axis but not on it. *)
Theorem C44_surface : forall lat lon, -90 <= lat <= 90 ->
  let v := latlon2ecef lat lon 0 in let '(lat', lon', dep') := ecef2latlon (vx v) (vy v) (vz v) in
  lat' = lat /\ ((1 <= Rabs (vx v) \/ 1 <= Rabs (vy v) \/ Rabs lat = 90) -> dep' = 0) /\
  vx v ^ 2 / WGS84_A ^ 2 + vy v ^ 2 / WGS84_A ^ 2 + vz v ^ 2 / (WGS84_A ^ 2 * (1 - WGS84_E ^ 2)) = 1.
Proof.
  intros lat lon Hl v. assert (Hd : Rabs 0 <= 1000) by (rewrite Rabs_R0; lra). destruct (reverse_eq lat lon 0 Hl Hd) as (d & lon' & E & D1 & D2 & D0 & L). unfold v. rewrite E. clear E. rewrite coords. clear v. cbn [vx vy vz].
  rewrite (D0 eq_refl). rewrite Rplus_0_r. split; [apply degrees_deg|]. destruct (facts lat 0 Hl Hd) as (SC & Pc & V1 & Vq & WB & VW & WS & K & K1 & K2).
  set (s := sin (deg lat)) in *. set (c := cos (deg lat)) in *. set (V := / WW s) in *. set (k := - 0 * 1000 / WGS84_A) in *. assert (K0 : k = 0) by (unfold k, Rdiv; ring). rewrite !K0, !Rplus_0_r in *. assert (Ap : WGS84_A = 6378137) by reflexivity. pose proof Q_bounds as QB. pose proof E_bounds as EB. pose proof Q_sq as QS.
  assert (Wn : WW s <> 0) by lra. split.
  - intro H. destruct (_ && _) eqn:T.
    + rewrite andb_true_iff, !rltb_iff in T. destruct H as [H|[H|H]]; [lra|lra|]. assert (Es : s * s = 1 /\ c = 0). { assert (lat = 90 \/ lat = -90) as [->| ->] by (unfold Rabs in H; destruct (Rcase_abs lat); [right|left]; lra); unfold s, c; [rewrite deg_90, sin_PI2, cos_PI2|rewrite deg_m90, sin_neg, cos_neg, sin_PI2, cos_PI2]; lra. }
      destruct Es as [S1 C0]. assert (Wq : WW s = QQ). { replace (EE * s * s) with (EE * (s * s)) in WS by ring. rewrite S1 in WS. set (w := WW s) in *. clearbody w. nra. }
      assert (As : Rabs s = 1) by (clear - S1; clearbody s; unfold Rabs; destruct Rcase_abs; nra). rewrite Rabs_mult, As, Rabs_right by (rewrite Ap; nra). unfold V. rewrite Wq. field. lra.
    + assert (Cn : c <> 0). { intro C0. rewrite C0 in T. rewrite !Rmult_0_r, !Rmult_0_l, !Rabs_R0 in T. rewrite (proj2 (rltb_iff 0 1)) in T by lra. discriminate. }
      fold c s. unfold V. field. split; assumption.
  - fold EE. rewrite <- QS. pose proof (sc2 (deg lon)) as SL. set (cl := cos (deg lon)) in *. set (sl := sin (deg lon)) in *.
    transitivity (V * V * (c * c * (sl * sl + cl * cl) + QQ * QQ * (s * s))); [rewrite Ap; field; lra|]. rewrite SL, QS. replace (c * c * 1 + (1 - EE) * (s * s)) with (WW s * WW s) by (rewrite WS; lra). transitivity (V * WW s * (V * WW s)); [ring|rewrite VW; ring].
Qed.
Print Assumptions C44_surface.
(** Depth is measured along the direction of the place, which is the normal of the
    ellipsoid at the point of the surface. *)
Theorem C44_normal : forall lat lon dep, -90 <= lat <= 90 -> let o := latlon2ecef lat lon 0 in
  latlon2ecef lat lon dep = vsub o (vscale (1000 * dep) (place lon lat)) /\
  exists r, 0 < r /\ vscale r (place lon lat) = mkvec (vx o / WGS84_A ^ 2) (vy o / WGS84_A ^ 2) (vz o / (WGS84_A ^ 2 * (1 - WGS84_E ^ 2))).
Proof.
  intros lat lon dep Hl o. unfold o. rewrite !coords. assert (Hd : Rabs 0 <= 1000) by (rewrite Rabs_R0; lra). destruct (facts lat 0 Hl Hd) as (SC & Pc & V1 & Vq & WB & VW & WS & _).
  set (s := sin (deg lat)) in *. set (c := cos (deg lat)) in *. set (V := / WW s) in *. assert (Ap : WGS84_A = 6378137) by reflexivity. pose proof Q_bounds as QB. pose proof Q_sq as QS. split.
  - unfold vsub, vscale, place. cbn [vx vy vz]. fold s c. apply vec_ext; cbn [vx vy vz]; field; lra.
  - exists (V / WGS84_A). split; [apply Rdiv_lt_0_compat; lra|]. fold EE. rewrite <- QS. unfold vscale, place. cbn [vx vy vz]. fold s c. apply vec_ext; cbn [vx vy vz]; field; lra.
Qed.
Print Assumptions C44_normal.
(** Vector.toPoint undoes Vector.fromPoint likewise. *)
Theorem C44_point : forall lon lat dep, -90 < lat < 90 -> -180 < lon <= 180 -> Rabs dep <= 1000 ->
  let '(lon', lat', dep') := to_point (from_point lon lat dep) in lon' = lon /\ Rabs (lat' - lat) <= 0.0000003 /\ Rabs (dep' - dep) <= 0.0001.
Proof.
  intros lon lat dep Hl Ho Hd. unfold to_point, from_point. pose proof (C44_roundtrip lat lon dep ltac:(lra) Hd) as H. cbv zeta in H. destruct (ecef2latlon _ _ _) as [[lat' lon'] dep']. destruct H as (H1 & H2 & H3). split; [|split; assumption].
  destruct (H3 Hl) as [B (k & E)]. assert (-1 < IZR k < 1) as [X Y] by (split; lra). apply lt_IZR in X, Y. assert (k = 0%Z) by lia. subst k. lra.
Qed.
Print Assumptions C44_point.
(** Depths of earthquakes are covered. *)
Example C44_ex : -90 <= 47.6 <= 90 /\ Rabs 700 <= 1000 /\ latlon2ecef 90 0 (-1) = mkvec 0 0 (WGS84_A * QQ + 1000).
Proof.
  split; [lra|]. split; [rewrite Rabs_right; lra|]. rewrite coords, deg_90, sin_PI2, cos_PI2. pose proof Q_bounds. assert (E : WW 1 = QQ) by (unfold WW, QQ; f_equal; ring). rewrite E. apply vec_ext; cbn [vx vy vz]; [ring|ring|]. assert (WGS84_A <> 0) by (unfold WGS84_A; lra). field. split; lra.
Qed.
