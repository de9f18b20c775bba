(** Property C86: the depth of a rupture below a place. *)
From Coq Require Import ZArith Reals String Ascii Bool List Lia Lra.
From Verif Require Import PyBase PyStr VecModel GeoModel RuptModel PolyModel SizeModel RuptSpec GeoSpec PolySpec BuildSpec BoxSpec SizeSpec BoxProofs VecProofs GeoTrig GeoProofs EcefProofs EcefProps RuptProofs RuptProps FrameProps BuildProofs EquatorProofs DipProofs SlopeProofs.
Import ListNotations.
Open Scope R_scope.

Lemma across_norm (a b c x : R * R) o : fst b <> fst a \/ snd b <> snd a -> beside a b c x o -> exists ddn,
  norm (vcross (vsub (mkvec (fst b) (snd b) 0) (mkvec (fst a) (snd a) 0)) (vcross (vsub (mkvec (fst c) (snd c) 0) (mkvec (fst a) (snd a) 0)) (vsub (mkvec (fst b) (snd b) 0) (mkvec (fst a) (snd a) 0)))) = Some ddn /\
  vdot ddn (vsub (mkvec (fst x) (snd x) 0) (mkvec (fst a) (snd a) 0)) = o.
Proof.
  intros N (d & U & Pp & S & E). exists (mkvec (fst d) (snd d) 0). split; [|unfold vdot, vsub; cbn [vx vy vz]; rewrite E; ring].
  apply norm_unit. destruct a as [a1 a2], b as [b1 b2], c as [c1 c2], d as [d1 d2]. cbn [fst snd] in *. set (u1 := b1 - a1) in *. set (u2 := b2 - a2) in *. set (w1 := c1 - a1) in *. set (w2 := c2 - a2) in *.
  assert (Nu : 0 < u1 * u1 + u2 * u2). { unfold u1, u2. destruct N as [N|N]; [assert (X : b1 - a1 <> 0) by (intro T; apply N; lra)|assert (X : b2 - a2 <> 0) by (intro T; apply N; lra)]; apply Rsqr_pos_lt in X; pose proof (Rle_0_sqr (b1 - a1)) as Y1; pose proof (Rle_0_sqr (b2 - a2)) as Y2; unfold Rsqr in X, Y1, Y2; lra. }
  split; [unfold mag; cbn [vx vy vz]; replace (d1 ^ 2 + d2 ^ 2 + 0 ^ 2) with 1 by lra; apply sqrt_1|]. exists ((u1 * u1 + u2 * u2) * (d1 * w1 + d2 * w2)). split; [apply Rmult_lt_0_compat; assumption|].
  (* u is a multiple of the perpendicular of d *)
  assert (Hu : u1 = (u1 * d2 - u2 * d1) * d2 /\ u2 = - (u1 * d2 - u2 * d1) * d1). { split; [replace ((u1 * d2 - u2 * d1) * d2) with (u1 * (d1 ^ 2 + d2 ^ 2) - d1 * (d1 * u1 + d2 * u2)) by ring|replace (- (u1 * d2 - u2 * d1) * d1) with (u2 * (d1 ^ 2 + d2 ^ 2) - d2 * (d1 * u1 + d2 * u2)) by ring]; rewrite U, Pp; ring. } destruct Hu as [H1 H2]. set (k := u1 * d2 - u2 * d1) in *. clearbody k. rewrite H1, H2.
  unfold vcross, vsub, vscale. cbn [vx vy vz]. fold u1 u2 w1 w2. rewrite H1, H2. apply vec_ext; cbn [vx vy vz]; [..|ring].
  - transitivity (k * k * d1 * (w1 * d1 + w2 * d2)); [ring|]. transitivity (k * k * (d1 ^ 2 + d2 ^ 2) * d1 * (w1 * d1 + w2 * d2)); [rewrite U; ring|ring].
  - transitivity (k * k * d2 * (w1 * d1 + w2 * d2)); [ring|]. transitivity (k * k * (d1 ^ 2 + d2 ^ 2) * d2 * (w1 * d1 + w2 * d2)); [rewrite U; ring|ring].
Qed.

(** The place is [o] km from the line below which the upper edge lies, and the quadrilateral is [g] km
    wide on the map.  The depth should vary evenly from one edge to the other.  It does if the upper
    edge is at depth zero or the place is on its line; otherwise it is off by nearly the depth of the
    upper edge times [o / g]. *)
Theorem C86_depth : forall middle q west east south north lat lon a b c d x o n, box_of q west east south north -> let ctr := middle west north east south in
  shown (fst ctr) (snd ctr) (fst (fst (q0 q))) (snd (fst (q0 q))) (fst a) (snd a) -> shown (fst ctr) (snd ctr) (fst (fst (q1 q))) (snd (fst (q1 q))) (fst b) (snd b) ->
  shown (fst ctr) (snd ctr) (fst (fst (q2 q))) (snd (fst (q2 q))) (fst c) (snd c) -> shown (fst ctr) (snd ctr) (fst (fst (q3 q))) (snd (fst (q3 q))) (fst d) (snd d) -> shown (fst ctr) (snd ctr) lon lat (fst x) (snd x) ->
  a <> b -> beside a b d x o -> -90 <= snd (fst (q0 q)) <= 90 ->
  ~ parallel (vsub (ecef (q1 q)) (ecef (q0 q))) (vsub (ecef (q3 q)) (ecef (q0 q))) ->
  direction (vcross (vsub (ecef (q3 q)) (ecef (q0 q))) (vsub (ecef (q1 q)) (ecef (q0 q)))) n -> scalar n (place (fst (fst (q0 q))) (snd (fst (q0 q)))) <> 0 ->
  exists depth w, nearest (on_line (ecef (q0 q)) (ecef (q1 q))) (ecef (q3 q)) (1000 * w) /\
  let g := w * scalar n (place (fst (fst (q0 q))) (snd (fst (q0 q)))) in let even := snd (q0 q) + o / g * (snd (q3 q) - snd (q0 q)) in
  depth_in_quad middle q lat lon = Ok (Some depth) /\ depth = even + 0.999 * (o / g) * snd (q0 q) /\ (depth = even <-> snd (q0 q) = 0 \/ o = 0).
Proof.
  intros middle [[[x0 y0] z0] [[x1 y1] z1] [[x2 y2] z2] [[x3 y3] z3]] west east south north lat lon a b c d x o n (W & E & S & N). rewrite <- (lowest_min _ _ _ W), <- (highest_max _ _ _ E), <- (lowest_min _ _ _ S), <- (highest_max _ _ _ N). clear W E S N. intro ctr. cbn [q0 q1 q2 q3 fst snd] in ctr |- *. intros Sa Sb Sc Sd Sx Nab Be La NP Dn Nz.
  destruct (C65_size _ _ _ NP) as (_ & w & Hw & Wp & Nw & _). destruct (C65_dip (mkquad (x0, y0, z0) (x1, y1, z1) (x2, y2, z2) (x3, y3, z3)) La NP) as (dip & n' & Hd & Hn & _ & Cd). cbn [q0 q1 q2 q3 fst snd] in *.
  assert (n' = n). { unfold get_quad_normal in Hn. rewrite (norm_unit _ _ Dn) in Hn. congruence. } subst n'. set (cd := scalar n (place x0 y0)) in *.
  assert (Nl : fst b <> fst a \/ snd b <> snd a). { destruct (Req_dec (fst b) (fst a)) as [E1|E1]; [right|left; exact E1]. intro E2. apply Nab. destruct a, b. cbn [fst snd] in *. congruence. }
  destruct (across_norm a b d x o Nl Be) as (ddn & Hdd & Ho).
  exists (z0 + o / (w * cd) * (z3 - z0) + 0.999 * (o / (w * cd)) * z0), w. split; [exact Nw|]. cbv zeta. assert (Wc : w * cd <> 0) by (apply Rmult_integral_contrapositive_currified; [lra|exact Nz]). split; [|split; [reflexivity|]].
  - unfold depth_in_quad. cbn [q0 q1 q2 q3]. change (middle _ _ _ _) with ctr. destruct ctr as [lon0 lat0]. cbn [fst snd] in *. apply (proj2 (forward_shown (lon0, lat0) _ _ _ _)) in Sa, Sb, Sc, Sd, Sx. cbn [fst snd] in Sa, Sb, Sc, Sd, Sx. rewrite Sa. cbn [bind]. rewrite Sb. cbn [bind]. rewrite Sc. cbn [bind]. rewrite Sd. cbn [bind]. rewrite Sx. cbn [bind fst snd]. rewrite Hdd, Hd.
    unfold q_width. cbn [q0 q1 q3]. rewrite Hw, Ho, radians_deg, Cd. assert (Nr : reqd (w * 1000 * cd) 0 = false). { apply not_true_is_false. intro T. apply reqd_iff in T. apply Wc. lra. } rewrite Nr. f_equal. f_equal.
    replace ((w * 1000 * cd - o) / (w * 1000 * cd)) with (1 - / 1000 * (o / (w * cd))) by (field; split; [exact Nz|lra]). replace (o / (w * 1000 * cd)) with (/ 1000 * (o / (w * cd))) by (field; split; [exact Nz|lra]). set (f := o / (w * cd)). lra.
  - set (f := o / (w * cd)). assert (F : f = 0 <-> o = 0). { unfold f. split; intro E; [|rewrite E; field; split; [exact Nz|lra]]. apply (f_equal (fun y => y * (w * cd))) in E. replace (o / (w * cd) * (w * cd)) with o in E by (field; split; [exact Nz|lra]). lra. } rewrite <- F. split.
    + intro E. assert (Q : z0 * f = 0) by lra. apply Rmult_integral in Q. exact Q.
    + intros [-> | ->]; lra.
Qed.
Print Assumptions C86_depth.
(** An upright quadrilateral has no depth below a place. *)
Theorem C86_upright : forall middle q lat lon n r, -90 <= snd (fst (q0 q)) <= 90 -> direction (vcross (vsub (ecef (q3 q)) (ecef (q0 q))) (vsub (ecef (q1 q)) (ecef (q0 q)))) n -> scalar n (place (fst (fst (q0 q))) (snd (fst (q0 q)))) = 0 ->
  depth_in_quad middle q lat lon = Ok r -> r = None.
Proof.
  intros middle [[[x0 y0] z0] [[x1 y1] z1] [[x2 y2] z2] [[x3 y3] z3]] lat lon n r La Dn Z. cbn [q0 q1 q2 q3 fst snd] in *. unfold depth_in_quad. cbn [q0 q1 q2 q3]. destruct (middle _ _ _ _) as [lon0 lat0].
  destruct (ortho_forward lon0 lat0 x0 y0); [|discriminate]. destruct (ortho_forward lon0 lat0 x1 y1); [|discriminate]. destruct (ortho_forward lon0 lat0 x2 y2); [|discriminate]. destruct (ortho_forward lon0 lat0 x3 y3); [|discriminate]. destruct (ortho_forward lon0 lat0 lon lat); [|discriminate]. cbn [bind].
  destruct (norm _) as [ddn|]; [|congruence]. destruct (q_width _) as [w|]; [|congruence]. unfold get_quad_dip, get_quad_normal. cbn [q0 q1 q3]. rewrite (norm_unit _ _ Dn), C65_vertical by exact La. unfold degrees, radians. cbv zeta.
  change (vdot n (place x0 y0)) with (scalar n (place x0 y0)). rewrite Z, acos_0. pose proof PI_RGT_0. replace (PI / 2 * (180 / PI) * PI / 180) with (PI / 2) by (field; lra). replace (PI / 2 * (180 / PI) * (PI / 180)) with (PI / 2) by (field; lra). rewrite cos_PI2, Rmult_0_r, (proj2 (reqd_iff 0 0) eq_refl). congruence.
Qed.
Print Assumptions C86_upright.
(** Nothing is known of places more than two metres away from the rupture on the map; elsewhere the
    first of the nearest quadrilaterals answers. *)
Theorem C86_place : forall middle quads lat lon, 
  (forall r, compute_rjb quads (lon, lat, 0) = Ok r -> 0.002 < r -> get_depth_at_point middle quads lat lon = Ok None) /\
  (forall r, compute_rjb quads (lon, lat, 0) = Ok r -> r <= 0.002 -> exists q near before after, quads = before ++ q :: after /\ get_depth_at_point middle quads lat lon = depth_in_quad middle q lat lon /\
    quad_distance q (ecef (lon, lat, 0)) true = Ok near /\ near = r /\
    (forall q', In q' before -> exists d, quad_distance q' (ecef (lon, lat, 0)) true = Ok d /\ near < d) /\ (forall q', In q' after -> exists d, quad_distance q' (ecef (lon, lat, 0)) true = Ok d /\ near <= d)) /\
  (forall e, compute_rjb quads (lon, lat, 0) = Err e -> get_depth_at_point middle quads lat lon = Err e).
Proof.
  intros middle quads lat lon. unfold get_depth_at_point. split; [|split].
  - intros r E L. rewrite E. cbn [bind]. rewrite (proj2 (rltb_iff _ _) L). reflexivity.
  - intros r E L. rewrite E. cbn [bind]. assert (Lf : rltb 0.002 r = false) by (apply not_true_is_false; intro T; apply rltb_iff in T; lra). rewrite Lf. set (site := ecef (lon, lat, 0)) in *.
    assert (Fl : forall q, quad_distance (flatten q) site true = quad_distance q site true). { intro q. unfold quad_distance, flatten. cbn [q0 q1 q2 q3]. assert (I : forall p, at_surface (at_surface p) = at_surface p) by (intros [[? ?] ?]; reflexivity). rewrite !I. reflexivity. }
    unfold compute_rjb in E. fold site in E.
    assert (Mn : forall qs m, min_distance (fun q => quad_distance (flatten q) site true) qs m = Ok r -> r <= m /\ Forall (fun q => exists d, quad_distance q site true = Ok d /\ r <= d) qs).
    { induction qs as [|q qs IH]; intros m; cbn [min_distance]; [intro X; injection X as ->; split; [lra|constructor]|]. rewrite Fl. destruct (quad_distance q site true) as [d|] eqn:Q; [|discriminate]. cbn [bind]. intro X. destruct (IH _ X) as [A B]. pose proof (Rmin_l m d). pose proof (Rmin_r m d). split; [lra|]. constructor; [exists d; split; [exact Q|lra]|exact B]. }
    assert (Key : forall qs best dmin m, min_distance (fun q => quad_distance (flatten q) site true) qs m = Ok r -> 9999999999999999 <= m /\ dmin = 9999999999999999 \/ m = dmin -> r <= 0.002 -> 
      (exists q before after, qs = before ++ q :: after /\ nearest_quad qs site best dmin = Ok (Some q) /\ quad_distance q site true = Ok r /\ (forall q', In q' before -> exists d, quad_distance q' site true = Ok d /\ r < d) /\ (forall q', In q' after -> exists d, quad_distance q' site true = Ok d /\ r <= d) /\ r < dmin) \/
      (m <= dmin /\ m = r /\ nearest_quad qs site best dmin = Ok best) \/ dmin <= r).
    { induction qs as [|q qs IH]; intros best dmin m; cbn [min_distance nearest_quad].
      - intros X [[A _]|A] R; injection X as X; [lra|right; left; split; [lra|]; split; [lra|reflexivity]].
      - rewrite Fl. destruct (quad_distance q site true) as [d|] eqn:Q; [|discriminate]. cbn [bind]. intros X A R. destruct (Rle_dec dmin r) as [Y|Y]; [right; right; exact Y|]. destruct (Mn _ _ X) as [Le Al]. rewrite Forall_forall in Al.
        assert (Rm : Rmin m d = m /\ m <= d \/ Rmin m d = d /\ d < m) by (unfold Rmin; destruct (Rle_dec m d); [left|right]; split; lra). pose proof (Rmin_r m d) as Rr.
        destruct (rltb d dmin) eqn:Lt; [apply rltb_iff in Lt|apply rltb_f in Lt].
        + destruct (Req_dec r d) as [Ed|Ed].
          * left. exists q, [], qs. split; [reflexivity|]. split; [|split; [rewrite Ed; exact Q|split; [intros q' []|split; [exact Al|lra]]]]. rewrite <- Ed. clear - Al. induction qs as [|q' qs IH]; [reflexivity|]. cbn [nearest_quad]. destruct (Al q' (or_introl eq_refl)) as (d' & -> & Ld). cbn [bind]. assert (F : rltb d' r = false) by (apply not_true_is_false; intro T; apply rltb_iff in T; lra). rewrite F. apply IH. intros q'' I. apply Al. right. exact I.
          * assert (Rd : r < d) by lra. destruct (IH (Some q) d (Rmin m d) X) as [(q' & be & af & Eq & Nq & Dq & Be & Af & Lr)|[(_ & M2 & _)|C]]; [|exact R|..].
            { right. destruct A as [[A A']|A]; destruct Rm as [[-> Rm]|[-> Rm]]; lra. }
            { left. exists q', (q :: be), af. split; [rewrite Eq; reflexivity|]. split; [exact Nq|]. split; [exact Dq|]. split; [intros q'' [<-|I]; [exists d; auto|apply Be; exact I]|]. split; [exact Af|lra]. }
            { exfalso. destruct A as [[A A']|A]; destruct Rm as [[Rq Rm]|[Rq Rm]]; rewrite Rq in M2; lra. }
            { exfalso. lra. }
        + destruct (IH best dmin (Rmin m d) X) as [(q' & be & af & Eq & Nq & Dq & Be & Af & Lr)|[(M1 & M2 & Nq)|C]]; [|exact R|..].
          { destruct A as [[A A']|A]; destruct Rm as [[-> Rm]|[-> Rm]]; [left; split; lra|left; split; lra|right; lra|right; lra]. }
          { left. exists q', (q :: be), af. split; [rewrite Eq; reflexivity|]. split; [exact Nq|]. split; [exact Dq|]. split; [intros q'' [<-|I]; [exists d; split; [exact Q|lra]|apply Be; exact I]|]. split; [exact Af|exact Lr]. }
          { right. left. destruct Rm as [[Rq Rm]|[Rq Rm]]; rewrite Rq in M1, M2; [split; [exact M1|split; [exact M2|exact Nq]]|exfalso; lra]. }
          { right. right. exact C. } }
    destruct (Key quads None 9999999999999999 BIG E) as [(q & be & af & Eq & Nq & Dq & Be & Af & _)|[(A & B & _)|C]]; [left; unfold BIG; split; lra|exact L|..].
    + exists q, r, be, af. split; [exact Eq|]. rewrite Nq. cbn [bind]. split; [reflexivity|]. split; [exact Dq|]. split; [reflexivity|]. split; [exact Be|exact Af].
    + exfalso. unfold BIG in B. lra.
    + exfalso. lra.
  - intros e E. rewrite E. reflexivity.
Qed.
Print Assumptions C86_place.
(** A quadrilateral from the equator northwards, seen at the place of its fourth corner. *)
Example C86_ex : let middle := fun _ _ _ _ : R => (0, 0) in let q := mkquad (0, 0, 5) (1, 0, 5) (1, 1, 10) (0, 1, 10) in let s := 6371 * sin (deg 1) in
  shown 0 0 0 0 0 0 /\ shown 0 0 1 0 s 0 /\ shown 0 0 1 1 (s * cos (deg 1)) s /\ shown 0 0 0 1 0 s /\ (0, 0) <> (s, 0) /\ beside (0, 0) (s, 0) (0, s) (0, s) s /\ s <> 0 /\
  ~ parallel (vsub (ecef (q1 q)) (ecef (q0 q))) (vsub (ecef (q3 q)) (ecef (q0 q))) /\ exists n, direction (vcross (vsub (ecef (q3 q)) (ecef (q0 q))) (vsub (ecef (q1 q)) (ecef (q0 q)))) n /\ scalar n (place 0 0) <> 0.
Proof.
  intros middle q s. pose proof pi_pos as P. pose proof PI_4 as P4. assert (S1 : 0 < sin (deg 1)) by (apply sin_gt_0; unfold deg; lra). assert (C1 : 0 < cos (deg 1)) by (apply cos_gt_0; unfold deg; lra). assert (Ps : 0 < s) by (unfold s; lra).
  assert (C1' : 0 < cos (deg 1) * cos (deg 1)) by (apply Rmult_lt_0_compat; assumption).
  do 4 (split; [unfold shown, place, east_of, north_of, vdot, s; cbn [vx vy vz]; rewrite ?deg0, ?sin_0, ?cos_0; repeat split; try ring; lra|]). split; [intro E; injection E; lra|].
  split; [exists (0, 1); cbn [fst snd]; repeat split; lra|]. split; [lra|].
  set (y := vy (ecef (1, 0, 5))). set (z := vz (ecef (0, 1, 10))).
  assert (Hy : 0 < y) by (unfold y; rewrite equator_ecef; cbn [vy]; apply Rmult_lt_0_compat; [unfold WGS84_A; lra|exact S1]).
  assert (Hz : 0 < z). { unfold z, ecef, from_point. rewrite coords. cbn [vz]. destruct (facts 1 10 ltac:(lra) ltac:(rewrite Rabs_right; lra)) as (_ & _ & _ & _ & _ & _ & _ & _ & _ & K). apply Rmult_lt_0_compat; [apply Rmult_lt_0_compat; [unfold WGS84_A; lra|lra]|exact S1]. }
  assert (E0 : vy (ecef (0, 0, 5)) = 0 /\ vz (ecef (0, 0, 5)) = 0) by (rewrite equator_ecef, deg0, sin_0; cbn [vy vz]; split; ring). assert (E1 : vz (ecef (1, 0, 5)) = 0) by (rewrite equator_ecef; reflexivity). assert (E3 : vy (ecef (0, 1, 10)) = 0) by (unfold ecef, from_point; rewrite coords, deg0, sin_0; cbn [vy]; ring). destruct E0 as [E0 E0'].
  unfold q. cbn [q0 q1 q3]. assert (X : vx (vcross (vsub (ecef (0, 1, 10)) (ecef (0, 0, 5))) (vsub (ecef (1, 0, 5)) (ecef (0, 0, 5)))) = - (z * y)) by (unfold vcross, vsub; cbn [vx vy vz]; rewrite E0, E0', E1, E3; fold y z; ring). assert (Pz : 0 < z * y) by (apply Rmult_lt_0_compat; assumption).
  split.
  - intros (A & _). unfold vsub in A. cbn [vx vy vz] in A. rewrite E0, E0', E1, E3 in A. fold y z in A. nra.
  - assert (Nz : vcross (vsub (ecef (0, 1, 10)) (ecef (0, 0, 5))) (vsub (ecef (1, 0, 5)) (ecef (0, 0, 5))) <> v0) by (intro E; rewrite E in X; unfold v0 in X; cbn [vx] in X; lra).
    eexists. split; [apply direction_exists; exact Nz|]. destruct (norm_nz _ Nz) as [_ Pm]. set (v := vcross _ _) in *. unfold scalar, place, vscale. cbn [vx vy vz]. rewrite deg0, sin_0, cos_0, X. assert (0 < / mag v) by (apply Rinv_0_lt_compat; exact Pm). assert (0 < z * y * / mag v) by (apply Rmult_lt_0_compat; assumption). lra.
Qed.
Example C86_ex_upright : let q := mkquad (0, 0, 0) (-1, 0, 0) (-1, 0, 10) (0, 0, 10) in exists n, direction (vcross (vsub (ecef (q3 q)) (ecef (q0 q))) (vsub (ecef (q1 q)) (ecef (q0 q)))) n /\ scalar n (place 0 0) = 0.
Proof.
  intro q. unfold q. cbn [q0 q1 q3]. rewrite !equator_ecef, deg0, sin_0, cos_0. pose proof (wall_sides (-1) ltac:(lra)) as S. eexists. split; [apply direction_exists, vz_nz; unfold vcross, vsub; cbn [vx vy vz]; unfold WGS84_A; nra|]. unfold scalar, place, vscale, vcross, vsub. cbn [vx vy vz]. rewrite deg0, sin_0, cos_0. ring.
Qed.
(** Two ruptures without quadrilaterals and with one: far away and below. *)
Example C86_ex_place : compute_rjb [] (0, 0, 0) = Ok (10 ^ 16) /\ 0.002 < 10 ^ 16.
Proof. split; [reflexivity|lra]. Qed.
