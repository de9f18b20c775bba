(** Rupture geometry: C47-C49, C54, C56. *)
From Coq Require Import ZArith Reals String Ascii Bool List Lra Psatz Lia.
From Verif Require Import PyBase PyStr VecModel VecProofs GeoModel GeoSpec GeoTrig RuptModel RuptSpec RuptProofs.
Import ListNotations.
Open Scope R_scope.

(** ** C47: the squared distance of the origin from a segment *)
Theorem C47_min : forall p0 p1, let d := distance_sq_to_segment p0 p1 in
  (exists u, on_segment p0 p1 u /\ scalar u u = d) /\ (forall u, on_segment p0 p1 u -> d <= scalar u u).
Proof.
  intros p0 p1 d. assert (E : forall u, scalar u u = sq u) by (intro; unfold scalar, sq; ring). destruct (segment_ok p0 p1) as [(t & Ht & A) L]. split.
  - exists (between_pts p0 p1 t). split; [exists t; auto|]. rewrite E. exact A.
  - intros u (s & Hs & ->). rewrite E. apply L. exact Hs.
Qed.
Print Assumptions C47_min.
Theorem C47_nearest : forall p0 p1, nearest (on_segment p0 p1) (mkvec 0 0 0) (sqrt (distance_sq_to_segment p0 p1)).
Proof.
  intros p0 p1. assert (E : forall u, dist u (mkvec 0 0 0) = sqrt (scalar u u)) by (intro; unfold dist, scalar; cbn [vx vy vz]; f_equal; ring). destruct (C47_min p0 p1) as [(u & Hu & A) L]. split.
  - exists u. split; [exact Hu|]. rewrite E, A. reflexivity.
  - intros w Hw. rewrite E. apply sqrt_le_1_alt. apply L. exact Hw.
Qed.
Print Assumptions C47_nearest.
Example C47_ex : distance_sq_to_segment (mkvec 3 (-1) 4) (mkvec 3 1 4) = 25 /\ distance_sq_to_segment (mkvec 3 0 4) (mkvec 3 0 4) = 25 /\ distance_sq_to_segment (mkvec 1 0 0) (mkvec 5 0 0) = 1.
Proof.
  assert (Eq : forall x, reqd x x = true) by (intro; apply reqd_iff; reflexivity).
  assert (Ne : forall x y, x <> y -> reqd x y = false) by (intros x y H; apply not_true_is_false; intro T; apply reqd_iff in T; contradiction).
  assert (Le : forall x y, x <= y -> rleb x y = true) by (intros; apply rleb_iff; assumption).
  assert (Gt : forall x y, y < x -> rleb x y = false) by (intros; apply rleb_f; assumption).
  unfold distance_sq_to_segment, vsub, vdot, vadd, vscale. cbn [vx vy vz]. rewrite !Eq. cbn [andb]. repeat split.
  - rewrite Ne by lra. rewrite !Gt by lra. cbn [orb andb negb]. field_simplify; lra.
  - rewrite !Le by lra. cbn [orb andb negb]. lra.
  - rewrite Ne by lra. rewrite Le by lra. rewrite Gt by lra. cbn [orb andb negb]. lra.
Qed.

(** ** C48: distances of a site from quadrilaterals *)
(** The distance of one plane quadrilateral is that of its nearest point. *)
Theorem C48_rrup : forall p0 p1 p2 p3 x, proper p0 p1 p2 p3 ->
  exists d, quad_distance_from p0 p1 p2 p3 x false = Ok (d / 1000) /\ nearest (in_quad p0 p1 p2 p3) x d.
Proof. intros p0 p1 p2 p3 x H. destruct (quad_core p0 p1 p2 p3 x false H) as (d & E & [[_ N]|[_ N]]); exists d; split; assumption. Qed.
Print Assumptions C48_rrup.
(** With [horizontal], zero over the quadrilateral, the distance of the nearest point elsewhere. *)
Theorem C48_rjb : forall p0 p1 p2 p3 x, proper p0 p1 p2 p3 ->
  exists d, quad_distance_from p0 p1 p2 p3 x true = Ok (d / 1000) /\ (over_quad p0 p1 p2 p3 x -> d = 0) /\ (~ over_quad p0 p1 p2 p3 x -> nearest (in_quad p0 p1 p2 p3) x d) /\
    forall u, in_quad p0 p1 p2 p3 u -> d <= dist u x.
Proof.
  intros p0 p1 p2 p3 x H. destruct (quad_core p0 p1 p2 p3 x true H) as (d & E & [[O N]|[O N]]); exists d; (split; [exact E|]).
  - split; [auto|]. split; [tauto|]. intros u _. rewrite N. apply sqrt_pos.
  - split; [tauto|]. split; [auto|]. exact (proj2 N).
Qed.
Print Assumptions C48_rjb.
(** Whatever the four points, as long as the first three are not in line: the distance is
    that of the nearest edge, or that of the plane of the first three points (zero with [horizontal]). *)
Theorem C48_any : forall p0 p1 p2 p3 x horizontal, ~ parallel (vsub p1 p0) (vsub p2 p0) ->
  exists d, quad_distance_from p0 p1 p2 p3 x horizontal = Ok (d / 1000) /\
    (nearest (on_edge p0 p1 p2 p3) x d \/ if horizontal then d = 0 else nearest (in_plane p0 p1 p2) x d).
Proof.
  intros p0 p1 p2 p3 x horizontal NP. unfold quad_distance_from. destruct (norm (vcross (vsub p1 p0) (vsub p2 p0))) as [n|] eqn:Hn.
  2: { exfalso. pose proof (not_parallel _ _ NP) as P. unfold norm in Hn. destruct (reqd (mag (vcross (vsub p1 p0) (vsub p2 p0))) 0) eqn:M; [|discriminate]. apply reqd_iff in M. rewrite <- mag_sq, M in P. lra. }
  destruct (unit_normal _ _ _ Hn) as (N1 & N2 & N3 & KP). destruct (frame_exists p0 _ _ _ NP Hn x) as (al & be & ga & Ex).
  set (i := eqb _ _ && eqb _ _ && eqb _ _). clearbody i. destruct i.
  - destruct horizontal; [exists 0; split; [rewrite sqrt_0; reflexivity|right; reflexivity]|]. eexists; split; [reflexivity|right].
    set (e1 := vsub p1 p0) in *. set (e2 := vsub p2 p0) in *.
    assert (F4 : vdot (vsub p0 x) n = - ga). { rewrite Ex. transitivity (- (al * vdot n e1 + be * vdot n e2 + ga * vdot n n)); [unfold in_frame, vdot, vadd, vsub, vscale; cbn [vx vy vz]; ring|]. rewrite N1, N2, N3. ring. }
    rewrite F4. assert (Eg : Rabs (- ga) ^ 2 = ga * ga) by (unfold Rabs; destruct Rcase_abs; ring). rewrite Eg.
    assert (Pl : forall s t, mkvec (vx p0 + s * (vx p1 - vx p0) + t * (vx p2 - vx p0)) (vy p0 + s * (vy p1 - vy p0) + t * (vy p2 - vy p0)) (vz p0 + s * (vz p1 - vz p0) + t * (vz p2 - vz p0)) = in_frame p0 e1 e2 n s t 0).
    { intros s t. unfold in_frame, e1, e2, vadd, vsub, vscale. apply vec_ext; cbn [vx vy vz]; ring. }
    split.
    + exists (in_frame p0 e1 e2 n al be 0). split; [exists al, be; symmetry; apply Pl|]. rewrite dist_sq, Ex, frame_sq by assumption. f_equal. unfold sq, vadd, vscale. cbn [vx vy vz]. ring.
    + intros u (s & t & ->). rewrite Pl, dist_sq, Ex, frame_sq by assumption. apply sqrt_le_1_alt. pose proof (sq_nonneg (vadd (vscale (s - al) e1) (vscale (t - be) e2))). lra.
  - eexists; split; [reflexivity|left].
    destruct (segment_ok (vsub p0 x) (vsub p1 x)) as [(t0 & B0 & A0) L0]; destruct (segment_ok (vsub p1 x) (vsub p2 x)) as [(t1 & B1 & A1) L1]; destruct (segment_ok (vsub p2 x) (vsub p3 x)) as [(t2 & B2 & A2) L2]; destruct (segment_ok (vsub p3 x) (vsub p0 x)) as [(t3 & B3 & A3) L3].
    rewrite seg_shift in A0, A1, A2, A3.
    destruct (min4 (distance_sq_to_segment (vsub p0 x) (vsub p1 x)) (distance_sq_to_segment (vsub p1 x) (vsub p2 x)) (distance_sq_to_segment (vsub p2 x) (vsub p3 x)) (distance_sq_to_segment (vsub p3 x) (vsub p0 x))) as (Mc & M0 & M1 & M2 & M3).
    split.
    + destruct Mc as [-> | [-> | [-> | -> ]]]; [exists (between_pts p0 p1 t0)|exists (between_pts p1 p2 t1)|exists (between_pts p2 p3 t2)|exists (between_pts p3 p0 t3)]; (split; [|rewrite dist_sq; f_equal; assumption]);
        [left|right; left|right; right; left|right; right; right]; (eexists; split; [|reflexivity]; assumption).
    + intros u [(t & Ht & ->)|[(t & Ht & ->)|[(t & Ht & ->)|(t & Ht & ->)]]]; rewrite dist_sq, <- seg_shift; apply sqrt_le_1_alt;
        [apply Rle_trans with (1 := M0); apply L0|apply Rle_trans with (1 := M1); apply L1|apply Rle_trans with (1 := M2); apply L2|apply Rle_trans with (1 := M3); apply L3]; exact Ht.
Qed.
Print Assumptions C48_any.
(** A rupture: the smallest distance over its quadrilaterals, at most 10^16 km. *)
Theorem C48_rupture : forall quads site, (forall q, In q quads -> proper (ecef (q0 q)) (ecef (q1 q)) (ecef (q2 q)) (ecef (q3 q))) ->
  let S := fun u => exists q, In q quads /\ in_quad (ecef (q0 q)) (ecef (q1 q)) (ecef (q2 q)) (ecef (q3 q)) u in
  exists d, compute_rrup quads site = Ok d /\ d <= 10 ^ 16 /\ (forall u, S u -> 1000 * d <= dist u (ecef site)) /\ (d = 10 ^ 16 \/ nearest S (ecef site) (1000 * d)).
Proof.
  intros quads site H S. unfold compute_rrup. fold BIG. generalize BIG. unfold S. clear S. induction quads as [|q quads IH]; intro B; cbn [min_distance].
  - exists B. split; [reflexivity|]. split; [lra|]. split; [intros u (q & [] & _)|left; reflexivity].
  - destruct (C48_rrup _ _ _ _ (ecef site) (H q (or_introl eq_refl))) as (d & E & N). unfold quad_distance at 1. rewrite E. cbn [bind].
    destruct (IH (fun q I => H q (or_intror I)) (Rmin B (d / 1000))) as (m & Em & Mb & Ml & Mc). exists m. split; [exact Em|]. pose proof (Rmin_l B (d / 1000)). pose proof (Rmin_r B (d / 1000)). split; [lra|].
    assert (L : forall u, (exists q', In q' (q :: quads) /\ in_quad (ecef (q0 q')) (ecef (q1 q')) (ecef (q2 q')) (ecef (q3 q')) u) -> 1000 * m <= dist u (ecef site)).
    { intros u (q' & [<-|I] & Hu); [|apply Ml; exists q'; auto]. apply Rle_trans with d; [lra|apply N; exact Hu]. }
    split; [exact L|]. destruct Mc as [Em'|[(u & (q' & I & Hu) & Du) _]].
    + unfold Rmin in Em'. destruct Rle_dec; [left; exact Em'|right]. split; [|exact L]. destruct N as [(u & Hu & Du) _]. exists u. split; [exists q; split; [left; reflexivity|exact Hu]|lra].
    + right. split; [|exact L]. exists u. split; [exists q'; split; [right; exact I|exact Hu]|exact Du].
Qed.
Print Assumptions C48_rupture.
(** The same for the projection to the surface, with zero over a quadrilateral. *)
Theorem C48_rupture_rjb : forall quads site, let s := fun p => ecef (fst p, 0) in
  (forall q, In q quads -> proper (s (q0 q)) (s (q1 q)) (s (q2 q)) (s (q3 q))) ->
  let S := fun u => exists q, In q quads /\ in_quad (s (q0 q)) (s (q1 q)) (s (q2 q)) (s (q3 q)) u in
  exists d, compute_rjb quads site = Ok d /\ 0 <= d /\ (forall u, S u -> 1000 * d <= dist u (ecef site)) /\
    (forall q, In q quads -> over_quad (s (q0 q)) (s (q1 q)) (s (q2 q)) (s (q3 q)) (ecef site) -> d = 0) /\
    ((forall q, In q quads -> ~ over_quad (s (q0 q)) (s (q1 q)) (s (q2 q)) (s (q3 q)) (ecef site)) -> d = 10 ^ 16 \/ nearest S (ecef site) (1000 * d)).
Proof.
  intros quads site s H S. unfold compute_rjb. fold BIG. assert (B0 : 0 <= BIG) by (unfold BIG; apply pow_le; lra). revert B0. generalize BIG. unfold S. clear S. induction quads as [|q quads IH]; intros B B0; cbn [min_distance].
  - exists B. split; [reflexivity|]. split; [exact B0|]. split; [intros u (q & [] & _)|]. split; [intros q []|left; reflexivity].
  - destruct (C48_rjb _ _ _ _ (ecef site) (H q (or_introl eq_refl))) as (d & E & Z & N & Ld).
    assert (Sf : forall p, ecef (at_surface (at_surface p)) = s p) by (intros [[lon lat] dep]; reflexivity).
    unfold quad_distance at 1, flatten. cbn [q0 q1 q2 q3]. rewrite !Sf, E. cbn [bind].
    assert (d0 : 0 <= d). { destruct (Classical_Prop.classic (over_quad (s (q0 q)) (s (q1 q)) (s (q2 q)) (s (q3 q)) (ecef site))) as [O|O]; [rewrite Z by exact O; lra|]. destruct (N O) as [(u & _ & <-) _]. apply sqrt_pos. }
    destruct (IH (fun q I => H q (or_intror I)) (Rmin B (d / 1000)) ltac:(apply Rmin_glb; lra)) as (m & Em & M0 & Ml & Mz & Mc).
    assert (Mm : m <= Rmin B (d / 1000)). { clear - Em. revert Em. generalize (Rmin B (d / 1000)). induction quads as [|q' l IHl]; cbn [min_distance]; intros r Em; [injection Em as ->; lra|]. destruct (quad_distance (flatten q') (ecef site) true) as [v|]; cbn [bind] in Em; [|discriminate]. apply IHl in Em. pose proof (Rmin_l r v). lra. }
    exists m. split; [exact Em|]. pose proof (Rmin_l B (d / 1000)). pose proof (Rmin_r B (d / 1000)). split; [lra|].
    assert (L : forall u, (exists q', In q' (q :: quads) /\ in_quad (s (q0 q')) (s (q1 q')) (s (q2 q')) (s (q3 q')) u) -> 1000 * m <= dist u (ecef site)).
    { intros u (q' & [<-|I] & Hu); [|apply Ml; exists q'; auto]. apply Rle_trans with d; [lra|apply Ld; exact Hu]. }
    split; [exact L|]. split.
    + intros q' [<-|I] O; [|apply (Mz q'); assumption]. specialize (Z O). lra.
    + intros NO. specialize (N (NO q (or_introl eq_refl))). destruct (Mc (fun q' I => NO q' (or_intror I))) as [Em'|[(u & (q' & I & Hu) & Du) _]].
      * unfold Rmin in Em'. destruct Rle_dec; [left; exact Em'|right]. split; [|exact L]. destruct N as [(u & Hu & Du) _]. exists u. split; [exists q; split; [left; reflexivity|exact Hu]|lra].
      * right. split; [|exact L]. exists u. split; [exists q'; split; [right; exact I|exact Hu]|exact Du].
Qed.
Print Assumptions C48_rupture_rjb.
(** The projection of a vertical rupture has no unit normal: the code then works with not-a-number components. *)
Theorem C48_vertical : forall q site, fst (q2 q) = fst (q1 q) -> quad_distance (flatten q) site true = Err NotModelled /\
  norm (vcross (vsub (ecef (at_surface (q1 q))) (ecef (at_surface (q0 q)))) (vsub (ecef (at_surface (q2 q))) (ecef (at_surface (q0 q))))) = None.
Proof.
  intros [a b c d] site H. cbn [q0 q1 q2 q3] in *. assert (N : norm (vcross (vsub (ecef (at_surface b)) (ecef (at_surface a))) (vsub (ecef (at_surface c)) (ecef (at_surface a)))) = None).
  { assert (E : at_surface c = at_surface b) by (destruct b as [[? ?] ?], c as [[? ?] ?]; cbn in *; congruence). rewrite E. set (u := vsub (ecef (at_surface b)) (ecef (at_surface a))). clearbody u. unfold norm.
    assert (Z : mag (vcross u u) = 0) by (apply mag_zero; unfold vcross; apply vec_ext; cbn [vx vy vz]; unfold v0; cbn [vx vy vz]; ring). rewrite Z. rewrite (proj2 (reqd_iff 0 0) eq_refl). reflexivity. }
  split; [|exact N]. unfold quad_distance, quad_distance_from, flatten. cbn [q0 q1 q2 q3]. assert (I : forall p, at_surface (at_surface p) = at_surface p) by (intros [[? ?] ?]; reflexivity). rewrite !I, N. reflexivity.
Qed.
Print Assumptions C48_vertical.
(** Rjb is not a horizontal distance outside the projection: it counts the height of the site. *)
Definition square : vec * vec * vec * vec := (mkvec 0 0 0, mkvec 1000 0 0, mkvec 1000 1000 0, mkvec 0 1000 0).
Lemma square_proper : let '(a, b, c, d) := square in proper a b c d.
Proof. cbn. split; [unfold parallel, vsub; cbn [vx vy vz]; lra|]. exists (1 / 2), (1 / 2). split; [lra|]. split; [lra|]. unfold between_pts. apply vec_ext; cbn [vx vy vz]; field. Qed.
Lemma square_in : forall u, (let '(a, b, c, d) := square in in_quad a b c d u) <-> vz u = 0 /\ 0 <= vx u <= 1000 /\ 0 <= vy u <= 1000.
Proof.
  intro u. cbn. split.
  - intros (w0 & w1 & w2 & w3 & H0 & H1 & H2 & H3 & W & ->). unfold mix. cbn [vx vy vz]. lra.
  - intros (Hz & Hx & Hy). set (s := vx u / 1000). set (t := vy u / 1000). assert (0 <= s <= 1) by (unfold s; lra). assert (0 <= t <= 1) by (unfold t; lra).
    exists ((1 - s) * (1 - t)), (s * (1 - t)), (s * t), ((1 - s) * t). do 4 (split; [apply Rmult_le_pos; lra|]). split; [ring|]. unfold mix. apply vec_ext; cbn [vx vy vz]; unfold s, t; [field|field|rewrite Hz; ring].
Qed.
Theorem C48_rjb_height_refuted : exists p0 p1 p2 p3 x x', proper p0 p1 p2 p3 /\ vx x = vx x' /\ vy x = vy x' /\ vz p0 = 0 /\ vz p1 = 0 /\ vz p2 = 0 /\ vz p3 = 0 /\
  quad_distance_from p0 p1 p2 p3 x true = Ok 3 /\ quad_distance_from p0 p1 p2 p3 x' true = Ok 5.
Proof.
  exists (mkvec 0 0 0), (mkvec 1000 0 0), (mkvec 1000 1000 0), (mkvec 0 1000 0), (mkvec 4000 0 0), (mkvec 4000 0 4000). pose proof square_proper as P. cbn in P. split; [exact P|]. cbn [vx vy vz]. do 6 (split; [reflexivity|]).
  assert (G : forall h k, 0 <= k -> 3 * 3 + h * h = k * k -> quad_distance_from (mkvec 0 0 0) (mkvec 1000 0 0) (mkvec 1000 1000 0) (mkvec 0 1000 0) (mkvec 4000 0 (1000 * h)) true = Ok k).
  { intros h k K0 Hk. destruct (C48_rjb _ _ _ _ (mkvec 4000 0 (1000 * h)) P) as (d & E & _ & N & _). rewrite E. f_equal.
    destruct N as [(u & Hu & <-) L].
    { intros (u & Hu & Ho). specialize (Ho (mkvec 0 0 0) (mkvec 1000 0 0) ltac:(cbn; auto) ltac:(cbn; auto)). unfold vsub in Ho. cbn [vx vy vz] in Ho. apply (square_in u) in Hu. lra. }
    apply (square_in u) in Hu. destruct Hu as (Hz & Hx & Hy). specialize (L (mkvec 1000 0 0) ltac:(apply (square_in (mkvec 1000 0 0)); cbn [vx vy vz]; lra)). unfold dist in *. cbn [vx vy vz] in *. rewrite Hz in *.
    assert (E1 : sqrt ((1000 - 4000) ^ 2 + (0 - 0) ^ 2 + (0 - 1000 * h) ^ 2) = 1000 * k) by (replace ((1000 - 4000) ^ 2 + (0 - 0) ^ 2 + (0 - 1000 * h) ^ 2) with ((1000 * k) * (1000 * k)) by nra; apply sqrt_square; lra).
    rewrite E1 in L. apply Rle_antisym; [lra|]. apply Rmult_le_reg_r with 1000; [lra|]. unfold Rdiv. rewrite Rmult_assoc, Rinv_l, Rmult_1_r by lra. replace (k * 1000) with (1000 * k) by ring. rewrite <- E1. apply sqrt_le_1_alt. pose proof (pow2_ge_0 (vy u - 0)). nra. }
  split; [replace (mkvec 4000 0 0) with (mkvec 4000 0 (1000 * 0)) by (f_equal; ring)|replace (mkvec 4000 0 4000) with (mkvec 4000 0 (1000 * 4)) by (f_equal; ring)]; apply G; lra.
Qed.
Print Assumptions C48_rjb_height_refuted.
Example C48_ex : let '(a, b, c, d) := square in proper a b c d /\ quad_distance_from a b c d (mkvec 400 300 (-7000)) false = Ok 7 /\ over_quad a b c d (mkvec 400 300 (-7000)) /\ ~ over_quad a b c d (mkvec 4000 300 0).
Proof.
  pose proof square_proper as P. cbn in *. split; [exact P|].
  assert (O : over_quad (mkvec 0 0 0) (mkvec 1000 0 0) (mkvec 1000 1000 0) (mkvec 0 1000 0) (mkvec 400 300 (-7000))).
  { exists (mkvec 400 300 0). split; [apply (square_in (mkvec 400 300 0)); cbn [vx vy vz]; lra|]. intros a b [<-|[<-|[<-|[<-|[]]]]] [<-|[<-|[<-|[<-|[]]]]]; unfold vsub; cbn [vx vy vz]; ring. }
  split.
  - destruct (C48_rrup _ _ _ _ (mkvec 400 300 (-7000)) P) as (d & E & (u & Hu & <-) & L). rewrite E. f_equal. apply (square_in u) in Hu. destruct Hu as (Hz & Hx & Hy). specialize (L (mkvec 400 300 0) ltac:(apply (square_in (mkvec 400 300 0)); cbn [vx vy vz]; lra)). unfold dist in *. cbn [vx vy vz] in *. rewrite Hz in *.
    assert (E1 : sqrt ((400 - 400) ^ 2 + (300 - 300) ^ 2 + (0 - -7000) ^ 2) = 7000) by (replace ((400 - 400) ^ 2 + (300 - 300) ^ 2 + (0 - -7000) ^ 2) with (7000 * 7000) by ring; apply sqrt_square; lra).
    rewrite E1 in L. apply Rle_antisym; [lra|]. apply Rmult_le_reg_r with 1000; [lra|]. unfold Rdiv. rewrite Rmult_assoc, Rinv_l, Rmult_1_r by lra. replace (7 * 1000) with 7000 by ring. rewrite <- E1 at 1. apply sqrt_le_1_alt. pose proof (pow2_ge_0 (vx u - 400)). pose proof (pow2_ge_0 (vy u - 300)). lra.
  - split; [exact O|]. intros (u & Hu & Ho). specialize (Ho (mkvec 0 0 0) (mkvec 1000 0 0) ltac:(cbn; auto) ltac:(cbn; auto)). unfold vsub in Ho. cbn [vx vy vz] in Ho. apply (square_in u) in Hu. lra.
Qed.

(** ** C49: the test of planarity *)
(** get_distance_to_plane is the distance from the plane, when the plane avoids the centre of the Earth; else zero. *)
Theorem C49_distance : forall p0 p1 p2 x, mixed p0 p1 p2 <> 0 -> nearest (in_plane p0 p1 p2) x (get_distance_to_plane p0 p1 p2 x).
Proof.
  intros p0 p1 p2 x HD. assert (ED : det3 p0 p1 p2 = mixed p0 p1 p2) by (unfold det3, mixed; ring). unfold get_distance_to_plane. rewrite ED. set (D := mixed p0 p1 p2) in *.
  assert (Nz : reqd D 0 = false) by (apply not_true_is_false; intro T; apply reqd_iff in T; contradiction). rewrite Nz. cbn [negb].
  set (e1 := vsub p1 p0). set (e2 := vsub p2 p0). set (c := vcross e1 e2).
  assert (Ca : det3 (mkvec 1 (vy p0) (vz p0)) (mkvec 1 (vy p1) (vz p1)) (mkvec 1 (vy p2) (vz p2)) = vx c) by (unfold c, e1, e2, det3, vcross, vsub; cbn [vx vy vz]; ring).
  assert (Cb : det3 (mkvec (vx p0) 1 (vz p0)) (mkvec (vx p1) 1 (vz p1)) (mkvec (vx p2) 1 (vz p2)) = vy c) by (unfold c, e1, e2, det3, vcross, vsub; cbn [vx vy vz]; ring).
  assert (Cc : det3 (mkvec (vx p0) (vy p0) 1) (mkvec (vx p1) (vy p1) 1) (mkvec (vx p2) (vy p2) 1) = vz c) by (unfold c, e1, e2, det3, vcross, vsub; cbn [vx vy vz]; ring).
  assert (D0 : D = vdot c p0) by (unfold D, c, e1, e2, mixed, vdot, vcross, vsub; cbn [vx vy vz]; ring).
  assert (NP : ~ parallel e1 e2). { intros (P1 & P2 & P3). apply HD. rewrite D0. unfold c, vdot, vcross. cbn [vx vy vz]. rewrite P1, P2, P3. ring. }
  rewrite Ca, Cb, Cc. pose proof (not_parallel _ _ NP) as Pp. fold c in Pp. destruct (norm c) as [n|] eqn:Hn.
  2: { exfalso. unfold norm in Hn. destruct (reqd (mag c) 0) eqn:M; [|discriminate]. apply reqd_iff in M. rewrite <- mag_sq, M in Pp. lra. }
  destruct (unit_normal e1 e2 n Hn) as (N1 & N2 & N3 & KP). destruct (norm_some _ _ Hn) as (Mp & En & _ & _). destruct (frame_exists p0 _ _ _ NP Hn x) as (al & be & ga & Ex).
  assert (Den : sqrt ((- -1 / D * vx c) ^ 2 + (- -1 / D * vy c) ^ 2 + (- -1 / D * vz c) ^ 2) = mag c / Rabs D).
  { replace ((- -1 / D * vx c) ^ 2 + (- -1 / D * vy c) ^ 2 + (- -1 / D * vz c) ^ 2) with ((mag c / Rabs D) * (mag c / Rabs D)). { apply sqrt_square. apply div_nonneg; [apply mag_nonneg|apply Rabs_pos_lt; exact HD]. }
    transitivity ((mag c * mag c) / (Rabs D * Rabs D)); [field; apply Rabs_no_R0; exact HD|]. rewrite mag_sq. replace (Rabs D * Rabs D) with (D * D) by (unfold Rabs; destruct Rcase_abs; ring). unfold vdot. field. exact HD. }
  assert (Num : Rabs (- -1 / D * vx c * vx x + - -1 / D * vy c * vy x + - -1 / D * vz c * vz x + -1) = mag c * Rabs ga / Rabs D).
  { transitivity (Rabs (vdot c (vsub x p0) / D)). { f_equal. replace (vdot c (vsub x p0)) with (vdot c x - D) by (rewrite D0; unfold vdot, vsub; cbn [vx vy vz]; ring). unfold vdot. field. exact HD. }
    assert (Ev : vdot c (vsub x p0) = mag c * ga). { rewrite En at 1. rewrite Ex. transitivity (mag c * (al * vdot n e1 + be * vdot n e2 + ga * vdot n n)); [unfold in_frame, vdot, vadd, vsub, vscale; cbn [vx vy vz]; ring|]. rewrite N1, N2, N3. ring. }
    rewrite Ev. unfold Rdiv. rewrite !Rabs_mult, Rabs_inv. rewrite (Rabs_right (mag c)) by lra. reflexivity. }
  rewrite Num, Den. assert (Q : mag c * Rabs ga / Rabs D / (mag c / Rabs D) = Rabs ga) by (field; split; first [apply Rabs_no_R0; exact HD|lra]). rewrite Q.
  assert (Eg : Rabs ga = sqrt (ga * ga)) by (rewrite <- (sqrt_Rsqr_abs ga); reflexivity). rewrite Eg.
  assert (Pl : forall s t, mkvec (vx p0 + s * (vx p1 - vx p0) + t * (vx p2 - vx p0)) (vy p0 + s * (vy p1 - vy p0) + t * (vy p2 - vy p0)) (vz p0 + s * (vz p1 - vz p0) + t * (vz p2 - vz p0)) = in_frame p0 e1 e2 n s t 0).
  { intros s t. unfold in_frame, e1, e2, vadd, vsub, vscale. apply vec_ext; cbn [vx vy vz]; ring. }
  split.
  - exists (in_frame p0 e1 e2 n al be 0). split; [exists al, be; symmetry; apply Pl|]. rewrite dist_sq, Ex, frame_sq by assumption. f_equal. unfold sq, vadd, vscale. cbn [vx vy vz]. ring.
  - intros u (s & t & ->). rewrite Pl, dist_sq, Ex, frame_sq by assumption. apply sqrt_le_1_alt. pose proof (sq_nonneg (vadd (vscale (s - al) e1) (vscale (t - be) e2))). lra.
Qed.
Print Assumptions C49_distance.
(** A plane through the centre of the Earth is at no distance from anything. *)
Theorem C49_central : forall p0 p1 p2 x, mixed p0 p1 p2 = 0 -> get_distance_to_plane p0 p1 p2 x = 0.
Proof. intros p0 p1 p2 x H. unfold get_distance_to_plane. assert (ED : det3 p0 p1 p2 = mixed p0 p1 p2) by (unfold det3, mixed; ring). rewrite ED, H, (proj2 (reqd_iff 0 0) eq_refl). reflexivity. Qed.
Print Assumptions C49_central.
(** The third corner is compared with a plane it belongs to, so every quadrilateral passes. *)
Theorem C49_accepts_all : forall p0 p1 p2 p3, fst (is_quad p0 p1 p2 p3) = true.
Proof.
  intros p0 p1 p2 p3. assert (Z : get_distance_to_plane p0 p1 p2 p2 = 0).
  { destruct (Req_dec (mixed p0 p1 p2) 0) as [E|N]; [apply C49_central; exact E|]. destruct (C49_distance p0 p1 p2 p2 N) as [(u & _ & Du) L].
    assert (I : in_plane p0 p1 p2 p2) by (exists 0, 1; apply vec_ext; cbn [vx vy vz]; ring). specialize (L p2 I). assert (Dz : dist p2 p2 = 0) by (unfold dist; replace ((vx p2 - vx p2) ^ 2 + (vy p2 - vy p2) ^ 2 + (vz p2 - vz p2) ^ 2) with 0 by ring; apply sqrt_0). pose proof (sqrt_pos ((vx u - vx p2) ^ 2 + (vy u - vy p2) ^ 2 + (vz u - vz p2) ^ 2)). unfold dist in Du. lra. }
  unfold is_quad. cbn [fst]. rewrite Z. unfold Rdiv. rewrite Rmult_0_l. assert (R : rltb OFFPLANE_TOLERANCE 0 = false) by (apply rltb_f; unfold OFFPLANE_TOLERANCE; lra). rewrite R. reflexivity.
Qed.
Print Assumptions C49_accepts_all.
(** The corrected third corner continues from the fourth in the direction of the top edge, keeping
    the length of the bottom edge; the corrected quadrilateral is a proper plane one. *)
Theorem C49_fixed : forall p0 p1 p2 p3, p0 <> p1 -> exists p2', snd (is_quad p0 p1 p2 p3) = Some p2' /\ dist p2' p3 = dist p2 p3 /\
  (exists k, 0 <= k /\ vsub p2' p3 = vscale k (vsub p1 p0)) /\
  (~ parallel (vsub p1 p0) (vsub p3 p0) -> p2 <> p3 -> proper p0 p1 p2' p3).
Proof.
  intros p0 p1 p2 p3 H. unfold is_quad. cbn [snd]. destruct (norm (vsub p1 p0)) as [n|] eqn:Hn.
  2: { exfalso. apply H. unfold norm in Hn. destruct (reqd (mag (vsub p1 p0)) 0) eqn:M; [|discriminate]. apply reqd_iff in M. apply mag_zero in M. unfold vsub, v0 in M. injection M as M1 M2 M3. apply vec_ext; lra. }
  destruct (norm_some _ _ Hn) as (Mp & En & Un & En'). cbn [option_map]. set (d := mag (vsub p3 p2)). assert (d0 : 0 <= d) by apply mag_nonneg. exists (vadd p3 (vscale d n)). split; [reflexivity|].
  assert (Dd : dist p2 p3 = d) by (unfold dist, d, mag, vsub; cbn [vx vy vz]; f_equal; ring). rewrite Dd.
  assert (K : vsub (vadd p3 (vscale d n)) p3 = vscale (d / mag (vsub p1 p0)) (vsub p1 p0)). { rewrite En' at 1. set (m := mag (vsub p1 p0)) in *. clearbody m. unfold vsub, vadd, vscale. apply vec_ext; cbn [vx vy vz]; field; lra. }
  split.
  - rewrite dist_sq. replace (vsub (vadd p3 (vscale d n)) p3) with (vscale d n) by (unfold vsub, vadd, vscale; apply vec_ext; cbn [vx vy vz]; ring). rewrite scaled_sq, sq_dot, Un, Rmult_1_r. apply sqrt_square. exact d0.
  - split; [exists (d / mag (vsub p1 p0)); split; [apply div_nonneg; assumption|exact K]|].
    intros NP N23. assert (dp : 0 < d). { destruct d0 as [|E]; [assumption|]. exfalso. apply N23. symmetry in E. apply mag_zero in E. unfold vsub, v0 in E. injection E as E1 E2 E3. apply vec_ext; lra. }
    assert (kp : 0 < d / mag (vsub p1 p0)) by (apply Rdiv_lt_0_compat; lra). set (k := d / mag (vsub p1 p0)) in *. clearbody k.
    assert (E : vadd p3 (vscale d n) = vadd p3 (vscale k (vsub p1 p0))). { transitivity (vadd p3 (vsub (vadd p3 (vscale d n)) p3)); [unfold vadd, vsub; apply vec_ext; cbn [vx vy vz]; ring|]. rewrite K. reflexivity. }
    rewrite E. split.
    + intro P. apply NP. unfold parallel, vadd, vscale, vsub in *. cbn [vx vy vz] in *. destruct P as (P1 & P2 & P3). split; [|split]; nra.
    + exists (/ (1 + k)), (/ (1 + k)). assert (B : 0 < / (1 + k) < 1). { split; [apply Rinv_0_lt_compat; lra|]. apply Rmult_lt_reg_r with (1 + k); [lra|]. rewrite Rinv_l by lra. lra. } split; [exact B|]. split; [exact B|]. unfold between_pts, vadd, vscale, vsub. apply vec_ext; cbn [vx vy vz]; field; lra.
Qed.
Print Assumptions C49_fixed.
(** A quadrilateral a thousand kilometres out of plane passes too. *)
Example C49_ex : mixed (mkvec 0 0 1) (mkvec 1 0 1) (mkvec 0 1 1) <> 0 /\ mkvec 0 0 1 <> mkvec 1 0 1 /\ ~ parallel (vsub (mkvec 1 0 1) (mkvec 0 0 1)) (vsub (mkvec 0 1 1000) (mkvec 0 0 1)) /\ mkvec 1 1 1 <> mkvec 0 1 1000 /\
  fst (is_quad (mkvec 0 0 1) (mkvec 1 0 1) (mkvec 1 1 1) (mkvec 0 1 1000)) = true.
Proof.
  split; [unfold mixed; cbn [vx vy vz]; lra|]. split; [intro H; injection H as H; lra|]. split; [unfold parallel, vsub; cbn [vx vy vz]; lra|]. split; [intro H; injection H as H; lra|]. apply C49_accepts_all.
Qed.

(** A real quadrilateral on the ellipsoid meeting the hypotheses of C48_rupture and, at the surface, of C48_rupture_rjb. *)
Example C48_ex_rupture : let q := mkquad (0, 0, 0) (90, 0, 0) (90, 45, 0) (0, 45, 0) in proper (ecef (q0 q)) (ecef (q1 q)) (ecef (q2 q)) (ecef (q3 q)).
Proof.
  cbn [q0 q1 q2 q3]. unfold ecef, from_point, latlon2ecef. cbv zeta. rewrite !radians_deg. replace (deg 0) with 0 by (unfold deg; field). rewrite deg_90, sin_PI2, cos_PI2, sin_0, cos_0. replace (deg 45) with (PI / 4) by (unfold deg; field).
  pose proof PI_RGT_0 as PI0. assert (S : 0 < sin (PI / 4)) by (apply sin_gt_0; lra). assert (C : 0 < cos (PI / 4)) by (apply cos_gt_0; lra). assert (SC := sc2 (PI / 4)). set (s := sin (PI / 4)) in *. set (c := cos (PI / 4)) in *.
  assert (E0 : 0 < WGS84_E * WGS84_E < 1) by (unfold WGS84_E; lra). set (e := WGS84_E * WGS84_E) in *. assert (W0 : 0 < 1 - e * s * s) by nra. set (V := sqrt (1 - e * s * s)). assert (Vp : 0 < V) by (apply sqrt_lt_R0; exact W0). assert (Ap : 0 < WGS84_A) by (unfold WGS84_A; lra).
  replace (1 - e * 0 * 0) with 1 by ring. rewrite sqrt_1. set (r := (WGS84_A / V + - 0 * 1000) * c). set (z := (WGS84_A / V * (1 - e) + - 0 * 1000) * s). clearbody e. assert (AV : 0 < WGS84_A / V) by (apply Rdiv_lt_0_compat; assumption).
  assert (rp : 0 < r) by (unfold r; apply Rmult_lt_0_compat; lra). assert (zp : 0 < z). { unfold z. apply Rmult_lt_0_compat; [|exact S]. assert (0 < WGS84_A / V * (1 - e)) by (apply Rmult_lt_0_compat; lra). lra. } clearbody r z.
  set (A := WGS84_A) in *. clearbody A. split.
  - unfold parallel, vsub. cbn [vx vy vz]. intros (P1 & P2 & P3). assert (A * z = 0) by nra. nra.
  - exists (A / (A + r)), (A / (A + r)). assert (B : 0 < A / (A + r) < 1). { split; [apply Rdiv_lt_0_compat; lra|]. apply Rmult_lt_reg_r with (A + r); [lra|]. unfold Rdiv. rewrite Rmult_assoc, Rinv_l by lra. lra. } split; [exact B|]. split; [exact B|]. unfold between_pts. apply vec_ext; cbn [vx vy vz]; field; lra.
Qed.

(** ** C54: the local slip vector *)
Theorem C54_length : forall strike dip rake, let v := slip strike dip rake in scalar v v = 1 + sin (2 * deg rake) * cos (deg dip) * sin (2 * deg strike).
Proof.
  intros strike dip rake v. unfold v, slip, scalar. rewrite !radians_deg. cbn [vx vy vz]. rewrite !sin_2a. pose proof (sc2 (deg strike)) as A. pose proof (sc2 (deg dip)) as B. pose proof (sc2 (deg rake)) as C.
  set (ss := sin (deg strike)) in *. set (cs := cos (deg strike)) in *. set (sd := sin (deg dip)) in *. set (cd := cos (deg dip)) in *. set (sr := sin (deg rake)) in *. set (cr := cos (deg rake)) in *. clearbody ss cs sd cd sr cr.
  transitivity (sr * sr * (cd * cd) * (ss * ss + cs * cs) + cr * cr * (ss * ss + cs * cs) + sr * sr * (sd * sd) + 4 * sr * cd * cr * ss * cs); [ring|]. rewrite A. transitivity (sr * sr * (sd * sd + cd * cd) + cr * cr + 4 * sr * cd * cr * ss * cs); [ring|]. rewrite B. transitivity (sr * sr + cr * cr + 4 * sr * cd * cr * ss * cs); [ring|]. rewrite C. ring.
Qed.
Print Assumptions C54_length.
Theorem C54_unit : forall strike dip rake, let v := slip strike dip rake in dist v (mkvec 0 0 0) = 1 <-> sin (2 * deg rake) = 0 \/ cos (deg dip) = 0 \/ sin (2 * deg strike) = 0.
Proof.
  intros strike dip rake v. pose proof (C54_length strike dip rake) as L. fold v in L. assert (E : dist v (mkvec 0 0 0) = sqrt (scalar v v)) by (unfold dist, scalar; cbn [vx vy vz]; f_equal; ring). rewrite E, L. set (a := sin (2 * deg rake)). set (b := cos (deg dip)). set (c := sin (2 * deg strike)). split.
  - intro H. assert (Z : 1 + a * b * c = 1). { assert (0 <= 1 + a * b * c). { unfold a, b, c. rewrite <- L. unfold scalar. pose proof (Rle_0_sqr (vx v)). pose proof (Rle_0_sqr (vy v)). pose proof (Rle_0_sqr (vz v)). unfold Rsqr in *. lra. } rewrite <- (sqrt_sqrt (1 + a * b * c)) by assumption. rewrite H. ring. }
    assert (Z' : a * b * c = 0) by lra. apply Rmult_integral in Z'. destruct Z' as [Z'|Z']; [apply Rmult_integral in Z'; tauto|tauto].
  - intros [Z|[Z|Z]]; rewrite Z; replace (1 + _) with 1 by ring; apply sqrt_1.
Qed.
Print Assumptions C54_unit.
(** It can vanish, and reach length sqrt 2. *)
Theorem C54_unit_refuted : (exists strike dip rake, 0 <= strike < 360 /\ 0 <= dip <= 90 /\ -180 <= rake <= 180 /\ slip strike dip rake = mkvec 0 0 0) /\
  (exists strike dip rake, 0 <= strike < 360 /\ 0 <= dip <= 90 /\ -180 <= rake <= 180 /\ scalar (slip strike dip rake) (slip strike dip rake) = 2).
Proof.
  assert (S1 : sin (2 * deg 45) = 1) by (replace (2 * deg 45) with (PI / 2) by (unfold deg; field); apply sin_PI2).
  assert (S2 : sin (2 * deg 135) = -1) by (replace (2 * deg 135) with (3 * (PI / 2)) by (unfold deg; field); apply sin_3PI2).
  assert (C0 : cos (deg 0) = 1) by (replace (deg 0) with 0 by (unfold deg; field); apply cos_0). split.
  - exists 135, 0, 45. do 3 (split; [lra|]). pose proof (C54_length 135 0 45) as L. cbv zeta in L. rewrite S1, S2, C0 in L. set (v := slip 135 0 45) in *. clearbody v. unfold scalar in L. pose proof (Rle_0_sqr (vx v)). pose proof (Rle_0_sqr (vy v)). pose proof (Rle_0_sqr (vz v)). unfold Rsqr in *. apply vec_ext; cbn [vx vy vz]; nra.
  - exists 45, 0, 45. do 3 (split; [lra|]). rewrite C54_length, S1, C0. lra.
Qed.
Print Assumptions C54_unit_refuted.
(** The dip-slip and strike-slip parts add up to it; the first is the rake's sine along a unit
    direction, the second the rake's cosine. *)
Theorem C54_parts : forall strike dip rake, let d := slip_DS strike dip rake in let s := slip_SS strike dip rake in
  slip strike dip rake = vadd d s /\ scalar d d = sin (deg rake) ^ 2 /\ scalar s s = cos (deg rake) ^ 2 /\
  scalar s (mkvec (sin (deg strike)) (cos (deg strike)) 0) = cos (deg rake) /\ vz s = 0 /\ vz d = sin (deg rake) * sin (deg dip).
Proof.
  intros strike dip rake d s. unfold d, s, slip, slip_DS, slip_SS, scalar, vadd. rewrite !radians_deg. cbn [vx vy vz]. pose proof (sc2 (deg strike)) as A. pose proof (sc2 (deg dip)) as B.
  set (ss := sin (deg strike)) in *. set (cs := cos (deg strike)) in *. set (sd := sin (deg dip)) in *. set (cd := cos (deg dip)) in *. set (sr := sin (deg rake)) in *. set (cr := cos (deg rake)) in *. clearbody ss cs sd cd sr cr.
  split; [apply vec_ext; cbn [vx vy vz]; ring|]. split. { transitivity (sr ^ 2 * (cd * cd * (ss * ss + cs * cs) + sd * sd)); [ring|]. rewrite A. replace (cd * cd * 1 + sd * sd) with 1 by lra. ring. }
  split. { transitivity (cr ^ 2 * (ss * ss + cs * cs)); [ring|]. rewrite A. ring. } split. { transitivity (cr * (ss * ss + cs * cs)); [ring|]. rewrite A. ring. } split; reflexivity.
Qed.
Print Assumptions C54_parts.
Example C54_ex : scalar (slip 45 0 45) (slip 45 0 45) = 2 /\ dist (slip 0 60 30) (mkvec 0 0 0) = 1.
Proof.
  split.
  - rewrite C54_length. replace (2 * deg 45) with (PI / 2) by (unfold deg; field). replace (deg 0) with 0 by (unfold deg; field). rewrite sin_PI2, cos_0. lra.
  - apply C54_unit. right. right. replace (2 * deg 0) with 0 by (unfold deg; field). apply sin_0.
Qed.

(** ** C56: mechanism from rake *)
Theorem C56_bands : forall rake,
  (rake_to_mech (Some rake) = SS <-> -180 <= rake <= -150 \/ -30 <= rake <= 30 \/ 150 <= rake <= 180) /\
  (rake_to_mech (Some rake) = NM <-> -120 <= rake <= -60) /\ (rake_to_mech (Some rake) = RS <-> 60 <= rake <= 120) /\ rake_to_mech None = ALL.
Proof.
  intro rake. assert (B : forall lo hi, between lo hi rake = true <-> lo <= rake <= hi) by (intros; unfold between; rewrite andb_true_iff, !rleb_iff; reflexivity).
  unfold rake_to_mech. destruct (between (-180) (-150) rake) eqn:E1, (between (-30) 30 rake) eqn:E2, (between 150 180 rake) eqn:E3, (between (-120) (-60) rake) eqn:E4, (between 60 120 rake) eqn:E5; cbn [orb];
    rewrite <- !B, ?E1, ?E2, ?E3, ?E4, ?E5; try (rewrite B in E1); try (rewrite B in E2); try (rewrite B in E3); try (rewrite B in E4); try (rewrite B in E5); try lra; intuition discriminate.
Qed.
Print Assumptions C56_bands.
(** Opposite rakes: strike-slip stays strike-slip and normal becomes reverse. *)
Theorem C56_opposite : forall rake, rake_to_mech (Some (- rake)) = match rake_to_mech (Some rake) with SS => SS | NM => RS | RS => NM | ALL => ALL end.
Proof.
  intro rake. destruct (C56_bands rake) as (A & B & C & _). destruct (C56_bands (- rake)) as (A' & B' & C' & _). destruct (rake_to_mech (Some rake)) eqn:E.
  - apply A'. assert (H := proj1 A eq_refl). lra.
  - apply C'. assert (H := proj1 B eq_refl). lra.
  - apply B'. assert (H := proj1 C eq_refl). lra.
  - destruct (rake_to_mech (Some (- rake))) eqn:E'; [|exfalso..|reflexivity]; exfalso.
    + assert (H := proj1 A' eq_refl). enough (ALL = SS) by discriminate. apply A. lra.
    + assert (H := proj1 B' eq_refl). enough (ALL = RS) by discriminate. apply C. lra.
    + assert (H := proj1 C' eq_refl). enough (ALL = NM) by discriminate. apply B. lra.
Qed.
Print Assumptions C56_opposite.
(** The default rake of a mechanism has that mechanism. *)
Theorem C56_defaults : forall m, rake_to_mech (rakedict m) = m.
Proof. intros []; cbn [rakedict]; [apply (proj1 (C56_bands 0))|apply (proj1 (proj2 (C56_bands (-90))))|apply (proj1 (proj2 (proj2 (C56_bands 90))))|reflexivity]; lra. Qed.
Print Assumptions C56_defaults.
Example C56_ex : rake_to_mech (Some 45) = ALL /\ rake_to_mech (Some (-150)) = SS /\ rake_to_mech (Some 200) = ALL.
Proof.
  assert (B1 : forall lo hi x, lo <= x <= hi -> between lo hi x = true) by (intros lo hi x H; unfold between; rewrite andb_true_iff, !rleb_iff; exact H).
  assert (B0 : forall lo hi x, x < lo \/ hi < x -> between lo hi x = false) by (intros lo hi x H; apply not_true_is_false; unfold between; rewrite andb_true_iff, !rleb_iff; lra).
  unfold rake_to_mech. repeat split; repeat (first [rewrite B1 by lra|rewrite B0 by lra]; cbn [orb]); reflexivity.
Qed.
