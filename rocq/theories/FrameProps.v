(** Directions and sizes of a quadrilateral: C65.  Meshes: C66. *)
From Coq Require Import ZArith Reals String Ascii Bool List Lra Psatz Lia.
From Flocq Require Import Core.
From Verif Require Import PyBase PyStr VecModel VecProofs GeoModel GeoSpec GeoTrig RuptModel RuptSpec RuptProofs EcefProps.
Import ListNotations.
Open Scope R_scope.

(** ** C65 *)
Lemma norm_none : forall u, norm u = None <-> u = v0.
Proof.
  intro u. unfold norm. destruct (reqd (mag u) 0) eqn:M.
  - apply reqd_iff in M. apply mag_zero in M. tauto.
  - split; [discriminate|]. intro H. apply mag_zero in H. apply reqd_iff in H. congruence.
Qed.
Lemma norm_pos : forall u, u <> v0 -> exists n, norm u = Some n /\ 0 < mag u /\ u = vscale (mag u) n /\ vdot n n = 1 /\ n = vscale (/ mag u) u.
Proof. intros u H. destruct (norm u) as [n|] eqn:E; [|apply norm_none in E; contradiction]. exists n. split; [reflexivity|]. apply norm_some. exact E. Qed.
Lemma parallel_cross : forall u v, parallel u v <-> vcross u v = v0.
Proof. intros u v. unfold parallel, vcross, v0. split; [intros (A & B & C); apply vec_ext; cbn [vx vy vz]; lra|intro H; injection H as A B C; lra]. Qed.
Lemma double_cross : forall e w, vcross e (vcross w e) = vsub (vscale (vdot e e) w) (vscale (vdot e w) e).
Proof. intros. unfold vcross, vsub, vscale, vdot. apply vec_ext; cbn [vx vy vz]; ring. Qed.

(** Strike, down-dip and normal directions: unit vectors at right angles, the first along the top
    edge, the second pointing to the side of the fourth corner within the plane, with the third right-handed. *)
Theorem C65_frame : forall p0 p1 p3, ~ parallel (vsub p1 p0) (vsub p3 p0) -> exists s d n,
  get_quad_strike_vector p0 p1 = Some s /\ get_quad_down_dip_vector p0 p1 p3 = Some d /\ get_quad_normal p0 p1 p3 = Some n /\
  scalar s s = 1 /\ scalar d d = 1 /\ scalar n n = 1 /\ scalar s d = 0 /\ scalar s n = 0 /\ scalar d n = 0 /\ mixed d s n = 1 /\
  scalar s (vsub p1 p0) = dist p1 p0 /\ scalar n (vsub p3 p0) = 0 /\ 0 < scalar d (vsub p3 p0).
Proof.
  intros p0 p1 p3 NP. unfold get_quad_strike_vector, get_quad_down_dip_vector, get_quad_normal. set (e := vsub p1 p0) in *. set (w := vsub p3 p0) in *.
  assert (Ne : e <> v0) by (intro Z; apply NP; apply parallel_cross; rewrite Z; unfold vcross, v0; apply vec_ext; cbn [vx vy vz]; ring).
  assert (Nc : vcross w e <> v0). { clearbody e w. intro Z. apply NP. unfold vcross, v0 in Z. injection Z as A B C. unfold parallel. lra. }
  destruct (norm_pos _ Ne) as (s & Hs & Ms & Es & Us & Es'). destruct (norm_pos _ Nc) as (n & Hn & Mn & En & Un & En').
  assert (Sn : vdot e n = 0) by (rewrite En'; unfold vdot, vscale, vcross; cbn [vx vy vz]; ring). assert (Wn : vdot w n = 0) by (rewrite En'; unfold vdot, vscale, vcross; cbn [vx vy vz]; ring).
  assert (Cq : vdot (vcross e n) (vcross e n) = vdot e e) by (rewrite lagrange, Un, Sn; ring).
  assert (Nd : vcross e n <> v0). { intro Z. rewrite Z in Cq. apply Ne. apply dot_zero. rewrite <- Cq. unfold vdot, v0. cbn [vx vy vz]. ring. }
  destruct (norm_pos _ Nd) as (d & Hd & Md & Ed & Ud & Ed'). rewrite Hs, Hn, Hd. exists s, d, n. do 3 (split; [reflexivity|]). change scalar with vdot. do 3 (split; [assumption|]).
  assert (Em : mag (vcross e n) = mag e). { rewrite !mag_dot, Cq. reflexivity. } rewrite Em in *. clear Em.
  assert (D' : d = vcross s n). { rewrite Ed', Es'. set (m := / mag e). clearbody m. unfold vscale, vcross. apply vec_ext; cbn [vx vy vz]; ring. }
  assert (Sn' : vdot s n = 0) by (rewrite Es'; transitivity (/ mag e * vdot e n); [unfold vdot, vscale; cbn [vx vy vz]; ring|rewrite Sn; ring]).
  split; [rewrite D'; unfold vdot, vcross; cbn [vx vy vz]; ring|]. split; [exact Sn'|]. split; [rewrite D'; unfold vdot, vcross; cbn [vx vy vz]; ring|].
  split. { transitivity (vdot d (vcross s n)); [unfold mixed, vdot, vcross; cbn [vx vy vz]; ring|]. rewrite <- D'. exact Ud. }
  split. { fold e. rewrite Es at 1. transitivity (mag e * vdot s s); [unfold vdot, vscale; cbn [vx vy vz]; ring|]. rewrite Us, Rmult_1_r. reflexivity. }
  fold w. split; [rewrite <- Wn; unfold vdot; ring|].
  rewrite Ed', En'. assert (L : vdot (vscale (/ mag e) (vcross e (vscale (/ mag (vcross w e)) (vcross w e)))) w = / mag e * / mag (vcross w e) * vdot (vcross w e) (vcross w e)) by (set (a := / mag e); set (b := / mag (vcross w e)); clearbody a b; unfold vdot, vscale, vcross; cbn [vx vy vz]; ring).
  rewrite L, <- mag_sq. apply Rmult_lt_0_compat; [apply Rmult_lt_0_compat; apply Rinv_0_lt_compat; assumption|apply Rmult_lt_0_compat; assumption].
Qed.
Print Assumptions C65_frame.
(** Length and width: of the top edge, and of the fourth corner from the line of the top edge. *)
Theorem C65_size : forall p0 p1 p3, ~ parallel (vsub p1 p0) (vsub p3 p0) ->
  1000 * get_quad_length p0 p1 = dist p1 p0 /\ exists w, get_quad_width p0 p1 p3 = Some w /\ 0 < w /\ nearest (on_line p0 p1) p3 (1000 * w) /\
  (forall d, get_quad_down_dip_vector p0 p1 p3 = Some d -> scalar d (vsub p3 p0) = 1000 * w).
Proof.
  intros p0 p1 p3 NP. split; [unfold get_quad_length, dist, mag, vsub; cbn [vx vy vz]; lra|]. destruct (C65_frame p0 p1 p3 NP) as (s & d & n & Hs & Hd & Hn & Us & Ud & Un & Sd & Sn & Dn & _ & _ & Nw & Dw).
  assert (D' := Hd). unfold get_quad_down_dip_vector in D'. rewrite Hn in D'. unfold get_quad_normal in Hn. unfold get_quad_strike_vector in Hs. unfold get_quad_width. set (e := vsub p1 p0) in *. set (w := vsub p3 p0) in *.
  destruct (norm_some _ _ Hn) as (Mn & En & _ & En'). destruct (norm_some _ _ D') as (Md & Ed & _ & Ed'). destruct (norm_some _ _ Hs) as (Ms & Es & _ & Es').
  assert (EC : vcross (vcross (vsub p0 p1) (vsub p0 p3)) (vsub p0 p1) = vscale (- mag (vcross w e) * mag (vcross e n)) d).
  { transitivity (vscale (-1) (vcross e (vcross w e))); [unfold e, w, vcross, vsub, vscale; apply vec_ext; cbn [vx vy vz]; ring|]. rewrite En at 1. set (k := mag (vcross w e)) in *. rewrite <- (Rmult_1_l (- k * _)). transitivity (vscale (- k) (vcross e n)); [unfold vcross, vscale; apply vec_ext; cbn [vx vy vz]; ring|]. rewrite Ed at 1. set (m := mag (vcross e n)). unfold vscale. apply vec_ext; cbn [vx vy vz]; ring. }
  assert (Kp : 0 < mag (vcross w e) * mag (vcross e n)) by (apply Rmult_lt_0_compat; assumption).
  assert (Hw : norm (vcross (vcross (vsub p0 p1) (vsub p0 p3)) (vsub p0 p1)) = Some (vscale (-1) d)).
  { rewrite EC. set (k := mag (vcross w e) * mag (vcross e n)) in *. replace (- mag (vcross w e) * mag (vcross e n)) with (- k) by (unfold k; ring). clearbody k. unfold norm. assert (M : mag (vscale (- k) d) = k). { rewrite mag_scale, Rabs_Ropp, Rabs_right by lra. replace (mag d) with 1; [ring|]. rewrite mag_dot. change (vdot d d) with (scalar d d). rewrite Ud. symmetry. apply sqrt_1. }
    rewrite M. assert (Nz : reqd k 0 = false) by (apply not_true_is_false; intro T; apply reqd_iff in T; lra). rewrite Nz. f_equal. unfold vscale. apply vec_ext; cbn [vx vy vz]; field; lra. }
  rewrite Hw. cbn [option_map]. exists (scalar d w / 1000).
  assert (V : vdot (vscale (-1) d) (vsub p0 p3) = scalar d w) by (unfold w, vdot, scalar, vscale, vsub; cbn [vx vy vz]; ring). rewrite V. split; [reflexivity|]. split; [lra|]. replace (1000 * (scalar d w / 1000)) with (scalar d w) by field. split.
  - (* decompose w along s and d *)
    assert (W : w = vadd (vscale (scalar s w) s) (vscale (scalar d w) d)).
    { assert (Cr : vscale (vdot (vcross s d) (vcross s d)) w = vadd (vadd (vscale (vdot (vcross w d) (vcross s d)) s) (vscale (vdot (vcross s w) (vcross s d)) d)) (vscale (vdot w (vcross s d)) (vcross s d))) by apply expand.
      assert (Q1 : vdot (vcross s d) (vcross s d) = 1) by (rewrite lagrange; change vdot with scalar; rewrite Us, Ud, Sd; ring).
      assert (Q2 : vdot (vcross w d) (vcross s d) = scalar s w). { transitivity (scalar s w * scalar d d - scalar s d * scalar d w); [unfold vdot, vcross, scalar; cbn [vx vy vz]; ring|]. rewrite Ud, Sd. ring. }
      assert (Q3 : vdot (vcross s w) (vcross s d) = scalar d w). { transitivity (scalar d w * scalar s s - scalar s d * scalar s w); [unfold vdot, vcross, scalar; cbn [vx vy vz]; ring|]. rewrite Us, Sd. ring. }
      assert (Q4 : vdot w (vcross s d) = 0).
      { assert (X : vcross s d = vscale (-1) n). { assert (Dx : d = vcross s n). { assert (Ecq : mag (vcross e n) = mag e) by (rewrite !mag_dot; f_equal; rewrite lagrange; change (vdot n n) with (scalar n n); rewrite Un; replace (vdot e n) with 0; [ring|]; rewrite Es; symmetry; transitivity (mag e * scalar s n); [unfold vdot, scalar, vscale; cbn [vx vy vz]; ring|rewrite Sn; ring]). rewrite Ed', Ecq, Es'. set (m := / mag e). clearbody m. unfold vscale, vcross. apply vec_ext; cbn [vx vy vz]; ring. }
          rewrite Dx at 1. rewrite <- (Rmult_1_r (-1)). rewrite <- Us. transitivity (vsub (vscale (vdot s n) s) (vscale (vdot s s) n)); [unfold vcross, vsub, vscale, vdot; apply vec_ext; cbn [vx vy vz]; ring|]. change (vdot s n) with (scalar s n). rewrite Sn. unfold vsub, vscale, vdot, scalar. apply vec_ext; cbn [vx vy vz]; ring. }
        rewrite X. transitivity (-1 * scalar n w); [unfold vdot, vscale, scalar; cbn [vx vy vz]; ring|]. rewrite Nw. ring. }
      rewrite Q1, Q2, Q3, Q4 in Cr. transitivity (vscale 1 w); [unfold vscale; apply vec_ext; cbn [vx vy vz]; ring|]. rewrite Cr. unfold vadd, vscale. apply vec_ext; cbn [vx vy vz]; ring. }
    assert (Dt : forall t, dist (between_pts p0 p1 t) p3 = sqrt ((t * mag e - scalar s w) ^ 2 + scalar d w ^ 2)).
    { intro t. rewrite dist_sq. f_equal. replace (vsub (between_pts p0 p1 t) p3) with (vsub (vscale t e) w) by (unfold e, w, between_pts, vsub, vscale; apply vec_ext; cbn [vx vy vz]; ring).
      rewrite W at 1. rewrite Es at 1. rewrite sq_dot. set (a := scalar s w). set (b := scalar d w). set (m := mag e). clearbody a b m.
      transitivity ((t * m - a) ^ 2 * scalar s s + b ^ 2 * scalar d d - 2 * (t * m - a) * b * scalar s d); [unfold vdot, scalar, vsub, vadd, vscale; cbn [vx vy vz]; ring|]. rewrite Us, Ud, Sd. ring. }
    assert (Sb : sqrt (scalar d w ^ 2) = scalar d w) by (rewrite <- Rsqr_pow2; apply sqrt_Rsqr; lra).
    split.
    + exists (between_pts p0 p1 (scalar s w / mag e)). split; [eexists; reflexivity|]. rewrite Dt. rewrite <- Sb at 2. f_equal. replace (scalar s w / mag e * mag e - scalar s w) with 0 by (field; lra). ring.
    + intros u (t & ->). rewrite Dt. rewrite <- Sb at 1. apply sqrt_le_1_alt. pose proof (pow2_ge_0 (t * mag e - scalar s w)). lra.
  - intros d' H. rewrite Hd in H. assert (d = d') by congruence. subst. reflexivity.
Qed.
Print Assumptions C65_size.
(** The vertical vector is the outward normal of the ellipsoid at the first corner. *)
Theorem C65_vertical : forall lon lat dep, -90 <= lat <= 90 -> get_vertical_vector (lon, lat, dep) = Some (place lon lat).
Proof.
  intros lon lat dep H. unfold get_vertical_vector, ecef, from_point. rewrite (proj1 (C44_normal lat lon (dep - 1) H)), (proj1 (C44_normal lat lon dep H)). set (o := latlon2ecef lat lon 0). clearbody o.
  replace (vsub (vsub o (vscale (1000 * (dep - 1)) (place lon lat))) (vsub o (vscale (1000 * dep) (place lon lat)))) with (vscale 1000 (place lon lat)) by (unfold vsub, vscale; apply vec_ext; cbn [vx vy vz]; ring).
  assert (U : mag (place lon lat) = 1). { unfold mag, place. cbn [vx vy vz]. replace (_ + _ + _) with 1; [apply sqrt_1|]. pose proof (sc2 (deg lat)) as A. pose proof (sc2 (deg lon)) as B. symmetry. transitivity (cos (deg lat) * cos (deg lat) * (sin (deg lon) * sin (deg lon) + cos (deg lon) * cos (deg lon)) + sin (deg lat) * sin (deg lat)); [ring|]. rewrite B. lra. }
  unfold norm. rewrite mag_scale, U, Rabs_right by lra. rewrite Rmult_1_r. assert (Nz : reqd 1000 0 = false) by (apply not_true_is_false; intro T; apply reqd_iff in T; lra). rewrite Nz. f_equal. unfold vscale. apply vec_ext; cbn [vx vy vz]; field.
Qed.
Print Assumptions C65_vertical.
(** Dip: the angle between the normal and the vertical, from 0 to 180 degrees. *)
Theorem C65_dip : forall q, -90 <= snd (fst (q0 q)) <= 90 -> ~ parallel (vsub (ecef (q1 q)) (ecef (q0 q))) (vsub (ecef (q3 q)) (ecef (q0 q))) ->
  exists dip n, get_quad_dip q = Some dip /\ get_quad_normal (ecef (q0 q)) (ecef (q1 q)) (ecef (q3 q)) = Some n /\ 0 <= dip <= 180 /\ cos (deg dip) = scalar n (place (fst (fst (q0 q))) (snd (fst (q0 q)))).
Proof.
  intros [[[lon lat] dep] b c d] H NP. cbn [q0 q1 q2 q3 fst snd] in *. destruct (C65_frame _ _ _ NP) as (s & dd & n & _ & _ & Hn & _ & _ & Un & _). unfold get_quad_dip. cbn [q0 q1 q2 q3]. rewrite Hn, C65_vertical by exact H.
  assert (Pu : vdot (place lon lat) (place lon lat) = 1). { unfold vdot, place. cbn [vx vy vz]. pose proof (sc2 (deg lat)) as A. pose proof (sc2 (deg lon)) as B. transitivity (cos (deg lat) * cos (deg lat) * (sin (deg lon) * sin (deg lon) + cos (deg lon) * cos (deg lon)) + sin (deg lat) * sin (deg lat)); [ring|]. rewrite B. lra. }
  assert (B : -1 <= vdot n (place lon lat) <= 1). { pose proof (cauchy n (place lon lat)) as Cy. rewrite !mag_dot, Pu in Cy. change (vdot n n) with (scalar n n) in Cy. rewrite Un, sqrt_1, Rmult_1_l in Cy. apply Rabs_le_inv in Cy. exact Cy. }
  eexists; exists n. split; [reflexivity|]. split; [reflexivity|]. pose proof (acos_bound (vdot n (place lon lat))) as Ab. pose proof PI_RGT_0. split.
  - unfold degrees. split; [apply Rmult_le_pos; [tauto|apply div_nonneg; lra]|]. apply Rle_trans with (PI * (180 / PI)); [apply Rmult_le_compat_r; [apply div_nonneg; lra|tauto]|]. right. field. lra.
  - rewrite deg_degrees. apply cos_acos. exact B.
Qed.
Print Assumptions C65_dip.
(** Reversing a quadrilateral twice gives it back; for a proper one the normal turns over. *)
Theorem C65_reverse : forall q, reverse_quad (reverse_quad q) = q /\
  (proper (ecef (q0 q)) (ecef (q1 q)) (ecef (q2 q)) (ecef (q3 q)) -> let r := reverse_quad q in exists n,
     get_quad_normal (ecef (q0 q)) (ecef (q1 q)) (ecef (q3 q)) = Some n /\ get_quad_normal (ecef (q0 r)) (ecef (q1 r)) (ecef (q3 r)) = Some (vscale (-1) n)).
Proof.
  intros [a b c d]. split; [reflexivity|]. cbn [reverse_quad q0 q1 q2 q3]. generalize (ecef a) (ecef b) (ecef c) (ecef d). intros p0 p1 p2 p3 P. destruct (fourth p0 p1 p2 p3 v0 P) as (x & y & X0 & Y0 & XY & E). destruct P as [NP _].
  unfold get_quad_normal. set (k := vcross (vsub p2 p0) (vsub p1 p0)).
  assert (E1 : vcross (vsub p3 p0) (vsub p1 p0) = vscale y k). { rewrite E. unfold k, in_frame, v0, vcross, vsub, vadd, vscale. apply vec_ext; cbn [vx vy vz]; ring. }
  assert (E2 : vcross (vsub p2 p1) (vsub p0 p1) = vscale (-1) k) by (unfold k, vcross, vsub, vscale; apply vec_ext; cbn [vx vy vz]; ring).
  assert (Nk : k <> v0). { intro Z. apply NP, parallel_cross. transitivity (vscale (-1) k); [unfold k, vcross, vscale; apply vec_ext; cbn [vx vy vz]; ring|]. rewrite Z. unfold vscale, v0. apply vec_ext; cbn [vx vy vz]; ring. }
  destruct (norm_pos _ Nk) as (n & Hn & Mn & _ & _ & En). exists n. rewrite E1, E2. assert (G : forall t, t <> 0 -> norm (vscale t k) = Some (vscale (t / Rabs t) n)).
  { intros t Ht. unfold norm. rewrite mag_scale. assert (Tp : 0 < Rabs t) by (apply Rabs_pos_lt; exact Ht). assert (Nz : reqd (Rabs t * mag k) 0 = false) by (apply not_true_is_false; intro T; apply reqd_iff in T; nra). rewrite Nz. f_equal. rewrite En. set (m := mag k) in *. clearbody m. unfold vscale. apply vec_ext; cbn [vx vy vz]; field; lra. }
  rewrite (G y) by lra. rewrite (G (-1)) by lra. rewrite (Rabs_right y) by lra. replace (Rabs (-1)) with 1 by (rewrite Rabs_left by lra; lra). split; [f_equal; unfold vscale; apply vec_ext; cbn [vx vy vz]; field; lra|f_equal; f_equal; field].
Qed.
Print Assumptions C65_reverse.
Example C65_ex : ~ parallel (vsub (mkvec 1000 0 0) (mkvec 0 0 0)) (vsub (mkvec 500 3000 0) (mkvec 0 0 0)) /\ get_quad_width (mkvec 0 0 0) (mkvec 1000 0 0) (mkvec 500 3000 0) = Some 3.
Proof.
  assert (NP : ~ parallel (vsub (mkvec 1000 0 0) (mkvec 0 0 0)) (vsub (mkvec 500 3000 0) (mkvec 0 0 0))) by (unfold parallel, vsub; cbn [vx vy vz]; lra). split; [exact NP|].
  destruct (C65_size _ _ _ NP) as (_ & w & Hw & Wp & [(u & (t & ->) & Du) L] & _). rewrite Hw. f_equal. specialize (L (mkvec 500 0 0) ltac:(exists (1 / 2); unfold between_pts; apply vec_ext; cbn [vx vy vz]; field)). unfold dist, between_pts in *. cbn [vx vy vz] in *.
  assert (E1 : sqrt ((500 - 500) ^ 2 + (0 - 3000) ^ 2 + (0 - 0) ^ 2) = 3000) by (replace ((500 - 500) ^ 2 + (0 - 3000) ^ 2 + (0 - 0) ^ 2) with (3000 * 3000) by ring; apply sqrt_square; lra). rewrite E1 in L.
  assert (3000 <= 1000 * w). { rewrite <- Du. rewrite <- E1 at 1. apply sqrt_le_1_alt. pose proof (pow2_ge_0 ((1 - t) * 0 + t * 1000 - 500)). lra. } lra.
Qed.
