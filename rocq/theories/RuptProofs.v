(** Distances from segments and plane quadrilaterals. *)
From Coq Require Import ZArith Reals String Ascii Bool List Lra Psatz Lia.
From Verif Require Import PyBase PyStr VecModel VecProofs GeoModel GeoTrig RuptModel RuptSpec.
Import ListNotations.
Open Scope R_scope.

Definition sq (u : vec) : R := vx u ^ 2 + vy u ^ 2 + vz u ^ 2.
Lemma sq_nonneg : forall u, 0 <= sq u.
Proof. intros. unfold sq. pose proof (pow2_ge_0 (vx u)). pose proof (pow2_ge_0 (vy u)). pose proof (pow2_ge_0 (vz u)). lra. Qed.
Lemma sq_dot : forall u, sq u = vdot u u.
Proof. intros. unfold sq, vdot. ring. Qed.
Lemma dist_sq : forall u x, dist u x = sqrt (sq (vsub u x)).
Proof. reflexivity. Qed.

(** *** Segments *)
Lemma quad_form : forall A B C t, 0 <= C -> A + 2 * t * B + t * t * C = A - B * B / C + C * (t + B / C) * (t + B / C) \/ C = 0.
Proof. intros A B C t HC. destruct (Req_dec C 0) as [|N]; [right; assumption|left; field; assumption]. Qed.
Lemma seg_sq : forall p0 p1 t, sq (between_pts p0 p1 t) = sq p0 + 2 * t * vdot p0 (vsub p1 p0) + t * t * vdot (vsub p1 p0) (vsub p1 p0).
Proof. intros. unfold sq, between_pts, vdot, vsub. cbn [vx vy vz]. ring. Qed.
Lemma segment_ok : forall p0 p1, let d := distance_sq_to_segment p0 p1 in
  (exists t, 0 <= t <= 1 /\ sq (between_pts p0 p1 t) = d) /\ forall t, 0 <= t <= 1 -> d <= sq (between_pts p0 p1 t).
Proof.
  intros p0 p1 d. unfold d, distance_sq_to_segment. cbv zeta. set (v := vsub p1 p0). set (B := vdot p0 v). assert (C0 : 0 <= vdot v v) by (rewrite <- sq_dot; apply sq_nonneg). set (C := vdot v v) in *.
  assert (E0 : sq p1 = sq p0 + 2 * B + C) by (unfold sq, B, C, v, vdot, vsub; cbn [vx vy vz]; ring).
  assert (F : forall t, sq (between_pts p0 p1 t) = sq p0 + 2 * t * B + t * t * C) by (intro t; apply seg_sq).
  assert (Cz : C = 0 -> B = 0). { intro H. assert (v = mkvec 0 0 0). { unfold C, vdot in H. pose proof (pow2_ge_0 (vx v)). pose proof (pow2_ge_0 (vy v)). pose proof (pow2_ge_0 (vz v)). apply vec_ext; cbn [vx vy vz]; nra. } unfold B. rewrite H0. unfold vdot. cbn [vx vy vz]. ring. }
  fold (sq p0) (sq p1). destruct (rleb C (-1 * B)) eqn:L; cmp.
  - assert (N : negb (rleb (-1 * B) 0 || reqd (vx p0) (vx p1) && reqd (vy p0) (vy p1) && reqd (vz p0) (vz p1) || true) = false) by (rewrite orb_true_r; reflexivity). rewrite N. split.
    + exists 1. split; [lra|]. rewrite F, E0. ring.
    + intros t Ht. rewrite F, E0. assert (0 <= (1 - t) * - (2 * B + C * (1 + t))) by (apply Rmult_le_pos; nra). lra.
  - destruct (rleb (-1 * B) 0) eqn:Q; cmp.
    + cbn [orb negb]. split; [exists 0; split; [lra|rewrite F; ring]|]. intros t Ht. rewrite F. nra.
    + assert (Ne : reqd (vx p0) (vx p1) && reqd (vy p0) (vy p1) && reqd (vz p0) (vz p1) = false).
      { apply not_true_is_false. intro H. rewrite !andb_true_iff, !reqd_iff in H. destruct H as [[Hx Hy] Hz]. assert (Z : B = 0) by (unfold B, v, vdot, vsub; cbn [vx vy vz]; rewrite Hx, Hy, Hz; ring). lra. }
      rewrite Ne. cbn [orb negb]. assert (Cp : 0 < C) by lra. set (t1 := -1 * B / C). assert (T : t1 * C = - B) by (unfold t1; field; lra).
      assert (V : vx (vadd p0 (vscale t1 v)) ^ 2 + vy (vadd p0 (vscale t1 v)) ^ 2 + vz (vadd p0 (vscale t1 v)) ^ 2 = sq (between_pts p0 p1 t1)) by (unfold sq, between_pts, vadd, vscale, v, vsub; cbn [vx vy vz]; ring).
      rewrite V. split.
      * exists t1. split; [|reflexivity]. clearbody t1. split; nra.
      * intros t Ht. rewrite !F. replace B with (- (t1 * C)) by lra. assert (0 <= C * ((t - t1) * (t - t1))) by (apply Rmult_le_pos; [lra|exact (Rle_0_sqr _)]). nra.
Qed.

Lemma norm_some : forall u n, norm u = Some n -> 0 < mag u /\ u = vscale (mag u) n /\ vdot n n = 1 /\ n = vscale (/ mag u) u.
Proof.
  intros u n H. unfold norm in H. destruct (reqd (mag u) 0) eqn:M; [discriminate|]. assert (Mn : mag u <> 0) by (intro Z; apply reqd_iff in Z; congruence). pose proof (mag_nonneg u) as P. pose proof (mag_sq u) as S. assert (S' : vdot u u = mag u * mag u) by lra. set (m := mag u) in *. clearbody m. injection H as <-.
  split; [lra|]. split; [unfold vscale; apply vec_ext; cbn [vx vy vz]; field; assumption|]. split; [|unfold vscale; apply vec_ext; cbn [vx vy vz]; field; assumption].
  unfold vdot in *. cbn [vx vy vz]. transitivity ((vx u * vx u + vy u * vy u + vz u * vz u) / (m * m)); [field; assumption|]. rewrite S'. field. assumption.
Qed.

(** *** Frame of a quadrilateral *)
Definition in_frame (p0 e1 e2 n : vec) (a b g : R) : vec := vadd p0 (vadd (vadd (vscale a e1) (vscale b e2)) (vscale g n)).
Lemma expand : forall e1 e2 w, vscale (vdot (vcross e1 e2) (vcross e1 e2)) w
  = vadd (vadd (vscale (vdot (vcross w e2) (vcross e1 e2)) e1) (vscale (vdot (vcross e1 w) (vcross e1 e2)) e2)) (vscale (vdot w (vcross e1 e2)) (vcross e1 e2)).
Proof. intros. unfold vscale, vadd, vdot, vcross. apply vec_ext; cbn [vx vy vz]; ring. Qed.
Lemma not_parallel : forall u v, ~ parallel u v -> 0 < vdot (vcross u v) (vcross u v).
Proof.
  intros u v H. destruct (Rle_lt_or_eq_dec 0 (vdot (vcross u v) (vcross u v))) as [|E]; [rewrite <- sq_dot; apply sq_nonneg|assumption|]. exfalso. apply H. unfold vdot, vcross in E. cbn [vx vy vz] in E. unfold parallel.
  set (a := vy u * vz v - vz u * vy v) in *. set (b := vz u * vx v - vx u * vz v) in *. set (c := vx u * vy v - vy u * vx v) in *.
  pose proof (Rle_0_sqr a) as A. pose proof (Rle_0_sqr b) as B. pose proof (Rle_0_sqr c) as C. unfold Rsqr in *. assert (a = 0) by nra. assert (b = 0) by nra. assert (c = 0) by nra. unfold a, b, c in *. lra.
Qed.
Lemma frame_exists : forall p0 e1 e2 n, ~ parallel e1 e2 -> norm (vcross e1 e2) = Some n -> forall x, exists a b g, x = in_frame p0 e1 e2 n a b g.
Proof.
  intros p0 e1 e2 n H Hn x. apply not_parallel in H. set (D := vdot (vcross e1 e2) (vcross e1 e2)) in *. destruct (norm_some _ _ Hn) as (Mp & En & _). set (m := mag (vcross e1 e2)) in *. clearbody m.
  pose proof (expand e1 e2 (vsub x p0)) as E. fold D in E. set (A := vdot (vcross (vsub x p0) e2) (vcross e1 e2)) in *. set (B := vdot (vcross e1 (vsub x p0)) (vcross e1 e2)) in *. set (G := vdot (vsub x p0) (vcross e1 e2)) in *. rewrite En in E.
  exists (A / D), (B / D), (G * m / D). unfold vscale, vadd, vsub in E. cbn [vx vy vz] in E. injection E as E1 E2 E3. unfold in_frame, vadd, vscale. apply vec_ext; cbn [vx vy vz].
  - apply Rmult_eq_reg_r with D; [|lra]. transitivity (vx p0 * D + (vx x - vx p0) * D); [ring|]. rewrite E1. field. lra.
  - apply Rmult_eq_reg_r with D; [|lra]. transitivity (vy p0 * D + (vy x - vy p0) * D); [ring|]. rewrite E2. field. lra.
  - apply Rmult_eq_reg_r with D; [|lra]. transitivity (vz p0 * D + (vz x - vz p0) * D); [ring|]. rewrite E3. field. lra.
Qed.
Lemma tri : forall e1 e2 n u1 u2 w1 w2 w3, vdot (vcross (vadd (vscale u1 e1) (vscale u2 e2)) n) (vadd (vadd (vscale w1 e1) (vscale w2 e2)) (vscale w3 n)) = - (u1 * w2 - u2 * w1) * vdot (vcross e1 e2) n.
Proof. intros. unfold vdot, vcross, vadd, vscale. cbn [vx vy vz]. ring. Qed.
(** The unit normal of two directions. *)
Lemma unit_normal : forall e1 e2 n, norm (vcross e1 e2) = Some n -> vdot n n = 1 /\ vdot n e1 = 0 /\ vdot n e2 = 0 /\ 0 < vdot (vcross e1 e2) n.
Proof.
  intros e1 e2 n H. destruct (norm_some _ _ H) as (P & E & U & E'). split; [exact U|]. set (m := mag (vcross e1 e2)) in *. clearbody m.
  split; [rewrite E'; unfold vdot, vscale, vcross; cbn [vx vy vz]; ring|]. split; [rewrite E'; unfold vdot, vscale, vcross; cbn [vx vy vz]; ring|].
  rewrite E. replace (vdot (vscale m n) n) with (m * vdot n n) by (unfold vdot, vscale; cbn [vx vy vz]; ring). rewrite U. lra.
Qed.
(** The fourth corner in the frame of the first three. *)
Lemma fourth : forall p0 p1 p2 p3 n, proper p0 p1 p2 p3 -> exists a b, a < 0 /\ 0 < b /\ a + b < 1 /\ p3 = in_frame p0 (vsub p1 p0) (vsub p2 p0) n a b 0.
Proof.
  intros p0 p1 p2 p3 n [_ (s & t & Hs & Ht & E)]. exists (- (1 - t) / t), (s / t). unfold between_pts in E. injection E as E1 E2 E3. split; [|split; [|split]].
  - unfold Rdiv. assert (0 < / t) by (apply Rinv_0_lt_compat; lra). nra.
  - apply Rdiv_lt_0_compat; lra.
  - replace (- (1 - t) / t + s / t) with ((s + t - 1) / t) by (field; lra). apply Rmult_lt_reg_r with t; [lra|]. replace ((s + t - 1) / t * t) with (s + t - 1) by (field; lra). lra.
  - unfold in_frame, vadd, vscale, vsub. apply vec_ext; cbn [vx vy vz]; apply Rmult_eq_reg_r with t; try lra.
    + transitivity ((1 - s) * vx p0 + s * vx p2 - (1 - t) * vx p1); [lra|field; lra].
    + transitivity ((1 - s) * vy p0 + s * vy p2 - (1 - t) * vy p1); [lra|field; lra].
    + transitivity ((1 - s) * vz p0 + s * vz p2 - (1 - t) * vz p1); [lra|field; lra].
Qed.

(** The four half planes in coordinates: first corner (0,0), second (1,0), third (0,1), fourth (a,b). *)
Definition h0 (x y : R) : R := y.
Definition h1 (x y : R) : R := 1 - x - y.
Definition h2 (a b x y : R) : R := a * (y - 1) - (b - 1) * x.
Definition h3 (a b x y : R) : R := b * x - a * y.
Lemma weights_region : forall a b w0 w1 w2 w3, a < 0 -> 0 < b -> a + b < 1 -> 0 <= w0 -> 0 <= w1 -> 0 <= w2 -> 0 <= w3 -> w0 + w1 + w2 + w3 = 1 ->
  let x := w1 + a * w3 in let y := w2 + b * w3 in
  h0 x y = w2 + b * w3 /\ h1 x y = w0 + (1 - a - b) * w3 /\ h2 a b x y = - a * w0 + (1 - a - b) * w1 /\ h3 a b x y = b * w1 - a * w2.
Proof. intros a b w0 w1 w2 w3 Ha Hb Hab W0 W1 W2 W3 W x y. unfold h0, h1, h2, h3, x, y. replace w0 with (1 - w1 - w2 - w3) by lra. repeat split; ring. Qed.
Lemma region_weights : forall a b x y, a < 0 -> 0 < b -> a + b < 1 -> 0 <= h0 x y -> 0 <= h1 x y -> 0 <= h2 a b x y -> 0 <= h3 a b x y ->
  exists w0 w1 w2 w3, 0 <= w0 /\ 0 <= w1 /\ 0 <= w2 /\ 0 <= w3 /\ w0 + w1 + w2 + w3 = 1 /\ x = w1 + a * w3 /\ y = w2 + b * w3.
Proof.
  intros a b x y Ha Hb Hab H0 H1 H2 H3. unfold h0, h1, h2, h3 in *. destruct (Rle_dec 0 x) as [X|X].
  - exists (1 - x - y), x, y, 0. repeat split; lra.
  - exists ((b * x - x - a * y + a) / a), 0, ((a * y - b * x) / a), (x / a). assert (I : / a < 0) by (apply Rinv_lt_0_compat; lra).
    repeat split; try lra; [unfold Rdiv; nra|unfold Rdiv; nra|unfold Rdiv; nra|field; lra|field; lra|field; lra].
Qed.
(** Walking from inside to outside, the boundary is met. *)
Lemma crossing_list : forall l : list (R * R), (forall f g, In (f, g) l -> 0 <= f) -> (exists f g, In (f, g) l /\ g < 0) ->
  exists t, 0 <= t <= 1 /\ (forall f g, In (f, g) l -> 0 <= (1 - t) * f + t * g) /\ exists f g, In (f, g) l /\ (1 - t) * f + t * g = 0.
Proof.
  induction l as [|[f g] l IH]; intros P (f0 & g0 & I & G); [destruct I|].
  assert (Pf : 0 <= f) by (apply (P f g); left; reflexivity). assert (Pl : forall f g, In (f, g) l -> 0 <= f) by (intros; apply (P f1 g1); right; assumption).
  assert (Z : forall t f g, 0 <= t <= 1 -> 0 <= f -> 0 <= g -> 0 <= (1 - t) * f + t * g) by (intros; nra).
  destruct (Classical_Prop.classic (exists f g, In (f, g) l /\ g < 0)) as [Ex|No].
  - destruct (IH Pl Ex) as (t & Ht & A & (f1 & g1 & I1 & E1)). destruct (Rle_dec 0 ((1 - t) * f + t * g)) as [Q|Q].
    + exists t. split; [exact Ht|]. split; [intros f2 g2 [E|I2]; [injection E as <- <-; exact Q|apply A; exact I2]|]. exists f1, g1. split; [right; exact I1|exact E1].
    + assert (Gn : g < 0) by nra. set (t0 := f / (f - g)). assert (T0 : t0 * (f - g) = f) by (unfold t0; field; lra). assert (B : 0 <= t0 <= 1) by (split; nra). assert (L : t0 <= t) by nra.
      exists t0. split; [exact B|]. split.
      * intros f2 g2 [E|I2]; [injection E as <- <-; lra|]. specialize (A f2 g2 I2). specialize (Pl f2 g2 I2). destruct (Rle_dec 0 g2); [apply Z; assumption|]. assert (0 <= (t - t0) * (f2 - g2)) by nra. lra.
      * exists f, g. split; [left; reflexivity|lra].
  - assert (Gl : forall f g, In (f, g) l -> 0 <= g) by (intros f1 g1 I1; apply Rnot_lt_le; intro; apply No; exists f1, g1; auto).
    destruct I as [E|I]; [injection E as -> ->|apply Gl in I; lra]. set (t0 := f0 / (f0 - g0)). assert (T0 : t0 * (f0 - g0) = f0) by (unfold t0; field; lra). assert (B : 0 <= t0 <= 1) by (split; nra). exists t0. split; [exact B|]. split.
    + intros f2 g2 [E|I2]; [injection E as <- <-; lra|]. apply Z; [exact B|apply (Pl f2 g2); exact I2|apply (Gl f2 g2); exact I2].
    + exists f0, g0. split; [left; reflexivity|lra].
Qed.

(** *** A proper quadrilateral and a site *)
Lemma frame_sq : forall p0 e1 e2 n a b x y g, vdot n n = 1 -> vdot n e1 = 0 -> vdot n e2 = 0 ->
  sq (vsub (in_frame p0 e1 e2 n a b 0) (in_frame p0 e1 e2 n x y g)) = sq (vadd (vscale (a - x) e1) (vscale (b - y) e2)) + g * g.
Proof.
  intros p0 e1 e2 n a b x y g N1 N2 N3. transitivity (sq (vadd (vscale (a - x) e1) (vscale (b - y) e2)) + g * g * vdot n n - 2 * g * ((a - x) * vdot n e1 + (b - y) * vdot n e2)).
  - unfold sq, vsub, in_frame, vadd, vscale, vdot. cbn [vx vy vz]. ring.
  - rewrite N1, N2, N3. ring.
Qed.
Lemma scaled_sq : forall t u, sq (vscale t u) = t * t * sq u.
Proof. intros. unfold sq, vscale. cbn [vx vy vz]. ring. Qed.
Lemma seg_shift : forall p q x t, between_pts (vsub p x) (vsub q x) t = vsub (between_pts p q t) x.
Proof. intros. unfold between_pts, vsub. cbn [vx vy vz]. apply vec_ext; cbn [vx vy vz]; ring. Qed.
Lemma min4 : forall s0 s1 s2 s3, let m := Rmin (Rmin s0 s1) (Rmin s2 s3) in (m = s0 \/ m = s1 \/ m = s2 \/ m = s3) /\ m <= s0 /\ m <= s1 /\ m <= s2 /\ m <= s3.
Proof. intros s0 s1 s2 s3 m. unfold m, Rmin. destruct (Rle_dec s0 s1), (Rle_dec s2 s3); destruct Rle_dec; (split; [tauto|repeat split; lra]). Qed.
Lemma edge_weights : forall a b w0 w1 w2 w3, a < 0 -> 0 < b -> a + b < 1 -> 0 <= w0 -> 0 <= w1 -> 0 <= w2 -> 0 <= w3 ->
  w2 + b * w3 = 0 \/ w0 + (1 - a - b) * w3 = 0 \/ - a * w0 + (1 - a - b) * w1 = 0 \/ b * w1 - a * w2 = 0 ->
  (w2 = 0 /\ w3 = 0) \/ (w0 = 0 /\ w3 = 0) \/ (w0 = 0 /\ w1 = 0) \/ (w1 = 0 /\ w2 = 0).
Proof.
  assert (Z : forall k w, 0 < k -> 0 <= w -> k * w <= 0 -> w = 0) by (intros; nra).
  intros a b w0 w1 w2 w3 Ha Hb Hab W0 W1 W2 W3 [H|[H|[H|H]]]; [left|right; left|right; right; left|right; right; right].
  - assert (0 <= b * w3) by (apply Rmult_le_pos; lra). split; [lra|apply (Z b); lra].
  - assert (0 <= (1 - a - b) * w3) by (apply Rmult_le_pos; lra). split; [lra|apply (Z (1 - a - b)); lra].
  - assert (0 <= - a * w0) by (apply Rmult_le_pos; lra). assert (0 <= (1 - a - b) * w1) by (apply Rmult_le_pos; lra). split; [apply (Z (- a))|apply (Z (1 - a - b))]; lra.
  - assert (0 <= - a * w2) by (apply Rmult_le_pos; lra). assert (0 <= b * w1) by (apply Rmult_le_pos; lra). split; [apply (Z b)|apply (Z (- a))]; lra.
Qed.
Lemma quad_core : forall p0 p1 p2 p3 x horizontal, proper p0 p1 p2 p3 ->
  exists d, quad_distance_from p0 p1 p2 p3 x horizontal = Ok (d / 1000) /\
    ((over_quad p0 p1 p2 p3 x /\ (if horizontal then d = 0 else nearest (in_quad p0 p1 p2 p3) x d)) \/
     (~ over_quad p0 p1 p2 p3 x /\ nearest (in_quad p0 p1 p2 p3) x d)).
Proof.
  intros p0 p1 p2 p3 x horizontal Pr. pose proof (proj1 Pr) as NP. unfold quad_distance_from. destruct (norm (vcross (vsub p1 p0) (vsub p2 p0))) as [n|] eqn:Hn.
  2: { exfalso. pose proof (not_parallel _ _ NP) as P. unfold norm in Hn. destruct (reqd (mag (vcross (vsub p1 p0) (vsub p2 p0))) 0) eqn:M; [|discriminate]. apply reqd_iff in M. rewrite <- mag_sq, M in P. lra. }
  destruct (unit_normal _ _ _ Hn) as (N1 & N2 & N3 & KP). destruct (frame_exists p0 _ _ _ NP Hn x) as (al & be & ga & Ex). destruct (fourth p0 p1 p2 p3 n Pr) as (a & b & Ha & Hb & Hab & E3).
  set (e1 := vsub p1 p0) in *. set (e2 := vsub p2 p0) in *. set (K := vdot (vcross e1 e2) n) in *.
  assert (F0 : vdot (vcross (vsub p1 p0) n) (vsub p0 x) = K * h0 al be). { rewrite Ex. unfold K, h0, e1, e2, in_frame, vdot, vcross, vadd, vsub, vscale. cbn [vx vy vz]. ring. }
  assert (F1 : vdot (vcross (vsub p2 p1) n) (vsub p1 x) = K * h1 al be). { rewrite Ex. unfold K, h1, e1, e2, in_frame, vdot, vcross, vadd, vsub, vscale. cbn [vx vy vz]. ring. }
  assert (F2 : vdot (vcross (vsub p3 p2) n) (vsub p2 x) = K * h2 a b al be). { rewrite Ex, E3. unfold K, h2, e1, e2, in_frame, vdot, vcross, vadd, vsub, vscale. cbn [vx vy vz]. ring. }
  assert (F3 : vdot (vcross (vsub p0 p3) n) (vsub p3 x) = K * h3 a b al be). { rewrite Ex, E3. unfold K, h3, e1, e2, in_frame, vdot, vcross, vadd, vsub, vscale. cbn [vx vy vz]. ring. }
  assert (F4 : vdot (vsub p0 x) n = - ga). { rewrite Ex. transitivity (- (al * vdot n e1 + be * vdot n e2 + ga * vdot n n)); [unfold in_frame, vdot, vadd, vsub, vscale; cbn [vx vy vz]; ring|]. rewrite N1, N2, N3. ring. }
  fold e1 in F0. rewrite F0, F1, F2, F3, F4.
  (* corners and hull in the frame *)
  assert (Mix : forall w0 w1 w2 w3, w0 + w1 + w2 + w3 = 1 -> mix w0 w1 w2 w3 p0 p1 p2 p3 = in_frame p0 e1 e2 n (w1 + a * w3) (w2 + b * w3) 0).
  { intros w0 w1 w2 w3 W. replace w0 with (1 - w1 - w2 - w3) by lra. rewrite E3. unfold mix, in_frame, e1, e2, vadd, vscale, vsub. cbn [vx vy vz]. apply vec_ext; cbn [vx vy vz]; ring. }
  assert (Hull : forall u, in_quad p0 p1 p2 p3 u -> exists p q, u = in_frame p0 e1 e2 n p q 0 /\ 0 <= h0 p q /\ 0 <= h1 p q /\ 0 <= h2 a b p q /\ 0 <= h3 a b p q).
  { intros u (w0 & w1 & w2 & w3 & W0 & W1 & W2 & W3 & W & ->). exists (w1 + a * w3), (w2 + b * w3). split; [apply Mix; exact W|]. destruct (weights_region a b w0 w1 w2 w3 Ha Hb Hab W0 W1 W2 W3 W) as (-> & -> & -> & ->). repeat split; nra. }
  assert (Hull' : forall p q, 0 <= h0 p q -> 0 <= h1 p q -> 0 <= h2 a b p q -> 0 <= h3 a b p q -> in_quad p0 p1 p2 p3 (in_frame p0 e1 e2 n p q 0)).
  { intros p q H0 H1 H2 H3. destruct (region_weights a b p q Ha Hb Hab H0 H1 H2 H3) as (w0 & w1 & w2 & w3 & W0 & W1 & W2 & W3 & W & -> & ->). exists w0, w1, w2, w3. repeat (split; [assumption|]). symmetry. apply Mix. exact W. }
  assert (Sq : forall p q, sq (vsub (in_frame p0 e1 e2 n p q 0) x) = sq (vadd (vscale (p - al) e1) (vscale (q - be) e2)) + ga * ga) by (intros p q; rewrite Ex; apply frame_sq; assumption).
  assert (Over : over_quad p0 p1 p2 p3 x <-> 0 <= h0 al be /\ 0 <= h1 al be /\ 0 <= h2 a b al be /\ 0 <= h3 a b al be).
  { split.
    - intros (u & Hu & Ho). destruct (Hull u Hu) as (p & q & Eu & R0 & R1 & R2 & R3). assert (O1 := Ho p0 p1 ltac:(cbn; auto) ltac:(cbn; auto)). assert (O2 := Ho p0 p2 ltac:(cbn; auto) ltac:(cbn; auto)). fold e1 in O1. fold e2 in O2. rewrite Eu, Ex in O1, O2.
      set (w := vadd (vscale (al - p) e1) (vscale (be - q) e2)).
      assert (W1 : vdot w e1 = 0). { transitivity (vdot w e1 + ga * vdot n e1); [rewrite N2; ring|]. rewrite <- O1. unfold w, in_frame, vdot, vadd, vsub, vscale. cbn [vx vy vz]. ring. }
      assert (W2 : vdot w e2 = 0). { transitivity (vdot w e2 + ga * vdot n e2); [rewrite N3; ring|]. rewrite <- O2. unfold w, in_frame, vdot, vadd, vsub, vscale. cbn [vx vy vz]. ring. }
      assert (W0 : vdot w w = 0). { transitivity ((al - p) * vdot w e1 + (be - q) * vdot w e2); [|rewrite W1, W2; ring]. unfold w, vdot, vadd, vscale. cbn [vx vy vz]. ring. }
      assert (Wz : w = mkvec 0 0 0). { unfold vdot in W0. pose proof (Rle_0_sqr (vx w)). pose proof (Rle_0_sqr (vy w)). pose proof (Rle_0_sqr (vz w)). unfold Rsqr in *. apply vec_ext; cbn [vx vy vz]; nra. }
      assert (A1 : (al - p) * K = 0). { transitivity (vdot (vcross w e2) n); [unfold w, K, vdot, vcross, vadd, vscale; cbn [vx vy vz]; ring|]. rewrite Wz. unfold vdot, vcross. cbn [vx vy vz]. ring. }
      assert (A2 : (be - q) * K = 0). { transitivity (vdot (vcross e1 w) n); [unfold w, K, vdot, vcross, vadd, vscale; cbn [vx vy vz]; ring|]. rewrite Wz. unfold vdot, vcross. cbn [vx vy vz]. ring. }
      assert (al = p) by nra. assert (be = q) by nra. subst. auto.
    - intros (R0 & R1 & R2 & R3). exists (in_frame p0 e1 e2 n al be 0). split; [apply Hull'; assumption|].
      assert (C : forall c, In c [p0; p1; p2; p3] -> vdot n c = vdot n p0).
      { intros c [<-|[<-|[<-|[<-|[]]]]]; [reflexivity| | |].
        - transitivity (vdot n p0 + vdot n e1); [unfold e1, vdot, vsub; cbn [vx vy vz]; ring|rewrite N2; ring].
        - transitivity (vdot n p0 + vdot n e2); [unfold e2, vdot, vsub; cbn [vx vy vz]; ring|rewrite N3; ring].
        - rewrite E3. transitivity (vdot n p0 + a * vdot n e1 + b * vdot n e2); [unfold in_frame, vdot, vadd, vscale; cbn [vx vy vz]; ring|rewrite N2, N3; ring]. }
      intros c d Hc Hd. transitivity (ga * (vdot n d - vdot n c)); [|rewrite (C c Hc), (C d Hd); ring]. rewrite Ex. unfold in_frame, vdot, vadd, vsub, vscale. cbn [vx vy vz]. ring. }
  assert (Sg : forall h, signbit (K * h) = false <-> 0 <= h) by (intro h; unfold signbit; rewrite rltb_f; split; intro; nra).
  destruct (Rle_dec 0 (h0 al be)) as [R0|R0], (Rle_dec 0 (h1 al be)) as [R1|R1], (Rle_dec 0 (h2 a b al be)) as [R2|R2], (Rle_dec 0 (h3 a b al be)) as [R3|R3].
  (* inside *)
  { rewrite (proj2 (Sg _) R0), (proj2 (Sg _) R1), (proj2 (Sg _) R2), (proj2 (Sg _) R3). cbn [eqb andb]. destruct horizontal.
    - exists 0. split; [rewrite sqrt_0; reflexivity|]. left. split; [apply Over; auto|reflexivity].
    - exists (sqrt (Rabs (- ga) ^ 2)). split; [reflexivity|]. left. split; [apply Over; auto|]. assert (Eg : Rabs (- ga) ^ 2 = ga * ga) by (unfold Rabs; destruct Rcase_abs; ring). rewrite Eg. split.
      + exists (in_frame p0 e1 e2 n al be 0). split; [apply Hull'; assumption|]. rewrite dist_sq, Sq. f_equal. unfold sq, vadd, vscale. cbn [vx vy vz]. ring.
      + intros u Hu. destruct (Hull u Hu) as (p & q & -> & _). rewrite dist_sq, Sq. apply sqrt_le_1_alt. pose proof (sq_nonneg (vadd (vscale (p - al) e1) (vscale (q - be) e2))). lra. }
  all: assert (NO : ~ over_quad p0 p1 p2 p3 x) by (rewrite Over; tauto).
  all: assert (In_f : eqb (signbit (K * h0 al be)) (signbit (K * h1 al be)) && eqb (signbit (K * h1 al be)) (signbit (K * h2 a b al be)) && eqb (signbit (K * h2 a b al be)) (signbit (K * h3 a b al be)) = false).
  all: try (apply not_true_is_false; intro T; rewrite !andb_true_iff, !eqb_true_iff in T; destruct T as [[T1 T2] T3];
     first [ apply Sg in R0; rewrite R0 in T1; symmetry in T1; rewrite T1 in T2; symmetry in T2; rewrite T2 in T3; symmetry in T3; apply Sg in T1; apply Sg in T2; apply Sg in T3; tauto
           | apply Sg in R1; rewrite R1 in T1, T2; apply Sg in T1; symmetry in T2; rewrite T2 in T3; symmetry in T3; apply Sg in T2; apply Sg in T3; tauto
           | apply Sg in R2; rewrite R2 in T2, T3; rewrite T2 in T1; symmetry in T3; apply Sg in T1; apply Sg in T2; apply Sg in T3; tauto
           | apply Sg in R3; rewrite R3 in T3; rewrite T3 in T2; rewrite T2 in T1; apply Sg in T1; apply Sg in T2; apply Sg in T3; tauto
           | exfalso; unfold h0, h1, h2, h3 in R0, R1, R2, R3; lra ]).
  all: rewrite In_f; clear In_f.
  all: match goal with |- exists d, Ok (sqrt ?S / 1000) = _ /\ _ => exists (sqrt S) end.
  all: split; [reflexivity|right; split; [exact NO|]].
  all: assert (Neg : h0 al be < 0 \/ h1 al be < 0 \/ h2 a b al be < 0 \/ h3 a b al be < 0) by (clear - R0 R1 R2 R3; lra).
  all: clear R0 R1 R2 R3 NO.
  all: destruct (segment_ok (vsub p0 x) (vsub p1 x)) as [(t0 & B0 & A0) L0]; destruct (segment_ok (vsub p1 x) (vsub p2 x)) as [(t1 & B1 & A1) L1];
       destruct (segment_ok (vsub p2 x) (vsub p3 x)) as [(t2 & B2 & A2) L2]; destruct (segment_ok (vsub p3 x) (vsub p0 x)) as [(t3 & B3 & A3) L3].
  all: set (s0 := distance_sq_to_segment (vsub p0 x) (vsub p1 x)) in *; set (s1 := distance_sq_to_segment (vsub p1 x) (vsub p2 x)) in *; set (s2 := distance_sq_to_segment (vsub p2 x) (vsub p3 x)) in *; set (s3 := distance_sq_to_segment (vsub p3 x) (vsub p0 x)) in *.
  all: rewrite seg_shift in A0, A1, A2, A3.
  all: assert (Q0 : in_quad p0 p1 p2 p3 (between_pts p0 p1 t0)) by (exists (1 - t0), t0, 0, 0; repeat (split; [lra|]); unfold between_pts, mix; apply vec_ext; cbn [vx vy vz]; ring).
  all: assert (Q1 : in_quad p0 p1 p2 p3 (between_pts p1 p2 t1)) by (exists 0, (1 - t1), t1, 0; repeat (split; [lra|]); unfold between_pts, mix; apply vec_ext; cbn [vx vy vz]; ring).
  all: assert (Q2 : in_quad p0 p1 p2 p3 (between_pts p2 p3 t2)) by (exists 0, 0, (1 - t2), t2; repeat (split; [lra|]); unfold between_pts, mix; apply vec_ext; cbn [vx vy vz]; ring).
  all: assert (Q3 : in_quad p0 p1 p2 p3 (between_pts p3 p0 t3)) by (exists t3, 0, 0, (1 - t3); repeat (split; [lra|]); unfold between_pts, mix; apply vec_ext; cbn [vx vy vz]; ring).
  all: destruct (min4 s0 s1 s2 s3) as (Mc & M0 & M1 & M2 & M3); set (m := Rmin (Rmin s0 s1) (Rmin s2 s3)) in *; clearbody m.
  all: split; [destruct Mc as [-> | [-> | [-> | -> ]]]; [exists (between_pts p0 p1 t0)|exists (between_pts p1 p2 t1)|exists (between_pts p2 p3 t2)|exists (between_pts p3 p0 t3)]; (split; [assumption|rewrite dist_sq; f_equal; assumption])|].
  all: clear Q0 Q1 Q2 Q3 A0 A1 A2 A3 Mc B0 B1 B2 B3 F0 F1 F2 F3 F4 Over Sg.
  all: intros u Hu; destruct (Hull u Hu) as (p & q & -> & R0 & R1 & R2 & R3).
  all: destruct (crossing_list [(h0 p q, h0 al be); (h1 p q, h1 al be); (h2 a b p q, h2 a b al be); (h3 a b p q, h3 a b al be)]) as (t & Ht & P & f & g & I & E);
    [intros f g [W|[W|[W|[W|[]]]]]; injection W as <- <-; assumption
    |destruct Neg as [Neg|[Neg|[Neg|Neg]]]; (eexists; eexists; split; [|exact Neg]); cbn [In]; eauto|].
  all: set (rx := (1 - t) * p + t * al); set (ry := (1 - t) * q + t * be).
  all: assert (G0 : 0 <= h0 rx ry) by (replace (h0 rx ry) with ((1 - t) * h0 p q + t * h0 al be) by (unfold h0, rx, ry; ring); apply P; cbn [In]; auto).
  all: assert (G1 : 0 <= h1 rx ry) by (replace (h1 rx ry) with ((1 - t) * h1 p q + t * h1 al be) by (unfold h1, rx, ry; ring); apply P; cbn [In]; auto).
  all: assert (G2 : 0 <= h2 a b rx ry) by (replace (h2 a b rx ry) with ((1 - t) * h2 a b p q + t * h2 a b al be) by (unfold h2, rx, ry; ring); apply P; cbn [In]; auto).
  all: assert (G3 : 0 <= h3 a b rx ry) by (replace (h3 a b rx ry) with ((1 - t) * h3 a b p q + t * h3 a b al be) by (unfold h3, rx, ry; ring); apply P; cbn [In]; auto 6).
  all: assert (Z : h0 rx ry = 0 \/ h1 rx ry = 0 \/ h2 a b rx ry = 0 \/ h3 a b rx ry = 0) by
    (destruct I as [W|[W|[W|[W|[]]]]]; injection W as <- <-; rewrite <- E; unfold h0, h1, h2, h3, rx, ry;
     [left; ring|right; left; ring|right; right; left; ring|right; right; right; ring]).
  all: apply Rle_trans with (sqrt (sq (vsub (in_frame p0 e1 e2 n rx ry 0) x)));
    [|rewrite dist_sq, !Sq; apply sqrt_le_1_alt; apply Rplus_le_compat_r;
      replace (vadd (vscale (rx - al) e1) (vscale (ry - be) e2)) with (vscale (1 - t) (vadd (vscale (p - al) e1) (vscale (q - be) e2))) by (unfold rx, ry, vadd, vscale; cbn [vx vy vz]; apply vec_ext; cbn [vx vy vz]; ring);
      rewrite scaled_sq; assert (S0 := sq_nonneg (vadd (vscale (p - al) e1) (vscale (q - be) e2))); set (S1 := sq (vadd (vscale (p - al) e1) (vscale (q - be) e2))) in *; clearbody S1; assert ((1 - t) * (1 - t) <= 1) by (clear - Ht; nra); clear - H S0; nra].
  all: apply sqrt_le_1_alt; destruct (region_weights a b rx ry Ha Hb Hab G0 G1 G2 G3) as (w0 & w1 & w2 & w3 & W0 & W1 & W2 & W3 & W & Er1 & Er2); rewrite Er1, Er2, <- (Mix w0 w1 w2 w3 W).
  all: destruct (weights_region a b w0 w1 w2 w3 Ha Hb Hab W0 W1 W2 W3 W) as (Y0 & Y1 & Y2 & Y3); cbv zeta in Y0, Y1, Y2, Y3; rewrite Er1, Er2 in Z; clear Er1 Er2 Mix Hull Hull' Sq P; clearbody rx ry.
  all: rewrite Y0, Y1, Y2, Y3 in Z.
  all: assert (Cs := edge_weights a b w0 w1 w2 w3 Ha Hb Hab W0 W1 W2 W3 Z).
  all: destruct Cs as [[C1 C2]|[[C1 C2]|[[C1 C2]|[C1 C2]]]].
  all: first [ apply Rle_trans with s0; [exact M0|]; specialize (L0 w1 ltac:(lra)); rewrite seg_shift in L0; replace (mix w0 w1 w2 w3 p0 p1 p2 p3) with (between_pts p0 p1 w1); [exact L0|]; replace w0 with (1 - w1) by lra; rewrite C1, C2; unfold between_pts, mix; apply vec_ext; cbn [vx vy vz]; ring
     | apply Rle_trans with s1; [exact M1|]; specialize (L1 w2 ltac:(lra)); rewrite seg_shift in L1; replace (mix w0 w1 w2 w3 p0 p1 p2 p3) with (between_pts p1 p2 w2); [exact L1|]; replace w1 with (1 - w2) by lra; rewrite C1, C2; unfold between_pts, mix; apply vec_ext; cbn [vx vy vz]; ring
     | apply Rle_trans with s2; [exact M2|]; specialize (L2 w3 ltac:(lra)); rewrite seg_shift in L2; replace (mix w0 w1 w2 w3 p0 p1 p2 p3) with (between_pts p2 p3 w3); [exact L2|]; replace w2 with (1 - w3) by lra; rewrite C1, C2; unfold between_pts, mix; apply vec_ext; cbn [vx vy vz]; ring
     | apply Rle_trans with s3; [exact M3|]; specialize (L3 w0 ltac:(lra)); rewrite seg_shift in L3; replace (mix w0 w1 w2 w3 p0 p1 p2 p3) with (between_pts p3 p0 w0); [exact L3|]; replace w3 with (1 - w0) by lra; rewrite C1, C2; unfold between_pts, mix; apply vec_ext; cbn [vx vy vz]; ring ].
Qed.
Lemma div_nonneg : forall a b, 0 <= a -> 0 < b -> 0 <= a / b.
Proof. intros a b A B. unfold Rdiv. apply Rmult_le_pos; [exact A|]. apply Rlt_le, Rinv_0_lt_compat, B. Qed.
