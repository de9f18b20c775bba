(** Proofs about sizes of quadrilaterals. *)
From Coq Require Import ZArith Reals String Ascii Bool List Lia Lra.
From Verif Require Import PyBase PyStr VecModel GeoModel RuptModel PolyModel SizeModel RuptSpec GeoSpec PolySpec SizeSpec VecProofs GeoTrig GeoProofs RuptProofs.
Import ListNotations.
Open Scope R_scope.

Lemma fold_length quads : forall s, fold_left (fun s q => s + q_length q) quads s = s + total (map q_length quads).
Proof. induction quads as [|q l IH]; intro s; cbn [fold_left map total]; [ring|]. rewrite IH. ring. Qed.
Lemma rsum_total l : rsum l = total l.
Proof. induction l as [|x l IH]; [reflexivity|]. cbn [total]. rewrite <- IH. reflexivity. Qed.
Lemma fold_none l : fold_left oadd l None = None.
Proof. induction l as [|x l IH]; [reflexivity|]. cbn [fold_left oadd]. exact IH. Qed.
Lemma osum_some {A} (f : A -> option R) (g : A -> R) l : Forall (fun a => f a = Some (g a)) l -> forall s, fold_left oadd (map f l) (Some s) = Some (s + total (map g l)).
Proof.
  induction 1 as [|a l H _ IH]; intro s; cbn [map fold_left total]; [f_equal; ring|]. rewrite H. cbn [oadd]. rewrite IH. f_equal. ring.
Qed.
Lemma osum_none {A} (f : A -> option R) l : Exists (fun a => f a = None) l -> forall s, fold_left oadd (map f l) s = None.
Proof.
  induction 1 as [a l H|a l _ IH]; intro s; cbn [map fold_left]; [|apply IH]. rewrite H. destruct s; cbn [oadd]; apply fold_none.
Qed.
Lemma total_scale k l : total (map (fun x => k * x) l) = k * total l.
Proof. induction l as [|x l IH]; cbn [map total]; [ring|]. rewrite IH. ring. Qed.
Lemma total_app a b : total (a ++ b) = total a + total b.
Proof. induction a as [|x a IH]; cbn [app total]; [ring|]. rewrite IH. ring. Qed.
Lemma total_bounds lo hi l : Forall (fun x => lo <= x <= hi) l -> INR (length l) * lo <= total l <= INR (length l) * hi.
Proof.
  induction 1 as [|x l H _ IH]; cbn [total]; [cbn [length INR]; lra|]. change (length (x :: l)) with (S (length l)). rewrite S_INR. lra.
Qed.
Lemma mean_bounds l m lo hi : mean_is l m -> Forall (fun x => lo <= x <= hi) l -> lo <= m <= hi.
Proof.
  intros [N E] F. apply total_bounds in F. rewrite E in F. assert (P : 0 < INR (length l)) by (apply lt_0_INR; destruct l; [contradiction|cbn; lia]). split; apply Rmult_le_reg_l with (INR (length l)); tauto.
Qed.
(** The size of a vector product and the width times the length. *)
Lemma width_length p0 p1 p3 w : get_quad_width p0 p1 p3 = Some w -> 1000 * w * mag (vsub p1 p0) = mag (vcross (vsub p1 p0) (vsub p3 p0)).
Proof.
  intro H. unfold get_quad_width in H. set (e := vsub p0 p1) in *. set (c := vsub p0 p3) in *. destruct (norm _) as [t|] eqn:N; [|discriminate]. apply (f_equal (fun o => match o with Some x => x | None => w end)) in H. cbn [option_map] in H.
  destruct (norm_some _ _ N) as (P & _ & _ & E). set (k := vcross (vcross e c) e) in *.
  assert (K : vdot k c = vdot (vcross e c) (vcross e c)) by (unfold k, vdot, vcross; cbn [vx vy vz]; ring).
  assert (M : mag k = mag (vcross e c) * mag e). { rewrite !mag_dot. rewrite <- sqrt_mult by apply dot_pos. f_equal. unfold k. rewrite (lagrange (vcross e c) e). replace (vdot (vcross e c) e) with 0 by (unfold vdot, vcross; cbn [vx vy vz]; ring). ring. }
  assert (D : vdot t c = vdot k c / mag k) by (rewrite E; unfold vdot, vscale, Rdiv; cbn [vx vy vz]; ring).
  replace (mag (vsub p1 p0)) with (mag e) by apply mag_opp. replace (mag (vcross (vsub p1 p0) (vsub p3 p0))) with (mag (vcross e c)) by (f_equal; unfold e, c, vcross, vsub; apply vec_ext; cbn [vx vy vz]; ring).
  rewrite <- H, D, K, <- mag_sq, M. rewrite M in P. pose proof (mag_nonneg e). pose proof (mag_nonneg (vcross e c)).
  assert (mag e <> 0) by (intro Z; rewrite Z in P; lra). assert (mag (vcross e c) <> 0) by (intro Z; rewrite Z in P; lra). field. split; assumption.
Qed.
Lemma width_none p0 p1 p3 : get_quad_width p0 p1 p3 = None <-> parallel (vsub p1 p0) (vsub p3 p0).
Proof.
  unfold get_quad_width. set (e := vsub p0 p1). set (c := vsub p0 p3).
  assert (X : forall u v, parallel u v <-> vcross u v = v0) by (intros [a b c'] [a' b' c'']; unfold parallel, vcross, v0; cbn [vx vy vz]; split; [intros (A & B & C); apply vec_ext; cbn [vx vy vz]; lra|intro E; injection E; intros; repeat split; lra]).
  rewrite X. replace (vcross (vsub p1 p0) (vsub p3 p0)) with (vcross e c) by (unfold e, c, vcross, vsub; apply vec_ext; cbn [vx vy vz]; ring).
  assert (M : mag (vcross (vcross e c) e) = mag (vcross e c) * mag e). { rewrite !mag_dot. rewrite <- sqrt_mult by apply dot_pos. f_equal. rewrite (lagrange (vcross e c) e). replace (vdot (vcross e c) e) with 0 by (unfold vdot, vcross; cbn [vx vy vz]; ring). ring. }
  unfold norm. destruct (reqd (mag _) 0) eqn:Z; cbn [option_map].
  - apply reqd_iff in Z. rewrite M in Z. split; [intros _|reflexivity]. apply Rmult_integral in Z. destruct Z as [Z|Z]; apply mag_zero in Z; [exact Z|]. rewrite Z. unfold vcross, v0. apply vec_ext; cbn [vx vy vz]; ring.
  - split; [discriminate|]. intro E. rewrite M, E in Z. rewrite (proj2 (mag_zero v0) eq_refl), Rmult_0_l, (proj2 (reqd_iff 0 0) eq_refl) in Z. discriminate.
Qed.

Lemma bears_azimuth P Q : bears P Q (p_azimuth P Q).
Proof.
  destruct P as [[lon1 lat1] d1], Q as [[lon2 lat2] d2]. unfold bears, p_azimuth. destruct (azimuth_trig lon1 lat1 lon2 lat2) as (B & Te & Tn & Z). split; [exact B|].
  exists (sqrt (eastward lon1 lat1 lon2 lat2 ^ 2 + northward lon1 lat1 lon2 lat2 ^ 2)). split; [apply sqrt_pos|]. split; [|split; assumption].
  intro H. apply Z; [rewrite Te, H; ring|rewrite Tn, H; ring].
Qed.
Lemma bears_fun P Q a b : bears P Q a -> bears P Q b -> a = b.
Proof.
  destruct P as [[lon1 lat1] d1], Q as [[lon2 lat2] d2]. unfold bears. intros (Ra & x & X0 & Xz & Xe & Xn) (Rb & y & Y0 & Yz & Ye & Yn). set (e := scalar _ _) in *. set (n := scalar _ _) in Xn, Yn.
  assert (Q : x = y). { apply Rsqr_inj; [assumption|assumption|]. unfold Rsqr. pose proof (sc2 (deg a)). pose proof (sc2 (deg b)). transitivity (e * e + n * n); [rewrite Xe, Xn; nra|rewrite Ye, Yn; nra]. }
  subst y. destruct (Req_dec x 0) as [Z|Z]; [rewrite (Xz Z), (Yz Z); reflexivity|].
  destruct (deg_same a b) as (k & Ek); [apply (Rmult_eq_reg_l x); [congruence|exact Z]|apply (Rmult_eq_reg_l x); [congruence|exact Z]|].
  assert (-1 < IZR k < 1) as [A B] by (split; lra). apply lt_IZR in A, B. assert (k = 0%Z) by lia. subst k. lra.
Qed.
(** The weighted sums of sines and cosines. *)
Definition wsum (f : R -> R) (al : list (R * R)) : R := total (map (fun p => snd p * f (fst p)) al).
Lemma wsum_lin f g h x y al : (forall a, h a = x * f a + y * g a) -> wsum h al = x * wsum f al + y * wsum g al.
Proof. intro E. unfold wsum. induction al as [|[a l] r IH]; cbn [map total fst snd]; [ring|]. rewrite IH, E. ring. Qed.
Lemma wsum_nonneg f al : Forall (fun p => 0 <= snd p /\ 0 <= f (fst p)) al -> 0 <= wsum f al.
Proof. unfold wsum. induction 1 as [|[a l] r [A B] _ IH]; cbn [map total fst snd] in *; [lra|]. pose proof (Rmult_le_pos _ _ A B). lra. Qed.
Lemma wsum_pos f al : Forall (fun p => 0 <= snd p /\ 0 < f (fst p)) al -> 0 < total (map snd al) -> 0 < wsum f al.
Proof.
  unfold wsum. induction 1 as [|[a l] r [A B] F IH]; cbn [map total fst snd] in *; [lra|]. intro P. destruct (Rle_lt_or_eq_dec _ _ A) as [L|L].
  - assert (0 <= total (map (fun p => snd p * f (fst p)) r)). { apply (wsum_nonneg f). eapply Forall_impl; [|exact F]. intros p [X Y]. split; lra. } pose proof (Rmult_lt_0_compat _ _ L B). lra.
  - subst l. assert (0 < total (map (fun p => snd p * f (fst p)) r)) by (apply IH; lra). lra.
Qed.
Lemma get_strike_sums quads s : get_strike quads = Some s -> let al := map (fun q => (p_azimuth (q0 q) (q1 q), q_length q)) quads in
  total (map snd al) <> 0 /\ s = degrees (arctan2 (wsum (fun a => sin (deg a)) al / total (map snd al)) (wsum (fun a => cos (deg a)) al / total (map snd al))).
Proof.
  intros H al. unfold get_strike in H. cbv zeta in H.
  assert (T : rsum (map q_length quads) = total (map snd al)) by (unfold al; rewrite rsum_total, map_map; reflexivity).
  assert (W : forall f, rsum (map (fun p => fst p * snd p) (combine (map (fun s => f (radians s)) (map (fun q => p_azimuth (q0 q) (q1 q)) quads)) (map q_length quads))) = wsum (fun a => f (deg a)) al).
  { intro f. rewrite rsum_total. unfold wsum, al. clear. induction quads as [|q l IH]; [reflexivity|]. cbn [map combine total fst snd]. rewrite IH, radians_deg. ring. }
  rewrite T in H. rewrite (W sin), (W cos) in H. destruct (reqd (total (map snd al)) 0) eqn:Z; [discriminate|]. split; [intro E; rewrite (proj2 (reqd_iff _ _) E) in Z; discriminate|]. congruence.
Qed.
Lemma q_length_nonneg q : 0 <= q_length q.
Proof. unfold q_length, get_quad_length. apply div_nonneg; [apply mag_nonneg|lra]. Qed.
Lemma total_nonneg l : Forall (fun x => 0 <= x) l -> 0 <= total l.
Proof. induction 1; cbn [total]; lra. Qed.
Lemma in_arc h d : 0 <= h < PI / 2 -> 0 < cos d -> 0 <= sin (h - d) -> 0 <= sin (h + d) -> - PI < d <= PI -> - h <= d <= h.
Proof.
  intros Hh C S1 S2 D. pose proof pi_pos. assert (- (PI / 2) < d < PI / 2).
  { split; apply Rnot_le_lt; intro X; assert (cos d <= 0); try lra; [replace d with (- (- d)) by ring; rewrite cos_neg|]; apply cos_le_0; lra. }
  split; apply Rnot_lt_le; intro X.
  - assert (0 < sin (- (h + d))) by (apply sin_gt_0; lra). rewrite sin_neg in *. lra.
  - assert (0 < sin (- (h - d))) by (apply sin_gt_0; lra). rewrite sin_neg in *. lra.
Qed.
Lemma strike_polar quads s : get_strike quads = Some s -> let al := map (fun q => (p_azimuth (q0 q) (q1 q), q_length q)) quads in
  -180 < s <= 180 /\ 0 < total (map snd al) /\ exists r, 0 <= r /\ wsum (fun a => sin (deg a)) al = r * sin (deg s) /\ wsum (fun a => cos (deg a)) al = r * cos (deg s).
Proof.
  intros H al. destruct (get_strike_sums _ _ H) as [N E]. fold al in N, E. set (L := total (map snd al)) in *. set (X := wsum _ al) in *. set (Y := wsum (fun a => cos (deg a)) al) in *.
  assert (P : 0 < L). { assert (0 <= L); [|lra]. apply total_nonneg. unfold al. rewrite map_map. apply Forall_forall. intros x I. apply in_map_iff in I. destruct I as (q & <- & _). apply q_length_nonneg. }
  pose proof pi_pos as Pi. split; [rewrite E; pose proof (arctan2_range (X / L) (Y / L)) as Rg; rewrite (deg_lt (-180)), (deg_le _ 180), deg_m180, deg_180, deg_degrees; exact Rg|]. split; [exact P|].
  rewrite E, deg_degrees. destruct (Req_dec X 0) as [X0|X0]; [destruct (Req_dec Y 0) as [Y0|Y0]|].
  - exists 0. rewrite X0, Y0. split; [lra|]. split; ring.
  - assert (Nz : Y / L <> 0) by (unfold Rdiv; apply Rmult_integral_contrapositive; split; [exact Y0|apply Rinv_neq_0_compat; lra]). destruct (arctan2_spec (X / L) (Y / L) (or_introl Nz)) as [Es Ec]. pose proof (hyp_pos (Y / L) (X / L) (or_introl Nz)) as Hp.
    exists (L * sqrt ((Y / L) ^ 2 + (X / L) ^ 2)). split; [apply Rmult_le_pos; lra|]. rewrite Es, Ec. set (h := sqrt _) in *. split; field; split; lra.
  - assert (Nz : X / L <> 0) by (unfold Rdiv; apply Rmult_integral_contrapositive; split; [exact X0|apply Rinv_neq_0_compat; lra]). destruct (arctan2_spec (X / L) (Y / L) (or_intror Nz)) as [Es Ec]. pose proof (hyp_pos (Y / L) (X / L) (or_intror Nz)) as Hp.
    exists (L * sqrt ((Y / L) ^ 2 + (X / L) ^ 2)). split; [apply Rmult_le_pos; lra|]. rewrite Es, Ec. set (h := sqrt _) in *. split; field; split; lra.
Qed.
Lemma strike_arc quads s m h : 0 <= h < 90 -> get_strike quads = Some s -> Forall (fun q => within h (p_azimuth (q0 q) (q1 q)) m) quads -> within h s m.
Proof.
  intros Hh H F. destruct (strike_polar _ _ H) as (_ & P & r & R0 & EX & EY). set (al := map _ quads) in *. pose proof pi_pos as Pi.
  assert (Hd : 0 <= deg h < PI / 2) by (rewrite <- deg_90; split; [replace 0 with (deg 0) by (unfold deg; field); apply (proj1 (deg_le 0 h)); lra|apply (proj1 (deg_lt h 90)); lra]).
  assert (G : Forall (fun p => 0 <= snd p /\ 0 < cos (deg (fst p) - deg m) /\ 0 <= sin (deg h - (deg (fst p) - deg m)) /\ 0 <= sin (deg h + (deg (fst p) - deg m))) al).
  { unfold al. apply Forall_forall. intros p I. apply in_map_iff in I. destruct I as (q & <- & I). cbn [fst snd]. split; [apply q_length_nonneg|]. rewrite Forall_forall in F. destruct (F q I) as (t & Ht & (k & Ek)). set (a := p_azimuth _ _) in *.
    assert (Ht' : - deg h <= deg t <= deg h). { replace (- deg h) with (deg (- h)) by (unfold deg; field). rewrite <- !deg_le. exact Ht. }
    replace (deg a - deg m) with (deg t + 2 * IZR k * PI) by (rewrite <- deg_sub, <- deg_turn, <- deg_add; f_equal; lra). rewrite cos_periodZ.
    split; [apply cos_gt_0; lra|]. replace (deg h - (deg t + 2 * IZR k * PI)) with (deg h - deg t + 2 * IZR (- k) * PI) by (rewrite opp_IZR; ring). replace (deg h + (deg t + 2 * IZR k * PI)) with (deg h + deg t + 2 * IZR k * PI) by ring. rewrite !sin_periodZ. split; apply sin_ge_0; lra. }
  assert (A1 : 0 < r * cos (deg s - deg m)). { replace (r * cos (deg s - deg m)) with (wsum (fun a => cos (deg a - deg m)) al); [apply wsum_pos; [eapply Forall_impl; [|exact G]; intros p Q; cbv beta in Q |- *; tauto|exact P]|].
    rewrite (wsum_lin (fun a => sin (deg a)) (fun a => cos (deg a)) _ (sin (deg m)) (cos (deg m))) by (intro a; rewrite cos_minus; ring). rewrite EX, EY, cos_minus. ring. }
  assert (A2 : 0 <= r * sin (deg h - (deg s - deg m))). { replace (r * sin (deg h - (deg s - deg m))) with (wsum (fun a => sin (deg h - (deg a - deg m))) al); [apply wsum_nonneg; eapply Forall_impl; [|exact G]; intros p Q; cbv beta in Q |- *; tauto|].
    rewrite (wsum_lin (fun a => sin (deg a)) (fun a => cos (deg a)) _ (- cos (deg h + deg m)) (sin (deg h + deg m))). 2: { intro a. replace (deg h - (deg a - deg m)) with (deg h + deg m - deg a) by ring. rewrite sin_minus. ring. }
    rewrite EX, EY. replace (deg h - (deg s - deg m)) with (deg h + deg m - deg s) by ring. rewrite sin_minus. ring. }
  assert (A3 : 0 <= r * sin (deg h + (deg s - deg m))). { replace (r * sin (deg h + (deg s - deg m))) with (wsum (fun a => sin (deg h + (deg a - deg m))) al); [apply wsum_nonneg; eapply Forall_impl; [|exact G]; intros p Q; cbv beta in Q |- *; tauto|].
    rewrite (wsum_lin (fun a => sin (deg a)) (fun a => cos (deg a)) _ (cos (deg h - deg m)) (sin (deg h - deg m))). 2: { intro a. replace (deg h + (deg a - deg m)) with (deg h - deg m + deg a) by ring. rewrite sin_plus. ring. }
    rewrite EX, EY. replace (deg h + (deg s - deg m)) with (deg h - deg m + deg s) by ring. rewrite sin_plus. ring. }
  assert (Rp : 0 < r) by (destruct R0 as [R0|R0]; [exact R0|rewrite <- R0, Rmult_0_l in A1; lra]).
  set (d := deg s - deg m) in *. set (d' := arctan2 (sin d) (cos d)).
  assert (T : sin d' = sin d /\ cos d' = cos d). { assert (Q : (cos d) ^ 2 + (sin d) ^ 2 = 1) by (pose proof (sc2 d); lra). assert (Nz : cos d <> 0) by nra. destruct (arctan2_spec (sin d) (cos d) (or_introl Nz)) as [Ts Tc]. fold d' in Ts, Tc. rewrite Q, sqrt_1 in Ts, Tc. split; lra. }
  destruct T as [Ts Tc].
  assert (I : - deg h <= d' <= deg h).
  { apply in_arc; [exact Hd| | | |apply arctan2_range].
    - rewrite Tc. nra.
    - rewrite sin_minus, Ts, Tc, <- sin_minus. apply Rmult_le_reg_l with r; lra.
    - rewrite sin_plus, Ts, Tc, <- sin_plus. apply Rmult_le_reg_l with r; lra. }
  exists (degrees d'). split.
  - rewrite (deg_le (- h)), (deg_le _ h), deg_degrees. replace (deg (- h)) with (- deg h) by (unfold deg; field). exact I.
  - apply deg_same; rewrite deg_add, deg_degrees; replace (deg s) with (deg m + d) by (unfold d; ring); rewrite ?sin_plus, ?cos_plus, Ts, Tc; reflexivity.
Qed.
