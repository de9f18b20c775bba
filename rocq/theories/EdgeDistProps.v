(** Property C85: distances to ruptures given by their edges. *)
From Coq Require Import ZArith Reals String Ascii Bool List Lia Lra.
From Verif Require Import PyBase PyStr VecModel GeoModel RuptModel PolyModel SizeModel RuptSpec GeoSpec PolySpec SizeSpec VecProofs GeoTrig RuptProofs MeshProps EdgeProofs EdgeProps EquatorProofs SizeProofs EdgeSizeProofs EdgeSizeProps CoverProofs.
Import ListNotations.
Open Scope R_scope.

(** The four corners, moved by [f], as vectors. *)
Definition spans (f : vertex -> vertex) (c : patch) (u : vec) : Prop := spanned (ecef (f (p_tl c))) (ecef (f (p_tr c))) (ecef (f (p_br c))) (ecef (f (p_bl c))) u.
Definition evens (f : vertex -> vertex) (k : R) (c : patch) : Prop := even k (ecef (f (p_tl c))) (ecef (f (p_tr c))) (ecef (f (p_br c))) (ecef (f (p_bl c))).
Lemma rmin_smallest l : l <> [] -> exists d, rmin_list l = Some d /\ smallest l d.
Proof.
  induction l as [|x l IH]; [contradiction|]. intros _. cbn [rmin_list]. destruct l as [|y l]; [exists x; split; [reflexivity|]; split; [left; reflexivity|]; intros z [<-|[]]; lra|]. destruct IH as (d & E & I & Le); [discriminate|]. rewrite E. exists (Rmin x d). split; [reflexivity|]. split.
  - destruct (Rle_dec x d); [rewrite Rmin_left by lra; left; reflexivity|rewrite Rmin_right by lra; right; exact I].
  - intros z [<-|J]; [apply Rmin_l|eapply Rle_trans; [apply Rmin_r|apply Le; exact J]].
Qed.
Lemma meshes_cover f dx e is cs : 0 < dx -> Forall2 (fun i c => corners_at e i (i + 1) = Ok (corners c)) is cs -> Forall (fun c => Forall (fun v => on_earth (f v)) [p_tl c; p_tr c; p_br c; p_bl c]) cs ->
  exists pts, meshes f dx e (map (fun i => (i, (i + 1)%nat)) is) = Ok pts /\ (cs <> [] -> pts <> []) /\ (forall v, In v pts -> exists c, In c cs /\ spans f c v) /\
  forall k u c, 1 <= k -> In c cs -> evens f k c -> spans f c u -> exists v, In v pts /\ dist u v <= 1500 * k * dx.
Proof.
  intros Hd F. induction F as [|i c is cs E _ IH]; intro G.
  - exists []. split; [reflexivity|]. split; [congruence|]. split; [intros v []|intros k u c _ []].
  - inversion G as [|? ? Gc Gs]; subst. destruct (IH Gs) as (pts & Ep & _ & Sp & Cp). rewrite Forall_forall in Gc. assert (P : forall v, In v [p_tl c; p_tr c; p_br c; p_bl c] -> make_point (Some (f v)) = Ok (f v)) by (intros v I; apply make_point_some; split; [reflexivity|apply Gc; exact I]).
    destruct (mesh_cover (ecef (f (p_tl c))) (ecef (f (p_tr c))) (ecef (f (p_br c))) (ecef (f (p_bl c))) dx Hd) as (m & Em & Nm & Sm & Cm). exists (concat m ++ pts). cbn [map meshes]. unfold mesh_of at 1. cbn [fst snd]. rewrite E. cbn [bind corners]. do 4 (rewrite P by (cbn [In]; tauto); cbn [bind]). rewrite Em. cbn [bind]. rewrite Ep. cbn [bind]. split; [reflexivity|]. split; [|split].
    + intros _ X. apply app_eq_nil in X. tauto.
    + intros v I. apply in_app_or in I. destruct I as [I|I]; [exists c; split; [left; reflexivity|apply Sm; exact I]|]. destruct (Sp v I) as (d & Id & Sd). exists d. split; [right; exact Id|exact Sd].
    + intros k u d Hk [<-|I] Ev Su; [destruct (Cm k u Hk Ev Su) as (v & Iv & Dv)|destruct (Cp k u d Hk I Ev Su) as (v & Iv & Dv)]; exists v; (split; [apply in_or_app; tauto|exact Dv]).
Qed.
Lemma near_mesh f dx ts bs ps site : 0 < dx -> all_patches ts bs ps -> ps <> [] -> Forall (fun v => on_earth (f v)) (concat ts ++ concat bs) ->
  exists r, bind (e_mesh f dx (built ts bs)) (fun m => mesh_distance m site) = Ok r /\ 0 <= r /\ (exists c u, In c ps /\ spans f c u /\ dist u site = 1000 * r) /\
  forall k c u, 1 <= k -> In c ps -> evens f k c -> spans f c u -> 1000 * r <= dist u site + 1500 * k * dx.
Proof.
  intros Hd P N G. pose proof (all_shaped _ _ _ P) as Sh. unfold e_mesh. rewrite (pairs_built ts bs Sh), <- (segments_built ts bs Sh).
  destruct (meshes_cover f dx (built ts bs) _ ps Hd (built_at _ _ _ P)) as (pts & -> & Np & Sp & Cp).
  { apply Forall_forall. intros c I. destruct (all_in _ _ _ _ P I) as (A & B & C & D). rewrite Forall_forall in G. apply Forall_forall. intros v [<-|[<-|[<-|[<-|[]]]]]; apply G, in_or_app; tauto. }
  cbn [bind]. unfold mesh_distance. destruct (rmin_smallest (map (fun m => mag (vsub site m)) pts)) as (d & -> & Id & Ld); [intro E; apply map_eq_nil in E; exact (Np N E)|].
  exists (d / 1000). split; [reflexivity|]. apply in_map_iff in Id. destruct Id as (v & Ev & Iv). split; [apply div_nonneg; [rewrite <- Ev; apply mag_nonneg|lra]|]. split.
  - destruct (Sp v Iv) as (c & Ic & Sc). exists c, v. split; [exact Ic|]. split; [exact Sc|]. rewrite dist_vsub, mag_opp, Ev. field.
  - intros k c u Hk Ic He Hs. destruct (Cp k u c Hk Ic He Hs) as (w & Iw & Dw). assert (L : d <= mag (vsub site w)) by (apply Ld, in_map_iff; exists w; auto). replace (1000 * (d / 1000)) with d by field. rewrite dist_vsub in *. pose proof (dist_triangle site u w) as T. rewrite (mag_opp site u) in T. lra.
Qed.

(** The distance to the rupture is that of some point of its surface, and is greater than that of no
    point of it by more than one and a half times the spacing times the unevenness of the patch. *)
Theorem C85_rrup : forall dx ts bs ps site, 0 < dx -> all_patches ts bs ps -> ps <> [] -> Forall on_earth (concat ts ++ concat bs) ->
  exists r, e_rrup dx (built ts bs) site = Ok r /\ 0 <= r /\
  (exists c u, In c ps /\ spanned (ecef (p_tl c)) (ecef (p_tr c)) (ecef (p_br c)) (ecef (p_bl c)) u /\ dist u (ecef site) = 1000 * r) /\
  forall k c u, 1 <= k -> In c ps -> even k (ecef (p_tl c)) (ecef (p_tr c)) (ecef (p_br c)) (ecef (p_bl c)) -> spanned (ecef (p_tl c)) (ecef (p_tr c)) (ecef (p_br c)) (ecef (p_bl c)) u ->
    1000 * r <= dist u (ecef site) + 1000 * (1.5 * k * dx).
Proof.
  intros dx ts bs ps site Hd P N G. destruct (near_mesh (fun v => v) dx ts bs ps (ecef site) Hd P N G) as (r & A & B & C & D). exists r. split; [exact A|]. split; [exact B|]. split; [exact C|]. intros k c u Hk I He Hs. pose proof (D k c u Hk I He Hs). lra.
Qed.
Print Assumptions C85_rrup.
(** The distance to the surface projection: the same with all vertices brought to depth zero. *)
Theorem C85_rjb : forall dx ts bs ps site, 0 < dx -> all_patches ts bs ps -> ps <> [] -> Forall on_globe (concat ts ++ concat bs) ->
  exists r, e_rjb dx (built ts bs) site = Ok r /\ 0 <= r /\
  (exists c u, In c ps /\ spans (fun v => (fst v, 0)) c u /\ dist u (ecef site) = 1000 * r) /\
  forall k c u, 1 <= k -> In c ps -> evens (fun v => (fst v, 0)) k c -> spans (fun v => (fst v, 0)) c u -> 1000 * r <= dist u (ecef site) + 1000 * (1.5 * k * dx).
Proof.
  intros dx ts bs ps site Hd P N G. destruct (near_mesh at_surface dx ts bs ps (ecef site) Hd P N) as (r & A & B & C & D).
  { eapply Forall_impl; [|exact G]. intros [[lon lat] d] [H1 H2]. cbn [fst snd] in *. cbn [at_surface on_earth]. repeat split; lra. }
  assert (E : forall v : vertex, at_surface v = (fst v, 0)) by (intros [[lon lat] d]; reflexivity). unfold spans, evens in *. exists r. split; [exact A|]. split; [exact B|]. split.
  - destruct C as (c & u & I & S & Q). exists c, u. rewrite !E in S. auto.
  - intros k c u Hk I He Hs. rewrite <- !E in He, Hs. pose proof (D k c u Hk I He Hs). lra.
Qed.
Print Assumptions C85_rjb.
(** A rupture without patches has no nearest point. *)
Theorem C85_none : forall f dx ts bs site, all_patches ts bs [] -> e_rrup dx (built ts bs) site = Err ValueError /\ e_rjb dx (built ts bs) site = Err ValueError /\ e_mesh f dx (built ts bs) = Ok [].
Proof.
  intros f dx ts bs site P. pose proof (all_shaped _ _ _ P) as Sh. assert (Q : forall g, e_mesh g dx (built ts bs) = Ok []). { intro g. unfold e_mesh. rewrite (pairs_built ts bs Sh), <- (segments_built ts bs Sh). pose proof (built_at _ _ _ P) as F. inversion F. reflexivity. }
  unfold e_rrup, e_rjb. rewrite !Q. repeat split; reflexivity.
Qed.
Print Assumptions C85_none.
(** Above the rupture, at its surface projection, the distance to the latter need not be zero. *)
Theorem C85_rjb_inside_refuted : exists ts bs site, shaped ts bs /\ Forall on_earth (concat ts ++ concat bs) /\ snd site = 0 /\ snd (fst site) = 0 /\ -1 < fst (fst site) < 0 /\
  Forall (fun v => snd (fst v) = 0) (concat ts ++ concat bs) /\ forall dx, 0 < dx -> exists r, e_rjb dx (built ts bs) site = Ok r /\ 0 < r.
Proof.
  exists [wall_top], [wall_bottom], (-0.5, 0, 0). split; [repeat constructor; discriminate|]. split; [unfold wall_top, wall_bottom; cbn [concat app]; repeat (constructor; [cbn [on_earth]; repeat split; lra|]); constructor|]. split; [reflexivity|]. split; [reflexivity|]. split; [cbn [fst]; lra|]. split; [unfold wall_top, wall_bottom; cbn [concat app]; repeat constructor|].
  intros dx Hd. destruct (C85_rjb dx [wall_top] [wall_bottom] [wall_patch] (-0.5, 0, 0) Hd) as (r & A & B & (c & u & I & S & Q) & _).
  - change [wall_patch] with ([wall_patch] ++ []); repeat constructor.
  - discriminate.
  - unfold wall_top, wall_bottom; cbn [concat app]; repeat (constructor; [unfold on_globe; cbn [fst snd]; lra|]); constructor.
  - exists r. split; [exact A|]. destruct B as [B|B]; [exact B|exfalso]. rewrite <- B, Rmult_0_r in Q. destruct I as [<-|[]]. destruct S as (s & t & Hs & Ht & Eu). unfold wall_patch in Eu. cbn [p_tl p_tr p_br p_bl fst] in Eu.
    rewrite dist_vsub in Q. apply mag_zero in Q. assert (E : u = ecef (-0.5, 0, 0)). { destruct u as [ux uy uz]. destruct (ecef (-0.5, 0, 0)) as [ex ey ez]. unfold vsub, v0 in Q. cbn [vx vy vz] in Q. injection Q as Q1 Q2 Q3. apply vec_ext; cbn [vx vy vz]; lra. }
    rewrite E in Eu. rewrite !equator_ecef, deg0, sin_0, cos_0 in Eu. replace (deg (-1)) with (deg (-0.5) + deg (-0.5)) in Eu by (unfold deg; lra). set (h := deg (-0.5)) in *.
    assert (Hh : - (PI / 2) < h < 0) by (unfold h, deg; pose proof pi_pos; lra). assert (Sh : sin h < 0) by (apply sin_lt_0_var; pose proof pi_pos; lra). assert (Ch : 0 < cos h) by (apply cos_gt_0; lra). pose proof (sc2 h) as SC.
    rewrite cos_plus, sin_plus in Eu. assert (X := f_equal vx Eu). assert (Y := f_equal vy Eu). unfold between_pts in X, Y. cbn [vx vy] in X, Y. replace (WGS84_A - 1000 * 0) with WGS84_A in X, Y by ring. clear Eu. set (si := sin h) in *. set (co := cos h) in *.
    assert (W : 0 < WGS84_A) by (unfold WGS84_A; lra). assert (Z : (1 - co) * WGS84_A = 0).
    { assert (T : WGS84_A * co * co + WGS84_A * si * si = WGS84_A) by (replace (WGS84_A * co * co + WGS84_A * si * si) with (WGS84_A * (si * si + co * co)) by ring; rewrite SC; ring).
      assert (V : WGS84_A * co * co + WGS84_A * si * si = WGS84_A * co * ((1 - s) + s * (si * si + co * co))). { rewrite X at 1. rewrite Y at 1. ring. } rewrite T, SC in V. lra. }
    assert (co < 1) by nra. nra.
Qed.
Print Assumptions C85_rjb_inside_refuted.
Example C85_ex : exists dx ts bs ps, 0 < dx /\ all_patches ts bs ps /\ ps <> [] /\ Forall on_earth (concat ts ++ concat bs) /\ Forall on_globe (concat ts ++ concat bs) /\ Forall (fun c => even 2 (ecef (p_tl c)) (ecef (p_tr c)) (ecef (p_br c)) (ecef (p_bl c))) ps.
Proof.
  exists 0.5, [wall_top], [wall_bottom], [wall_patch]. split; [lra|]. split; [change [wall_patch] with ([wall_patch] ++ []); repeat constructor|]. split; [discriminate|]. split; [unfold wall_top, wall_bottom; cbn [concat app]; repeat (constructor; [cbn [on_earth]; repeat split; lra|]); constructor|]. split; [unfold wall_top, wall_bottom; cbn [concat app]; repeat (constructor; [unfold on_globe; cbn [fst snd]; lra|]); constructor|].
  constructor; [|constructor]. unfold wall_patch. cbn [p_tl p_tr p_br p_bl]. set (k := (WGS84_A - 10000) / WGS84_A). assert (K : 0.99 < k < 1) by (unfold k, WGS84_A; lra).
  assert (E : forall lon, ecef (lon, 0, 10) = vscale k (ecef (lon, 0, 0))) by (intro lon; rewrite !equator_ecef; unfold vscale; assert (WGS84_A <> 0) by (unfold WGS84_A; lra); apply vec_ext; cbn [vx vy vz]; unfold k; field; assumption). rewrite !E. set (a := ecef (0, 0, 0)). set (b := ecef (-1, 0, 0)).
  assert (D : forall s, dist (between_pts a b s) (between_pts (vscale k a) (vscale k b) s) = (1 - k) * mag (between_pts a b s)). { intro s. rewrite dist_vsub. replace (vsub _ _) with (vscale (1 - k) (between_pts a b s)) by (unfold between_pts, vsub, vscale; apply vec_ext; cbn [vx vy vz]; ring). rewrite mag_scale, Rabs_right by lra. reflexivity. }
  assert (Me : forall lon, mag (ecef (lon, 0, 0)) = WGS84_A).
  { intro lon. rewrite equator_ecef. unfold mag. cbn [vx vy vz]. pose proof (sc2 (deg lon)) as SC. transitivity (sqrt (WGS84_A * WGS84_A)); [f_equal; transitivity (WGS84_A * WGS84_A * (sin (deg lon) * sin (deg lon) + cos (deg lon) * cos (deg lon))); [ring|rewrite SC; ring]|]. apply sqrt_square. unfold WGS84_A. lra. }
  assert (Ma : mag a = WGS84_A) by apply Me. assert (Mb : mag b = WGS84_A) by apply Me.
  split.
  - rewrite !dist_vsub. replace (vsub (vscale k b) (vscale k a)) with (vscale k (vsub b a)) by (unfold vsub, vscale; apply vec_ext; cbn [vx vy vz]; ring). rewrite mag_scale, Rabs_right by lra. pose proof (mag_nonneg (vsub b a)). nra.
  - intros s s' Hs Hs'. rewrite !D. assert (Up : mag (between_pts a b s) <= WGS84_A). { replace (between_pts a b s) with (vadd (vscale (1 - s) a) (vscale s b)) by (unfold between_pts, vadd, vscale; apply vec_ext; cbn [vx vy vz]; ring). eapply Rle_trans; [apply triangle|]. rewrite !mag_scale, !Rabs_right, Ma, Mb by lra. lra. }
    assert (Lo : WGS84_A / 2 <= mag (between_pts a b s')). { assert (C : Rabs (vx (between_pts a b s')) <= mag (between_pts a b s')). { unfold mag. rewrite <- sqrt_Rsqr_abs. apply sqrt_le_1_alt. unfold Rsqr. nra. } eapply Rle_trans; [|exact C]. eapply Rle_trans; [|apply Rle_abs]. unfold a, b, between_pts. rewrite !equator_ecef, deg0, cos_0. cbn [vx]. assert (Co : 1 / 2 <= cos (deg (-1))). { rewrite <- cos_PI3. replace (deg (-1)) with (- (PI / 180)) by (unfold deg; field). rewrite cos_neg. pose proof pi_pos. left. apply cos_decreasing_1; lra. } unfold WGS84_A. nra. }
    assert (Q : mag (between_pts a b s) <= 2 * mag (between_pts a b s')) by lra. replace (2 * ((1 - k) * mag (between_pts a b s'))) with ((1 - k) * (2 * mag (between_pts a b s'))) by ring. apply Rmult_le_compat_l; lra.
Qed.
