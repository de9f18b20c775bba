(** Property C82: sizes and orientation of ruptures made of quadrilaterals. *)
From Coq Require Import ZArith Reals String Ascii Bool List Lia Lra.
From Verif Require Import PyBase PyStr VecModel GeoModel RuptModel PolyModel SizeModel RuptSpec GeoSpec PolySpec SizeSpec VecProofs GeoTrig GeoProofs RuptProofs EquatorProofs FrameProps SizeProofs.
Import ListNotations.
Open Scope R_scope.

(** The upper left corner lies on one line with its neighbours. *)
Definition flat (q : quad) : Prop := parallel (vsub (ecef (q1 q)) (ecef (q0 q))) (vsub (ecef (q3 q)) (ecef (q0 q))).
Definition top_length (q : quad) : R := dist (ecef (q1 q)) (ecef (q0 q)).

(** Lengths are those of the upper edges. *)
Theorem C82_length : forall quads, 1000 * get_length quads = total (map top_length quads) /\ Forall2 (fun q l => 1000 * l = top_length q) quads (get_individual_top_lengths quads).
Proof.
  intro quads. assert (E : forall q, 1000 * q_length q = top_length q) by (intro q; unfold q_length, get_quad_length, top_length, dist, mag, vsub; cbn [vx vy vz]; lra). split.
  - unfold get_length. rewrite fold_length, Rplus_0_l, <- total_scale, map_map. f_equal. apply map_ext. exact E.
  - unfold get_individual_top_lengths. induction quads as [|q l IH]; cbn [map]; constructor; [apply E|exact IH].
Qed.
Print Assumptions C82_length.

(** Widths: the distances of the lower left corners from the lines through the upper edges, and
    their mean; none without quadrilaterals, not a number if one is flat. *)
Theorem C82_width : forall quads, 
  (quads = [] <-> get_width quads = Err ZeroDivisionError) /\ (get_width quads = Ok None <-> Exists flat quads) /\
  (quads <> [] -> Forall (fun q => ~ flat q) quads -> exists ws w, get_individual_widths quads = map Some ws /\ get_width quads = Ok (Some w) /\ mean_is ws w /\
     Forall2 (fun q w => 0 < w /\ nearest (on_line (ecef (q0 q)) (ecef (q1 q))) (ecef (q3 q)) (1000 * w)) quads ws).
Proof.
  intro quads.
  assert (D : forall q, {flat q} + {~ flat q}). { intro q. destruct (q_width q) as [w|] eqn:E; [right; intro F; apply (proj2 (width_none _ _ _)) in F; unfold q_width in E; congruence|left; apply width_none; exact E]. }
  assert (G : Forall (fun q => ~ flat q) quads -> exists ws, get_individual_widths quads = map Some ws /\ length ws = length quads /\ fold_left oadd (map q_width quads) (Some 0) = Some (total ws) /\ Forall2 (fun q w => 0 < w /\ nearest (on_line (ecef (q0 q)) (ecef (q1 q))) (ecef (q3 q)) (1000 * w)) quads ws).
  { intro F. set (g := fun q => match q_width q with Some w => w | None => 0 end). exists (map g quads). unfold get_individual_widths.
    assert (S : Forall (fun q => q_width q = Some (g q)) quads). { eapply Forall_impl; [|exact F]. intros q N. cbv beta in N. unfold g. destruct (q_width q) eqn:E; [reflexivity|]. elim N. apply width_none. exact E. }
    split; [rewrite map_map; apply map_ext_in; intros q I; rewrite Forall_forall in S; apply S; exact I|]. split; [apply map_length|]. split; [rewrite (osum_some q_width g quads S); f_equal; ring|].
    clear S. induction F as [|q l N _ IH]; cbn [map]; constructor; [|exact IH]. destruct (C65_size _ _ _ N) as (_ & w & E & W0 & Nw & _). unfold g. change (q_width q) with (get_quad_width (ecef (q0 q)) (ecef (q1 q)) (ecef (q3 q))). rewrite E. split; assumption. }
  split; [|split].
  - unfold get_width, omean. destruct quads as [|q l]; cbn [map]; split; intro H; try reflexivity; discriminate.
  - unfold get_width, omean, osum. split.
    + intro H. destruct (Exists_dec flat quads D) as [Y|N]; [exact Y|]. apply Forall_Exists_neg in N. destruct (G N) as (ws & _ & _ & E & _). rewrite E in H. destruct (map q_width quads); discriminate.
    + intro Y. rewrite (osum_none q_width quads); [|eapply Exists_impl; [|exact Y]; intros q F; apply width_none; exact F]. destruct quads; [inversion Y|reflexivity].
  - intros Ne F. destruct (G F) as (ws & E1 & L & E2 & F2). exists ws, (total ws / INR (length quads)). split; [exact E1|]. assert (P : INR (length quads) <> 0) by (apply not_0_INR; destruct quads; [contradiction|discriminate]). split; [|split; [|exact F2]].
    + unfold get_width, omean, osum. rewrite E2, map_length. destruct quads; [contradiction|reflexivity].
    + split; [destruct ws; [destruct quads; [contradiction|discriminate]|discriminate]|]. rewrite L. field. exact P.
Qed.
Print Assumptions C82_width.

(** Areas: the sum of the parallelograms with the upper and the left edge. *)
Theorem C82_area : forall quads, (get_area quads = None <-> Exists flat quads) /\
  (forall a, get_area quads = Some a -> 1000000 * a = total (map (fun q => 2 * tri_area (ecef (q0 q)) (ecef (q1 q)) (ecef (q3 q))) quads)).
Proof.
  intro quads. unfold get_area, osum. set (f := fun q => option_map (fun w => w * q_length q) (q_width q)).
  assert (D : forall q, {flat q} + {~ flat q}). { intro q. destruct (q_width q) as [w|] eqn:E; [right; intro F; apply (proj2 (width_none _ _ _)) in F; unfold q_width in E; congruence|left; apply width_none; exact E]. }
  set (g := fun q => 2 * tri_area (ecef (q0 q)) (ecef (q1 q)) (ecef (q3 q)) / 1000000).
  assert (G : forall q, ~ flat q -> f q = Some (g q)).
  { intros q N. unfold f. destruct (q_width q) as [w|] eqn:E; [|elim N; apply width_none; exact E]. cbn [option_map]. f_equal. apply width_length in E. unfold g, tri_area. rewrite <- E. unfold q_length, get_quad_length. field. }
  assert (N : forall q, flat q -> f q = None) by (intros q F; unfold f; change (q_width q) with (get_quad_width (ecef (q0 q)) (ecef (q1 q)) (ecef (q3 q))); rewrite (proj2 (width_none _ _ _) F); reflexivity).
  destruct (Exists_dec flat quads D) as [Y|Y].
  - rewrite (osum_none f quads) by (eapply Exists_impl; [|exact Y]; exact N). split; [tauto|discriminate].
  - assert (F : Forall (fun q => f q = Some (g q)) quads) by (apply Forall_Exists_neg in Y; eapply Forall_impl; [|exact Y]; intros q H; apply G; exact H). rewrite (osum_some f g quads F). split; [split; [discriminate|contradiction]|].
    intros a E. injection E as <-. rewrite Rplus_0_l, <- total_scale, map_map. f_equal. apply map_ext. intro q. unfold g. field.
Qed.
Print Assumptions C82_area.
(** When lower edges are parallel to the upper ones and their lengths are between [lo] and [hi]
    times as great, the true area differs from it accordingly. *)
Theorem C82_area_true : forall quads a lo hi, get_area quads = Some a ->
  Forall (fun q => exists k, lo <= k <= hi /\ 0 < k /\ vsub (ecef (q2 q)) (ecef (q3 q)) = vscale k (vsub (ecef (q1 q)) (ecef (q0 q)))) quads ->
  let true_area := total (map (fun q => two_triangles (ecef (q0 q)) (ecef (q1 q)) (ecef (q2 q)) (ecef (q3 q))) quads) in
  (1 + lo) / 2 * (1000000 * a) <= true_area <= (1 + hi) / 2 * (1000000 * a).
Proof.
  intros quads a lo hi H F t. rewrite (proj2 (C82_area quads) a H). unfold t. clear H t a. induction F as [|q l (k & Hk & K0 & E) _ IH]; cbn [map total]; [lra|].
  set (p0 := ecef (q0 q)) in *. set (p1 := ecef (q1 q)) in *. set (p2 := ecef (q2 q)) in *. set (p3 := ecef (q3 q)) in *.
  assert (T : two_triangles p0 p1 p2 p3 = (1 + k) / 2 * (2 * tri_area p0 p1 p3)).
  { unfold two_triangles, tri_area. assert (E2 : vsub p2 p0 = vadd (vsub p3 p0) (vscale k (vsub p1 p0))) by (rewrite <- E; unfold vsub, vadd; apply vec_ext; cbn [vx vy vz]; ring). rewrite E2. generalize (vsub p1 p0) (vsub p3 p0). intros u w.
    replace (vcross u (vadd w (vscale k u))) with (vcross u w) by (unfold vcross, vadd, vscale; apply vec_ext; cbn [vx vy vz]; ring).
    replace (vcross (vadd w (vscale k u)) w) with (vscale k (vcross u w)) by (unfold vcross, vadd, vscale; apply vec_ext; cbn [vx vy vz]; ring). rewrite mag_scale, Rabs_right by lra. field. }
  assert (P : 0 <= 2 * tri_area p0 p1 p3) by (unfold tri_area; pose proof (mag_nonneg (vcross (vsub p1 p0) (vsub p3 p0))); lra). rewrite T. set (x := 2 * tri_area p0 p1 p3) in *. clearbody x.
  assert ((1 + lo) / 2 * x <= (1 + k) / 2 * x) by (apply Rmult_le_compat_r; lra). assert ((1 + k) / 2 * x <= (1 + hi) / 2 * x) by (apply Rmult_le_compat_r; lra). lra.
Qed.
Print Assumptions C82_area_true.
(** A vertical wall from the surface down to 10 km narrows with depth, and its area comes out too great. *)
Theorem C82_area_refuted : exists q a, get_area [q] = Some a /\ two_triangles (ecef (q0 q)) (ecef (q1 q)) (ecef (q2 q)) (ecef (q3 q)) < 1000000 * a.
Proof.
  exists (wall (-1) 10). assert (Nf : ~ flat (wall (-1) 10)).
  { unfold flat, wall, parallel. cbn [q0 q1 q3]. rewrite !equator_ecef, deg0, sin_0, cos_0. unfold vsub. cbn [vx vy vz]. intros (_ & _ & E). pose proof (wall_sides (-1) ltac:(lra)) as S. set (s := sin (deg (-1))) in *. clearbody s. unfold WGS84_A in E. nra. }
  destruct (get_area [wall (-1) 10]) as [a|] eqn:E; [|apply (proj1 (proj1 (C82_area _))) in E; inversion E; subst; [contradiction|inversion H0]]. exists a. split; [reflexivity|].
  set (k := (WGS84_A - 10000) / WGS84_A). pose proof (C82_area_true [wall (-1) 10] a k k E) as T. cbv zeta in T. destruct T as [_ T].
  { constructor; [|constructor]. exists k. split; [lra|]. split; [unfold k, WGS84_A; lra|]. unfold wall. cbn [q0 q1 q2 q3]. rewrite !equator_ecef, deg0, sin_0, cos_0. unfold vsub, vscale, k, WGS84_A. apply vec_ext; cbn [vx vy vz]; lra. }
  cbn [map total] in T. rewrite Rplus_0_r in T. eapply Rle_lt_trans; [exact T|].
  assert (Pa : 0 < 1000000 * a). { rewrite (proj2 (C82_area _) a E). cbn [map total]. unfold tri_area. rewrite Rplus_0_r. enough (0 < mag (vcross (vsub (ecef (q1 (wall (-1) 10))) (ecef (q0 (wall (-1) 10)))) (vsub (ecef (q3 (wall (-1) 10))) (ecef (q0 (wall (-1) 10)))))) by lra.
    rewrite mag_dot. apply sqrt_lt_R0, not_parallel. exact Nf. }
  unfold k, WGS84_A. lra.
Qed.
Print Assumptions C82_area_refuted.

(** The strike is the direction of the sum of the bearings of the upper edges, each with its length. *)
Theorem C82_strike : forall quads bs s, Forall2 (fun q b => bears (q0 q) (q1 q) b) quads bs -> get_strike quads = Some s -> -180 < s <= 180 /\ exists r, 0 <= r /\
  total (map (fun qb => top_length (fst qb) * sin (deg (snd qb))) (combine quads bs)) = r * sin (deg s) /\
  total (map (fun qb => top_length (fst qb) * cos (deg (snd qb))) (combine quads bs)) = r * cos (deg s).
Proof.
  intros quads bs s F H. destruct (strike_polar _ _ H) as (Rg & _ & r & R0 & EX & EY). split; [exact Rg|]. exists (1000 * r). split; [lra|].
  assert (W : forall f, total (map (fun qb => top_length (fst qb) * f (deg (snd qb))) (combine quads bs)) = 1000 * wsum (fun a => f (deg a)) (map (fun q => (p_azimuth (q0 q) (q1 q), q_length q)) quads)).
  { intro f. unfold wsum. clear - F. induction F as [|q b l m B _ IH]; cbn [map combine total fst snd]; [ring|]. rewrite IH, (bears_fun _ _ _ _ B (bears_azimuth _ _)). replace (top_length q) with (1000 * q_length q) by (unfold q_length, get_quad_length, top_length, dist, mag, vsub; cbn [vx vy vz]; lra). ring. }
  rewrite (W sin), (W cos), EX, EY. split; ring.
Qed.
Print Assumptions C82_strike.
(** If all bearings are within [h] (less than 90) degrees of a direction, so is the strike. *)
Theorem C82_strike_between : forall quads bs s m h, 0 <= h < 90 -> Forall2 (fun q b => bears (q0 q) (q1 q) b) quads bs -> Forall (fun b => within h b m) bs -> get_strike quads = Some s -> within h s m.
Proof.
  intros quads bs s m h Hh F W H. apply (strike_arc quads); [exact Hh|exact H|]. clear H. induction F as [|q b l k B _ IH]; [constructor|]. inversion W; subst. constructor; [|apply IH; assumption]. rewrite (bears_fun _ _ _ _ (bears_azimuth _ _) B). assumption.
Qed.
Print Assumptions C82_strike_between.
(** There is a strike iff some upper edge has a length. *)
Theorem C82_strike_none : forall quads, (get_strike quads = None <-> Forall (fun q => ecef (q1 q) = ecef (q0 q)) quads) /\ exists bs, Forall2 (fun q b => bears (q0 q) (q1 q) b) quads bs.
Proof.
  intro quads. split.
  - assert (Z : get_strike quads = None <-> total (map q_length quads) = 0). { unfold get_strike. rewrite rsum_total. cbv zeta. destruct (reqd _ 0) eqn:E; [apply reqd_iff in E; tauto|]. split; [discriminate|]. intro T. rewrite (proj2 (reqd_iff _ _) T) in E. discriminate. }
    rewrite Z. clear Z. induction quads as [|q l IH]; cbn [map total]; [split; [constructor|reflexivity]|].
    pose proof (q_length_nonneg q) as P. assert (Q : 0 <= total (map q_length l)) by (apply total_nonneg, Forall_forall; intros x I; apply in_map_iff in I; destruct I as (y & <- & _); apply q_length_nonneg).
    assert (Lz : q_length q = 0 <-> ecef (q1 q) = ecef (q0 q)). { unfold q_length, get_quad_length. split; intro H.
      - assert (M : mag (vsub (ecef (q1 q)) (ecef (q0 q))) = 0) by lra. apply mag_zero in M. unfold vsub, v0 in M. injection M as A B C. apply vec_ext; lra.
      - rewrite H. assert (M : mag (vsub (ecef (q0 q)) (ecef (q0 q))) = 0) by (apply mag_zero; unfold vsub, v0; apply vec_ext; cbn [vx vy vz]; ring). lra. }
    split; [intro E; constructor; [apply Lz; lra|apply IH; lra]|]. intro F. inversion F as [|a b A B]; subst. apply Lz in A. apply IH in B. lra.
  - exists (map (fun q => p_azimuth (q0 q) (q1 q)) quads). induction quads; cbn [map]; constructor; [apply bears_azimuth|assumption].
Qed.
Print Assumptions C82_strike_none.

(** The dip is the mean of the angles between the normals and the vertical. *)
Theorem C82_dip : forall quads, (get_dip quads = Err ZeroDivisionError <-> quads = []) /\
  (quads <> [] -> Forall (fun q => ~ flat q /\ -90 <= snd (fst (q0 q)) <= 90) quads -> exists ds d, get_dip quads = Ok (Some d) /\ mean_is ds d /\ 0 <= d <= 180 /\
     Forall2 (fun q x => exists n, angle n (place (fst (fst (q0 q))) (snd (fst (q0 q)))) (deg x) /\ mag n = 1 /\
       scalar n (vsub (ecef (q1 q)) (ecef (q0 q))) = 0 /\ scalar n (vsub (ecef (q3 q)) (ecef (q0 q))) = 0 /\ 0 < mixed n (vsub (ecef (q3 q)) (ecef (q0 q))) (vsub (ecef (q1 q)) (ecef (q0 q)))) quads ds).
Proof.
  intro quads. split; [unfold get_dip, omean; destruct quads as [|q l]; cbn [map]; split; intro H; try reflexivity; discriminate|]. intros Ne F.
  assert (G : exists ds, fold_left oadd (map get_quad_dip quads) (Some 0) = Some (total ds) /\ length ds = length quads /\ Forall (fun x => 0 <= x <= 180) ds /\
     Forall2 (fun q x => exists n, angle n (place (fst (fst (q0 q))) (snd (fst (q0 q)))) (deg x) /\ mag n = 1 /\
       scalar n (vsub (ecef (q1 q)) (ecef (q0 q))) = 0 /\ scalar n (vsub (ecef (q3 q)) (ecef (q0 q))) = 0 /\ 0 < mixed n (vsub (ecef (q3 q)) (ecef (q0 q))) (vsub (ecef (q1 q)) (ecef (q0 q)))) quads ds).
  { set (g := fun q => match get_quad_dip q with Some w => w | None => 0 end). exists (map g quads).
    assert (S : Forall (fun q => get_quad_dip q = Some (g q)) quads). { eapply Forall_impl; [|exact F]. intros q [N L]. cbv beta in N. unfold g. destruct (C65_dip q L N) as (dip & n & E & _). rewrite E. reflexivity. }
    split; [rewrite (osum_some get_quad_dip g quads S); f_equal; ring|]. split; [apply map_length|]. clear S Ne. induction F as [|q l [N L] _ [IH1 IH2]]; cbn [map]; [split; constructor|].
    destruct (C65_dip q L N) as (dip & n & E & En & B & C). assert (Eg : g q = dip) by (unfold g; rewrite E; reflexivity). rewrite Eg. split; [constructor; assumption|]. constructor; [|exact IH2].
    unfold get_quad_normal in En. destruct (unit_normal _ _ _ En) as (U & A1 & A2 & P). exists n. split; [|split; [|split; [exact A2|split; [exact A1|]]]].
    - split; [rewrite <- deg_180; replace 0 with (deg 0) by (unfold deg; field); rewrite <- !deg_le; exact B|exact C].
    - rewrite mag_dot, U. apply sqrt_1.
    - unfold mixed. unfold vdot, vcross in P. cbn [vx vy vz] in P. lra. }
  destruct G as (ds & E & L & B & F2). exists ds, (total ds / INR (length quads)). assert (P : INR (length quads) <> 0) by (apply not_0_INR; destruct quads; [contradiction|discriminate]).
  assert (M : mean_is ds (total ds / INR (length quads))). { split; [destruct ds; [destruct quads; [contradiction|discriminate]|discriminate]|]. rewrite L. field. exact P. }
  split; [|split; [exact M|split; [exact (mean_bounds _ _ _ _ M B)|exact F2]]]. unfold get_dip, omean, osum. rewrite E, map_length. destruct quads; [contradiction|reflexivity].
Qed.
Print Assumptions C82_dip.

(** The depth of the top is that of the shallowest corner. *)
Definition corner_depths (q : quad) : list R := [snd (q0 q); snd (q1 q); snd (q2 q); snd (q3 q)].
Theorem C82_top : forall quads, get_depth_to_top [] = 9999999 /\
  (quads <> [] -> Forall (fun d => d < 9999999) (flat_map corner_depths quads) -> smallest (flat_map corner_depths quads) (get_depth_to_top quads)).
Proof.
  intro quads. split; [reflexivity|]. intros Ne F. unfold get_depth_to_top.
  set (step := fun mindep q => let m := Rmin (Rmin (depth_of (q0 q)) (depth_of (q1 q))) (Rmin (depth_of (q2 q)) (depth_of (q3 q))) in if rltb m mindep then m else mindep).
  assert (M : forall q, smallest (corner_depths q) (Rmin (Rmin (depth_of (q0 q)) (depth_of (q1 q))) (Rmin (depth_of (q2 q)) (depth_of (q3 q))))).
  { intro q. unfold corner_depths, depth_of. destruct (min4 (snd (q0 q)) (snd (q1 q)) (snd (q2 q)) (snd (q3 q))) as (A & B & C & D & E). split; [cbn [In]; intuition|]. intros x [<-|[<-|[<-|[<-|[]]]]]; assumption. }
  assert (G : forall l s, (forall x, In x (flat_map corner_depths l) -> fold_left step l s <= x) /\ fold_left step l s <= s /\ (fold_left step l s = s \/ In (fold_left step l s) (flat_map corner_depths l))).
  { induction l as [|q l IH]; intro s; cbn [fold_left flat_map]; [split; [contradiction|split; [lra|left; reflexivity]]|].
    destruct (IH (step s q)) as (I1 & I2 & I3). destruct (M q) as [Mi Ml]. set (m := Rmin _ _) in Mi, Ml. assert (St : step s q <= s /\ step s q <= m /\ (step s q = s \/ step s q = m)). { unfold step. cbv zeta. fold m. destruct (rltb m s) eqn:E; [apply rltb_iff in E|apply rltb_f in E]; repeat split; try lra; auto. }
    destruct St as (S1 & S2 & S3). split; [|split; [lra|]].
    - intros x I. apply in_app_or in I. destruct I as [I|I]; [specialize (Ml x I); lra|apply I1; exact I].
    - rewrite in_app_iff. destruct I3 as [I3|I3]; [|tauto]. rewrite I3. destruct S3 as [S3|S3]; rewrite S3; tauto. }
  destruct (G quads 9999999) as (G1 & G2 & G3). split; [|exact G1]. destruct G3 as [G3|G3]; [|exact G3]. exfalso. destruct quads as [|q l]; [contradiction|].
  assert (I : In (snd (q0 q)) (flat_map corner_depths (q :: l))) by (cbn [flat_map corner_depths app]; left; reflexivity). specialize (G1 _ I). rewrite Forall_forall in F. specialize (F _ I). lra.
Qed.
Print Assumptions C82_top.

(** The wall on the equator: it is not flat, its upper edge runs west. *)
Example C82_ex : let q := wall (-1) 10 in ~ flat q /\ bears (q0 q) (q1 q) 270 /\ within 0 270 (-90) /\ (-90 <= snd (fst (q0 q)) <= 90) /\ Forall (fun d => d < 9999999) (flat_map corner_depths [q]).
Proof.
  cbv zeta. split; [|split; [|split; [|split]]].
  - unfold flat, wall, parallel. cbn [q0 q1 q3]. rewrite !equator_ecef, deg0, sin_0, cos_0. unfold vsub. cbn [vx vy vz]. intros (_ & _ & E). pose proof (wall_sides (-1) ltac:(lra)) as S. set (s := sin (deg (-1))) in *. clearbody s. unfold WGS84_A in E. nra.
  - unfold wall, bears. cbn [q0 q1]. split; [lra|]. pose proof (wall_sides (-1) ltac:(lra)) as S. exists (- sin (deg (-1))). split; [lra|]. split; [lra|].
    assert (T : sin (deg 270) = -1 /\ cos (deg 270) = 0). { replace (deg 270) with (3 * (PI / 2)) by (unfold deg; field). split; [apply sin_3PI2|apply cos_3PI2]. } destruct T as [T1 T2]. rewrite T1, T2.
    unfold scalar, east_of, north_of, place. cbn [vx vy vz]. rewrite deg0, sin_0, cos_0. split; ring.
  - exists 0. split; [lra|]. exists 1%Z. lra.
  - cbn [wall q0 fst snd]. lra.
  - cbn [flat_map corner_depths app wall q0 q1 q2 q3 snd]. repeat constructor; lra.
Qed.
