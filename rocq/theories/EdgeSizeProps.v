(** Property C83: sizes of ruptures given by their edges. *)
From Coq Require Import ZArith Reals String Ascii Bool List Lia Lra.
From Verif Require Import PyBase PyStr VecModel GeoModel RuptModel PolyModel SizeModel RuptSpec GeoSpec PolySpec SizeSpec VecProofs GeoTrig GeoProofs RuptProofs EdgeProofs EdgeProps EquatorProofs SizeProofs EdgeSizeProofs.
Import ListNotations.
Open Scope R_scope.

Definition on_globe (v : vertex) : Prop := -180 <= fst (fst v) <= 180 /\ -90 <= snd (fst v) <= 90.
Lemma surface_point v : on_globe v -> make_point (Some (at_surface v)) = Ok (at_surface v).
Proof. destruct v as [[lon lat] d]. unfold on_globe. cbn [fst snd]. intros [A B]. apply make_point_some. split; [reflexivity|]. cbn [at_surface on_earth]. repeat split; lra. Qed.
Definition ground (v w : vertex) : R := geodetic_distance (fst (fst v)) (snd (fst v)) (fst (fst w)) (snd (fst w)).
Lemma step_ok e i c : corners_at e i (i + 1) = Ok (corners c) -> on_globe (p_tl c) -> on_globe (p_tr c) -> e_step e i = Ok (ground (p_tl c) (p_tr c)).
Proof.
  intros H A B. apply corners_inv in H. destruct H as (H0 & H1 & _). unfold e_step. rewrite H0. cbn [bind]. rewrite surface_point by exact A. cbn [bind]. rewrite H1. cbn [bind]. rewrite surface_point by exact B. cbn [bind].
  destruct (p_tl c) as [[lon1 lat1] d1], (p_tr c) as [[lon2 lat2] d2]. cbn [at_surface]. f_equal. unfold geo_distance, ground. cbn [fst snd]. replace (_ ^ 2 + (0 - 0) ^ 2) with (geodetic_distance lon1 lat1 lon2 lat2 ^ 2) by ring. apply sqrt_pow2.
  destruct (dist_angle lon1 lat1 lon2 lat2) as (t & [[T _] _] & ->). lra.
Qed.
Lemma over_ground_total t b ps x : patches t b ps -> over_ground t x -> total (map (fun c => ground (p_tl c) (p_tr c)) ps) = x.
Proof.
  intro P. revert x. induction P as [v w|t t' ts b b' bs ps P IH]; intros x G; inversion G; subst; [reflexivity|]. clear G. cbn [map total p_tl p_tr]. match goal with Hg : over_ground (_ :: _) _ |- _ => rewrite (IH _ Hg) end. f_equal. unfold ground. cbn [fst snd]. destruct (dist_angle lon1 lat1 lon2 lat2) as (ang & A & ->). match goal with Ha : angle _ _ ?x |- _ = 6371 * ?x => rewrite (angle_det _ _ _ _ A Ha) end. reflexivity.
Qed.
Lemma patches_in t b ps c : patches t b ps -> In c ps -> In (p_tl c) t /\ In (p_tr c) t /\ In (p_br c) b /\ In (p_bl c) b.
Proof.
  induction 1 as [|t t' ts b b' bs ps P IH]; [contradiction|]. intros [<-|I]; [cbn [p_tl p_tr p_br p_bl In]; tauto|]. destruct (IH I) as (A & B & C & D). repeat split; right; assumption.
Qed.
Lemma all_in ts bs ps c : all_patches ts bs ps -> In c ps -> In (p_tl c) (concat ts) /\ In (p_tr c) (concat ts) /\ In (p_br c) (concat bs) /\ In (p_bl c) (concat bs).
Proof.
  induction 1 as [|t ts b bs ps qs P _ IH]; [contradiction|]. intro I. cbn [concat]. rewrite !in_app_iff. apply in_app_or in I. destruct I as [I|I]; [destruct (patches_in _ _ _ _ P I)|destruct (IH I)]; tauto.
Qed.
Lemma Forall2_in {A B} (P Q : A -> B -> Prop) l m : (forall a b, In b m -> P a b -> Q a b) -> Forall2 P l m -> Forall2 Q l m.
Proof. intros H F. induction F as [|a b l m E _ IH]; constructor; [apply H; [left; reflexivity|exact E]|apply IH; intros x y I; apply H; right; exact I]. Qed.

(** The length is that of the lines over the ground below which the upper edges lie. *)
Theorem C83_length : forall ts bs xs, shaped ts bs -> Forall on_globe (concat ts) -> Forall2 over_ground ts xs -> e_length (built ts bs) = Ok (total xs).
Proof.
  intros ts bs xs S F G. destruct (all_exists ts bs S) as (ps & P). unfold e_length.
  rewrite (rsum_ok _ (fun c => ground (p_tl c) (p_tr c)) _ ps).
  - rewrite Rplus_0_l. f_equal. clear S F. revert xs G. induction P as [|t ts b bs ps qs P _ IH]; intros xs G; inversion G; subst; [reflexivity|]. rewrite map_app, total_app. cbn [total]. f_equal; [eapply over_ground_total; eassumption|apply IH; assumption].
  - eapply Forall2_in; [|apply built_at; exact P]. cbv beta. intros i c I H. rewrite Forall_forall in F. destruct (all_in _ _ _ _ P I) as (A & B & _). apply step_ok; [exact H|apply F; exact A|apply F; exact B].
Qed.
Print Assumptions C83_length.
(** Every line has a length, and the only failure is a vertex off the globe. *)
Theorem C83_length_errors : forall ts bs, shaped ts bs -> (exists xs, Forall2 over_ground ts xs) /\ (forall e, e_length (built ts bs) = Err e -> e = ValueError /\ Exists (fun v => ~ on_globe v) (concat ts)).
Proof.
  intros ts bs S. assert (G : exists xs, Forall2 over_ground ts xs).
  { induction S as [|t b ts bs [N _] _ (xs & IH)]; [exists []; constructor|]. assert (H : exists x, over_ground t x). { destruct t as [|v t]; [contradiction|]. clear N. revert v. induction t as [|w t IHt]; intro v; [exists 0; constructor|]. destruct (IHt w) as (x & X). destruct v as [[lon1 lat1] d1], w as [[lon2 lat2] d2]. destruct (dist_angle lon1 lat1 lon2 lat2) as (a & A & _). exists (6371 * a + x). constructor; assumption. } destruct H as (x & X). exists (x :: xs). constructor; assumption. }
  split; [exact G|]. intros e H. destruct (Exists_dec (fun v => ~ on_globe v) (concat ts)) as [Y|N].
  - intros [[lon lat] d]. unfold on_globe. cbn [fst snd]. destruct (Rle_dec (-180) lon), (Rle_dec lon 180), (Rle_dec (-90) lat), (Rle_dec lat 90); (left; tauto) || (right; tauto).
  - split; [|exact Y]. destruct (all_exists ts bs S) as (ps & P). pose proof (built_at _ _ _ P) as F. unfold e_length in H. clear P. revert H. generalize 0. induction F as [|i c is cs E _ IH]; intro acc; cbn [rsum_res]; [discriminate|].
    destruct (e_step (built ts bs) i) as [x|x] eqn:Es; cbn [bind]; [exact (IH _)|]. intro X. assert (x = e) by congruence. subst x. apply corners_inv in E. destruct E as (E0 & E1 & _). unfold e_step in Es. rewrite E0 in Es. cbn [bind] in Es.
    assert (Me : forall o z, make_point (Some o) = Err z -> z = ValueError). { intros [[lon lat] d] z Q. unfold make_point, new_point in Q. repeat match type of Q with (if ?b then _ else _) = _ => destruct b end; congruence. }
    destruct (make_point (Some (at_surface (p_tl c)))) eqn:M0; cbn [bind] in Es; [|apply Me in M0; congruence]. rewrite E1 in Es. cbn [bind] in Es. destruct (make_point (Some (at_surface (p_tr c)))) as [p|] eqn:M1; cbn [bind] in Es; [|apply Me in M1; congruence]. destruct a as [[? ?] ?], p as [[? ?] ?]. discriminate.
  - exfalso. destruct G as (xs & G). assert (F : Forall on_globe (concat ts)). { apply Forall_Exists_neg in N. eapply Forall_impl; [|exact N]. intros [[lon lat] d] Q. unfold on_globe in *. cbn [fst snd] in *. destruct (Rle_dec (-180) lon), (Rle_dec lon 180), (Rle_dec (-90) lat), (Rle_dec lat 90); tauto. } rewrite (C83_length ts bs xs S F G) in H. discriminate.
Qed.
Print Assumptions C83_length_errors.

(** The area is that of two triangles for each patch; for patches that are proper plane
    quadrilaterals it is theirs. *)
Theorem C83_area : forall ts bs ps, all_patches ts bs ps -> exists a, e_area (built ts bs) = Ok a /\ 0 <= a /\
  1000000 * a = total (map (fun c => two_triangles (ecef (p_tl c)) (ecef (p_tr c)) (ecef (p_br c)) (ecef (p_bl c))) ps) /\
  (Forall (fun c => proper (ecef (p_tl c)) (ecef (p_tr c)) (ecef (p_br c)) (ecef (p_bl c))) ps ->
   1000000 * a = total (map (fun c => mag (vcross (vsub (ecef (p_br c)) (ecef (p_tl c))) (vsub (ecef (p_bl c)) (ecef (p_tr c)))) / 2) ps)).
Proof.
  intros ts bs ps P. exists (total (map (fun c => patch_area c / 1000000) ps)). unfold e_area. rewrite (rsum_ok _ (fun c => patch_area c / 1000000) _ ps).
  2: { eapply Forall2_in; [|apply built_at; exact P]. cbv beta. intros i c _ H. apply area_step. exact H. }
  split; [f_equal; ring|]. split.
  - apply total_nonneg. apply Forall_forall. intros x I. apply in_map_iff in I. destruct I as (c & <- & _). apply div_nonneg; [|lra]. unfold patch_area, two_triangles, tri_area. generalize (mag_nonneg (vcross (vsub (ecef (p_tr c)) (ecef (p_tl c))) (vsub (ecef (p_br c)) (ecef (p_tl c))))) (mag_nonneg (vcross (vsub (ecef (p_br c)) (ecef (p_tl c))) (vsub (ecef (p_bl c)) (ecef (p_tl c))))). lra.
  - assert (E : 1000000 * total (map (fun c => patch_area c / 1000000) ps) = total (map patch_area ps)) by (rewrite <- total_scale, map_map; f_equal; apply map_ext; intro c; field). split; [exact E|].
    intro F. rewrite E. f_equal. apply map_ext_in. intros c I. rewrite Forall_forall in F. apply diagonals, F, I.
Qed.
Print Assumptions C83_area.

(** The width is the quotient. *)
Theorem C83_width : forall ts bs ps xs, all_patches ts bs ps -> Forall on_globe (concat ts) -> Forall2 over_ground ts xs ->
  (ps = [] -> e_width (built ts bs) = Err ZeroDivisionError) /\
  (ps <> [] -> total xs = 0 -> e_width (built ts bs) = Ok None) /\
  (total xs <> 0 -> exists w a, e_width (built ts bs) = Ok (Some w) /\ e_area (built ts bs) = Ok a /\ w * total xs = a).
Proof.
  intros ts bs ps xs P F G. pose proof (all_shaped _ _ _ P) as S. destruct (C83_area ts bs ps P) as (a & A & _). pose proof (C83_length ts bs xs S F G) as L. unfold e_width. rewrite A, L. cbn [bind].
  assert (Z : (segments (built ts bs) = [] <-> ps = []) ). { pose proof (built_at _ _ _ P) as B. inversion B; split; congruence. }
  split; [|split].
  - intro E. rewrite (proj2 Z E). reflexivity.
  - intros N E. destruct (segments (built ts bs)); [elim N; apply Z; reflexivity|]. rewrite (proj2 (reqd_iff _ _) E). reflexivity.
  - intro N. exists (a / total xs), a. destruct (segments (built ts bs)) eqn:Sg.
    + exfalso. apply N. assert (E : ps = []) by (apply Z; reflexivity). unfold e_length in L. rewrite Sg in L. cbn [rsum_res] in L. congruence.
    + assert (Nz : reqd (total xs) 0 = false) by (apply not_true_is_false; intro T; apply reqd_iff in T; contradiction). rewrite Nz. split; [reflexivity|]. split; [reflexivity|]. field. exact N.
Qed.
Print Assumptions C83_width.

(** The depth of the top is the least of the upper edges only. *)
Theorem C83_top : forall e, (e_top e = [] -> e_depth_to_top e = Err ValueError) /\ (e_top e <> [] -> exists d, e_depth_to_top e = Ok d /\ smallest (map snd (e_top e)) d).
Proof.
  intro e. unfold e_depth_to_top. change (map depth_of (e_top e)) with (map (@snd (R * R) R) (e_top e)). generalize (map (@snd (R * R) R) (e_top e)) as l, (@map_length _ _ (@snd (R * R) R) (e_top e)). intros l L. split.
  - intro E. rewrite E in L. destruct l; [reflexivity|discriminate].
  - intro N. assert (Nl : l <> []) by (intro E; subst l; destruct (e_top e); [contradiction|discriminate]). clear N L. assert (M : forall l, l <> [] -> exists d, rmin_list l = Some d /\ smallest l d).
    { clear. induction l as [|x l IH]; [contradiction|]. intros _. cbn [rmin_list]. destruct l as [|y l]; [exists x; split; [reflexivity|]; split; [left; reflexivity|]; intros z [<-|[]]; lra|]. destruct IH as (d & E & I & Le); [discriminate|]. rewrite E. exists (Rmin x d). split; [reflexivity|]. split.
      - destruct (Rle_dec x d); [rewrite Rmin_left by lra; left; reflexivity|rewrite Rmin_right by lra; right; exact I].
      - intros z [<-|J]; [apply Rmin_l|eapply Rle_trans; [apply Rmin_r|apply Le; exact J]]. }
    destruct (M l Nl) as (d & E & Sm). exists d. rewrite E. split; [reflexivity|exact Sm].
Qed.
Print Assumptions C83_top.

(** The wall on the equator. *)
Definition wall_top : list vertex := [(0, 0, 0); (-1, 0, 0)].
Definition wall_bottom : list vertex := [(0, 0, 10); (-1, 0, 10)].
Definition wall_patch : patch := mkpatch (0, 0, 0) (-1, 0, 0) (-1, 0, 10) (0, 0, 10).
Lemma wall_proper : proper (ecef (p_tl wall_patch)) (ecef (p_tr wall_patch)) (ecef (p_br wall_patch)) (ecef (p_bl wall_patch)).
Proof.
  unfold wall_patch. cbn [p_tl p_tr p_br p_bl]. rewrite !equator_ecef, deg0, sin_0, cos_0. pose proof (wall_sides (-1) ltac:(lra)) as S. set (s := sin (deg (-1))) in *. set (c := cos (deg (-1))). split.
  - unfold parallel, vsub. cbn [vx vy vz]. intros (_ & _ & E). unfold WGS84_A in E. clearbody s c. nra.
  - set (k := (WGS84_A - 10000) / WGS84_A). assert (K : 0 < k < 1) by (unfold k, WGS84_A; lra). exists (/ (1 + k)), (/ (1 + k)). assert (B : 0 < / (1 + k) < 1) by (split; [apply Rinv_0_lt_compat; lra|rewrite <- Rinv_1; apply Rinv_1_lt_contravar; lra]). split; [exact B|]. split; [exact B|].
    assert (Q : k * / (1 + k) = 1 - / (1 + k)) by (field; lra). set (y := / (1 + k)) in *. assert (Ka : WGS84_A * k = WGS84_A - 10000) by (unfold k, WGS84_A; lra). clearbody k y s c.
    unfold between_pts. apply vec_ext; cbn [vx vy vz]; replace (WGS84_A - 1000 * 0) with WGS84_A by ring; replace (WGS84_A - 1000 * 10) with (WGS84_A * k) by lra; replace (y * (WGS84_A * k * 1)) with ((k * y) * WGS84_A) by ring; replace (y * (WGS84_A * k * c)) with ((k * y) * (WGS84_A * c)) by ring; replace (y * (WGS84_A * k * s)) with ((k * y) * (WGS84_A * s)) by ring; rewrite ?Q; ring.
Qed.
Example C83_ex : shaped [wall_top] [wall_bottom] /\ all_patches [wall_top] [wall_bottom] [wall_patch] /\ Forall on_globe (concat [wall_top]) /\ Forall2 over_ground [wall_top] [6371 * deg 1 + 0] /\ total [6371 * deg 1 + 0] <> 0 /\
  Forall (fun c => proper (ecef (p_tl c)) (ecef (p_tr c)) (ecef (p_br c)) (ecef (p_bl c))) [wall_patch].
Proof.
  split; [repeat constructor; discriminate|]. split; [change [wall_patch] with ([wall_patch] ++ []); repeat constructor|]. split; [repeat constructor; cbn [fst snd]; lra|]. pose proof pi_pos as P. pose proof PI_4 as P4. split; [|split].
  - constructor; [|constructor]. constructor; [|constructor]. split; [unfold deg; lra|]. unfold place. cbn [vx vy vz]. rewrite deg0, sin_0, cos_0. replace (deg (-1)) with (- deg 1) by (unfold deg; field). rewrite cos_neg. ring.
  - cbn [total]. unfold deg. nra.
  - constructor; [exact wall_proper|constructor].
Qed.
