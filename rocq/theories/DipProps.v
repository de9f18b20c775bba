(** Property C84: the representative strike and dip of ruptures given by their edges. *)
From Coq Require Import ZArith Reals String Ascii Bool List Lia Lra.
From Verif Require Import PyBase PyStr VecModel GeoModel RuptModel PolyModel SizeModel RuptSpec GeoSpec PolySpec SizeSpec VecProofs GeoTrig GeoProofs RuptProofs EdgeProofs EdgeProps FrameProps EquatorProofs SizeProofs EdgeSizeProofs EdgeSizeProps DipProofs SlopeProofs.
Import ListNotations.
Open Scope R_scope.

(** The normal is that of the sum of the vector areas, upwards and northwards are means weighted by
    the areas of the triangles.  The dip is the angle between the surface and the horizontal; ninety
    degrees clockwise from the strike the surface goes down. *)
Theorem C84_angles : forall ts bs ps ns n m u, all_patches ts bs ps -> Forall sound ps -> Forall (fun c => first_area c <> 0 /\ second_area c <> 0) ps -> Forall2 northness ps ns ->
  n = vtotal (map twist ps) -> m = vtotal ns -> u = vtotal (map upness ps) -> n <> v0 -> m <> v0 -> u <> v0 -> scalar n u <> 0 ->
  exists dip st, strike_dip (built ts bs) = Ok (Some dip, st) /\ leans n u dip /\
  forall v, downhill n u v -> (v = v0 -> st = None) /\
    (v <> v0 -> scalar m u = 0 \/ mixed v m u <> 0 -> exists strike, st = Some strike /\ -180 <= strike < 180 /\ clockwise v m u (strike + 90)).
Proof.
  intros ts bs ps ns n m u P S A N En Em Eu Nn Nm Nu Nz. unfold strike_dip. change (mkvec 0 0 0) with v0. rewrite (sd_all _ _ _ _ (built_at _ _ _ P) S A N v0 v0 v0). rewrite <- En, <- Em, <- Eu. cbn [bind onorm].
  assert (V0 : forall k w, vadd v0 (vscale k w) = vscale k w) by (intros; unfold vadd, v0, vscale; apply vec_ext; cbn [vx vy vz]; ring). rewrite !V0.
  pose proof (direction_exists n Nn) as Dn. pose proof (direction_exists m Nm) as Dm. pose proof (direction_exists u Nu) as Du.
  rewrite (norm_unit _ _ (scale_direction (/ 2000) _ _ ltac:(lra) Dn)), (norm_unit _ _ (scale_direction (/ 1000) _ _ ltac:(lra) Dm)), (norm_unit _ _ (scale_direction (/ 1000) _ _ ltac:(lra) Du)).
  destruct Dn as (Un & kn & Kn & Hn), Du as (Uu & ku & Ku & Hu). pose proof Dm as (Um & km & Km & Hm). set (n' := vscale (/ mag n) n) in *. set (m' := vscale (/ mag m) m) in *. set (u' := vscale (/ mag u) u) in *. clearbody n' m' u'.
  assert (Un2 : vdot n' n' = 1) by (apply unit_mag; exact Un). assert (Uu2 : vdot u' u' = 1) by (apply unit_mag; exact Uu). assert (Um2 : vdot m' m' = 1) by (apply unit_mag; exact Um).
  assert (Mn : mag n = kn) by (rewrite Hn, mag_scale, Un, Rabs_right; lra). assert (Mu : mag u = ku) by (rewrite Hu, mag_scale, Uu, Rabs_right; lra).
  assert (Snu : scalar n u = kn * ku * vdot u' n') by (rewrite Hn, Hu; unfold scalar, vdot, vscale; cbn [vx vy vz]; ring). assert (Kp : 0 < kn * ku) by (apply Rmult_lt_0_compat; assumption).
  assert (Nz' : vdot u' n' <> 0) by (intro Z; apply Nz; rewrite Snu, Z; ring).
  destruct (orient_dip n' m' u' Un2 Uu2 Nz') as [D1 D2]. exists (fst (orient n' m' u')), (snd (orient n' m' u')). split; [reflexivity|]. split.
  - split; [exact D1|]. rewrite D2, Mn, Mu, Snu, Rabs_mult, (Rabs_right (kn * ku)) by lra. ring.
  - intros v (k & Hk & Hv). set (w := vscale (sign (vdot u' n')) (vsub n' (vscale (vdot u' n') u'))).
    assert (Ek : k = sign (vdot u' n')). { rewrite Hk. destruct (sign_cases (vdot u' n')) as [[C ->]|[[C ->]|[C _]]]; [..|contradiction]; destruct (Rle_dec 0 (scalar n u)) as [G|G]; try reflexivity; exfalso; rewrite Snu in G; nra. }
    assert (Ev : v = vscale (kn * (ku * ku)) w). { rewrite Hv, Ek, Snu. unfold w. assert (Suu : scalar u u = ku * ku) by (rewrite Hu; transitivity (ku * ku * vdot u' u'); [unfold scalar, vdot, vscale; cbn [vx vy vz]; ring|rewrite Uu2; ring]). rewrite Suu. rewrite Hn at 1. rewrite Hu at 1. set (d := vdot u' n'). unfold vscale, vsub. apply vec_ext; cbn [vx vy vz]; ring. }
    assert (Kv : 0 < kn * (ku * ku)) by (repeat apply Rmult_lt_0_compat; assumption). clear Hv. split.
    + intro Z. assert (W : w = v0). { apply mag_zero. rewrite Ev in Z. apply mag_zero in Z. rewrite mag_scale, Rabs_right in Z by lra. nra. }
      unfold orient. cbv zeta. cbn [snd]. replace (vsub _ _) with w by (unfold w, vsub, vscale, vdot; apply vec_ext; cbn [vx vy vz]; ring). rewrite W, norm_zero. reflexivity.
    + intros Nv Hc. assert (Nw : w <> v0). { intro W. apply Nv. rewrite Ev, W. unfold vscale, v0. apply vec_ext; cbn [vx vy vz]; ring. }
      pose proof (direction_exists w Nw) as Dw. set (w' := vscale (/ mag w) w) in *. clearbody w'. assert (Hc' : vdot m' u' = 0 \/ mixed w' m' u' <> 0). { destruct Hc as [Z|Z]; [left|right].
        - rewrite Hm, Hu in Z. assert (Q : km * ku * vdot m' u' = 0) by (rewrite <- Z; unfold scalar, vdot, vscale; cbn [vx vy vz]; ring). assert (0 < km * ku) by (apply Rmult_lt_0_compat; assumption). nra.
        - intro Q. apply Z. destruct Dw as (_ & kw & _ & Hw). rewrite Ev, Hw, Hm, Hu. transitivity (kn * (ku * ku) * kw * km * ku * mixed w' m' u'); [unfold mixed, vscale; cbn [vx vy vz]; ring|rewrite Q; ring]. }
      destruct (orient_strike n' m' u' w' Un2 Uu2 Um2 Nz' (norm_unit _ _ Dw) Hc') as (strike & E & R & C). exists strike. split; [exact E|]. split; [exact R|].
      apply (clockwise_scale v w' m m' u u'); [rewrite Ev; apply scale_direction; [exact Kv|exact Dw]|exact Dm|split; [exact Uu|exists ku; auto]|exact C].
Qed.
Print Assumptions C84_angles.
(** An upright surface is reported flat and without strike. *)
Theorem C84_upright : forall ts bs ps ns n m u, all_patches ts bs ps -> Forall sound ps -> Forall (fun c => first_area c <> 0 /\ second_area c <> 0) ps -> Forall2 northness ps ns ->
  n = vtotal (map twist ps) -> m = vtotal ns -> u = vtotal (map upness ps) -> n <> v0 -> m <> v0 -> u <> v0 -> scalar n u = 0 ->
  strike_dip (built ts bs) = Ok (Some 0, None) /\ leans n u 90 /\ ~ leans n u 0.
Proof.
  intros ts bs ps ns n m u P S A N En Em Eu Nn Nm Nu Z. split; [|split].
  - unfold strike_dip. change (mkvec 0 0 0) with v0. rewrite (sd_all _ _ _ _ (built_at _ _ _ P) S A N v0 v0 v0). rewrite <- En, <- Em, <- Eu. cbn [bind onorm].
    assert (V0 : forall k w, vadd v0 (vscale k w) = vscale k w) by (intros; unfold vadd, v0, vscale; apply vec_ext; cbn [vx vy vz]; ring). rewrite !V0.
    pose proof (direction_exists n Nn) as Dn. pose proof (direction_exists m Nm) as Dm. pose proof (direction_exists u Nu) as Du.
    rewrite (norm_unit _ _ (scale_direction (/ 2000) _ _ ltac:(lra) Dn)), (norm_unit _ _ (scale_direction (/ 1000) _ _ ltac:(lra) Dm)), (norm_unit _ _ (scale_direction (/ 1000) _ _ ltac:(lra) Du)).
    destruct (norm_nz n Nn) as [_ Pn]. destruct (norm_nz u Nu) as [_ Pu]. assert (Z' : vdot (vscale (/ mag u) u) (vscale (/ mag n) n) = 0). { transitivity (/ mag u * / mag n * scalar n u); [unfold vdot, vscale, scalar; cbn [vx vy vz]; ring|rewrite Z; ring]. }
    assert (S0 : sign 0 = 0) by (destruct (sign_cases 0) as [[C _]|[[C _]|[_ C]]]; [lra|lra|exact C]).
    unfold orient. cbv zeta. rewrite Z', S0. cbn [fst snd]. assert (V : forall w, vscale 0 w = v0) by (intro w; unfold vscale, v0; apply vec_ext; cbn [vx vy vz]; ring). rewrite V.
    replace (vcross (vscale (/ mag u) u) v0) with v0 by (unfold vcross, v0; apply vec_ext; cbn [vx vy vz]; ring). replace (vsub v0 _) with v0 by (unfold vsub, vscale, vdot, v0; apply vec_ext; cbn [vx vy vz]; ring). rewrite norm_zero, (proj2 (mag_zero v0) eq_refl), asin_0. cbn [option_map]. f_equal. f_equal. f_equal. unfold Rdiv. ring.
  - split; [lra|]. rewrite Z, Rabs_R0, deg_90, cos_PI2. ring.
  - intros [_ Q]. rewrite deg0, cos_0, Z, Rabs_R0 in Q. destruct (norm_nz n Nn) as [_ Pn]. destruct (norm_nz u Nu) as [_ Pu]. assert (0 < mag n * mag u) by (apply Rmult_lt_0_compat; assumption). lra.
Qed.
Print Assumptions C84_upright.
(** One triangle without area is enough for both to be nan. *)
Theorem C84_degenerate : forall ts bs ps c, all_patches ts bs ps -> Forall sound ps -> In c ps -> first_area c = 0 \/ second_area c = 0 -> strike_dip (built ts bs) = Ok (None, None).
Proof.
  intros ts bs ps c P S I Z. unfold strike_dip. destruct (sd_none _ _ _ (built_at _ _ _ P) S (Some (mkvec 0 0 0), Some (mkvec 0 0 0), Some (mkvec 0 0 0))) as (b & u & ->); [left; exists c; auto|]. reflexivity.
Qed.
Print Assumptions C84_degenerate.
(** Vertices less than a thousandth of a degree from the pole, or more than 7.848 km up, are refused. *)
Theorem C84_refused : forall ts bs ps, all_patches ts bs ps -> ~ Forall sound ps -> strike_dip (built ts bs) = Err ValueError.
Proof.
  intros ts bs ps P S. unfold strike_dip. assert (Q : forall acc, sd_sums (built ts bs) (segments (built ts bs)) acc = Err ValueError); [|rewrite Q; reflexivity].
  generalize (built_at _ _ _ P). generalize (segments (built ts bs)) as is. intros is F. clear P. induction F as [|i c is cs E _ IH]; [elim S; constructor|]. intro acc. cbn [sd_sums].
  assert (Me : forall o, make_point (Some o) = Ok o /\ on_earth o \/ make_point (Some o) = Err ValueError /\ ~ on_earth o). { intro o. destruct (make_point (Some o)) as [q|x] eqn:M; [left; apply make_point_some in M; destruct M as [-> H]; auto|right]. split; [|intro H; rewrite (proj2 (make_point_some o o) (conj eq_refl H)) in M; discriminate]. destruct o as [[lon lat] d]. unfold make_point, new_point in M. repeat match type of M with (if ?b then _ else _) = _ => destruct b end; congruence. }
  destruct (sd_step (built ts bs) i acc) as [t|x] eqn:Es; cbn [bind].
  - apply IH. intro Ss. apply S. constructor; [|exact Ss]. unfold sd_step in Es. rewrite E in Es. cbn [bind corners] in Es. unfold sound. change raised with above. change nudged with northward_of.
    repeat match type of Es with bind (make_point (Some ?o)) _ = _ => let q := fresh in let r := fresh in destruct (Me o) as [[r q]|[r q]]; rewrite r in Es; cbn [bind] in Es; clear r; [|discriminate] end. repeat constructor; assumption.
  - unfold sd_step in Es. rewrite E in Es. cbn [bind corners] in Es.
    repeat match type of Es with bind (make_point (Some ?o)) _ = _ => let q := fresh in let r := fresh in destruct (Me o) as [[r q]|[r q]]; rewrite r in Es; cbn [bind] in Es; clear r; [|congruence] end. destruct acc as [[? ?] ?]. discriminate.
Qed.
Print Assumptions C84_refused.
Example C84_ex_refused : all_patches [[(0, 89.9995, 0); (1, 89.9995, 0)]] [[(0, 89.9995, 10); (1, 89.9995, 10)]] [mkpatch (0, 89.9995, 0) (1, 89.9995, 0) (1, 89.9995, 10) (0, 89.9995, 10)] /\ ~ Forall sound [mkpatch (0, 89.9995, 0) (1, 89.9995, 0) (1, 89.9995, 10) (0, 89.9995, 10)] /\
  Forall on_earth [(0, 89.9995, 0); (1, 89.9995, 0); (0, 89.9995, 10); (1, 89.9995, 10)].
Proof.
  split; [change [mkpatch (0, 89.9995, 0) (1, 89.9995, 0) (1, 89.9995, 10) (0, 89.9995, 10)] with ([mkpatch (0, 89.9995, 0) (1, 89.9995, 0) (1, 89.9995, 10) (0, 89.9995, 10)] ++ []); repeat constructor|]. split.
  - intro F. inversion F as [|? ? Sd _]; subst. unfold sound in Sd. rewrite Forall_forall in Sd. specialize (Sd (nudged (1, 89.9995, 0)) ltac:(cbn [In p_tr]; tauto)). cbn [nudged on_earth] in Sd. lra.
  - repeat constructor; cbn [on_earth]; lra.
Qed.
Example C84_ex_upright : exists n, all_patches [wall_top] [wall_bottom] [wall_patch] /\ Forall sound [wall_patch] /\ Forall (fun c => first_area c <> 0 /\ second_area c <> 0) [wall_patch] /\ Forall2 northness [wall_patch] [n] /\
  vtotal (map twist [wall_patch]) <> v0 /\ vtotal [n] <> v0 /\ vtotal (map upness [wall_patch]) <> v0 /\ scalar (vtotal (map twist [wall_patch])) (vtotal (map upness [wall_patch])) = 0.
Proof. destruct wall_upright as (n & A & B & C & D & E). exists n. split; [apply C83_ex|]. split; [exact A|]. split; [constructor; [split; assumption|constructor]|]. split; [constructor; [exact D|constructor]|]. exact E. Qed.
Example C84_ex : exists n, all_patches [[(0, 0, 10); (90, 0, 0)]] [[(0, 0, 0); (0, 90, 0)]] [slope_patch] /\ Forall sound [slope_patch] /\ Forall (fun c => first_area c <> 0 /\ second_area c <> 0) [slope_patch] /\ Forall2 northness [slope_patch] [n] /\
  vtotal (map twist [slope_patch]) <> v0 /\ vtotal [n] <> v0 /\ vtotal (map upness [slope_patch]) <> v0 /\ scalar (vtotal (map twist [slope_patch])) (vtotal (map upness [slope_patch])) <> 0 /\
  exists v, downhill (vtotal (map twist [slope_patch])) (vtotal (map upness [slope_patch])) v /\ v <> v0 /\ mixed v (vtotal [n]) (vtotal (map upness [slope_patch])) <> 0.
Proof. destruct slope_facts as (n & A & B & C & D & E). exists n. split; [change [slope_patch] with ([slope_patch] ++ []); repeat constructor|]. split; [exact A|]. split; [constructor; [split; assumption|constructor]|]. split; [constructor; [exact D|constructor]|]. exact E. Qed.
(** A patch whose lower vertices coincide with the upper ones on one side. *)
Example C84_ex_degenerate : all_patches [[(0, 0, 0); (-1, 0, 0)]] [[(0, 0, 0); (-1, 0, 10)]] [mkpatch (0, 0, 0) (-1, 0, 0) (-1, 0, 10) (0, 0, 0)] /\ Forall sound [mkpatch (0, 0, 0) (-1, 0, 0) (-1, 0, 10) (0, 0, 0)] /\ second_area (mkpatch (0, 0, 0) (-1, 0, 0) (-1, 0, 10) (0, 0, 0)) = 0.
Proof.
  split; [change [mkpatch (0, 0, 0) (-1, 0, 0) (-1, 0, 10) (0, 0, 0)] with ([mkpatch (0, 0, 0) (-1, 0, 0) (-1, 0, 10) (0, 0, 0)] ++ []); repeat constructor|]. split; [repeat constructor; cbn [p_tl p_tr p_br p_bl raised nudged on_earth]; lra|].
  unfold second_area, tri_area. cbn [p_tl p_br p_bl]. match goal with |- mag ?v / 2 = 0 => assert (E : v = v0) by (unfold vcross, vsub, v0; apply vec_ext; cbn [vx vy vz]; ring) end. rewrite E, (proj2 (mag_zero v0) eq_refl). field.
Qed.
