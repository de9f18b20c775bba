(** Proofs about the representative strike and dip of edges. *)
From Coq Require Import ZArith Reals String Ascii Bool List Lia Lra.
From Verif Require Import PyBase PyStr VecModel GeoModel RuptModel PolyModel SizeModel RuptSpec GeoSpec PolySpec SizeSpec VecProofs GeoTrig GeoProofs RuptProofs EdgeProofs EdgeProps FrameProps SizeProofs EdgeSizeProofs.
Import ListNotations.
Open Scope R_scope.

Lemma sign_cases x : (0 < x /\ sign x = 1) \/ (x < 0 /\ sign x = -1) \/ (x = 0 /\ sign x = 0).
Proof. unfold sign. destruct (rltb 0 x) eqn:A; [apply rltb_iff in A; auto|apply rltb_f in A]. destruct (rltb x 0) eqn:B; [apply rltb_iff in B; auto|apply rltb_f in B]. right. right. split; [lra|reflexivity]. Qed.
Lemma unit_mag v : vdot v v = 1 <-> mag v = 1.
Proof. split; intro H; [rewrite mag_dot, H; apply sqrt_1|rewrite <- mag_sq, H; ring]. Qed.
(** The dip of unit vectors. *)
Lemma orient_dip n north up : vdot n n = 1 -> vdot up up = 1 -> vdot up n <> 0 -> let dip := fst (orient n north up) in 0 <= dip <= 90 /\ cos (deg dip) = Rabs (vdot up n).
Proof.
  intros Un Uu Nz. unfold orient. cbv zeta. cbn [fst]. set (m := vscale _ n). set (c := vdot up n) in *.
  assert (Sg : sign c * sign c = 1) by (destruct (sign_cases c) as [[_ ->]|[[_ ->]|[Z _]]]; [lra|lra|contradiction]).
  assert (Um : vdot m m = 1) by (unfold m; transitivity (sign c * sign c * vdot n n); [unfold vdot, vscale; cbn [vx vy vz]; ring|rewrite Sg, Un; ring]).
  assert (Cm : vdot up m = sign c * c) by (unfold m, c, vdot, vscale; cbn [vx vy vz]; ring).
  assert (Ca : sign c * c = Rabs c) by (destruct (sign_cases c) as [[P ->]|[[P ->]|[Z _]]]; [rewrite Rabs_right; lra|rewrite Rabs_left; lra|contradiction]).
  set (x := mag (vcross up m)). assert (X : x * x = 1 - c * c). { unfold x. rewrite mag_sq, lagrange, Uu, Um, Cm. transitivity (1 - sign c * sign c * (c * c)); [ring|rewrite Sg; ring]. }
  assert (X0 : 0 <= x) by apply mag_nonneg. assert (Cp : 0 < Rabs c) by (apply Rabs_pos_lt; exact Nz). assert (Cc : c * c = Rabs c * Rabs c) by (rewrite <- Rabs_mult, Rabs_right; [reflexivity|apply Rle_ge; nra]).
  assert (X1 : 0 <= x <= 1) by (split; [exact X0|nra]). pose proof pi_pos as P.
  assert (B : 0 <= asin x <= PI / 2). { pose proof (asin_bound x) as [A1 A2]. split; [|exact A2]. destruct (Rle_or_lt 0 (asin x)) as [G|G]; [exact G|exfalso]. assert (N : sin (asin x) < 0) by (apply sin_lt_0_var; lra). rewrite sin_asin in N by lra. lra. }
  assert (Ed : deg (asin x * 180 / PI) = asin x) by (unfold deg; field; lra). split.
  - rewrite (deg_le 0), (deg_le _ 90), Ed, deg_90. replace (deg 0) with 0 by (unfold deg; field). exact B.
  - rewrite Ed. rewrite cos_asin by lra. replace (1 - Rsqr x) with (Rabs c ^ 2) by (unfold Rsqr; nra). apply sqrt_pow2. lra.
Qed.
(** The strike of unit vectors. *)
Lemma arctan2_deg y x : x * x + y * y = 1 -> let a := arctan2 y x * 180 / PI in -180 < a <= 180 /\ sin (deg a) = y /\ cos (deg a) = x.
Proof.
  intros H a. pose proof pi_pos as P. assert (Ed : deg a = arctan2 y x) by (unfold a, deg; field; lra). split.
  - rewrite (deg_lt (-180)), (deg_le _ 180), Ed, deg_m180, deg_180. apply arctan2_range.
  - rewrite Ed. assert (Nz : x <> 0 \/ y <> 0). { destruct (Req_dec x 0) as [Zx|Zx]; [right|left; exact Zx]. intro Zy. rewrite Zx, Zy in H. lra. } destruct (arctan2_spec y x Nz) as [Ss Sc]. replace (x ^ 2 + y ^ 2) with 1 in Ss, Sc by lra. rewrite sqrt_1 in Ss, Sc. split; [rewrite Ss|rewrite Sc]; field.
Qed.
Lemma orient_strike n north up w : vdot n n = 1 -> vdot up up = 1 -> vdot north north = 1 -> vdot up n <> 0 ->
  let v := vscale (sign (vdot up n)) (vsub n (vscale (vdot up n) up)) in
  norm v = Some w -> (vdot north up = 0 \/ mixed w north up <> 0) ->
  exists strike, snd (orient n north up) = Some strike /\ -180 <= strike < 180 /\ clockwise w north up (strike + 90).
Proof.
  intros Un Uu Ur Nz v Hw Hc. unfold orient. cbv zeta. cbn [snd]. set (m := vscale (sign (vdot up n)) n).
  assert (E : vsub m (vscale (vdot up m) up) = v) by (unfold v, m, vsub, vscale, vdot; apply vec_ext; cbn [vx vy vz]; ring).
  rewrite E, Hw. cbn [option_map]. destruct (norm_some _ _ Hw) as (Pv & Ev & Uw & Ew).
  set (cp := vcross w north). set (dp := vdot w north). set (sg := sign (vdot cp up)).
  assert (Wu : vdot w up = 0). { assert (A : vdot v up = 0) by (unfold v; transitivity (sign (vdot up n) * (vdot up n - vdot up n * vdot up up)); [unfold vdot, vscale, vsub; cbn [vx vy vz]; ring|rewrite Uu; ring]). rewrite Ew. transitivity (/ mag v * vdot v up); [unfold vdot, vscale; cbn [vx vy vz]; ring|rewrite A; ring]. }
  assert (Mx : vdot cp up = mixed w north up) by (unfold cp, mixed, vdot, vcross; cbn [vx vy vz]; ring).
  assert (Lg : mag cp * mag cp = 1 - dp * dp) by (unfold cp, dp; rewrite mag_sq, lagrange, Uw, Ur; ring).
  assert (Sg : sg * mag cp * (sg * mag cp) = mag cp * mag cp /\ (sg = 0 -> mag cp = 0)).
  { unfold sg. destruct (sign_cases (vdot cp up)) as [[_ ->]|[[_ ->]|[Z ->]]]; [split; [ring|lra]|split; [ring|lra]|]. assert (C0 : mag cp = 0); [|rewrite C0; split; [ring|reflexivity]].
    destruct Hc as [Ho|Hm]; [|rewrite Mx in Z; contradiction]. apply mag_zero.
    (* cp is orthogonal to w, north and up *)
    apply dot_zero. pose proof (expand w up cp) as X. assert (Cw : vdot cp w = 0) by (unfold cp, vdot, vcross; cbn [vx vy vz]; ring). assert (Cu : vdot cp up = 0) by exact Z.
    assert (K : vdot (vcross w up) (vcross w up) = 1) by (rewrite lagrange, Uw, Uu, Wu; ring).
    assert (D : forall a b c d : vec, vdot (vcross a b) (vcross c d) = vdot a c * vdot b d - vdot a d * vdot b c) by (intros; unfold vdot, vcross; cbn [vx vy vz]; ring).
    assert (Q : vdot cp (vcross w up) = 0) by (unfold cp; rewrite D, Uw, Wu, Ho; ring).
    (* Cauchy-Binet: |cp|^2 = sum of squares in the frame w, up, w x up *)
    assert (F : forall a : vec, vdot a a * (vdot w w * vdot up up - vdot w up * vdot w up) = vdot a (vcross w up) * vdot a (vcross w up) + vdot a w * vdot a w * vdot up up + vdot a up * vdot a up * vdot w w - 2 * vdot a w * vdot a up * vdot w up) by (intro a; unfold vdot, vcross; cbn [vx vy vz]; ring).
    specialize (F cp). rewrite Q, Cw, Cu, Uw, Uu, Wu in F. lra. }
  destruct Sg as [Sg Sz]. assert (H1 : dp * dp + sg * mag cp * (sg * mag cp) = 1) by (rewrite Sg, Lg; ring). destruct (arctan2_deg (sg * mag cp) dp H1) as (Ra & As & Ac). set (a := arctan2 (sg * mag cp) dp * 180 / PI) in *.
  assert (M1 : mag w = 1) by (apply unit_mag; exact Uw). assert (M2 : mag north = 1) by (apply unit_mag; exact Ur).
  assert (Cl : forall x, sin (deg x) = sin (deg a) -> cos (deg x) = cos (deg a) -> clockwise w north up x).
  { intros x Xs Xc. unfold clockwise. rewrite Xs, Xc, As, Ac, M1, M2. fold cp. split; [change (scalar w north) with dp; ring|]. rewrite <- Mx. unfold sg in *. pose proof (mag_nonneg cp) as Pc. destruct (sign_cases (vdot cp up)) as [[P ->]|[[P ->]|[Z Zs]]].
    - split; [rewrite Rabs_right; lra|]. apply Rmult_le_pos; lra.
    - split; [rewrite Rabs_left1; lra|]. nra.
    - rewrite Zs, Z. split; [|lra]. rewrite (Sz Zs). replace (0 * 0) with 0 by ring. rewrite Rabs_R0. ring. }
  eexists. split; [reflexivity|]. fold a. destruct (rltb (a - 90) (-180)) eqn:Lt; [apply rltb_iff in Lt|apply rltb_f in Lt].
  - split; [lra|]. apply Cl; destruct (same_lon_trig (a - 90 + 360 + 90) a) as [S1 S2]; try assumption; exists 1%Z; lra.
  - split; [lra|]. apply Cl; f_equal; f_equal; lra.
Qed.
(** Directions of whatever length. *)
Lemma norm_nz u : u <> v0 -> norm u = Some (vscale (/ mag u) u) /\ 0 < mag u.
Proof.
  intro H. assert (P : 0 < mag u). { destruct (mag_nonneg u) as [L|E]; [exact L|]. elim H. apply mag_zero. congruence. } split; [|exact P].
  unfold norm. assert (Nz : reqd (mag u) 0 = false) by (apply not_true_is_false; intro T; apply reqd_iff in T; lra). rewrite Nz. reflexivity.
Qed.
Lemma norm_zero : norm v0 = None.
Proof. unfold norm. rewrite (proj2 (reqd_iff _ _) (proj2 (mag_zero v0) eq_refl)). reflexivity. Qed.
Lemma norm_unit v u : direction v u -> norm v = Some u.
Proof.
  intros (U & k & K & ->). assert (M : mag (vscale k u) = k) by (rewrite mag_scale, U, Rabs_right; lra). destruct (norm_nz (vscale k u)) as [-> _]; [intro Z; apply mag_zero in Z; lra|]. rewrite M. f_equal. unfold vscale. apply vec_ext; cbn [vx vy vz]; field; lra.
Qed.
Lemma direction_exists v : v <> v0 -> direction v (vscale (/ mag v) v).
Proof.
  intro H. destruct (norm_nz v H) as [_ P]. split; [rewrite mag_scale, Rabs_right; [field; lra|left; apply Rinv_0_lt_compat; exact P]|]. exists (mag v). split; [exact P|]. unfold vscale. apply vec_ext; cbn [vx vy vz]; field; lra.
Qed.
Lemma clockwise_scale v w north north' up up' a : direction v w -> direction north north' -> direction up up' -> clockwise w north' up' a -> clockwise v north up a.
Proof.
  intros (M1 & k & K & ->) (M2 & l & L & ->) (_ & m & M & ->) (A & B & C). unfold clockwise. rewrite !mag_scale, !Rabs_right, M1, M2 in * by lra. split; [|split].
  - transitivity (k * l * scalar w north'); [unfold scalar, vscale; cbn [vx vy vz]; ring|]. rewrite A. ring.
  - replace (vcross (vscale k w) (vscale l north')) with (vscale (k * l) (vcross w north')) by (unfold vcross, vscale; apply vec_ext; cbn [vx vy vz]; ring). assert (0 < k * l) by (apply Rmult_lt_0_compat; assumption). rewrite mag_scale, Rabs_right, B by lra. ring.
  - replace (mixed (vscale k w) (vscale l north') (vscale m up')) with (k * l * m * mixed w north' up') by (unfold mixed, vscale; cbn [vx vy vz]; ring). rewrite Rmult_assoc. apply Rmult_le_pos; [|exact C]. left. repeat apply Rmult_lt_0_compat; assumption.
Qed.
Lemma scale_direction k v u : 0 < k -> direction v u -> direction (vscale k v) u.
Proof. intros K (U & l & L & ->). split; [exact U|]. exists (k * l). split; [apply Rmult_lt_0_compat; assumption|]. unfold vscale. apply vec_ext; cbn [vx vy vz]; ring. Qed.
Lemma direction_nz v u : direction v u -> v <> v0.
Proof. intros (U & k & K & ->) E. apply mag_zero in E. rewrite mag_scale, U, Rabs_right in E; lra. Qed.
Lemma dot_scalar u w : scalar u w = vdot u w. Proof. reflexivity. Qed.

(** One patch. *)
Definition sound (c : patch) : Prop :=
  Forall on_earth [p_tl c; p_tr c; p_br c; p_bl c; raised (p_tr c); nudged (p_tr c); raised (p_bl c); nudged (p_bl c)].
Definition twist (c : patch) : vec := vadd (vcross (vsub (ecef (p_br c)) (ecef (p_tl c))) (vsub (ecef (p_tr c)) (ecef (p_tl c)))) (vcross (vsub (ecef (p_bl c)) (ecef (p_tl c))) (vsub (ecef (p_br c)) (ecef (p_tl c)))).
Definition first_area (c : patch) : R := tri_area (ecef (p_tl c)) (ecef (p_tr c)) (ecef (p_br c)).
Definition second_area (c : patch) : R := tri_area (ecef (p_tl c)) (ecef (p_br c)) (ecef (p_bl c)).
Definition upness (c : patch) : vec :=
  vadd (vscale (first_area c) (place (fst (fst (p_tr c))) (snd (fst (p_tr c))))) (vscale (second_area c) (place (fst (fst (p_bl c))) (snd (fst (p_bl c))))).
Inductive northness (c : patch) : vec -> Prop :=
  northness_intro : forall u w, direction (vsub (ecef (nudged (p_tr c))) (ecef (p_tr c))) u -> direction (vsub (ecef (nudged (p_bl c))) (ecef (p_bl c))) w ->
    northness c (vadd (vscale (first_area c) u) (vscale (second_area c) w)).
Lemma above_norm v : on_earth v -> osub_norm (above v) v = Some (place (fst (fst v)) (snd (fst v))).
Proof. destruct v as [[lon lat] d]. cbn [on_earth above fst snd]. intros (_ & L & _). exact (C65_vertical lon lat d L). Qed.
Lemma cross_area a b : (exists k, 0 < k /\ norm (vcross a b) = Some (vscale (/ (2 * k)) (vcross a b)) /\ k = mag (vcross a b) / 2) \/ (mag (vcross a b) = 0 /\ norm (vcross a b) = None).
Proof.
  destruct (Req_dec (mag (vcross a b)) 0) as [Z|Z]; [right; split; [exact Z|]; apply mag_zero in Z; rewrite Z; apply norm_zero|].
  left. exists (mag (vcross a b) / 2). destruct (norm_nz (vcross a b)) as [E P]; [intro X; apply mag_zero in X; contradiction|]. split; [lra|]. split; [|reflexivity]. rewrite E. f_equal. f_equal. f_equal. field.
Qed.
Lemma cross_neg a b : mag (vcross a b) = mag (vcross b a).
Proof. replace (vcross a b) with (vscale (-1) (vcross b a)) by (unfold vcross, vscale; apply vec_ext; cbn [vx vy vz]; ring). rewrite mag_scale, Rabs_left by lra. ring. Qed.
Lemma area_first p0 p1 p2 : heron (mag (vsub p1 p0)) (mag (vsub p2 p0)) (mag (vsub p1 p2)) = tri_area p0 p1 p2.
Proof. rewrite (mag_opp p1 p2). apply heron_tri. Qed.
Lemma area_second p0 p2 p3 : heron (mag (vsub p3 p0)) (mag (vsub p3 p2)) (mag (vsub p2 p0)) = tri_area p0 p2 p3.
Proof. rewrite (mag_opp p3 p0), (mag_opp p3 p2), (mag_opp p2 p0). apply heron_second. Qed.
Lemma sound_points c : sound c -> make_point (Some (p_tl c)) = Ok (p_tl c) /\ make_point (Some (p_tr c)) = Ok (p_tr c) /\ make_point (Some (p_br c)) = Ok (p_br c) /\ make_point (Some (p_bl c)) = Ok (p_bl c) /\
  make_point (Some (above (p_tr c))) = Ok (above (p_tr c)) /\ make_point (Some (northward_of (p_tr c))) = Ok (northward_of (p_tr c)) /\ make_point (Some (above (p_bl c))) = Ok (above (p_bl c)) /\ make_point (Some (northward_of (p_bl c))) = Ok (northward_of (p_bl c)).
Proof. intro S. unfold sound in S. rewrite Forall_forall in S. repeat split; apply make_point_some; (split; [reflexivity|]); apply S; cbn [In]; tauto. Qed.
Lemma sd_degenerate e i c acc : corners_at e i (i + 1) = Ok (corners c) -> sound c -> first_area c = 0 \/ second_area c = 0 \/ fst (fst acc) = None -> exists b u, sd_step e i acc = Ok (None, b, u).
Proof.
  intros H S Z. unfold sd_step. rewrite H. cbn [bind corners]. destruct (sound_points c S) as (-> & -> & -> & -> & E1 & E2 & E3 & E4). cbn [bind]. rewrite E1. cbn [bind]. rewrite E2. cbn [bind]. rewrite E3. cbn [bind]. rewrite E4. cbn [bind]. cbv zeta.
  destruct acc as [[a b] u]. cbn [fst] in Z. do 2 eexists. f_equal. f_equal. f_equal. unfold vlin. destruct a as [a|]; [|reflexivity].
  destruct Z as [Z|[Z|Z]]; [..|discriminate].
  - unfold first_area, tri_area in Z. rewrite cross_neg in Z. destruct (cross_area (vsub (ecef (p_br c)) (ecef (p_tl c))) (vsub (ecef (p_tr c)) (ecef (p_tl c)))) as [(k & K & _ & Ek)|[_ ->]]; [lra|reflexivity].
  - unfold second_area, tri_area in Z. rewrite cross_neg in Z. destruct (cross_area (vsub (ecef (p_bl c)) (ecef (p_tl c))) (vsub (ecef (p_br c)) (ecef (p_tl c)))) as [(k & K & _ & Ek)|[_ ->]]; [lra|]. destruct (norm _); reflexivity.
Qed.
Lemma sd_one e i c a b u n : corners_at e i (i + 1) = Ok (corners c) -> sound c -> first_area c <> 0 -> second_area c <> 0 -> northness c n ->
  sd_step e i (Some a, Some b, Some u) = Ok (Some (vadd a (vscale (/ 2000) (twist c))), Some (vadd b (vscale (/ 1000) n)), Some (vadd u (vscale (/ 1000) (upness c)))).
Proof.
  intros H S Z1 Z2 Nn. unfold sd_step. rewrite H. cbn [bind corners]. destruct (sound_points c S) as (-> & -> & -> & -> & E1 & E2 & E3 & E4). cbn [bind]. rewrite E1. cbn [bind]. rewrite E2. cbn [bind]. rewrite E3. cbn [bind]. rewrite E4. cbn [bind]. cbv zeta.
  rewrite area_first, area_second. unfold sound in S. rewrite Forall_forall in S. rewrite !above_norm by (apply S; cbn [In]; tauto).
  destruct Nn as [x y X Y]. apply norm_unit in X. apply norm_unit in Y. unfold osub_norm. change northward_of with nudged. rewrite X, Y. fold (first_area c) (second_area c).
  destruct (cross_area (vsub (ecef (p_br c)) (ecef (p_tl c))) (vsub (ecef (p_tr c)) (ecef (p_tl c)))) as [(k & K & -> & Ek)|[Z _]]; [|exfalso; apply Z1; unfold first_area, tri_area; rewrite cross_neg; lra].
  destruct (cross_area (vsub (ecef (p_bl c)) (ecef (p_tl c))) (vsub (ecef (p_br c)) (ecef (p_tl c)))) as [(l & L & -> & El)|[Z _]]; [|exfalso; apply Z2; unfold second_area, tri_area; rewrite cross_neg; lra].
  assert (F1 : first_area c = k) by (unfold first_area, tri_area; rewrite cross_neg; symmetry; exact Ek). assert (F2 : second_area c = l) by (unfold second_area, tri_area; rewrite cross_neg; symmetry; exact El).
  unfold upness, twist, vlin. rewrite F1, F2. clear Ek El F1 F2 Z1 Z2 X Y E1 E2 E3 E4 S H.
  set (t1 := vcross _ (vsub (ecef (p_tr c)) _)). set (t2 := vcross (vsub (ecef (p_bl c)) _) _). set (u1 := place _ _). set (u2 := place (fst (fst (p_bl c))) _). clearbody t1 t2 u1 u2.
  f_equal. f_equal; [f_equal|]; f_equal; unfold vadd, vscale; apply vec_ext; cbn [vx vy vz]; field; lra.
Qed.
Lemma sd_none e is cs : Forall2 (fun i c => corners_at e i (i + 1) = Ok (corners c)) is cs -> Forall sound cs -> forall acc, (exists c, In c cs /\ (first_area c = 0 \/ second_area c = 0)) \/ fst (fst acc) = None -> exists b u, sd_sums e is acc = Ok (None, b, u).
Proof.
  induction 1 as [|i c is cs E _ IH]; intros S acc Z; cbn [sd_sums].
  - destruct Z as [(c & [] & _)|Z]. destruct acc as [[a b] u]. cbn [fst] in Z. subst a. eauto.
  - inversion S as [|? ? Sc Ss]; subst. assert (D : first_area c = 0 \/ second_area c = 0 \/ fst (fst acc) = None \/ (exists d, In d cs /\ (first_area d = 0 \/ second_area d = 0))) by (destruct Z as [(d & [<-|I] & Z)|Z]; [tauto|right; right; right; eauto|tauto]). clear Z.
    assert (Q : (first_area c = 0 \/ second_area c = 0 \/ fst (fst acc) = None) \/ (exists d, In d cs /\ (first_area d = 0 \/ second_area d = 0))) by tauto. destruct Q as [Q|Q].
    + destruct (sd_degenerate e i c acc E Sc Q) as (b & u & ->). cbn [bind]. apply IH; [exact Ss|right; reflexivity].
    + assert (X : exists t, sd_step e i acc = Ok t). { unfold sd_step. rewrite E. cbn [bind corners]. destruct (sound_points c Sc) as (-> & -> & -> & -> & E1 & E2 & E3 & E4). cbn [bind]. rewrite E1. cbn [bind]. rewrite E2. cbn [bind]. rewrite E3. cbn [bind]. rewrite E4. cbn [bind]. destruct acc as [[? ?] ?]. eexists. reflexivity. } destruct X as (t & ->). cbn [bind]. apply IH; [exact Ss|left; exact Q].
Qed.
Lemma vadd_0 u : vadd u v0 = u. Proof. unfold vadd, v0. apply vec_ext; cbn [vx vy vz]; ring. Qed.
Lemma sd_all e is cs ns : Forall2 (fun i c => corners_at e i (i + 1) = Ok (corners c)) is cs -> Forall sound cs -> Forall (fun c => first_area c <> 0 /\ second_area c <> 0) cs -> Forall2 northness cs ns -> forall a b u,
  sd_sums e is (Some a, Some b, Some u) = Ok (Some (vadd a (vscale (/ 2000) (vtotal (map twist cs)))), Some (vadd b (vscale (/ 1000) (vtotal ns))), Some (vadd u (vscale (/ 1000) (vtotal (map upness cs))))).
Proof.
  intros F. revert ns. induction F as [|i c is cs E _ IH]; intros ns S A N a b u; inversion N; subst; cbn [sd_sums map vtotal].
  - f_equal. f_equal; [f_equal|]; f_equal; unfold vadd, vscale; apply vec_ext; cbn [vx vy vz]; ring.
  - inversion S; subst. inversion A as [|? ? [A1 A2] ?]; subst. erewrite sd_one by eassumption. cbn [bind]. rewrite (IH l') by assumption. f_equal. f_equal; [f_equal|]; f_equal; unfold vadd, vscale; apply vec_ext; cbn [vx vy vz]; ring.
Qed.
