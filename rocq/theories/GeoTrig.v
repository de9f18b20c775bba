(** Trigonometry: the two-argument arc tangent, uniqueness of angles. *)
From Coq Require Import ZArith Reals Lra Psatz Lia.
From Flocq Require Import Core.
From Verif Require Import PyBase VecModel VecProofs GeoModel GeoSpec.
Open Scope R_scope.

Lemma rltb_iff : forall x y, rltb x y = true <-> x < y.
Proof. intros. unfold rltb. destruct Rlt_dec; split; congruence || lra || auto. Qed.
Lemma rleb_iff : forall x y, rleb x y = true <-> x <= y.
Proof. intros. unfold rleb. destruct Rle_dec; split; congruence || lra || auto. Qed.
Lemma rltb_f : forall x y, rltb x y = false <-> y <= x.
Proof. intros. unfold rltb. destruct Rlt_dec; split; congruence || lra || auto. Qed.
Lemma rleb_f : forall x y, rleb x y = false <-> y < x.
Proof. intros. unfold rleb. destruct Rle_dec; split; congruence || lra || auto. Qed.
Ltac cmp := repeat match goal with
  | H : rltb _ _ = true |- _ => apply rltb_iff in H | H : rltb _ _ = false |- _ => apply rltb_f in H
  | H : rleb _ _ = true |- _ => apply rleb_iff in H | H : rleb _ _ = false |- _ => apply rleb_f in H end.

Lemma sc2 : forall t, sin t * sin t + cos t * cos t = 1.
Proof. intro t. exact (sin2_cos2 t). Qed.
Lemma pi_pos : 0 < PI. Proof. exact PI_RGT_0. Qed.

Lemma angle_unique : forall a b, - PI < a <= PI -> - PI < b <= PI -> sin a = sin b -> cos a = cos b -> a = b.
Proof.
  intros a b Ha Hb Es Ec. assert (C : cos (a - b) = 1) by (rewrite cos_minus, Es, Ec; pose proof (sc2 b); lra).
  assert (S : sin ((a - b) / 2) = 0). { replace (a - b) with (2 * ((a - b) / 2)) in C by field. rewrite cos_2a_sin in C. nra. }
  destruct (Rtotal_order a b) as [L|[E|G]]; [|assumption|]; exfalso.
  - assert (0 < sin ((b - a) / 2)) by (apply sin_gt_0; lra). replace ((b - a) / 2) with (- ((a - b) / 2)) in H by field. rewrite sin_neg in H. lra.
  - assert (0 < sin ((a - b) / 2)) by (apply sin_gt_0; lra). lra.
Qed.

Lemma hyp_pos : forall x y, (x <> 0 \/ y <> 0) -> 0 < sqrt (x ^ 2 + y ^ 2).
Proof. intros x y H. apply sqrt_lt_R0. destruct H; nra. Qed.
Lemma hyp_sq : forall x y, sqrt (x ^ 2 + y ^ 2) * sqrt (x ^ 2 + y ^ 2) = x ^ 2 + y ^ 2.
Proof. intros. apply sqrt_sqrt. nra. Qed.
Lemma hyp_ratio : forall x y, x <> 0 -> sqrt (1 + Rsqr (y / x)) = sqrt (x ^ 2 + y ^ 2) / Rabs x.
Proof.
  intros x y Hx. replace (1 + Rsqr (y / x)) with ((x ^ 2 + y ^ 2) / (Rsqr x)) by (unfold Rsqr; field; assumption).
  rewrite sqrt_div; [|nra|apply Rsqr_pos_lt; assumption]. rewrite sqrt_Rsqr_abs. reflexivity.
Qed.
Lemma arctan2_spec : forall y x, (x <> 0 \/ y <> 0) ->
  sin (arctan2 y x) = y / sqrt (x ^ 2 + y ^ 2) /\ cos (arctan2 y x) = x / sqrt (x ^ 2 + y ^ 2).
Proof.
  intros y x H. pose proof (hyp_pos x y H) as P. unfold arctan2. destruct (rltb 0 x) eqn:E1; cmp.
  - rewrite sin_atan, cos_atan, hyp_ratio by lra. rewrite Rabs_right by lra. split; field; lra.
  - destruct (rltb x 0) eqn:E2; cmp.
    + assert (A : sin (atan (y / x)) = - y / sqrt (x ^ 2 + y ^ 2) /\ cos (atan (y / x)) = - x / sqrt (x ^ 2 + y ^ 2)).
      { rewrite sin_atan, cos_atan, hyp_ratio by lra. rewrite Rabs_left by lra. split; field; lra. }
      destruct A as [A1 A2]. destruct (rleb 0 y).
      * rewrite neg_sin, neg_cos, A1, A2. split; field; lra.
      * unfold Rminus. rewrite sin_plus, cos_plus, sin_neg, cos_neg, sin_PI, cos_PI, A1, A2. split; field; lra.
    + assert (x = 0) by lra. subst x. replace (0 ^ 2 + y ^ 2) with (y ^ 2) in * by ring.
      destruct (rltb 0 y) eqn:E3; cmp; [|destruct (rltb y 0) eqn:E4; cmp].
      * rewrite sqrt_pow2 by lra. rewrite sin_PI2, cos_PI2. split; field; lra.
      * replace (y ^ 2) with ((- y) ^ 2) by ring. rewrite sqrt_pow2 by lra. rewrite sin_neg, cos_neg, sin_PI2, cos_PI2. split; field; lra.
      * exfalso. destruct H; lra.
Qed.
Lemma arctan2_range : forall y x, - PI < arctan2 y x <= PI.
Proof.
  intros y x. pose proof pi_pos. unfold arctan2. pose proof (atan_bound (y / x)) as B. destruct (rltb 0 x) eqn:E1; cmp; [lra|].
  destruct (rltb x 0) eqn:E2; cmp; [|destruct (rltb 0 y); [lra|destruct (rltb y 0); lra]].
  destruct (rleb 0 y) eqn:E3; cmp.
  - assert (A : y / x <= 0). { unfold Rdiv. assert (/ x < 0) by (apply Rinv_lt_0_compat; assumption). nra. }
    assert (atan (y / x) <= 0). { rewrite <- atan_0. destruct A as [A|A]; [left; apply atan_increasing; assumption|rewrite A; lra]. } lra.
  - assert (A : 0 < y / x). { unfold Rdiv. assert (/ x < 0) by (apply Rinv_lt_0_compat; assumption). nra. }
    assert (0 < atan (y / x)) by (rewrite <- atan_0; apply atan_increasing; assumption). lra.
Qed.
Lemma arctan2_polar : forall r t, 0 < r -> - PI < t <= PI -> arctan2 (r * sin t) (r * cos t) = t.
Proof.
  intros r t Hr Ht. assert (E : (r * cos t) ^ 2 + (r * sin t) ^ 2 = r ^ 2) by (pose proof (sc2 t); replace ((r * cos t) ^ 2 + (r * sin t) ^ 2) with (r ^ 2 * (sin t * sin t + cos t * cos t)) by ring; rewrite H; ring).
  assert (N : r * cos t <> 0 \/ r * sin t <> 0). { destruct (Req_dec (cos t) 0) as [C|C]; [right|left; nra]. assert (sin t <> 0) by (intro S; pose proof (sc2 t); rewrite C, S in H; lra). nra. }
  destruct (arctan2_spec (r * sin t) (r * cos t) N) as [S C]. rewrite E, sqrt_pow2 in S, C by lra.
  apply angle_unique; [apply arctan2_range|assumption|rewrite S; field; lra|rewrite C; field; lra].
Qed.
Lemma arctan2_00 : arctan2 0 0 = 0.
Proof. unfold arctan2. rewrite !(proj2 (rltb_f 0 0)) by lra. reflexivity. Qed.

Lemma radians_deg : forall d, radians d = deg d. Proof. intro d. unfold radians, deg. field. Qed.
Lemma degrees_deg : forall d, degrees (deg d) = d. Proof. intro d. pose proof pi_pos. unfold degrees, deg. field. lra. Qed.
Lemma deg_degrees : forall r, deg (degrees r) = r. Proof. intro d. pose proof pi_pos. unfold degrees, deg. field. lra. Qed.
Lemma deg_lt : forall a b, a < b <-> deg a < deg b.
Proof. intros. pose proof pi_pos. unfold deg. split; intro; nra. Qed.
Lemma deg_le : forall a b, a <= b <-> deg a <= deg b.
Proof. intros. pose proof pi_pos. unfold deg. split; intro; nra. Qed.
Lemma deg_180 : deg 180 = PI. Proof. unfold deg. field. Qed.
Lemma deg_m180 : deg (-180) = - PI. Proof. unfold deg. field. Qed.
Lemma deg_90 : deg 90 = PI / 2. Proof. unfold deg. field. Qed.
Lemma deg_m90 : deg (-90) = - (PI / 2). Proof. unfold deg. field. Qed.
Lemma deg_sub : forall a b, deg (a - b) = deg a - deg b. Proof. intros. unfold deg. field. Qed.
Lemma deg_add : forall a b, deg (a + b) = deg a + deg b. Proof. intros. unfold deg. field. Qed.
Lemma deg_turn : forall k, deg (360 * IZR k) = 2 * IZR k * PI. Proof. intros. unfold deg. field. Qed.

Lemma sin_periodZ : forall x k, sin (x + 2 * IZR k * PI) = sin x.
Proof.
  intros x k. destruct (Z.le_ge_cases 0 k) as [H|H].
  - rewrite <- (Z2Nat.id k H), <- INR_IZR_INZ. apply sin_period.
  - rewrite <- (sin_period (x + 2 * IZR k * PI) (Z.to_nat (- k))). f_equal. rewrite INR_IZR_INZ, Z2Nat.id, opp_IZR by lia. ring.
Qed.
Lemma cos_periodZ : forall x k, cos (x + 2 * IZR k * PI) = cos x.
Proof.
  intros x k. destruct (Z.le_ge_cases 0 k) as [H|H].
  - rewrite <- (Z2Nat.id k H), <- INR_IZR_INZ. apply cos_period.
  - rewrite <- (cos_period (x + 2 * IZR k * PI) (Z.to_nat (- k))). f_equal. rewrite INR_IZR_INZ, Z2Nat.id, opp_IZR by lia. ring.
Qed.
Lemma same_lon_trig : forall a b, same_lon a b -> sin (deg a) = sin (deg b) /\ cos (deg a) = cos (deg b).
Proof.
  intros a b (k & H). replace a with (b + 360 * IZR k) by lra. rewrite deg_add, deg_turn. split; [apply sin_periodZ|apply cos_periodZ].
Qed.
Lemma mod_range : forall x m, 0 < m -> 0 <= pymod x m < m.
Proof.
  intros x m Hm. unfold pymod. pose proof (Zfloor_lb (x / m)). pose proof (Zfloor_ub (x / m)). assert (E : x = m * (x / m)) by (field; lra).
  set (k := IZR (Zfloor (x / m))) in *. clearbody k. split; rewrite E at 1; nra.
Qed.
Lemma mod_same : forall x m, 0 < m -> exists k, pymod x m = x + m * IZR k.
Proof. intros x m Hm. exists (- Zfloor (x / m))%Z. unfold pymod. rewrite opp_IZR. ring. Qed.
Lemma mod_unique : forall x m y k, 0 < m -> 0 <= y < m -> y = x + m * IZR k -> pymod x m = y.
Proof.
  intros x m y k Hm Hy E. destruct (mod_same x m Hm) as (j & Ej). pose proof (mod_range x m Hm) as Hr.
  assert (D : pymod x m - y = m * IZR (j - k)) by (rewrite minus_IZR; lra).
  assert (j - k = 0)%Z. { assert (A : -1 < IZR (j - k) < 1) by (split; nra). destruct A as [A1 A2]. apply lt_IZR in A1, A2. lia. }
  rewrite H in D. lra.
Qed.
(** Angles with the same sine and cosine differ by whole turns. *)
Lemma angle_mod : forall a b, sin a = sin b -> cos a = cos b -> exists k, a - b = 2 * IZR k * PI.
Proof.
  intros a b Es Ec. pose proof pi_pos as P. exists (Zfloor ((a - b) / (2 * PI) + / 2)). set (k := Zfloor _). pose proof (Zfloor_lb ((a - b) / (2 * PI) + / 2)) as L. pose proof (Zfloor_ub ((a - b) / (2 * PI) + / 2)) as U. fold k in L, U.
  assert (D : a - b = 2 * PI * ((a - b) / (2 * PI))) by (field; lra). set (q := (a - b) / (2 * PI)) in *. clearbody q.
  assert (H : - (a - b - 2 * IZR k * PI) = 0 \/ True) by auto. clear H.
  assert (E : 0 = - (a - b - 2 * IZR k * PI)); [|lra].
  apply angle_unique; [lra|nra| |].
  - rewrite sin_0, sin_neg. replace (a - b - 2 * IZR k * PI) with (a - b + 2 * IZR (- k) * PI) by (rewrite opp_IZR; ring). rewrite sin_periodZ, sin_minus, Es, Ec. ring.
  - rewrite cos_0, cos_neg. replace (a - b - 2 * IZR k * PI) with (a - b + 2 * IZR (- k) * PI) by (rewrite opp_IZR; ring). rewrite cos_periodZ, cos_minus, Es, Ec. pose proof (sc2 b). lra.
Qed.
Lemma deg_same : forall a b, sin (deg a) = sin (deg b) -> cos (deg a) = cos (deg b) -> same_lon a b.
Proof.
  intros a b Es Ec. destruct (angle_mod _ _ Es Ec) as (k & E). exists k. rewrite <- deg_sub in E. rewrite <- deg_turn in E. pose proof pi_pos. unfold deg in E. nra.
Qed.
