(** Bowring's formula for the latitude on the ellipsoid and its error. *)
From Coq Require Import ZArith Reals List Bool Lra Psatz Lia.
From Verif Require Import PyBase VecModel VecProofs GeoModel GeoSpec GeoTrig GeoProofs SphereProofs.
Open Scope R_scope.

Definition EE : R := WGS84_E ^ 2.
Definition QQ : R := sqrt (1 - EE).
Lemma E_bounds : 0.0066943 < EE < 0.0066944.
Proof. unfold EE, WGS84_E. split; lra. Qed.
Lemma Q_sq : QQ * QQ = 1 - EE.
Proof. apply sqrt_sqrt. pose proof E_bounds. lra. Qed.
Lemma Q_bounds : 0.99664 < QQ < 0.99665.
Proof. pose proof Q_sq. pose proof E_bounds. assert (0 <= QQ) by apply sqrt_pos. split; nra. Qed.
Lemma b_eq : sqrt (WGS84_A ^ 2 * (1 - WGS84_E ^ 2)) = WGS84_A * QQ.
Proof.
  fold EE. pose proof E_bounds. rewrite sqrt_mult by (unfold WGS84_A; lra). rewrite sqrt_pow2 by (unfold WGS84_A; lra). reflexivity.
Qed.
Lemma ep_eq : (sqrt ((WGS84_A ^ 2 - (WGS84_A * QQ) ^ 2) / (WGS84_A * QQ) ^ 2)) ^ 2 * (WGS84_A * QQ) = WGS84_A * EE / QQ.
Proof.
  pose proof Q_bounds. pose proof E_bounds. pose proof Q_sq. assert (A : 0 < WGS84_A) by (unfold WGS84_A; lra).
  assert (E1 : (WGS84_A ^ 2 - (WGS84_A * QQ) ^ 2) / (WGS84_A * QQ) ^ 2 = EE / (QQ * QQ)).
  { replace ((WGS84_A * QQ) ^ 2) with (WGS84_A ^ 2 * (QQ * QQ)) by ring. rewrite H1. field. split; [lra|]. lra. }
  rewrite E1, pow2_sqrt; [field; lra|]. apply Rlt_le, Rdiv_lt_0_compat; nra.
Qed.

(** The radius of curvature. *)
Definition WW (s : R) : R := sqrt (1 - EE * s * s).
Lemma W_sq : forall s, s * s <= 1 -> WW s * WW s = 1 - EE * s * s.
Proof. intros. apply sqrt_sqrt. pose proof E_bounds. nra. Qed.
Lemma W_bounds : forall s, s * s <= 1 -> QQ <= WW s <= 1.
Proof.
  intros s H. pose proof (W_sq s H). pose proof E_bounds. pose proof Q_bounds. pose proof Q_sq. assert (0 <= WW s) by apply sqrt_pos. split; nra.
Qed.

Lemma abs_le : forall x y, - y <= x <= y -> Rabs x <= y.
Proof. intros. apply Rabs_le. assumption. Qed.
Lemma abs_bounds : forall x y, Rabs x <= y -> - y <= x <= y.
Proof. intros x y H. unfold Rabs in H. destruct (Rcase_abs x); lra. Qed.

(** The auxiliary angle (with cosine [U] and sine [T]) is near the reduced latitude. *)
Lemma reduced_near : forall E q s c V k T U m,
  0.0066943 < E < 0.0066944 -> 0.99664 < q < 0.99665 -> q * q = 1 - E -> s * s + c * c = 1 -> 0 <= c -> 1 <= V -> V * q <= 1 -> -0.1568 <= k <= 0.1568 ->
  T * T + U * U = 1 -> 0 < m -> U * m = q * (V + k) * c -> T * m = (q * q * V + k) * s ->
  Rabs ((T * c - U * (q * s)) * V) <= 0.00127 * Rabs (s * c) /\ 0 < (U * c + T * (q * s)) * V.
Proof.
  intros E q s c V k T U m HE Hq Hqq Hsc Hc HV HVq Hk HTU Hm HU HT.
  assert (Hd : (T * c - U * (q * s)) * V * m = k * E * V * (s * c)).
  { transitivity (V * (T * m * c - U * m * (q * s))); [ring|]. rewrite HU, HT. replace E with (1 - q * q) by lra. ring. }
  assert (Hlow : q * (q * q * V + k) <= m).
  { assert (Pq : 0 < q * q * V + k) by nra. assert (Sq : m * m = (U * m) * (U * m) + (T * m) * (T * m)) by (transitivity (m * m * (T * T + U * U)); [rewrite HTU; ring|ring]).
    rewrite HU, HT in Sq. assert (L1 : q * q * V + k <= V + k) by nra.
    assert (L2 : (q * (q * q * V + k)) * (q * (q * q * V + k)) <= m * m).
    { rewrite Sq. set (u := q * q * V + k) in *. set (v := V + k) in *. clearbody u v. replace (q * u * (q * u)) with (q * q * (u * u) * (s * s + c * c)) by (rewrite Hsc; ring).
      assert (u * u <= v * v) by nra. assert (q * q <= 1) by nra. assert (0 <= s * s) by nra. assert (0 <= c * c) by nra. assert (0 <= u * u) by nra.
      assert (q * q * (u * u) * (s * s) <= u * s * (u * s)). { replace (u * s * (u * s)) with (u * u * (s * s)) by ring. rewrite Rmult_assoc. rewrite <- (Rmult_1_l (u * u * (s * s))) at 2. apply Rmult_le_compat_r; nra. }
      assert (q * q * (u * u) * (c * c) <= q * v * c * (q * v * c)). { replace (q * v * c * (q * v * c)) with (q * q * (v * v) * (c * c)) by ring. apply Rmult_le_compat_r; [assumption|]. apply Rmult_le_compat_l; nra. }
      lra. }
    assert (0 < q * (q * q * V + k)) by (apply Rmult_lt_0_compat; lra). nra. }
  assert (Hmv : 0.8308 * V <= m).
  { assert (q * q * V + k >= 0.8365 * V) by nra. nra. }
  split.
  - set (sd := (T * c - U * (q * s)) * V) in *. clearbody sd. apply Rmult_le_reg_r with m; [exact Hm|]. rewrite <- (Rabs_pos_eq m) at 1 by lra. rewrite <- Rabs_mult, Hd, Rabs_mult.
    assert (B : Rabs (k * E * V) <= 0.00127 * m). { apply abs_le. assert (-0.1568 * 0.0066944 <= k * E <= 0.1568 * 0.0066944) by nra. split; nra. }
    pose proof (Rabs_pos (s * c)). nra.
  - assert (P : (U * c + T * (q * s)) * V * m = V * q * ((V + k) * (c * c) + (q * q * V + k) * (s * s))).
    { transitivity (V * (U * m * c + T * m * (q * s))); [ring|]. rewrite HU, HT. ring. }
    assert (P2 : 0 < V * q * ((V + k) * (c * c) + (q * q * V + k) * (s * s))).
    { apply Rmult_lt_0_compat; [nra|]. replace (c * c) with (1 - s * s) by lra. assert (0 <= s * s <= 1) by nra. assert (A1 : 0.8 <= V + k) by lra. assert (A2 : 0.8 <= q * q * V + k) by nra. set (u := V + k) in *. set (v := q * q * V + k) in *. set (y := s * s) in *. clearbody u v y. clear - A1 A2 H. nra. }
    rewrite <- P in P2. apply Rmult_lt_reg_r with m; [exact Hm|]. rewrite Rmult_0_l. exact P2.
Qed.

(** The deviation from the tangent direction is of second order. *)
Lemma g_bound : forall S C T U, S * S + C * C = 1 -> T * T + U * U = 1 -> 0 <= U * C + T * S -> Rabs (T * C - U * S) <= 0.001 ->
  Rabs (C * (T * T * T) + S * (U * U * U) - S * C) <= 0.751 * ((T * C - U * S) * (T * C - U * S)).
Proof.
  intros S C T U HS HT Hcd Hsd. remember (T * C - U * S) as d eqn:Ed. remember (U * C + T * S) as x eqn:Ex.
  assert (E1 : T = S * x + C * d) by (subst x d; transitivity (T * (S * S + C * C)); [rewrite HS; ring|ring]).
  assert (E2 : U = C * x - S * d) by (subst x d; transitivity (U * (S * S + C * C)); [rewrite HS; ring|ring]).
  assert (HD : d * d + x * x = 1). { subst x d. transitivity ((T * T + U * U) * (S * S + C * C)); [ring|]. rewrite HS, HT. ring. }
  clear Ed Ex. subst T U. clear HT. apply abs_bounds in Hsd.
  assert (G : C * ((S * x + C * d) * (S * x + C * d) * (S * x + C * d)) + S * ((C * x - S * d) * (C * x - S * d) * (C * x - S * d)) - S * C
    = S * C * (x * x * x + 3 * x * (d * d) - 1) + (C * C - S * S) * (d * d * d)).
  { transitivity (S * C * (S * S + C * C) * (x * x * x + 3 * x * (d * d)) - S * C + (C * C - S * S) * (S * S + C * C) * (d * d * d)); [ring|]. rewrite HS. ring. }
  rewrite G. clear G. assert (Hx : 0.999 <= x <= 1) by (split; nra).
  assert (P1 : -0.5 <= S * C <= 0.5) by (pose proof (Rle_0_sqr (S - C)); pose proof (Rle_0_sqr (S + C)); unfold Rsqr in *; lra). assert (Sp : 0 <= S * S) by nra. assert (Cp : 0 <= C * C) by nra. assert (P2 : -1 <= C * C - S * S <= 1) by lra.
  assert (X : x * x * x + 3 * x * (d * d) - 1 = (1 - x) * (2 * (x * x) + 2 * x - 1)) by (replace (d * d) with (1 - x * x) by lra; ring).
  assert (Dd : d * d = (1 - x) * (1 + x)) by lra.
  assert (X2 : 0 <= (1 - x) * (2 * (x * x) + 2 * x - 1) <= 1.5 * (d * d)) by (rewrite Dd; split; nra).
  rewrite X. set (A := (1 - x) * (2 * (x * x) + 2 * x - 1)) in *. clearbody A. assert (D3 : -0.001 * (d * d) <= d * d * d <= 0.001 * (d * d)) by (split; nra).
  set (D := d * d * d) in *. set (B := d * d) in *. clearbody D B. set (p1 := S * C) in *. set (p2 := C * C - S * S) in *. clearbody p1 p2. clear - P1 P2 X2 D3. apply abs_le. split; nra.
Qed.

(** Error of the latitude: sine of the difference, and the cosine is positive.  [num] and
    [den] are the two arguments of the last arctangent divided by [a]. *)
Lemma bowring : forall E q s c V W k T U m num den,
  0.0066943 < E < 0.0066944 -> 0.99664 < q < 0.99665 -> q * q = 1 - E -> s * s + c * c = 1 -> 0 <= c -> 1 <= V -> V * q <= 1 -> q <= W <= 1 -> V * W = 1 -> W * W = 1 - E * s * s -> -0.1568 <= k <= 0.1568 ->
  T * T + U * U = 1 -> 0 < m -> U * m = q * (V + k) * c -> T * m = (q * q * V + k) * s ->
  num = (q * q * V + k) * s + E / q * (T * T * T) -> den = (V + k) * c - E * (U * U * U) ->
  Rabs (num * c - den * s) <= 0.0000000082 * ((s * c) * (s * c)) /\ 0.826 <= num * s + den * c /\ (k = 0 -> num * c - den * s = 0).
Proof.
  intros E q s c V W k T U m num den HE Hq Hqq Hsc Hc HV HVq HW HVW HWW Hk HTU Hm HU HT Hnum Hden.
  destruct (reduced_near E q s c V k T U m HE Hq Hqq Hsc Hc HV HVq Hk HTU Hm HU HT) as [Hsd Hcd].
  set (S := q * s * V). set (C := c * V). assert (HS : S * S + C * C = 1).
  { unfold S, C. transitivity (V * V * (q * q * (s * s) + c * c)); [ring|]. rewrite Hqq. replace ((1 - E) * (s * s) + c * c) with (W * W) by (rewrite HWW; lra). transitivity (V * W * (V * W)); [ring|rewrite HVW; ring]. }
  assert (Esd : (T * c - U * (q * s)) * V = T * C - U * S) by (unfold C, S; ring). assert (Ecd : (U * c + T * (q * s)) * V = U * C + T * S) by (unfold C, S; ring).
  rewrite Esd in Hsd. rewrite Ecd in Hcd. assert (Psc : Rabs (s * c) <= 0.5) by (apply abs_le; pose proof (Rle_0_sqr (s - c)); pose proof (Rle_0_sqr (s + c)); unfold Rsqr in *; lra).
  assert (G := g_bound S C T U HS HTU ltac:(lra) ltac:(pose proof (Rabs_pos (s * c)); lra)).
  assert (Es : s = W * S / q) by (unfold S; transitivity (s * (V * W)); [rewrite HVW; ring|field; lra]). assert (Ec : c = W * C) by (unfold C; transitivity (c * (V * W)); [rewrite HVW; ring|ring]).
  assert (F : num * c - den * s = E * W / q * (C * (T * T * T) + S * (U * U * U) - S * C)).
  { rewrite Hnum, Hden. transitivity ((q * q - 1) * V * s * c + E / q * (T * T * T) * c + E * (U * U * U) * s); [ring|]. replace (q * q - 1) with (- E) by lra. rewrite Es, Ec.
    transitivity (- E * (V * W) * (S / q) * (W * C) + E / q * (T * T * T) * (W * C) + E * (U * U * U) * (W * S / q)); [field; lra|]. rewrite HVW. field. lra. }
  assert (Dd : (T * C - U * S) * (T * C - U * S) <= 0.0000016129 * ((s * c) * (s * c))).
  { rewrite <- (Rabs_pos_eq ((T * C - U * S) * (T * C - U * S))) by exact (Rle_0_sqr _). rewrite Rabs_mult. rewrite <- (Rabs_pos_eq ((s * c) * (s * c))) by exact (Rle_0_sqr _). rewrite (Rabs_mult (s * c)). pose proof (Rabs_pos (s * c)) as R1. pose proof (Rabs_pos (T * C - U * S)) as R2. set (y := Rabs (s * c)) in *. set (x := Rabs (T * C - U * S)) in *. clearbody x y. clear - R1 R2 Hsd. nra. }
  assert (Hr : 0 <= E * W / q <= 0.006718). { assert (0 <= E * W <= 0.0066944) by nra. split; [apply Rmult_le_pos; [lra|left; apply Rinv_0_lt_compat; lra]|]. apply Rmult_le_reg_r with q; [lra|]. replace (E * W / q * q) with (E * W) by (field; lra). nra. }
  split; [|split].
  - rewrite F, Rabs_mult, (Rabs_pos_eq (E * W / q)) by lra. pose proof (Rabs_pos (C * (T * T * T) + S * (U * U * U) - S * C)). assert (0 <= s * c * (s * c)) by exact (Rle_0_sqr _). set (r := E * W / q) in *. set (gg := Rabs (C * (T * T * T) + S * (U * U * U) - S * C)) in *. set (dd := (T * C - U * S) * (T * C - U * S)) in *. set (ss := s * c * (s * c)) in *. clearbody r gg dd ss. clear - Hr G Dd H H0. nra.
  - assert (E1 : num * s + den * c = V * (q * q * (s * s) + c * c) + k * (s * s + c * c) + (E / q * (T * T * T) * s - E * (U * U * U) * c)) by (rewrite Hnum, Hden; ring).
    rewrite E1, Hsc. replace (q * q * (s * s) + c * c) with (W * W) by (rewrite HWW, Hqq; lra). replace (V * (W * W)) with W by (rewrite <- Rmult_assoc, HVW; ring).
    assert (Hq2 : 0 <= E / q <= 0.006718). { split; [apply Rmult_le_pos; [lra|left; apply Rinv_0_lt_compat; lra]|]. apply Rmult_le_reg_r with q; [lra|]. replace (E / q * q) with E by (field; lra). nra. }
    assert (BT : -1 <= T <= 1) by (split; nra). assert (BU : -1 <= U <= 1) by (split; nra). assert (Bs : -1 <= s <= 1) by (split; nra). assert (Bc : c <= 1) by nra.
    assert (T3 : -1 <= T * T * T <= 1) by (assert (0 <= T * T <= 1) by nra; split; nra). assert (U3 : -1 <= U * U * U <= 1) by (assert (0 <= U * U <= 1) by nra; split; nra).
    assert (Ts : -1 <= T * T * T * s <= 1) by (split; nra). assert (Uc : -1 <= U * U * U * c <= 1) by (split; nra).
    replace (E / q * (T * T * T) * s) with (E / q * (T * T * T * s)) by ring. replace (E * (U * U * U) * c) with (E * (U * U * U * c)) by ring.
    set (x := T * T * T * s) in *. set (y := U * U * U * c) in *. set (r := E / q) in *. clearbody x y r. assert (-0.006718 <= r * x) by nra. assert (E * y <= 0.0066944) by nra. lra.
  - intro K. subst k. rewrite F. assert (D0 : (T * C - U * S) * m = 0).
    { rewrite <- Esd. transitivity (V * (T * m * c - U * m * (q * s))); [ring|]. rewrite HU, HT. ring. }
    assert (D1 : T * C - U * S = 0) by (apply Rmult_integral in D0; destruct D0; [assumption|lra]). rewrite D1 in G. replace (0.751 * (0 * 0)) with 0 in G by ring.
    assert (Z : C * (T * T * T) + S * (U * U * U) - S * C = 0). { pose proof (Rabs_pos (C * (T * T * T) + S * (U * U * U) - S * C)). apply Rabs_eq_0 || idtac. destruct (Req_dec (C * (T * T * T) + S * (U * U * U) - S * C) 0) as [|N]; [assumption|]. apply Rabs_pos_lt in N. lra. }
    rewrite Z. ring.
Qed.
