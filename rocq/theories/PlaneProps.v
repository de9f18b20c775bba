(** C124: the plane fitted to points. *)
From Coq Require Import ZArith Reals String Ascii Bool List Lra Psatz Lia.
From Verif Require Import PyBase PyStr VecModel VecProofs PlaneModel PlaneSpec.
Import ListNotations.
Open Scope R_scope.

(** svd decomposes the matrix of these points. *)
Definition svd_ok (svd : mat -> svd_result) (points : list vec) : Prop :=
  let '(c1, c2, c3) := scatter (map (fun p => vsub p (mean_point points)) points) in match svd (c1, c2, c3) with ((u1, u2, u3), (s1, s2, s3), (v1, v2, v3)) => decomposes c1 c2 c3 u1 u2 u3 s1 s2 s3 v1 v2 v3 end.

Lemma inner_sym a b : inner a b = inner b a. Proof. unfold inner. ring. Qed.
Definition sc (s : R) (u : vec) := mkvec (s * vx u) (s * vy u) (s * vz u).
Lemma inner_zero a : inner a a = 0 -> a = mkvec 0 0 0.
Proof.
  unfold inner. intro H. pose proof (Rle_0_sqr (vx a)) as X. pose proof (Rle_0_sqr (vy a)) as Y. pose proof (Rle_0_sqr (vz a)) as Z. unfold Rsqr in *. destruct a as [x y z]. cbn [vx vy vz] in *. f_equal; apply Rsqr_0_uniq; unfold Rsqr; lra.
Qed.
(** The matrix of the centred points. *)
Definition M (l : list vec) (w : vec) : vec := let '(c1, c2, c3) := scatter l in image c1 c2 c3 w.
Lemma vsum_x (f : vec -> vec) l : vx (vsum (map f l)) = fold_right (fun p s => vx (f p) + s) 0 l /\ vy (vsum (map f l)) = fold_right (fun p s => vy (f p) + s) 0 l /\ vz (vsum (map f l)) = fold_right (fun p s => vz (f p) + s) 0 l.
Proof. induction l as [|p l (A & B & C)]; cbn [map vsum fold_right]; [repeat split|]. unfold vadd at 1 3 5. cbn [vx vy vz]. fold (vsum (map f l)). rewrite A, B, C. repeat split. Qed.
Lemma M_quad l : forall a b, inner (M l a) b = fold_right (fun p s => inner p a * inner p b + s) 0 l.
Proof.
  intros a b. unfold M, scatter, image, inner. cbn [vx vy vz]. destruct (vsum_x (fun p => vscale (vx p) p) l) as (A1 & A2 & A3). destruct (vsum_x (fun p => vscale (vy p) p) l) as (B1 & B2 & B3). destruct (vsum_x (fun p => vscale (vz p) p) l) as (C1 & C2 & C3). rewrite A1, A2, A3, B1, B2, B3, C1, C2, C3. clear. induction l as [|p l IH]; cbn [fold_right]; [ring|]. unfold vscale at 1 3 5 7 9 11 13 15 17. cbn [vx vy vz]. rewrite <- IH. ring.
Qed.
Lemma M_sym l a b : inner (M l a) b = inner (M l b) a.
Proof. rewrite !M_quad. induction l as [|p l IH]; cbn [fold_right]; [reflexivity|]. rewrite IH. ring. Qed.
Lemma M_pos l a : 0 <= inner (M l a) a.
Proof. rewrite M_quad. induction l as [|p l IH]; cbn [fold_right]; [lra|]. pose proof (Rle_0_sqr (inner p a)). unfold Rsqr in *. lra. Qed.
Lemma M_lin l a b : M l (mkvec (vx a - vx b) (vy a - vy b) (vz a - vz b)) = mkvec (vx (M l a) - vx (M l b)) (vy (M l a) - vy (M l b)) (vz (M l a) - vz (M l b)).
Proof. unfold M. destruct (scatter l) as [[c1 c2] c3]. unfold image. cbn [vx vy vz]. f_equal; ring. Qed.
Lemma inner_sc s u w : inner (sc s u) w = s * inner u w. Proof. unfold inner, sc. cbn [vx vy vz]. ring. Qed.
(** If M takes v to s u and u to s v, it takes u to s u. *)
Lemma eigen l u v s : 0 <= s -> M l v = sc s u -> M l u = sc s v -> M l u = sc s u.
Proof.
  intros S0 Hv Hu. set (w := mkvec (vx u - vx v) (vy u - vy v) (vz u - vz v)). assert (Mw : M l w = sc (- s) w). { unfold w. rewrite M_lin, Hu, Hv. unfold sc. cbn [vx vy vz]. f_equal; ring. }
  pose proof (M_pos l w) as P. rewrite Mw, inner_sc in P. assert (W0 : 0 <= inner w w) by (unfold inner; pose proof (Rle_0_sqr (vx w)); pose proof (Rle_0_sqr (vy w)); pose proof (Rle_0_sqr (vz w)); unfold Rsqr in *; lra). destruct (Req_dec s 0) as [Z|Z].
  - rewrite Hu, Z. unfold sc. f_equal; ring.
  - assert (inner w w = 0) by nra. apply inner_zero in H. rewrite Hu. unfold w in H. injection H as H1 H2 H3. unfold sc. f_equal; nra.
Qed.
Lemma by_axes u1 u2 u3 a b : axes u1 u2 u3 -> inner a u1 = inner b u1 -> inner a u2 = inner b u2 -> inner a u3 = inner b u3 -> a = b.
Proof. intros (_ & _ & _ & _ & _ & _ & C) A1 A2 A3. rewrite (C a), (C b), A1, A2, A3. reflexivity. Qed.
Lemma svd_least l u1 u2 u3 s1 s2 s3 v1 v2 v3 c1 c2 c3 : scatter l = (c1, c2, c3) -> decomposes c1 c2 c3 u1 u2 u3 s1 s2 s3 v1 v2 v3 ->
  inner u3 u3 = 1 /\ forall n, inner n n = 1 -> inner (M l u3) u3 <= inner (M l n) n.
Proof.
  intros E (U & V & S12 & S23 & S3 & I1 & I2 & I3). assert (M1 : M l v1 = sc s1 u1) by (unfold M; rewrite E; exact I1). assert (M2 : M l v2 = sc s2 u2) by (unfold M; rewrite E; exact I2). assert (M3 : M l v3 = sc s3 u3) by (unfold M; rewrite E; exact I3). clear I1 I2 I3.
  pose proof U as (U11 & U22 & U33 & U12 & U13 & U23 & _). pose proof V as (V11 & V22 & V33 & V12 & V13 & V23 & _).
  assert (T1 : M l u1 = sc s1 v1). { apply (by_axes v1 v2 v3 _ _ V); rewrite M_sym, ?M1, ?M2, ?M3, !inner_sc; rewrite ?(inner_sym u2 u1), ?(inner_sym u3 u1), ?V11, ?V12, ?V13, ?U11, ?U12, ?U13; ring. }
  assert (T2 : M l u2 = sc s2 v2). { apply (by_axes v1 v2 v3 _ _ V); rewrite M_sym, ?M1, ?M2, ?M3, !inner_sc; rewrite ?(inner_sym v2 v1), ?(inner_sym u3 u2), ?V22, ?V12, ?V23, ?U22, ?U12, ?U23; ring. }
  assert (T3 : M l u3 = sc s3 v3). { apply (by_axes v1 v2 v3 _ _ V); rewrite M_sym, ?M1, ?M2, ?M3, !inner_sc; rewrite ?(inner_sym v3 v1), ?(inner_sym v3 v2), ?V33, ?V13, ?V23, ?U33, ?U13, ?U23; ring. }
  assert (E1 : M l u1 = sc s1 u1) by (apply (eigen l u1 v1); [lra|assumption|assumption]). assert (E2 : M l u2 = sc s2 u2) by (apply (eigen l u2 v2); [lra|assumption|assumption]). assert (E3 : M l u3 = sc s3 u3) by (apply (eigen l u3 v3); [lra|assumption|assumption]).
  split; [exact U33|]. intros n N. rewrite E3, inner_sc, U33. destruct U as (_ & _ & _ & _ & _ & _ & C). set (x := inner n u1). set (y := inner n u2). set (z := inner n u3).
  assert (Nn : n = mkvec (x * vx u1 + y * vx u2 + z * vx u3) (x * vy u1 + y * vy u2 + z * vy u3) (x * vz u1 + y * vz u2 + z * vz u3)) by apply C.
  assert (Ex : x * x + y * y + z * z = 1). { rewrite <- N. rewrite Nn at 1. unfold inner at 1. cbn [vx vy vz]. transitivity (x * inner n u1 + y * inner n u2 + z * inner n u3); [fold x y z; ring|unfold inner; ring]. }
  assert (Q : inner (M l n) n = s1 * (x * x) + s2 * (y * y) + s3 * (z * z)). { rewrite Nn at 2. transitivity (x * inner (M l n) u1 + y * inner (M l n) u2 + z * inner (M l n) u3); [unfold inner; cbn [vx vy vz]; ring|]. rewrite (M_sym l n u1), (M_sym l n u2), (M_sym l n u3), E1, E2, E3, !inner_sc, (inner_sym u1 n), (inner_sym u2 n), (inner_sym u3 n). fold x y z. ring. }
  rewrite Q. pose proof (Rle_0_sqr x). pose proof (Rle_0_sqr y). pose proof (Rle_0_sqr z). unfold Rsqr in *. nra.
Qed.
(** The misfit of a plane through the mean is smallest. *)
Lemma misfit_shift points q n : points <> [] -> let c := mean_point points in misfit points q n = misfit points c n + INR (length points) * off_plane q n c ^ 2.
Proof.
  intros N c. assert (L : 0 < INR (length points)) by (destruct points; [congruence|apply lt_0_INR; cbn; lia]).
  assert (S : forall l q', fold_right (fun p s => off_plane q' n p + s) 0 l = inner (vsum l) n - INR (length l) * inner q' n). { induction l as [|p l IH]; intro q'; [cbn; unfold inner; cbn; ring|]. cbn [fold_right length vsum]. rewrite IH, S_INR. unfold off_plane, inner, vsum, vadd. cbn [vx vy vz fold_right]. ring. }
  assert (G : forall l, misfit l q n = misfit l c n + 2 * off_plane q n c * fold_right (fun p s => off_plane c n p + s) 0 l + INR (length l) * off_plane q n c ^ 2). { induction l as [|p l IH]; [cbn; ring|]. cbn [misfit fold_right length]. fold (misfit l q n). fold (misfit l c n). rewrite IH, S_INR. replace (off_plane q n p) with (off_plane c n p + off_plane q n c) by (unfold off_plane; ring). ring. }
  rewrite G, S. assert (Z : inner (vsum points) n - INR (length points) * inner c n = 0). { unfold c, mean_point, vscale, inner. cbn [vx vy vz]. field. lra. } rewrite Z. ring.
Qed.
Lemma misfit_quad points c n : misfit points c n = inner (M (map (fun p => vsub p c) points) n) n.
Proof. rewrite M_quad. induction points as [|p l IH]; [reflexivity|]. cbn [misfit map fold_right]. fold (misfit l c n). rewrite IH. unfold off_plane, inner, vsub. cbn [vx vy vz]. ring. Qed.

(** No plane fits better, and the normal is a unit vector. *)
Theorem C124_best : forall svd points c n, svd_ok svd points -> plane_fit svd points = Ok (c, n) ->
  inner n n = 1 /\ forall q m, inner m m = 1 -> misfit points c n <= misfit points q m.
Proof.
  intros svd points c n H E. unfold svd_ok in H. unfold plane_fit in E. destruct (Nat.ltb 3 (length points)) eqn:L; [|discriminate]. cbn [negb] in E. apply Nat.ltb_lt in L. set (x := map (fun p => vsub p (mean_point points)) points) in *. destruct (scatter x) as [[c1 c2] c3] eqn:S. destruct (svd (c1, c2, c3)) as [[[[u1 u2] u3] [[s1 s2] s3]] [[v1 v2] v3]]. injection E as <- <-.
  destruct (svd_least _ _ _ _ _ _ _ _ _ _ _ _ _ S H) as [U Mn]. split; [exact U|]. intros q m Hm. assert (N : points <> []) by (destruct points; [cbn in L; lia|discriminate]). rewrite (misfit_shift points q m N). pose proof (pos_INR (length points)). assert (0 <= off_plane q m (mean_point points) ^ 2) by apply pow2_ge_0. assert (misfit points (mean_point points) u3 <= misfit points (mean_point points) m); [|nra]. rewrite !misfit_quad. fold x. apply Mn, Hm.
Qed.
Print Assumptions C124_best.
(** Points in a plane are all on the plane found. *)
Theorem C124_flat : forall svd points c n q m, svd_ok svd points -> plane_fit svd points = Ok (c, n) -> inner m m = 1 -> Forall (fun p => off_plane q m p = 0) points -> Forall (fun p => off_plane c n p = 0) points.
Proof.
  intros svd points c n q m H E Hm F. destruct (C124_best svd points c n H E) as [_ B]. specialize (B q m Hm). assert (Z : misfit points q m = 0). { clear - F. induction F as [|p l P F IH]; [reflexivity|]. cbn [misfit fold_right]. fold (misfit l q m). rewrite P, IH. ring. } rewrite Z in B. clear - B.
  assert (P : forall l, 0 <= misfit l c n) by (induction l as [|p l IH]; [cbn; lra|cbn [misfit fold_right]; fold (misfit l c n); pose proof (pow2_ge_0 (off_plane c n p)); lra]). induction points as [|p l IH]; constructor; cbn [misfit fold_right] in B; fold (misfit l c n) in B; pose proof (P l); pose proof (pow2_ge_0 (off_plane c n p)).
  - assert (off_plane c n p ^ 2 = 0) by lra. apply Rsqr_0_uniq. unfold Rsqr. lra.
  - apply IH. lra.
Qed.
Print Assumptions C124_flat.
(** Three points determine a plane, but four are required. *)
Theorem C124_few : forall svd points, (exists c n, plane_fit svd points = Ok (c, n)) <-> (4 <= length points)%nat.
Proof.
  intros svd points. unfold plane_fit. destruct (Nat.ltb 3 (length points)) eqn:L; cbn [negb]; [apply Nat.ltb_lt in L|apply Nat.ltb_ge in L].
  - split; [intros _; lia|intros _]. destruct (svd _) as [[[[u1 u2] u3] s] v]. eauto.
  - split; [intros (c & n & Q); discriminate|lia].
Qed.
Print Assumptions C124_few.
Theorem C124_error : forall svd points, (length points < 4)%nat -> plane_fit svd points = Err AssertionError.
Proof. intros svd points L. unfold plane_fit. rewrite (proj2 (Nat.ltb_ge 3 (length points))) by lia. reflexivity. Qed.
Print Assumptions C124_error.
(** The unit vector in a direction. *)
Theorem C124_normalized : forall v, match normalized v with None => v = mkvec 0 0 0 | Some u => inner u u = 1 /\ exists k, 0 < k /\ v = mkvec (k * vx u) (k * vy u) (k * vz u) end.
Proof.
  intro v. unfold normalized. cbv zeta. set (r := sqrt _). assert (P : 0 <= vx v * vx v + vy v * vy v + vz v * vz v) by (pose proof (Rle_0_sqr (vx v)); pose proof (Rle_0_sqr (vy v)); pose proof (Rle_0_sqr (vz v)); unfold Rsqr in *; lra). assert (R2 : r * r = vx v * vx v + vy v * vy v + vz v * vz v) by (apply sqrt_sqrt; exact P). assert (R0 : 0 <= r) by apply sqrt_pos. destruct (reqd r 0) eqn:E.
  - apply reqd_iff in E. apply inner_zero. unfold inner. rewrite E in R2. lra.
  - assert (N : r <> 0) by (intro Q; apply reqd_iff in Q; congruence). split; [|exists r; split; [lra|destruct v as [x y z]; cbn [vx vy vz]; f_equal; field; exact N]]. unfold inner. cbn [vx vy vz]. transitivity ((vx v * vx v + vy v * vy v + vz v * vz v) / (r * r)); [field; exact N|]. rewrite <- R2. field. exact N.
Qed.
Print Assumptions C124_normalized.
(** Four points of the plane z = 1, for an svd that decomposes their matrix. *)
Example C124_ex : exists svd, svd_ok svd [mkvec 2 0 1; mkvec (-2) 0 1; mkvec 0 1 1; mkvec 0 (-1) 1] /\ plane_fit svd [mkvec 2 0 1; mkvec (-2) 0 1; mkvec 0 1 1; mkvec 0 (-1) 1] = Ok (mkvec 0 0 1, mkvec 0 0 1).
Proof.
  exists (fun _ => ((mkvec 1 0 0, mkvec 0 1 0, mkvec 0 0 1), (8, 2, 0), (mkvec 1 0 0, mkvec 0 1 0, mkvec 0 0 1))). assert (C : mean_point [mkvec 2 0 1; mkvec (-2) 0 1; mkvec 0 1 1; mkvec 0 (-1) 1] = mkvec 0 0 1). { unfold mean_point, vsum, vscale, vadd. cbn [fold_right length vx vy vz INR]. f_equal; field. } split.
  - unfold svd_ok. rewrite C. unfold scatter, vsum, vsub, vscale, vadd. cbn [map fold_right vx vy vz]. assert (A : axes (mkvec 1 0 0) (mkvec 0 1 0) (mkvec 0 0 1)). { unfold axes, inner. cbn [vx vy vz]. repeat split; try ring. intros [a b c]. cbn [vx vy vz]. f_equal; ring. } unfold decomposes. repeat (split; [first [exact A|lra|unfold image; cbn [vx vy vz]; f_equal; ring]|]). unfold image. cbn [vx vy vz]. f_equal; ring.
  - cbn [plane_fit length Nat.ltb Nat.leb negb]. unfold plane_fit. cbn [length Nat.ltb Nat.leb negb]. rewrite C. reflexivity.
Qed.
