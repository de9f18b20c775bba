(** Proofs about the meshes of quadrilaterals: every point of the surface has a mesh point near. *)
From Coq Require Import ZArith Reals String Ascii Bool List Lia Lra.
From Flocq Require Import Core.
From Verif Require Import PyBase PyStr VecModel GeoModel RuptModel PolyModel SizeModel RuptSpec GeoSpec PolySpec SizeSpec VecProofs GeoTrig RuptProofs MeshProps EdgeProofs EdgeProps SizeProofs EdgeSizeProofs EdgeSizeProps.
Import ListNotations.
Open Scope R_scope.

Lemma count_bound x : 0 <= x -> x <= 1.5 * INR (mesh_count x - 1).
Proof.
  intro H. unfold mesh_count. set (k := ZnearestE x). assert (Hk : Rabs (x - IZR k) <= / 2) by apply Znearest_half. apply Rabs_le_inv in Hk.
  match goal with |- context[INR ?n] => assert (N : (Z.of_nat n = Z.max 1 k)%Z) by lia; rewrite INR_IZR_INZ, N end.
  destruct (Z.le_gt_cases k 1) as [L|L].
  - rewrite Z.max_l by lia. assert (IZR k <= 1) by (apply IZR_le; lia). lra.
  - rewrite Z.max_r by lia. assert (2 <= IZR k) by (apply IZR_le; lia). lra.
Qed.
Lemma grid_near s n : 0 <= s <= 1 -> (2 <= n)%nat -> exists s', In s' (linspace n) /\ Rabs (s - s') <= / (2 * INR (n - 1)).
Proof.
  intros Hs Hn. set (d := (n - 1)%nat). assert (Pd : 0 < INR d) by (apply lt_0_INR; unfold d; lia). set (z := ZnearestE (s * INR d)). assert (Hz : Rabs (s * INR d - IZR z) <= / 2) by apply Znearest_half. apply Rabs_le_inv in Hz.
  assert (Z0 : (0 <= z)%Z). { apply Z.lt_succ_r. apply lt_IZR. rewrite succ_IZR. nra. }
  assert (Z1 : (z <= Z.of_nat d)%Z). { apply Z.lt_succ_r. apply lt_IZR. rewrite succ_IZR, <- INR_IZR_INZ. nra. }
  exists (INR (Z.to_nat z) / INR d). split.
  - unfold linspace. apply in_map_iff. exists (Z.to_nat z). split; [reflexivity|]. apply in_seq. unfold d in *. lia.
  - rewrite INR_IZR_INZ, Z2Nat.id by exact Z0. replace (s - IZR z / INR d) with ((s * INR d - IZR z) * / INR d) by (field; lra). rewrite Rabs_mult, (Rabs_right (/ INR d)) by (left; apply Rinv_0_lt_compat; exact Pd). rewrite Rinv_mult_distr by lra. apply Rmult_le_compat_r; [left; apply Rinv_0_lt_compat; exact Pd|]. apply Rabs_le. lra.
Qed.
Lemma combine_map {A B C} (f : A -> B) (g : A -> C) l : combine (map f l) (map g l) = map (fun x => (f x, g x)) l.
Proof. induction l as [|x l IH]; [reflexivity|]. cbn [map combine]. rewrite IH. reflexivity. Qed.
Lemma along_between a b t : along a b t = between_pts a b t.
Proof. unfold along, between_pts, vadd, vscale, vsub. apply vec_ext; cbn [vx vy vz]; ring. Qed.
Lemma dist_vsub a b : dist a b = mag (vsub a b). Proof. reflexivity. Qed.
Lemma rmean_bound (k x : R) l : l <> [] -> (forall y, In y l -> x <= k * y) -> x <= k * rmean l.
Proof.
  intros N H. unfold rmean. assert (P : 0 < INR (length l)) by (apply lt_0_INR; destruct l; [contradiction|cbn; lia]). assert (Q : INR (length l) * x <= k * fold_right Rplus 0 l).
  { clear N P. induction l as [|y l IH]; [cbn; lra|]. cbn [length fold_right]. rewrite S_INR. assert (A := H y (or_introl eq_refl)). assert (B := IH (fun z I => H z (or_intror I))). lra. }
  apply Rmult_le_reg_l with (INR (length l)); [exact P|]. replace (INR (length l) * (k * (fold_right Rplus 0 l / INR (length l)))) with (k * fold_right Rplus 0 l) by (field; lra). exact Q.
Qed.
Lemma linspace_range n s : (2 <= n)%nat -> In s (linspace n) -> 0 <= s <= 1.
Proof. intros N I. unfold linspace in I. apply in_map_iff in I. destruct I as (i & <- & I). apply in_seq in I. apply frac_range; lia. Qed.
Lemma half_step x n : 0 <= x -> (2 <= n)%nat -> x <= 1.5 * INR (n - 1) -> / (2 * INR (n - 1)) * x <= 0.75.
Proof.
  intros X N H. assert (P : 0 < INR (n - 1)) by (apply lt_0_INR; lia). apply Rmult_le_reg_l with (2 * INR (n - 1)); [lra|]. rewrite <- Rmult_assoc, Rinv_r by lra. lra.
Qed.
Lemma fold_nonneg l : (forall y, In y l -> 0 <= y) -> 0 <= fold_right Rplus 0 l.
Proof. induction l as [|y l IH]; intro H; cbn [fold_right]; [lra|]. generalize (H y (or_introl eq_refl)) (IH (fun z I => H z (or_intror I))). lra. Qed.

Lemma mesh_cover p0 p1 p2 p3 dx : 0 < dx -> exists m, quad_mesh p0 p1 p2 p3 dx = Some m /\ concat m <> [] /\ (forall v, In v (concat m) -> spanned p0 p1 p2 p3 v) /\
  forall k u, 1 <= k -> even k p0 p1 p2 p3 -> spanned p0 p1 p2 p3 u -> exists v, In v (concat m) /\ dist u v <= 1500 * k * dx.
Proof.
  intro Hd. unfold quad_mesh. assert (Nz : reqd dx 0 = false) by (apply not_true_is_false; intro Z; apply reqd_iff in Z; lra). rewrite Nz. cbv zeta. rewrite !combine_map, map_map. cbn [fst snd].
  set (L := get_quad_length p0 p1). assert (EL : L = dist p1 p0 / 1000) by (unfold L, get_quad_length, dist, mag, vsub; cbn [vx vy vz]; reflexivity).
  set (nx := mesh_count (L / dx)). set (H := fun s => mag (vsub (along p0 p1 s) (along p3 p2 s)) / 1000). set (ys := map H (linspace nx)). change (map (fun x => mag (vsub (along p0 p1 x) (along p3 p2 x)) / 1000) (linspace nx)) with ys. set (ny := mesh_count (rmean ys / dx)).
  assert (Nx : (2 <= nx)%nat) by apply count_ge. assert (Ny : (2 <= ny)%nat) by apply count_ge.
  eexists. split; [reflexivity|].
  assert (Mem : forall v, In v (concat (map (fun a => map (fun tb => along (fst tb) (snd tb) a) (map (fun x => (along p0 p1 x, along p3 p2 x)) (linspace nx))) (linspace ny))) <-> exists s t, In s (linspace nx) /\ In t (linspace ny) /\ v = between_pts (between_pts p0 p1 s) (between_pts p3 p2 s) t).
  { intro v. rewrite in_concat. split.
    - intros (row & I & J). apply in_map_iff in I. destruct I as (t & <- & T). apply in_map_iff in J. destruct J as (tb & <- & J). apply in_map_iff in J. destruct J as (s & <- & S). exists s, t. cbn [fst snd]. rewrite !along_between. auto.
    - intros (s & t & S & T & ->). eexists. split; [apply in_map_iff; exists t; split; [reflexivity|exact T]|]. apply in_map_iff. exists (along p0 p1 s, along p3 p2 s). cbn [fst snd]. split; [rewrite !along_between; reflexivity|]. apply in_map_iff. exists s. auto. }
  assert (Lx : linspace nx <> []) by (intro E; assert (X := linspace_len nx); rewrite E in X; cbn in X; lia). assert (Ly : linspace ny <> []) by (intro E; assert (X := linspace_len ny); rewrite E in X; cbn in X; lia).
  split; [|split].
  - destruct (linspace nx) as [|s sx] eqn:Es; [contradiction|]. destruct (linspace ny) as [|t ty] eqn:Et; [contradiction|]. intro E. discriminate E.
  - intros v I. apply Mem in I. destruct I as (s & t & S & T & ->). exists s, t. split; [exact (linspace_range nx s Nx S)|]. split; [exact (linspace_range ny t Ny T)|reflexivity].
  - intros k u Hk [Ev1 Ev2] (s & t & Hs & Ht & ->). destruct (grid_near s nx Hs Nx) as (s' & Is & Ds). destruct (grid_near t ny Ht Ny) as (t' & It & Dt). pose proof (linspace_range nx s' Nx Is) as Hs'.
    eexists. split; [apply Mem; exists s', t'; split; [exact Is|]; split; [exact It|reflexivity]|]. rewrite dist_vsub.
    set (w := between_pts (between_pts p0 p1 s') (between_pts p3 p2 s') t). eapply Rle_trans; [apply (dist_triangle _ w)|].
    assert (L0 : 0 <= L) by (rewrite EL; apply div_nonneg; [apply sqrt_pos|lra]).
    assert (Bx : mag (vsub (between_pts (between_pts p0 p1 s) (between_pts p3 p2 s) t) w) <= 750 * k * dx).
    { replace (vsub (between_pts (between_pts p0 p1 s) (between_pts p3 p2 s) t) w) with (vscale (s - s') (vadd (vscale (1 - t) (vsub p1 p0)) (vscale t (vsub p2 p3)))) by (unfold w, between_pts, vscale, vadd, vsub; apply vec_ext; cbn [vx vy vz]; ring).
      rewrite mag_scale. assert (M : mag (vadd (vscale (1 - t) (vsub p1 p0)) (vscale t (vsub p2 p3))) <= k * (1000 * L)).
      { eapply Rle_trans; [apply triangle|]. rewrite !mag_scale, !Rabs_right by lra. rewrite !dist_vsub in *. replace (1000 * L) with (mag (vsub p1 p0)) by (rewrite EL; field). pose proof (mag_nonneg (vsub p1 p0)) as X0. set (x := mag (vsub p1 p0)) in *. set (y := mag (vsub p2 p3)) in *. clearbody x y. assert (x <= k * x) by nra. assert ((1 - t) * x <= (1 - t) * (k * x)) by (apply Rmult_le_compat_l; lra). assert (t * y <= t * (k * x)) by (apply Rmult_le_compat_l; lra). lra. }
      pose proof (Rabs_pos (s - s')). assert (Q : / (2 * INR (nx - 1)) * (L / dx) <= 0.75) by (apply half_step; [apply div_nonneg; lra|exact Nx|apply count_bound, div_nonneg; lra]).
      apply Rle_trans with (/ (2 * INR (nx - 1)) * (k * (1000 * L))); [apply Rmult_le_compat; [apply Rabs_pos|apply mag_nonneg|exact Ds|exact M]|]. replace (/ (2 * INR (nx - 1)) * (k * (1000 * L))) with (1000 * k * dx * (/ (2 * INR (nx - 1)) * (L / dx))) by (field; repeat split; first [apply not_0_INR; lia|lra]).
      replace (750 * k * dx) with (1000 * k * dx * 0.75) by lra. apply Rmult_le_compat_l; [|exact Q]. apply Rmult_le_pos; lra. }
    assert (By : mag (vsub w (between_pts (between_pts p0 p1 s') (between_pts p3 p2 s') t')) <= 750 * k * dx).
    { replace (vsub w (between_pts (between_pts p0 p1 s') (between_pts p3 p2 s') t')) with (vscale (t' - t) (vsub (between_pts p0 p1 s') (between_pts p3 p2 s'))) by (unfold w, between_pts, vscale, vsub; apply vec_ext; cbn [vx vy vz]; ring).
      rewrite mag_scale, Rabs_minus_sym. assert (Y0 : 0 <= rmean ys). { unfold rmean. apply div_nonneg; [|apply lt_0_INR; unfold ys; rewrite map_length, linspace_len; lia]. apply fold_nonneg. intros y I. unfold ys in I. apply in_map_iff in I. destruct I as (x & <- & _). unfold H. apply div_nonneg; [apply mag_nonneg|lra]. }
      assert (M : mag (vsub (between_pts p0 p1 s') (between_pts p3 p2 s')) <= k * (1000 * rmean ys)).
      { replace (k * (1000 * rmean ys)) with ((1000 * k) * rmean ys) by ring. apply rmean_bound; [unfold ys; intro E; apply map_eq_nil in E; contradiction|]. intros y I. unfold ys in I. apply in_map_iff in I. destruct I as (x & <- & I). unfold H. rewrite !along_between. pose proof (Ev2 s' x Hs' (linspace_range nx x Nx I)) as E2. rewrite !dist_vsub in E2. lra. }
      pose proof (Rabs_pos (t - t')). assert (Q : / (2 * INR (ny - 1)) * (rmean ys / dx) <= 0.75) by (apply half_step; [apply div_nonneg; lra|exact Ny|apply count_bound, div_nonneg; lra]).
      apply Rle_trans with (/ (2 * INR (ny - 1)) * (k * (1000 * rmean ys))); [apply Rmult_le_compat; [apply Rabs_pos|apply mag_nonneg|exact Dt|exact M]|]. replace (/ (2 * INR (ny - 1)) * (k * (1000 * rmean ys))) with (1000 * k * dx * (/ (2 * INR (ny - 1)) * (rmean ys / dx))) by (field; repeat split; first [apply not_0_INR; lia|lra]).
      replace (750 * k * dx) with (1000 * k * dx * 0.75) by lra. apply Rmult_le_compat_l; [|exact Q]. apply Rmult_le_pos; lra. }
    lra.
Qed.
