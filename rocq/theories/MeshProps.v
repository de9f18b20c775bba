(** Meshes of a quadrilateral: C66. *)
From Coq Require Import ZArith Reals String Ascii Bool List Lra Psatz Lia.
From Flocq Require Import Core.
From Verif Require Import PyBase PyStr VecModel VecProofs GeoModel RuptModel RuptSpec RuptProofs.
Import ListNotations.
Open Scope R_scope.

(** The point at fractions [s] along and [t] down. *)
Definition bilinear (p0 p1 p2 p3 : vec) (s t : R) : vec := mix ((1 - s) * (1 - t)) (s * (1 - t)) (s * t) ((1 - s) * t) p0 p1 p2 p3.
Lemma count_ge : forall x, (2 <= mesh_count x)%nat.
Proof. intro x. unfold mesh_count. lia. Qed.
Lemma linspace_len : forall n, List.length (linspace n) = n.
Proof. intro n. unfold linspace. rewrite map_length, seq_length. reflexivity. Qed.
Lemma linspace_nth : forall n i, (i < n)%nat -> nth_error (linspace n) i = Some (INR i / INR (n - 1)).
Proof.
  intros n i H. unfold linspace. rewrite nth_error_map. assert (E : nth_error (seq 0 n) i = Some i).
  { rewrite (nth_error_nth' _ 0%nat) by (rewrite seq_length; exact H). rewrite seq_nth by exact H. reflexivity. } rewrite E. reflexivity.
Qed.
Lemma combine_nth_error : forall {A B} (l : list A) (m : list B) i a b, nth_error l i = Some a -> nth_error m i = Some b -> nth_error (combine l m) i = Some (a, b).
Proof. induction l as [|x l IH]; intros [|y m] [|i] a b H1 H2; cbn in *; try discriminate; [congruence|apply IH; assumption]. Qed.
Lemma frac_range : forall i n, (i < n)%nat -> (2 <= n)%nat -> 0 <= INR i / INR (n - 1) <= 1.
Proof.
  intros i n H N. assert (P : 0 < INR (n - 1)) by (apply lt_0_INR; lia). pose proof (pos_INR i). assert (INR i <= INR (n - 1)) by (apply le_INR; lia). split; [apply div_nonneg; assumption|].
  apply Rmult_le_reg_r with (INR (n - 1)); [exact P|]. unfold Rdiv. rewrite Rmult_assoc, Rinv_l by lra. lra.
Qed.
Lemma bilinear_in : forall p0 p1 p2 p3 s t, 0 <= s <= 1 -> 0 <= t <= 1 -> in_quad p0 p1 p2 p3 (bilinear p0 p1 p2 p3 s t).
Proof. intros p0 p1 p2 p3 s t Hs Ht. unfold bilinear. exists ((1 - s) * (1 - t)), (s * (1 - t)), (s * t), ((1 - s) * t). do 4 (split; [apply Rmult_le_pos; lra|]). split; [ring|reflexivity]. Qed.
Lemma along_bilinear : forall p0 p1 p2 p3 s t, along (along p0 p1 s) (along p3 p2 s) t = bilinear p0 p1 p2 p3 s t.
Proof. intros. unfold along, bilinear, mix, vadd, vscale, vsub. apply vec_ext; cbn [vx vy vz]; ring. Qed.

(** Row [r], column [c] of the mesh is the point of the quadrilateral at the fractions
    c/(nx-1) along and r/(ny-1) down; there are at least two rows and two columns. *)
Theorem C66_points : forall p0 p1 p2 p3 dx, dx <> 0 -> exists m nx ny, quad_mesh p0 p1 p2 p3 dx = Some m /\ List.length m = ny /\ (2 <= nx)%nat /\ (2 <= ny)%nat /\
  (forall row, In row m -> List.length row = nx) /\
  forall r c, (r < ny)%nat -> (c < nx)%nat -> exists row, nth_error m r = Some row /\
    let u := bilinear p0 p1 p2 p3 (INR c / INR (nx - 1)) (INR r / INR (ny - 1)) in nth_error row c = Some u /\ in_quad p0 p1 p2 p3 u.
Proof.
  intros p0 p1 p2 p3 dx Hdx. unfold quad_mesh. assert (Nz : reqd dx 0 = false) by (apply not_true_is_false; intro T; apply reqd_iff in T; contradiction). rewrite Nz. set (nx := mesh_count (get_quad_length p0 p1 / dx)). set (ny := mesh_count _). eexists _, nx, ny. split; [reflexivity|].
  pose proof (count_ge (get_quad_length p0 p1 / dx)) as Nx. fold nx in Nx. assert (Ny : (2 <= ny)%nat) by apply count_ge. clearbody nx ny.
  assert (Lc : List.length (combine (map (along p0 p1) (linspace nx)) (map (along p3 p2) (linspace nx))) = nx) by (rewrite combine_length, !map_length, linspace_len; lia).
  split; [rewrite map_length; apply linspace_len|]. split; [exact Nx|]. split; [exact Ny|]. split.
  - intros row H. apply in_map_iff in H. destruct H as (a & <- & _). rewrite map_length. exact Lc.
  - intros r c Hr Hc. eexists. split; [rewrite nth_error_map, linspace_nth by exact Hr; reflexivity|]. cbv zeta. split.
    + rewrite nth_error_map, (combine_nth_error _ _ _ (along p0 p1 (INR c / INR (nx - 1))) (along p3 p2 (INR c / INR (nx - 1)))) by (rewrite nth_error_map, linspace_nth by exact Hc; reflexivity). cbn [option_map fst snd]. f_equal. apply along_bilinear.
    + apply bilinear_in; apply frac_range; assumption.
Qed.
Print Assumptions C66_points.
(** The first and last points of the first and last rows are the corners. *)
Theorem C66_corners : forall p0 p1 p2 p3 dx m, quad_mesh p0 p1 p2 p3 dx = Some m -> exists top bottom, nth_error m 0 = Some top /\ nth_error m (List.length m - 1) = Some bottom /\
  nth_error top 0 = Some p0 /\ nth_error top (List.length top - 1) = Some p1 /\ nth_error bottom (List.length bottom - 1) = Some p2 /\ nth_error bottom 0 = Some p3.
Proof.
  intros p0 p1 p2 p3 dx m H. assert (Hd : dx <> 0). { intro Z. unfold quad_mesh in H. rewrite (proj2 (reqd_iff dx 0) Z) in H. discriminate. }
  destruct (C66_points p0 p1 p2 p3 dx Hd) as (m' & nx & ny & E & L & Nx & Ny & Rw & P). assert (m' = m) by congruence. subst m'. rewrite L.
  assert (A : INR (nx - 1) / INR (nx - 1) = 1) by (field; apply not_0_INR; lia). assert (B : INR (ny - 1) / INR (ny - 1) = 1) by (field; apply not_0_INR; lia). assert (Z : forall x, INR 0 / x = 0) by (intro x; unfold Rdiv; cbn [INR]; ring).
  destruct (P 0%nat 0%nat ltac:(lia) ltac:(lia)) as (top & T & T0 & _). destruct (P 0%nat (nx - 1)%nat ltac:(lia) ltac:(lia)) as (top' & T' & T1 & _). destruct (P (ny - 1)%nat 0%nat ltac:(lia) ltac:(lia)) as (bot & Bt & B0 & _). destruct (P (ny - 1)%nat (nx - 1)%nat ltac:(lia) ltac:(lia)) as (bot' & Bt' & B1 & _).
  assert (top' = top) by congruence. assert (bot' = bot) by congruence. subst top' bot'. exists top, bot. split; [exact T|]. split; [exact Bt|]. rewrite (Rw top (nth_error_In _ _ T)), (Rw bot (nth_error_In _ _ Bt)). rewrite T0, T1, B0, B1, A, B, !Z.
  repeat split; f_equal; unfold bilinear, mix; apply vec_ext; cbn [vx vy vz]; ring.
Qed.
Print Assumptions C66_corners.
(** The number of points along the top edge: its length in steps of [dx], rounded, plus one. *)
Theorem C66_spacing : forall p0 p1 p2 p3 dx m top, 0 < dx -> quad_mesh p0 p1 p2 p3 dx = Some m -> nth_error m 0 = Some top ->
  let n := INR (List.length top - 1) in let len := dist p1 p0 / 1000 in (List.length top = 2%nat /\ len <= 1.5 * dx) \/ Rabs (n * dx - len) <= dx / 2.
Proof.
  intros p0 p1 p2 p3 dx m top Hd H T n len. assert (El : get_quad_length p0 p1 = len) by (unfold get_quad_length, len, dist, mag, vsub; cbn [vx vy vz]; reflexivity).
  unfold quad_mesh in H. assert (Nz : reqd dx 0 = false) by (apply not_true_is_false; intro Z; apply reqd_iff in Z; lra). rewrite Nz, El in H. set (nx := mesh_count (len / dx)) in *. assert (Hm := f_equal (option_map (@List.length _)) H). clear Hm.
  assert (Lt : List.length top = nx). { match type of H with Some ?x = Some _ => assert (m = x) as -> by congruence end. apply nth_error_In in T. apply in_map_iff in T. destruct T as (a & <- & _). rewrite map_length, combine_length, !map_length, linspace_len. lia. }
  clear H T. unfold n. rewrite Lt. unfold nx, mesh_count. set (k := ZnearestE (len / dx)). assert (Hk : Rabs (len / dx - IZR k) <= / 2) by apply Znearest_half. assert (len0 : 0 <= len) by (unfold len; apply div_nonneg; [apply sqrt_pos|lra]). assert (q0 : 0 <= len / dx) by (apply div_nonneg; assumption).
  assert (Ql : len = len / dx * dx) by (field; lra). set (q := len / dx) in *. clearbody q len. apply Rabs_le_inv in Hk.
  destruct (Z_le_gt_dec 1 k) as [K|K].
  - right. replace (Z.to_nat (Z.max (k + 1) 2) - 1)%nat with (Z.to_nat k) by lia. rewrite INR_IZR_INZ, Z2Nat.id by lia. rewrite Ql. replace (IZR k * dx - q * dx) with ((IZR k - q) * dx) by ring. rewrite Rabs_mult, (Rabs_right dx) by lra. apply Rle_trans with (/ 2 * dx); [|lra]. apply Rmult_le_compat_r; [lra|]. apply Rabs_le. lra.
  - left. split; [lia|]. assert (Kb : (k <= 0)%Z) by lia. apply IZR_le in Kb. rewrite Ql. apply Rmult_le_compat_r; lra.
Qed.
Print Assumptions C66_spacing.
(** Cells: one for each pair of neighbouring rows and columns, with the four points round it. *)
Lemma pairs_nth : forall {A} (l : list A) i a b, nth_error l i = Some a -> nth_error l (S i) = Some b -> nth_error (pairs l) i = Some (a, b).
Proof.
  induction l as [|x l IH]; intros i a b H1 H2; [destruct i; discriminate|]. destruct l as [|y l]; [destruct i; [discriminate|destruct i; discriminate]|]. change (pairs (x :: y :: l)) with ((x, y) :: pairs (y :: l)).
  destruct i as [|i]; [cbn in *; congruence|]. cbn [nth_error] in *. apply IH; assumption.
Qed.
Lemma pairs_len : forall {A} (l : list A), List.length (pairs l) = (List.length l - 1)%nat.
Proof. induction l as [|x l IH]; [reflexivity|]. destruct l as [|y l]; [reflexivity|]. change (pairs (x :: y :: l)) with ((x, y) :: pairs (y :: l)). cbn [List.length] in *. rewrite IH. lia. Qed.
Theorem C66_cells : forall p0 p1 p2 p3 dx m, quad_mesh p0 p1 p2 p3 dx = Some m -> forall top, nth_error m 0 = Some top ->
  List.length (cells m) = (List.length m - 1)%nat /\ (forall row, In row (cells m) -> List.length row = (List.length top - 1)%nat) /\
  forall r c upper lower ul ur lr ll, nth_error m r = Some upper -> nth_error m (S r) = Some lower ->
    nth_error upper c = Some ul -> nth_error upper (S c) = Some ur -> nth_error lower (S c) = Some lr -> nth_error lower c = Some ll ->
    exists row, nth_error (cells m) r = Some row /\ nth_error row c = Some (ul, ur, lr, ll).
Proof.
  intros p0 p1 p2 p3 dx m H top T. assert (Hd : dx <> 0). { intro Z. unfold quad_mesh in H. rewrite (proj2 (reqd_iff dx 0) Z) in H. discriminate. }
  destruct (C66_points p0 p1 p2 p3 dx Hd) as (m' & nx & ny & E & L & Nx & Ny & Rw & P). assert (m' = m) by congruence. subst m'. rewrite (Rw top (nth_error_In _ _ T)). split; [unfold cells; rewrite map_length; apply pairs_len|]. split.
  - intros row I. unfold cells in I. apply in_map_iff in I. destruct I as ([u l] & <- & I). cbn [fst snd]. rewrite map_length, combine_length, !pairs_len.
    assert (J : In u m /\ In l m). { clear - I. induction m as [|x m IH]; [destruct I|]. destruct m as [|y m]; [destruct I|]. change (pairs (x :: y :: m)) with ((x, y) :: pairs (y :: m)) in I. destruct I as [E|I]; [injection E as <- <-; cbn; auto|]. destruct (IH I). split; right; assumption. }
    rewrite (Rw u (proj1 J)), (Rw l (proj2 J)). lia.
  - intros r c upper lower ul ur lr ll Hu Hl H1 H2 H3 H4. exists (map (fun t => let '((a, b), (d, c)) := t in (a, b, c, d)) (combine (pairs upper) (pairs lower))). split.
    + unfold cells. rewrite nth_error_map, (pairs_nth m r upper lower Hu Hl). reflexivity.
    + rewrite nth_error_map, (combine_nth_error _ _ _ (ul, ur) (ll, lr)) by (apply pairs_nth; assumption). reflexivity.
Qed.
Print Assumptions C66_cells.
(** The centre of a cell is the mean of its corners. *)
Theorem C66_centre : forall a b c d, centre (a, b, c, d) = mix (1 / 4) (1 / 4) (1 / 4) (1 / 4) a b c d /\ in_quad a b c d (centre (a, b, c, d)).
Proof.
  intros a b c d. assert (E : centre (a, b, c, d) = mix (1 / 4) (1 / 4) (1 / 4) (1 / 4) a b c d) by (unfold centre, mix, vadd, vscale, vsub; apply vec_ext; cbn [vx vy vz]; lra).
  split; [exact E|]. rewrite E. exists (1 / 4), (1 / 4), (1 / 4), (1 / 4). repeat (split; [lra|]). reflexivity.
Qed.
Print Assumptions C66_centre.
(** A spacing of zero divides by zero. *)
Theorem C66_zero : forall p0 p1 p2 p3, quad_mesh p0 p1 p2 p3 0 = None.
Proof. intros. unfold quad_mesh. rewrite (proj2 (reqd_iff 0 0) eq_refl). reflexivity. Qed.
Print Assumptions C66_zero.
Example C66_ex : (1000 <> 0)%R /\ exists m, quad_mesh (mkvec 0 0 0) (mkvec 1000 0 0) (mkvec 1000 1000 0) (mkvec 0 1000 0) 1000 = Some m /\ List.length m = 2%nat.
Proof.
  split; [lra|]. unfold quad_mesh. assert (Nz : reqd 1000 0 = false) by (apply not_true_is_false; intro T; apply reqd_iff in T; lra). rewrite Nz. eexists. split; [reflexivity|]. rewrite map_length, linspace_len.
  assert (Mc : forall x, Rabs x < / 2 -> mesh_count x = 2%nat). { intros x H. unfold mesh_count. assert (ZnearestE x = 0%Z) as -> by (apply Znearest_imp; rewrite Rminus_0_r; exact H). reflexivity. }
  assert (Nx : mesh_count (get_quad_length (mkvec 0 0 0) (mkvec 1000 0 0) / 1000) = 2%nat).
  { apply Mc. unfold get_quad_length, mag, vsub. cbn [vx vy vz]. replace (_ + _ + _) with (1000 * 1000) by ring. rewrite sqrt_square by lra. rewrite Rabs_right; lra. }
  rewrite Nx. apply Mc. unfold linspace. cbn [seq map combine Nat.sub fst snd]. unfold rmean. cbn [fold_right map List.length fst snd]. unfold along, mag, vadd, vscale, vsub. cbn [vx vy vz INR].
  replace (_ ^ 2 + _ ^ 2 + _ ^ 2) with (1000 * 1000) by (field; lra). rewrite sqrt_square by lra. replace (_ ^ 2 + _ ^ 2 + _ ^ 2) with (1000 * 1000) by (field; lra). rewrite sqrt_square by lra. rewrite Rabs_right; lra.
Qed.
