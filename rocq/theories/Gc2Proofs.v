From Coq Require Import ZArith Reals String Ascii Bool List Lra Lia Psatz.
From Verif Require Import PyBase PyStr VecModel GeoModel GeoTrig GeoSpec RuptModel RuptSpec PolyModel PolySpec BuildModel BuildSpec BuildProofs SizeModel SizeSpec Gc2Model Gc2Spec.
Import ListNotations.
Open Scope R_scope.

Lemma reqd_iff x y : reqd x y = true <-> x = y.
Proof. unfold reqd. destruct (Req_EM_T x y); split; congruence. Qed.
Lemma on_segment_iff t u l : on_segment t u l = true <-> on_it u t l.
Proof. unfold on_segment, on_it. rewrite !andb_true_iff, reqd_iff. unfold rleb. destruct (Rle_dec 0 u), (Rle_dec u l); split; intros; repeat split; try tauto; destruct H; try discriminate; try (destruct H; discriminate); lra. Qed.

Lemma pull_dist u t l x : ~ on_it u t l -> 0 <= x <= l -> 0 < (x - u) ^ 2 + t ^ 2.
Proof.
  intros N X. destruct (Req_dec t 0) as [->|T].
  - assert (x <> u) by (intros ->; apply N; split; [reflexivity|lra]). replace ((x - u) ^ 2 + 0 ^ 2) with (Rsqr (x - u)) by (unfold Rsqr; ring). apply Rsqr_pos_lt. lra.
  - pose proof (Rsqr_pos_lt t T) as P. pose proof (Rle_0_sqr (x - u)) as Q. unfold Rsqr in *. simpl. lra.
Qed.
Lemma pull_pos u t l w : 0 < l -> ~ on_it u t l -> pull u t l w -> 0 < w.
Proof.
  intros L N (F & D & ->). destruct (MVT_cor2 F _ 0 l L D) as (x & E & X). rewrite E. apply Rmult_lt_0_compat; [apply Rinv_0_lt_compat, (pull_dist u t l); [exact N|lra]|lra].
Qed.
(** The integral is determined. *)
Lemma pull_unique u t l w w' : 0 < l -> pull u t l w -> pull u t l w' -> w = w'.
Proof.
  intros L (F & D & ->) (G & D' & ->). destruct (MVT_cor2 (fun x => F x - G x) (fun x => 0) 0 l L) as (x & E & X).
  - intros y Y. replace 0 with (/ ((y - u) ^ 2 + t ^ 2) - / ((y - u) ^ 2 + t ^ 2)) by ring. apply derivable_pt_lim_minus; [apply D|apply D']; exact Y.
  - lra.
Qed.

Lemma affine_lim u t x : derivable_pt_lim (fun x => (x - u) / t) x (/ t).
Proof.
  replace (/ t) with ((1 - 0) * / t + (x - u) * 0) by ring. apply (derivable_pt_lim_mult (fun x => x - u) (fun _ => / t)); [|apply derivable_pt_lim_const].
  apply (derivable_pt_lim_minus id (fun _ => u)); [apply derivable_pt_lim_id|apply derivable_pt_lim_const].
Qed.
Lemma weight_pull t u l : 0 < l -> ~ on_it u t l -> pull u t l (weight t u l).
Proof.
  intros L N. unfold weight. destruct (reqd t 0) eqn:E; cbn [negb].
  - apply reqd_iff in E. subst t. assert (O : u < 0 \/ l < u) by (destruct (Rlt_le_dec u 0); [tauto|destruct (Rlt_le_dec l u); [tauto|elim N; split; [reflexivity|lra]]]).
    replace (rltb u 0 || rltb l u) with true by (symmetry; apply orb_true_iff; unfold rltb; destruct (Rlt_dec u 0), (Rlt_dec l u); tauto).
    exists (fun x => -1 / (x - u)). split.
    + intros x X. assert (NZ : x - u <> 0) by lra.
      replace (/ ((x - u) ^ 2 + 0 ^ 2)) with ((0 * (x - u) - (1 - 0) * -1) / Rsqr (x - u)) by (replace ((x - u) ^ 2 + 0 ^ 2) with ((x - u) * (x - u)) by ring; unfold Rsqr; field; exact NZ).
      apply (derivable_pt_lim_div (fun _ => -1) (fun x => x - u)); [apply derivable_pt_lim_const| |exact NZ].
      apply (derivable_pt_lim_minus id (fun _ => u)); [apply derivable_pt_lim_id|apply derivable_pt_lim_const].
    + field. lra.
  - assert (T : t <> 0) by (intros ->; unfold reqd in E; destruct (Req_EM_T 0 0); congruence).
    exists (fun x => 1 / t * atan ((x - u) / t)). split.
    + intros x X. replace (/ ((x - u) ^ 2 + t ^ 2)) with (0 * atan ((x - u) / t) + 1 / t * (/ (1 + ((x - u) / t) ^ 2) * / t)).
      * apply (derivable_pt_lim_mult (fun _ => 1 / t) (fun x => atan ((x - u) / t))); [apply derivable_pt_lim_const|].
        apply (derivable_pt_lim_comp (fun x => (x - u) / t) atan); [apply affine_lim|apply derivable_pt_lim_atan].
      * pose proof (pull_dist u t l x N X) as P. assert (Q : 1 + ((x - u) / t) ^ 2 <> 0) by (pose proof (Rle_0_sqr ((x - u) / t)) as Z; unfold Rsqr in Z; simpl; lra). replace ((x - u) ^ 2 + t ^ 2) with (t * (1 + ((x - u) / t) ^ 2) * t) by (field; exact T). rewrite !Rinv_mult. unfold Rdiv. ring.
    + replace (0 - u) with (- u) by ring. ring.
Qed.

Lemma coords_calc a b s u t : strike_coords a b s u t -> calc_u a b s = Some u /\ calc_t a b s = Some t.
Proof.
  intros (d & ex & ey & D & E & Bx & By & Sx & Sy). unfold calc_u, calc_t, norm, mag. rewrite Bx, By, Sx, Sy. cbn [vx vy vz].
  assert (M1 : sqrt ((d * ex) ^ 2 + (d * ey) ^ 2 + 0 ^ 2) = d) by (replace ((d * ex) ^ 2 + (d * ey) ^ 2 + 0 ^ 2) with (Rsqr d) by (unfold Rsqr; transitivity (d * d * (ex ^ 2 + ey ^ 2)); [rewrite E; ring|ring]); apply sqrt_Rsqr; lra).
  assert (M2 : sqrt ((d * ey) ^ 2 + (- (d * ex)) ^ 2 + 0 ^ 2) = d) by (rewrite <- M1 at 3; f_equal; ring).
  rewrite M1, M2. unfold reqd. destruct (Req_EM_T d 0) as [X|_]; [lra|]. cbn [option_map vx vy vz].
  split; f_equal; [transitivity (u * (ex ^ 2 + ey ^ 2)); [field; lra|rewrite E; ring]|transitivity (t * (ex ^ 2 + ey ^ 2)); [field; lra|rewrite E; ring]].
Qed.
Lemma coords_exist a b s : a <> b -> exists u t, strike_coords a b s u t.
Proof.
  intro N. set (dx := fst b - fst a). set (dy := snd b - snd a). assert (P : 0 < dx ^ 2 + dy ^ 2).
  { destruct (Req_dec dx 0) as [X|X]; [destruct (Req_dec dy 0) as [Y|Y]|].
    - elim N. destruct a, b. unfold dx, dy in *. cbn [fst snd] in *. f_equal; lra.
    - rewrite X. pose proof (Rsqr_pos_lt dy Y) as Z. unfold Rsqr in Z. simpl. lra.
    - pose proof (Rsqr_pos_lt dx X) as Z. pose proof (Rle_0_sqr dy) as Z2. unfold Rsqr in *. simpl. lra. }
  set (d := sqrt (dx ^ 2 + dy ^ 2)). assert (D : 0 < d) by (apply sqrt_lt_R0; exact P). assert (DD : d * d = dx ^ 2 + dy ^ 2) by (apply sqrt_sqrt; lra).
  set (rx := fst s - fst a). set (ry := snd s - snd a). exists ((dx * rx + dy * ry) / d), ((dy * rx - dx * ry) / d), d, (dx / d), (dy / d).
  assert (E : (dx / d) ^ 2 + (dy / d) ^ 2 = 1) by (replace ((dx / d) ^ 2 + (dy / d) ^ 2) with ((dx ^ 2 + dy ^ 2) / (d * d)) by (field; lra); rewrite DD; field; lra).
  split; [exact D|]. split; [exact E|]. split; [unfold dx; field; lra|]. split; [unfold dy; field; lra|]. fold rx ry.
  split; [transitivity (rx * ((dx / d) ^ 2 + (dy / d) ^ 2)); [rewrite E; ring|field; lra]|transitivity (ry * ((dx / d) ^ 2 + (dy / d) ^ 2)); [rewrite E; ring|field; lra]].
Qed.
Lemma calc_none a s : calc_u a a s = None /\ calc_t a a s = None.
Proof.
  unfold calc_u, calc_t, norm, mag. replace (fst a - fst a) with 0 by ring. replace (snd a - snd a) with 0 by ring. cbn [vx vy vz]. rewrite Ropp_0.
  replace (0 ^ 2 + 0 ^ 2 + 0 ^ 2) with 0 by ring. rewrite sqrt_0. unfold reqd. destruct (Req_EM_T 0 0); [split; reflexivity|lra].
Qed.
Lemma on_map_iff c P a : on_map c P = Ok a <-> flat_map_of c P a.
Proof. destruct P as [[lon lat] d], a as [x y]. unfold on_map, flat_map_of. cbn [fst snd]. apply forward_shown. Qed.
Lemma on_map_err c P : (forall a, ~ flat_map_of c P a) -> on_map c P = Err ValueError.
Proof.
  intro N. destruct (on_map c P) as [a|e] eqn:E; [elim (N a); apply on_map_iff; exact E|]. destruct P as [[lon lat] d]. unfold on_map, ortho_forward in E. destruct (rltb _ _); congruence.
Qed.
Lemma q_length_dist q : q_length q = dist (ecef (q1 q)) (ecef (q0 q)) / 1000.
Proof. unfold q_length, get_quad_length, dist, mag, vsub. cbn [vx vy vz]. reflexivity. Qed.

Lemma segment_clear c lon lat d q : clear_of c (lon, lat, d) (q0 q) (q1 q) (ecef (q0 q)) (ecef (q1 q)) ->
  exists t u, segment_of c lon lat q = Ok (Some (t, u, q_length q)) /\ 0 < q_length q /\ ~ on_it u t (q_length q) /\
  forall st, viewed c (lon, lat, d) (q0 q) (q1 q) (mkview u t (q_length q) st (weight t u (q_length q))).
Proof.
  intros (a & b & s & u & t & A & B & S & C & L & N). exists t, u. rewrite <- q_length_dist in N. unfold segment_of.
  rewrite (proj2 (on_map_iff _ _ _) A), (proj2 (on_map_iff _ _ _) B). cbn [bind]. assert (S' : on_map c (lon, lat, 0) = Ok s) by (apply on_map_iff; exact S). rewrite S'. cbn [bind].
  destruct (coords_calc _ _ _ _ _ C) as [-> ->]. assert (L' : 0 < q_length q) by (rewrite q_length_dist; lra). split; [reflexivity|]. split; [exact L'|]. split; [exact N|].
  intro st. split; [|split; [exact L'|apply weight_pull; assumption]]. exists a, b, s. repeat (split; [assumption|]). exact C.
Qed.

Definition view_of (s : seg) : view := mkview (s_u s) (s_t s) (s_l s) (s_off s) (weight (s_t s) (s_u s) (s_l s)).
Lemma segments_clear c lon lat d offs quads : Forall (fun q => clear_of c (lon, lat, d) (q0 q) (q1 q) (ecef (q0 q)) (ecef (q1 q))) quads ->
  forall i os, (forall k, (k < length quads)%nat -> offs (i + k)%nat = Ok (nth k os 0)) ->
  exists segs, segments_of c lon lat offs quads i = Ok (map Some segs) /\ length segs = length quads /\
  Forall2 (fun q s => viewed c (lon, lat, d) (q0 q) (q1 q) (view_of s) /\ s_l s = q_length q /\ ~ on_it (s_u s) (s_t s) (s_l s)) quads segs /\
  forall k, (k < length quads)%nat -> s_off (nth k segs (mkseg 0 0 0 0)) = nth k os 0.
Proof.
  induction 1 as [|q quads Q _ IH]; intros i os O; cbn [segments_of].
  - exists []. split; [reflexivity|]. split; [reflexivity|]. split; [constructor|]. intros k K. cbn [length] in K. lia.
  - destruct (segment_clear _ _ _ _ _ Q) as (t & u & E & L & N & V). rewrite E. cbn [bind]. pose proof (O 0%nat ltac:(cbn [length]; lia)) as O0. rewrite Nat.add_0_r in O0. rewrite O0. cbn [bind].
    destruct (IH (S i) (tl os)) as (segs & ES & LS & FS & SO).
    { intros k K. replace (S i + k)%nat with (i + S k)%nat by lia. rewrite O by (cbn [length]; lia). destruct os; cbn [tl nth]; [destruct k; reflexivity|reflexivity]. }
    rewrite ES. cbn [bind option_map map]. exists (mkseg t u (q_length q) (nth 0 os 0) :: segs). split; [reflexivity|]. split; [cbn [length]; lia|]. split.
    + constructor; [|exact FS]. cbn [s_u s_t s_l]. split; [apply V|]. split; [reflexivity|exact N].
    + intros [|k] K; cbn [nth s_off]; [reflexivity|]. rewrite SO by (cbn [length] in K; lia). destruct os; cbn [tl nth]; [destruct k; reflexivity|reflexivity].
Qed.
Lemma all_some_map {A} (l : list A) : all_some (map Some l) = Some l.
Proof. induction l as [|x l IH]; cbn [map all_some]; [reflexivity|]. rewrite IH. reflexivity. Qed.

Lemma rsum_total l : rsum l = total l.
Proof. induction l as [|x l IH]; cbn [rsum fold_right total]; [reflexivity|]. unfold rsum in IH. rewrite IH. reflexivity. Qed.
Lemma total_app a b : total (a ++ b) = total a + total b.
Proof. induction a as [|x a IH]; cbn [app total]; [ring|rewrite IH; ring]. Qed.
Lemma fold_segments l : Forall (fun s => ~ on_it (s_u s) (s_t s) (s_l s)) l -> forall tot T U,
  fold_left add_segment l (tot, T, U) = (tot + total (map v_w (map view_of l)), T + total (map (fun v => v_w v * v_t v) (map view_of l)), U + total (map (fun v => v_w v * (v_u v + v_start v)) (map view_of l))).
Proof.
  induction 1 as [|s l N _ IH]; intros tot T U; cbn [fold_left map total]; [rewrite !Rplus_0_r; reflexivity|].
  unfold add_segment at 2. replace (on_segment (s_t s) (s_u s) (s_l s)) with false by (symmetry; destruct (on_segment _ _ _) eqn:E; [elim N; apply on_segment_iff; exact E|reflexivity]).
  rewrite IH. cbn [view_of v_w v_t v_u v_start]. rewrite !Rplus_assoc. reflexivity.
Qed.
Lemma total_pos {A} (f : A -> R) l : l <> [] -> Forall (fun x => 0 < f x) l -> 0 < total (map f l).
Proof.
  intros N F. destruct F as [|x l P F]; [congruence|]. clear N. cbn [map total]. assert (0 <= total (map f l)) by (clear P; induction F as [|y l Q _ IH]; cbn [map total]; lra). lra.
Qed.
Lemma ry0_beyond U s : beyond 0 s U (ry0_of (Some U) s).
Proof.
  unfold ry0_of, rltb, beyond. repeat split; intros; destruct (Rlt_dec U 0), (Rlt_dec s U); try lra. rewrite Rabs_left; lra.
Qed.
(** The sums, for segments none of which the site is on. *)
Lemma finish_clear segs tot far : segs <> [] -> Forall (fun s => 0 < s_l s /\ ~ on_it (s_u s) (s_t s) (s_l s)) segs ->
  exists T U, weighed (map view_of segs) T U /\
  finish (map Some segs) tot far = mkgc2 (Some T) (Some U) (Some T) (Some (U - tot / 2)) (ry0_of (Some U) (far segs)).
Proof.
  intros NE F. unfold finish. rewrite all_some_map. rewrite fold_segments by (eapply Forall_impl; [|exact F]; intros s [_ N]; exact N). rewrite !Rplus_0_l.
  set (W := total (map v_w (map view_of segs))). assert (P : 0 < W).
  { unfold W. rewrite map_map. apply total_pos; [exact NE|]. eapply Forall_impl; [|exact F]. intros s [L N]. cbn [view_of v_w]. eapply pull_pos; [exact L|exact N|]. apply weight_pull; assumption. }
  unfold reqd. destruct (Req_EM_T W 0) as [X|_]; [lra|]. eexists _, _. split; [|reflexivity]. unfold weighed. fold W. split; [exact P|]. split; field; lra.
Qed.
Lemma weighed_range vs T U : weighed vs T U -> Forall (fun v => 0 < v_w v) vs ->
  (forall lo hi, Forall (fun v => lo <= v_t v <= hi) vs -> lo <= T <= hi) /\ (forall lo hi, Forall (fun v => lo <= v_u v + v_start v <= hi) vs -> lo <= U <= hi).
Proof.
  intros (W & ET & EU) P. set (w := total (map v_w vs)) in *.
  assert (G : forall (f : view -> R) X, X * w = total (map (fun v => v_w v * f v) vs) -> forall lo hi, Forall (fun v => lo <= f v <= hi) vs -> lo <= X <= hi).
  { intros f X E lo hi B. assert (L : lo * w <= total (map (fun v => v_w v * f v) vs) <= hi * w).
    { unfold w. clear E ET EU W w. induction P as [|v vs Pv _ IH]; inversion B; subst; cbn [map total]; [lra|]. specialize (IH H2). assert (lo * v_w v <= v_w v * f v <= hi * v_w v) by (rewrite !(Rmult_comm _ (v_w v)); split; apply Rmult_le_compat_l; lra). lra. }
    rewrite <- E in L. split; apply (Rmult_le_reg_r w); try exact W; lra. }
  split; intros lo hi B; [exact (G v_t T ET lo hi B)|exact (G (fun v => v_u v + v_start v) U EU lo hi B)].
Qed.
Lemma nth_map_seq (f : nat -> R) n k : (k < n)%nat -> nth k (map f (seq 0 n)) 0 = f k.
Proof. intro K. rewrite (nth_indep _ 0 (f 0%nat)) by (rewrite map_length, seq_length; exact K). rewrite map_nth, seq_nth by exact K. reflexivity. Qed.
Lemma segments_app c lon lat offs a : forall i b, segments_of c lon lat offs (a ++ b) i =
  bind (segments_of c lon lat offs a i) (fun x => bind (segments_of c lon lat offs b (i + length a)) (fun y => Ok (x ++ y))).
Proof.
  induction a as [|q a IH]; intros i b; cbn [app segments_of length bind].
  - rewrite Nat.add_0_r. destruct (segments_of c lon lat offs b i); reflexivity.
  - destruct (segment_of c lon lat q) as [g|e]; [|reflexivity]. cbn [bind]. destruct (offs i) as [o|e]; [|reflexivity]. cbn [bind]. rewrite IH. replace (S i + length a)%nat with (i + S (length a))%nat by lia.
    destruct (segments_of c lon lat offs a (S i)) as [x|e]; [|reflexivity]. cbn [bind]. destruct (segments_of c lon lat offs b (i + S (length a))) as [y|e]; [|reflexivity]. reflexivity.
Qed.
Lemma weight_on t u l : on_it u t l -> weight t u l = 0.
Proof.
  intros [-> B]. unfold weight, reqd, rltb. destruct (Req_EM_T 0 0); [|lra]. cbn [negb]. destruct (Rlt_dec u 0); [lra|]. destruct (Rlt_dec l u); [lra|]. reflexivity.
Qed.
Lemma add_on s a : on_it (s_u s) (s_t s) (s_l s) -> add_segment a s = (1, snd (fst a), snd a).
Proof.
  intro O. destruct a as [[tot T] U]. unfold add_segment. rewrite (proj2 (on_segment_iff _ _ _) O), (weight_on _ _ _ O). cbn [fst snd]. f_equal; [f_equal|]; ring.
Qed.
