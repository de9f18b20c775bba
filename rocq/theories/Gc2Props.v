(** C87, C88: GC2 coordinates about a single trace. *)
From Coq Require Import ZArith Reals String Ascii Bool List Lra Lia Psatz.
From Verif Require Import PyBase PyStr VecModel GeoModel GeoTrig GeoSpec RuptModel RuptSpec PolyModel PolySpec BuildModel BuildSpec BuildProofs EdgeProofs SizeModel SizeSpec SizeProps EquatorProofs EcefProps Gc2Model Gc2Spec Gc2Proofs.
Import ListNotations.
Open Scope R_scope.

(** C87. *)
Lemma one_trace_unique groups : one_trace groups -> exists g, unique groups = [g].
Proof.
  intros (g & N & F). exists g. apply (groups_of_fun groups); [apply unique_groups|]. split; [constructor|]. intro x. split.
  - intros [<-|[]]. destruct F as [|y l <- _]; [congruence|left; reflexivity].
  - intro I. rewrite Forall_forall in F. left. apply F. exact I.
Qed.
Lemma gc2_one fuel c quads groups lon lat : one_trace groups -> compute_gc2 fuel c quads groups lon lat = Some (sum_up c lon lat (plain_offset quads) quads (fun total _ => total)).
Proof. intro O. destruct (one_trace_unique _ O) as (g & E). unfold compute_gc2. rewrite E. reflexivity. Qed.
Lemma starts_plain quads segs : Forall2 (fun q s => s_l s = q_length q) quads segs -> (forall k, (k < length quads)%nat -> s_off (nth k segs (mkseg 0 0 0 0)) = rsum (map q_length (firstn k quads))) ->
  forall k v, nth_error (map view_of segs) k = Some v -> v_start v = total (map v_l (firstn k (map view_of segs))).
Proof.
  intros F O k v E. assert (L : (k < length quads)%nat). { assert (length quads = length segs) by (clear -F; induction F; cbn; congruence). rewrite H, <- (map_length view_of). apply nth_error_Some. congruence. }
  specialize (O k L). rewrite nth_error_map in E. destruct (nth_error segs k) as [s|] eqn:Es; [|discriminate]. injection E as <-. rewrite (nth_error_nth _ _ _ Es) in O. cbn [view_of v_start]. rewrite O, rsum_total. clear -F. revert k. induction F as [|q s quads segs E _ IH]; intros [|k]; cbn [firstn map total]; try reflexivity. rewrite IH. cbn [view_of v_l]. rewrite E. reflexivity.
Qed.
Definition beside_all (c : R * R) (site : vertex) (quads : list quad) : Prop := Forall (fun q => clear_of c site (q0 q) (q1 q) (ecef (q0 q)) (ecef (q1 q))) quads.
(** T is the mean of how far the site lies to the right of the segments, and U the mean of how far it lies
    along, both weighed by the inverse squared distances; rx, ry and ry0 follow. *)
Theorem C87_one_trace : forall fuel c quads groups lon lat d, one_trace groups -> quads <> [] -> beside_all c (lon, lat, d) quads ->
  exists vs T U r0, compute_gc2 fuel c quads groups lon lat = Some (Ok (mkgc2 (Some T) (Some U) (Some T) (Some (U - total (map v_l vs) / 2)) r0)) /\
  Forall2 (fun q v => viewed c (lon, lat, d) (q0 q) (q1 q) v /\ 1000 * v_l v = top_length q /\ 0 < v_w v) quads vs /\
  (forall k v, nth_error vs k = Some v -> v_start v = total (map v_l (firstn k vs))) /\
  weighed vs T U /\ beyond 0 (total (map v_l vs)) U r0.
Proof.
  intros fuel c quads groups lon lat d O NE B. rewrite (gc2_one _ _ _ _ _ _ O). unfold sum_up.
  destruct (segments_clear c lon lat d (plain_offset quads) quads B 0 (map (fun k => rsum (map q_length (firstn k quads))) (seq 0 (length quads)))) as (segs & E & L & F & SO).
  { intros k K. unfold plain_offset. rewrite Nat.add_0_l. f_equal. rewrite nth_map_seq by exact K. reflexivity. }
  rewrite E. cbn [bind]. assert (NS : segs <> []) by (destruct quads; [congruence|destruct segs; [discriminate|congruence]]).
  assert (F1 : Forall (fun s => 0 < s_l s /\ ~ on_it (s_u s) (s_t s) (s_l s)) segs). { clear -F. induction F as [|q s quads segs (V & E & N) _ IH]; constructor; [|exact IH]. split; [apply V|exact N]. }
  destruct (finish_clear segs (rsum (map q_length quads)) (fun _ => rsum (map q_length quads)) NS F1) as (T & U & W & EF). rewrite EF.
  assert (EL : rsum (map q_length quads) = total (map v_l (map view_of segs))). { rewrite rsum_total. clear -F. induction F as [|q s quads segs (V & E & N) _ IH]; cbn [map total]; [reflexivity|]. rewrite IH. cbn [view_of v_l]. rewrite E. reflexivity. }
  exists (map view_of segs), T, U, (ry0_of (Some U) (rsum (map q_length quads))). split; [rewrite EL; reflexivity|]. split; [|split; [|split; [exact W|rewrite <- EL; apply ry0_beyond]]].
  - clear -F. induction F as [|q s quads segs (V & E & N) _ IH]; cbn [map]; constructor; [|exact IH]. split; [exact V|]. split; [cbn [view_of v_l]; rewrite E, q_length_dist; unfold top_length; lra|].
    destruct V as (_ & P & Q). eapply pull_pos; [exact P|exact N|exact Q].
  - apply (starts_plain quads); [clear -F; induction F as [|q s quads segs (V & E & N) _ IH]; constructor; assumption|].
    intros k K. rewrite SO by exact K. rewrite nth_map_seq by exact K. reflexivity.
Qed.
Print Assumptions C87_one_trace.

(** The coordinates to the right of the segments bound T. *)
Lemma coords_fun a b s u t u' t' : strike_coords a b s u t -> strike_coords a b s u' t' -> u = u' /\ t = t'.
Proof. intros H K. destruct (coords_calc _ _ _ _ _ H) as [A B]. destruct (coords_calc _ _ _ _ _ K) as [C D]. split; congruence. Qed.
Lemma map_fun c P a b : flat_map_of c P a -> flat_map_of c P b -> a = b.
Proof. intros A B. apply on_map_iff in A, B. congruence. Qed.
Theorem C87_between : forall fuel c quads groups lon lat d T g lo hi, one_trace groups -> quads <> [] -> beside_all c (lon, lat, d) quads ->
  compute_gc2 fuel c quads groups lon lat = Some (Ok g) -> g_T g = Some T ->
  (forall q a b s u t, In q quads -> flat_map_of c (q0 q) a -> flat_map_of c (q1 q) b -> flat_map_of c (lon, lat, d) s -> strike_coords a b s u t -> lo <= t <= hi) -> lo <= T <= hi.
Proof.
  intros fuel c quads groups lon lat d T g lo hi O NE B E ET H. destruct (C87_one_trace fuel c quads groups lon lat d O NE B) as (vs & T' & U & r0 & E' & F & _ & W & _).
  rewrite E in E'. injection E' as ->. cbn [g_T] in ET. injection ET as <-. destruct (weighed_range vs T' U W) as [G _]; [clear -F; induction F as [|q v quads vs (_ & _ & P) _ IH]; constructor; assumption|]. apply G.
  clear -F H. induction F as [|q v quads vs (V & _ & _) _ IH]; constructor.
  - destruct V as ((a & b & s & A & B & S & C) & _). eapply (H q); [left; reflexivity|exact A|exact B|exact S|exact C].
  - apply IH. intros q' a b s u t I. apply H. right. exact I.
Qed.
Print Assumptions C87_between.

(** About a single segment the coordinates are exactly those of the site on the map. *)
Theorem C87_one_segment : forall fuel c q lon lat d a b s u t, 
  flat_map_of c (q0 q) a -> flat_map_of c (q1 q) b -> flat_map_of c (lon, lat, d) s -> strike_coords a b s u t ->
  0 < top_length q -> ~ on_it u t (top_length q / 1000) ->
  exists r0, compute_gc2 fuel c [q] [0%nat] lon lat = Some (Ok (mkgc2 (Some t) (Some u) (Some t) (Some (u - top_length q / 2000)) r0)) /\ beyond 0 (top_length q / 1000) u r0.
Proof.
  intros fuel c q lon lat d a b s u t A B S C L N.
  destruct (C87_one_trace fuel c [q] [0%nat] lon lat d) as (vs & T & U & r0 & E & F & O & (W & ET & EU) & R0); [exists 0%nat; split; [congruence|constructor; [reflexivity|constructor]]|congruence| |].
  - constructor; [|constructor]. exists a, b, s, u, t. repeat (split; [assumption|]). exact N.
  - inversion F as [|q' v l vs' (V & LV & WV) F' E1 E2]; subst. inversion F'; subst. cbn [map total] in *. rewrite Rplus_0_r in *.
    destruct V as ((a' & b' & s' & A' & B' & S' & C') & _). rewrite (map_fun _ _ _ _ A' A), (map_fun _ _ _ _ B' B), (map_fun _ _ _ _ S' S) in C'. destruct (coords_fun _ _ _ _ _ _ _ C' C) as [EU' ET']. rewrite EU', ET' in *.
    rewrite (O 0%nat v eq_refl) in EU. cbn [firstn map total] in EU. assert (T = t) by (apply (Rmult_eq_reg_r (v_w v)); lra). assert (U = u) by (apply (Rmult_eq_reg_r (v_w v)); lra). subst T U.
    assert (VL : v_l v = top_length q / 1000) by lra. rewrite VL in *. exists r0. split; [|exact R0]. rewrite E. do 4 f_equal. f_equal. lra.
Qed.
Print Assumptions C87_one_segment.

(** A corner of the upper edges or the site beyond the horizon is an error. *)
Lemma segments_hidden c lon lat d offs quads : (forall k, exists x, offs k = Ok x) -> quads <> [] -> 
  (Exists (fun q => (forall a, ~ flat_map_of c (q0 q) a) \/ (forall a, ~ flat_map_of c (q1 q) a)) quads \/ (forall a, ~ flat_map_of c (lon, lat, d) a)) ->
  forall i, segments_of c lon lat offs quads i = Err ValueError.
Proof.
  intros O NE H. assert (V : forall P, on_map c P = Err ValueError \/ exists a, on_map c P = Ok a) by (intros [[x y] z]; unfold on_map, ortho_forward; destruct (rltb _ _); eauto).
  assert (G : forall q, segment_of c lon lat q = Err ValueError \/ exists g, segment_of c lon lat q = Ok g).
  { intro q. unfold segment_of. destruct (V (q0 q)) as [->|(a & ->)]; [left; reflexivity|]. cbn [bind]. destruct (V (q1 q)) as [->|(b & ->)]; [left; reflexivity|]. cbn [bind]. destruct (V (lon, lat, 0)) as [->|(s & ->)]; [left; reflexivity|]. right. eexists. reflexivity. }
  assert (Hs : (forall a, ~ flat_map_of c (lon, lat, d) a) -> forall q, segment_of c lon lat q = Err ValueError).
  { intros N q. assert (E : on_map c (lon, lat, 0) = Err ValueError) by (apply on_map_err; exact N). unfold segment_of. destruct (V (q0 q)) as [->|(a & ->)]; [reflexivity|]. cbn [bind]. destruct (V (q1 q)) as [->|(b & ->)]; [reflexivity|]. cbn [bind]. rewrite E. reflexivity. }
  assert (Hq : forall q, (forall a, ~ flat_map_of c (q0 q) a) \/ (forall a, ~ flat_map_of c (q1 q) a) -> segment_of c lon lat q = Err ValueError).
  { intros q [N|N]; apply on_map_err in N; unfold segment_of; [rewrite N; reflexivity|]. destruct (V (q0 q)) as [->|(a & ->)]; [reflexivity|]. cbn [bind]. rewrite N. reflexivity. }
  destruct H as [H|H].
  - clear NE. induction H as [q quads H|q quads H IH]; intro i; cbn [segments_of].
    + rewrite Hq by exact H. reflexivity.
    + destruct (G q) as [->|(g & ->)]; [reflexivity|]. cbn [bind]. destruct (O i) as [x ->]. cbn [bind]. rewrite IH. reflexivity.
  - intro i. destruct quads as [|q quads]; [congruence|]. cbn [segments_of]. rewrite Hs by exact H. reflexivity.
Qed.
Theorem C87_hidden : forall fuel c quads groups lon lat d, one_trace groups -> quads <> [] ->
  (Exists (fun q => (forall a, ~ flat_map_of c (q0 q) a) \/ (forall a, ~ flat_map_of c (q1 q) a)) quads \/ (forall a, ~ flat_map_of c (lon, lat, d) a)) ->
  compute_gc2 fuel c quads groups lon lat = Some (Err ValueError).
Proof.
  intros fuel c quads groups lon lat d O NE H. rewrite (gc2_one _ _ _ _ _ _ O). unfold sum_up. rewrite (segments_hidden c lon lat d); [reflexivity| |exact NE|exact H].
  intro k. unfold plain_offset. eauto.
Qed.
Print Assumptions C87_hidden.

(** One upper edge that is a point on the map makes everything not a number, but ry0 zero. *)
Theorem C87_degenerate : forall fuel c quads groups lon lat d s, one_trace groups -> flat_map_of c (lon, lat, d) s ->
  Forall (fun q => exists a b, flat_map_of c (q0 q) a /\ flat_map_of c (q1 q) b) quads ->
  Exists (fun q => exists a, flat_map_of c (q0 q) a /\ flat_map_of c (q1 q) a) quads ->
  compute_gc2 fuel c quads groups lon lat = Some (Ok (mkgc2 None None None None 0)).
Proof.
  intros fuel c quads groups lon lat d s O S F X. rewrite (gc2_one _ _ _ _ _ _ O). unfold sum_up.
  assert (S' : on_map c (lon, lat, 0) = Ok s) by (apply on_map_iff; exact S).
  assert (G : forall offs, (forall k, exists x, offs k = Ok x) -> forall i, exists l, segments_of c lon lat offs quads i = Ok l /\ all_some l = None).
  { intros offs OK. assert (N : forall qs, Forall (fun q => exists a b, flat_map_of c (q0 q) a /\ flat_map_of c (q1 q) b) qs -> forall i, exists l, segments_of c lon lat offs qs i = Ok l).
    { induction 1 as [|q qs (a & b & A & B) _ IH]; intro i; cbn [segments_of]; [eauto|]. unfold segment_of. rewrite (proj2 (on_map_iff _ _ _) A), (proj2 (on_map_iff _ _ _) B), S'. cbn [bind]. destruct (OK i) as [x ->]. cbn [bind]. destruct (IH (Datatypes.S i)) as [l ->]. cbn [bind]. eauto. }
    induction X as [q qs (a & A & B)|q qs X IH]; intro i; inversion F as [|? ? (a' & b' & A' & B') F']; subst; cbn [segments_of]; unfold segment_of.
    - rewrite (proj2 (on_map_iff _ _ _) A), (proj2 (on_map_iff _ _ _) B), S'. cbn [bind]. destruct (calc_none a s) as [-> ->]. destruct (OK i) as [x ->]. cbn [bind]. destruct (N qs F' (Datatypes.S i)) as [l ->]. cbn [bind option_map]. eexists. split; reflexivity.
    - rewrite (proj2 (on_map_iff _ _ _) A'), (proj2 (on_map_iff _ _ _) B'), S'. cbn [bind]. destruct (OK i) as [x ->]. cbn [bind]. destruct (IH F' (Datatypes.S i)) as (l & -> & E). cbn [bind]. eexists. split; [reflexivity|].
      destruct (calc_t a' b' s), (calc_u a' b' s); cbn [option_map all_some]; rewrite ?E; reflexivity. }
  destruct (G (plain_offset quads)) with (i := 0%nat) as (l & -> & E); [intro k; unfold plain_offset; eauto|]. cbn [bind]. unfold finish. rewrite E. reflexivity.
Qed.
Print Assumptions C87_degenerate.

(** C88. *)
(** On a segment, the weights of the segments before it are dropped from the total but not from the
    sums, the segment itself counts for nothing in the sums and for one in the total. *)
Theorem C88_on_trace : forall fuel c pre q post groups lon lat d a b s u, one_trace groups -> 
  beside_all c (lon, lat, d) pre -> beside_all c (lon, lat, d) post ->
  flat_map_of c (q0 q) a -> flat_map_of c (q1 q) b -> flat_map_of c (lon, lat, d) s -> strike_coords a b s u 0 -> 0 <= u <= top_length q / 1000 ->
  exists vs vs' g T, compute_gc2 fuel c (pre ++ q :: post) groups lon lat = Some (Ok g) /\ g_T g = Some T /\ g_rx g = Some T /\
  Forall2 (fun q v => viewed c (lon, lat, d) (q0 q) (q1 q) v) pre vs /\ Forall2 (fun q v => viewed c (lon, lat, d) (q0 q) (q1 q) v) post vs' /\
  T * (1 + total (map v_w vs')) = total (map (fun v => v_w v * v_t v) vs) + total (map (fun v => v_w v * v_t v) vs').
Proof.
  intros fuel c pre q post groups lon lat d a b s u O B1 B2 A B S C L. rewrite (gc2_one _ _ _ _ _ _ O). unfold sum_up. set (quads := pre ++ q :: post).
  assert (OK : forall k, plain_offset quads k = Ok (rsum (map q_length (firstn k quads)))) by reflexivity. set (off := fun k => rsum (map q_length (firstn k quads))) in OK.
  destruct (segments_clear c lon lat d (plain_offset quads) pre B1 0 (map off (seq 0 (length pre)))) as (segs & E1 & L1 & F1 & _).
  { intros k K. rewrite OK, nth_map_seq by exact K. reflexivity. }
  destruct (segments_clear c lon lat d (plain_offset quads) post B2 (0 + length pre + 1) (map (fun k => off (0 + length pre + 1 + k)%nat) (seq 0 (length post)))) as (segs' & E2 & L2 & F2 & _).
  { intros k K. rewrite OK, nth_map_seq by exact K. reflexivity. }
  set (sg := mkseg 0 u (q_length q) (off (0 + length pre)%nat)).
  assert (SE : segments_of c lon lat (plain_offset quads) quads 0 = Ok (map Some segs ++ map Some (sg :: segs'))).
  { unfold quads at 2. change (q :: post) with ([q] ++ post). rewrite !segments_app. rewrite E1. cbn [bind length]. rewrite E2. cbn [segments_of]. unfold segment_of at 1.
    rewrite (proj2 (on_map_iff _ _ _) A), (proj2 (on_map_iff _ _ _) B). cbn [bind]. assert (S' : on_map c (lon, lat, 0) = Ok s) by (apply on_map_iff; exact S). rewrite S'. cbn [bind]. rewrite OK. cbn [bind].
    destruct (coords_calc _ _ _ _ _ C) as [-> ->]. reflexivity. }
  rewrite SE. cbn [bind]. unfold finish. rewrite <- map_app, all_some_map. rewrite fold_left_app.
  assert (G : forall qs ss, Forall2 (fun q s => viewed c (lon, lat, d) (q0 q) (q1 q) (view_of s) /\ s_l s = q_length q /\ ~ on_it (s_u s) (s_t s) (s_l s)) qs ss -> Forall (fun s => ~ on_it (s_u s) (s_t s) (s_l s)) ss) by (intros qs ss F; induction F as [|? ? ? ? (_ & _ & N) _ IH]; constructor; assumption).
  rewrite (fold_segments segs) by (eapply G; exact F1). cbn [fold_left]. rewrite add_on by (unfold sg; cbn [s_u s_t s_l]; split; [reflexivity|rewrite q_length_dist; exact L]). cbn [fst snd].
  rewrite (fold_segments segs') by (eapply G; exact F2).
  assert (P : 0 <= total (map v_w (map view_of segs'))). { clear -F2. induction F2 as [|q s qs ss ((_ & P & Q) & _ & N) _ IH]; cbn [map total]; [lra|]. assert (0 < v_w (view_of s)) by (eapply pull_pos; [exact P|exact N|exact Q]). lra. }
  unfold reqd. destruct (Req_EM_T _ 0) as [X|_]; [lra|].
  exists (map view_of segs), (map view_of segs'). eexists _, _. split; [reflexivity|]. cbn [g_T g_rx]. split; [reflexivity|]. split; [reflexivity|].
  assert (V : forall qs ss, Forall2 (fun q s => viewed c (lon, lat, d) (q0 q) (q1 q) (view_of s) /\ s_l s = q_length q /\ ~ on_it (s_u s) (s_t s) (s_l s)) qs ss -> Forall2 (fun q v => viewed c (lon, lat, d) (q0 q) (q1 q) v) qs (map view_of ss)) by (intros qs ss F; induction F as [|? ? ? ? (W & _ & _) _ IH]; cbn [map]; constructor; assumption).
  split; [apply V; exact F1|]. split; [apply V; exact F2|]. field. lra.
Qed.
Print Assumptions C88_on_trace.

(** On a single segment both coordinates come out as zero, wherever along it the site is. *)
Lemma on_single fuel c q lon lat d a b s u :
  flat_map_of c (q0 q) a -> flat_map_of c (q1 q) b -> flat_map_of c (lon, lat, d) s -> strike_coords a b s u 0 -> 0 <= u <= top_length q / 1000 ->
  compute_gc2 fuel c [q] [0%nat] lon lat = Some (Ok (mkgc2 (Some 0) (Some 0) (Some 0) (Some (0 - top_length q / 1000 / 2)) 0)).
Proof.
  intros A B S C L. rewrite gc2_one by (exists 0%nat; split; [congruence|constructor; [reflexivity|constructor]]). unfold sum_up. cbn [segments_of]. unfold segment_of.
  rewrite (proj2 (on_map_iff _ _ _) A), (proj2 (on_map_iff _ _ _) B). cbn [bind]. assert (S' : on_map c (lon, lat, 0) = Ok s) by (apply on_map_iff; exact S). rewrite S'. cbn [bind].
  destruct (coords_calc _ _ _ _ _ C) as [-> ->]. unfold plain_offset. cbn [firstn map rsum fold_right bind option_map]. unfold finish. cbn [all_some option_map fold_left].
  rewrite add_on by (cbn [s_u s_t s_l]; split; [reflexivity|rewrite q_length_dist; exact L]). cbn [fst snd]. unfold reqd. destruct (Req_EM_T 1 0) as [X|_]; [lra|]. cbn [option_map]. rewrite Rplus_0_r.
  replace (0 / 1) with 0 by lra. rewrite q_length_dist. unfold top_length. do 3 f_equal. unfold ry0_of, rltb. destruct (Rlt_dec 0 0); [lra|]. destruct (Rlt_dec (dist (ecef (q1 q)) (ecef (q0 q)) / 1000) 0) as [Y|_]; [|reflexivity]. unfold top_length in L. lra.
Qed.
Theorem C88_single : forall fuel c q lon lat d a b s u,
  flat_map_of c (q0 q) a -> flat_map_of c (q1 q) b -> flat_map_of c (lon, lat, d) s -> strike_coords a b s u 0 -> 0 <= u <= top_length q / 1000 ->
  exists g, compute_gc2 fuel c [q] [0%nat] lon lat = Some (Ok g) /\ g_T g = Some 0 /\ g_U g = Some 0 /\ g_rx g = Some 0 /\ g_ry g = Some (- (top_length q / 2000)) /\ g_ry0 g = 0.
Proof.
  intros. eexists. split; [eapply on_single; eassumption|]. cbn [g_T g_U g_rx g_ry g_ry0]. repeat split. f_equal. lra.
Qed.
Print Assumptions C88_single.

(** A piece of the equator, a quarter long, seen from above its beginning. *)
Definition quarter : quad := mkquad (0, 0, 0) (90, 0, 0) (90, 0, 10) (0, 0, 10).
Lemma shown_equator lon x : 0 <= cos (deg lon) -> x = 6371 * sin (deg lon) -> forall d, flat_map_of (0, 0) (lon, 0, d) (x, 0).
Proof.
  intros P -> d. unfold flat_map_of, shown, vdot, place, east_of, north_of. cbn [fst snd vx vy vz]. replace (deg 0) with 0 by (unfold deg; lra). rewrite !sin_0, !cos_0. repeat split; lra.
Qed.
Lemma deg90 : deg 90 = PI / 2. Proof. unfold deg. field. Qed.
Lemma deg30 : deg 30 = PI / 6. Proof. unfold deg. field. Qed.
Lemma quarter_long : 6378 < top_length quarter / 1000.
Proof.
  unfold top_length, quarter. cbn [q0 q1]. rewrite !equator_ecef, deg90, deg0, cos_PI2, sin_PI2, cos_0, sin_0. unfold dist. cbn [vx vy vz]. assert (6378137 < sqrt (((WGS84_A - 1000 * 0) * 0 - (WGS84_A - 1000 * 0) * 1) ^ 2 + ((WGS84_A - 1000 * 0) * 1 - (WGS84_A - 1000 * 0) * 0) ^ 2 + (0 - 0) ^ 2)).
  { rewrite <- (sqrt_pow2 6378137) by lra. apply sqrt_lt_1; unfold WGS84_A; lra. }
  lra.
Qed.
Lemma quarter_start : flat_map_of (0, 0) (q0 quarter) (0, 0). Proof. apply shown_equator; rewrite deg0, ?cos_0, ?sin_0; lra. Qed.
Lemma quarter_end : flat_map_of (0, 0) (q1 quarter) (6371, 0). Proof. apply shown_equator; rewrite deg90, ?cos_PI2, ?sin_PI2; lra. Qed.
Lemma at_30 : flat_map_of (0, 0) (30, 0, 0) (3185.5, 0).
Proof. apply shown_equator; rewrite deg30, ?cos_PI6, ?sin_PI6; [|lra]. pose proof (sqrt_pos 3). lra. Qed.
Lemma at_30_coords : strike_coords (0, 0) (6371, 0) (3185.5, 0) 3185.5 0.
Proof. exists 6371, 1, 0. cbn [fst snd]. repeat split; lra. Qed.
(** A site half-way along gets the coordinate of the beginning. *)
Theorem C88_along_refuted : exists c q lon lat a b s u, flat_map_of c (q0 q) a /\ flat_map_of c (q1 q) b /\ flat_map_of c (lon, lat, 0) s /\ strike_coords a b s u 0 /\ 0 < u < top_length q / 1000 /\
  forall fuel, exists g, compute_gc2 fuel c [q] [0%nat] lon lat = Some (Ok g) /\ g_U g <> Some u.
Proof.
  exists (0, 0), quarter, 30, 0, (0, 0), (6371, 0), (3185.5, 0), 3185.5. pose proof quarter_long as L.
  split; [exact quarter_start|]. split; [exact quarter_end|]. split; [exact at_30|]. split; [exact at_30_coords|]. split; [lra|].
  intro fuel. destruct (C88_single fuel (0, 0) quarter 30 0 0 _ _ _ _ quarter_start quarter_end at_30 at_30_coords) as (g & E & _ & U & _); [lra|]. exists g. split; [exact E|]. rewrite U. intro X. injection X as X. lra.
Qed.
Print Assumptions C88_along_refuted.

(** The examples: the north pole beside a quarter and beside a half of the equator. *)
Lemma at_pole : flat_map_of (0, 0) (0, 90, 0) (0, 6371).
Proof. unfold flat_map_of, shown, vdot, place, east_of, north_of. cbn [fst snd vx vy vz]. rewrite deg90, deg0, sin_0, cos_0, cos_PI2, sin_PI2. repeat split; lra. Qed.
Lemma pole_coords : strike_coords (0, 0) (6371, 0) (0, 6371) 0 (-6371).
Proof. exists 6371, 1, 0. cbn [fst snd]. repeat split; lra. Qed.
Example C87_ex_segment : exists r0, compute_gc2 0 (0, 0) [quarter] [0%nat] 0 90 = Some (Ok (mkgc2 (Some (-6371)) (Some 0) (Some (-6371)) (Some (0 - top_length quarter / 2000)) r0)) /\ r0 = 0.
Proof.
  pose proof quarter_long as L. destruct (C87_one_segment 0 (0, 0) quarter 0 90 0 _ _ _ _ _ quarter_start quarter_end at_pole pole_coords) as (r0 & E & B); [lra|intros [X _]; lra|]. exists r0. split; [exact E|]. apply B. lra.
Qed.
Definition quarter_before : quad := mkquad (-90, 0, 0) (0, 0, 0) (0, 0, 10) (-90, 0, 10).
Lemma degm90 : deg (-90) = - (PI / 2). Proof. unfold deg. field. Qed.
Lemma before_start : flat_map_of (0, 0) (q0 quarter_before) (-6371, 0). Proof. apply shown_equator; rewrite degm90, ?cos_neg, ?sin_neg, ?cos_PI2, ?sin_PI2; lra. Qed.
Lemma before_coords : strike_coords (-6371, 0) (0, 0) (0, 6371) 6371 (-6371).
Proof. exists 6371, 1, 0. cbn [fst snd]. repeat split; lra. Qed.
Lemma before_long : 6378 < top_length quarter_before / 1000.
Proof.
  unfold top_length, quarter_before. cbn [q0 q1]. rewrite !equator_ecef, degm90, deg0, cos_neg, sin_neg, cos_PI2, sin_PI2, cos_0, sin_0. unfold dist. cbn [vx vy vz]. match goal with |- _ < sqrt ?x / _ => assert (6378137 < sqrt x) end.
  { rewrite <- (sqrt_pow2 6378137) by lra. apply sqrt_lt_1; unfold WGS84_A; lra. }
  lra.
Qed.
Lemma half_beside : beside_all (0, 0) (0, 90, 0) [quarter_before; quarter].
Proof.
  pose proof quarter_long as L. pose proof before_long as L'. constructor; [|constructor; [|constructor]].
  - exists (-6371, 0), (0, 0), (0, 6371), 6371, (-6371). split; [exact before_start|]. split; [exact quarter_start|]. split; [exact at_pole|]. split; [exact before_coords|]. fold (top_length quarter_before). split; [lra|intros [X _]; lra].
  - exists (0, 0), (6371, 0), (0, 6371), 0, (-6371). split; [exact quarter_start|]. split; [exact quarter_end|]. split; [exact at_pole|]. split; [exact pole_coords|]. fold (top_length quarter). split; [lra|intros [X _]; lra].
Qed.
Lemma half_one : one_trace [3%nat; 3%nat]. Proof. exists 3%nat. split; [congruence|]. repeat constructor. Qed.
Example C87_ex_two : exists g, compute_gc2 0 (0, 0) [quarter_before; quarter] [3%nat; 3%nat] 0 90 = Some (Ok g) /\ g_T g = Some (-6371).
Proof.
  destruct (C87_one_trace 0 (0, 0) [quarter_before; quarter] [3%nat; 3%nat] 0 90 0 half_one ltac:(congruence) half_beside) as (vs & T & U & r0 & E & _). eexists. split; [exact E|]. cbn [g_T]. f_equal.
  enough (-6371 <= T <= -6371) by lra. eapply (C87_between 0 (0, 0) [quarter_before; quarter] [3%nat; 3%nat] 0 90 0); [exact half_one|congruence|exact half_beside|exact E|reflexivity|].
  intros q a b s u t [<-|[<-|[]]] A B S C; rewrite (map_fun _ _ _ _ S at_pole) in C.
  - rewrite (map_fun _ _ _ _ A before_start), (map_fun _ _ _ _ B quarter_start) in C. destruct (coords_fun _ _ _ _ _ _ _ C before_coords). lra.
  - rewrite (map_fun _ _ _ _ A quarter_start), (map_fun _ _ _ _ B quarter_end) in C. destruct (coords_fun _ _ _ _ _ _ _ C pole_coords). lra.
Qed.
(** A site on the other side of the earth; an upper edge going straight down. *)
Example C87_ex_hidden : compute_gc2 0 (0, 0) [quarter] [0%nat] 180 0 = Some (Err ValueError).
Proof.
  apply (C87_hidden 0 (0, 0) [quarter] [0%nat] 180 0 0); [exists 0%nat; split; [congruence|repeat constructor]|congruence|]. right. intros a (H & _). unfold vdot, place in H. cbn [fst snd vx vy vz] in H.
  replace (deg 180) with PI in H by (unfold deg; field). rewrite deg0, sin_0, cos_0, cos_PI, sin_PI in H. lra.
Qed.
Example C87_ex_degenerate : compute_gc2 0 (0, 0) [quarter; mkquad (0, 0, 0) (0, 0, 10) (0, 0, 10) (0, 0, 0)] [0%nat; 0%nat] 30 0 = Some (Ok (mkgc2 None None None None 0)).
Proof.
  apply (C87_degenerate 0 (0, 0) _ _ 30 0 0 (3185.5, 0)); [exists 0%nat; split; [congruence|repeat constructor]|exact at_30| |].
  - constructor; [exists (0, 0), (6371, 0); split; [exact quarter_start|exact quarter_end]|constructor; [|constructor]]. exists (0, 0), (0, 0). split; exact quarter_start.
  - right. left. exists (0, 0). split; exact quarter_start.
Qed.
Example C88_ex : exists g, compute_gc2 0 (0, 0) [quarter] [0%nat] 30 0 = Some (Ok g) /\ g_T g = Some 0 /\ g_U g = Some 0.
Proof. pose proof quarter_long as L. destruct (C88_single 0 (0, 0) quarter 30 0 0 _ _ _ _ quarter_start quarter_end at_30 at_30_coords) as (g & E & T & U & _); [lra|]. exists g. repeat split; assumption. Qed.
(** On the second of two segments that make a corner. *)
Definition meridian : quad := mkquad (0, 90, 0) (0, 0, 0) (0, 0, 10) (0, 90, 10).
Example C88_ex_trace : exists g T, compute_gc2 0 (0, 0) [meridian; quarter] [0%nat; 0%nat] 30 0 = Some (Ok g) /\ g_T g = Some T /\ T < 0.
Proof.
  pose proof quarter_long as L.
  assert (M : strike_coords (0, 6371) (0, 0) (3185.5, 0) 6371 (-3185.5)) by (exists 6371, 0, (-1); cbn [fst snd]; repeat split; lra).
  assert (B : beside_all (0, 0) (30, 0, 0) [meridian]).
  { constructor; [|constructor]. exists (0, 6371), (0, 0), (3185.5, 0), 6371, (-3185.5). split; [exact at_pole|]. split; [exact quarter_start|]. split; [exact at_30|]. split; [exact M|]. split; [|intros [X _]; lra].
    unfold meridian. cbn [q0 q1]. rewrite equator_ecef. unfold ecef, from_point. rewrite coords, deg0, deg90, sin_0, cos_0, cos_PI2. unfold dist. cbn [vx vy vz]. apply sqrt_lt_R0. match goal with |- 0 < (?a - ?b) ^ 2 + ?y ^ 2 + ?z ^ 2 => assert (0 < (a - b) ^ 2) by (replace b with 0 by ring; unfold WGS84_A; nra); pose proof (pow2_ge_0 y); pose proof (pow2_ge_0 z) end. lra. }
  destruct (C88_on_trace 0 (0, 0) [meridian] quarter [] [0%nat; 0%nat] 30 0 0 (0, 0) (6371, 0) (3185.5, 0) 3185.5) as (vs & vs' & g & T & E & ET & _ & V & V' & EQ); [exists 0%nat; split; [congruence|repeat constructor]|exact B|constructor|exact quarter_start|exact quarter_end|exact at_30|exact at_30_coords|lra|].
  exists g, T. split; [exact E|]. split; [exact ET|]. inversion V' as [|]; subst. inversion V as [|q v l vs1 ((a & b & s & A & Bb & S & C) & Lv & P) V1]; subst. inversion V1; subst. cbn [map total] in EQ.
  rewrite (map_fun _ _ _ _ S at_30), (map_fun _ _ _ _ A at_pole), (map_fun _ _ _ _ Bb quarter_start) in C. destruct (coords_fun _ _ _ _ _ _ _ C M) as [EU ET'].
  assert (0 < v_w v) by (eapply pull_pos; [exact Lv| |exact P]; rewrite ET'; intros [X _]; lra). rewrite ET' in EQ. lra.
Qed.
