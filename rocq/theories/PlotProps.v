(** C131: pictures of ruptures. *)
From Coq Require Import Reals Bool List Lia Lra.
From Verif Require Import PyBase GeoModel RuptModel PolyModel PolySpec WriteModel WriteProps PlotModel.
Import ListNotations.
Open Scope R_scope.

(** Consecutive points of a line; a closed line through the corners of a patch, upside down. *)
Definition joined {A} (l : list A) (a b : A) : Prop := exists x y, l = x ++ a :: b :: y.
Definition above (p : point) (w : R * R * R) : Prop := fst (fst w) = fst (fst p) /\ snd (fst w) = snd (fst p) /\ snd w = - snd p.
(** Wires: one for each quadrilateral, round its corners and back. *)
Theorem C131_wires : forall qs border axes, axes <> Some false -> exists ws, plot_rupture_wire3d (QuadShape qs border) axes = Ok ws /\
  Forall2 (fun q w => Forall2 above [q0 q; q1 q; q2 q; q3 q; q0 q] w) qs ws.
Proof.
  intros qs border axes A. exists (map quad_wire qs). split; [destruct axes as [[|]|]; [reflexivity|contradiction|reflexivity]|].
  induction qs as [|q qs IH]; constructor; [|exact IH]. assert (P : forall p : point, above p (let '(lon, lat, dep) := p in (lon, lat, - dep))) by (intros [[lon lat] dep]; repeat split). unfold quad_wire. cbn [map app]. repeat constructor; apply P.
Qed.
Theorem C131_refused : forall r axes p, plot_rupture_wire3d r (Some false) = Err TypeError /\ plot_rupture_wire3d (PointShape p) axes = Err TypeError /\ map_rupture (PointShape p) = Err TypeError.
Proof. intros r axes p. split; [reflexivity|]. split; [destruct axes as [[|]|]; reflexivity|reflexivity]. Qed.

Lemma min_low l m : rmin_list l = Some m -> In m l /\ forall x, In x l -> m <= x.
Proof.
  revert m. induction l as [|a l IH]; intros m; [discriminate|]. cbn [rmin_list]. destruct (rmin_list l) as [k|] eqn:E; intro H; injection H as <-.
  - destruct (IH _ eq_refl) as [I L]. split; [destruct (Rle_dec a k); [rewrite Rmin_left by lra; left; reflexivity|rewrite Rmin_right by lra; right; exact I]|]. intros x [<-|X]; [apply Rmin_l|]. eapply Rle_trans; [apply Rmin_r|apply L, X].
  - split; [left; reflexivity|]. intros x [<-|X]; [lra|]. destruct l as [|b l]; [destruct X|]. cbn [rmin_list] in E. destruct (rmin_list l); discriminate.
Qed.
Lemma max_high l m : rmax_list l = Some m -> In m l /\ forall x, In x l -> x <= m.
Proof.
  revert m. induction l as [|a l IH]; intros m; [discriminate|]. cbn [rmax_list]. destruct (rmax_list l) as [k|] eqn:E; intro H; injection H as <-.
  - destruct (IH _ eq_refl) as [I L]. split; [destruct (Rle_dec k a); [rewrite Rmax_left by lra; left; reflexivity|rewrite Rmax_right by lra; right; exact I]|]. intros x [<-|X]; [apply Rmax_l|]. eapply Rle_trans; [apply L, X|apply Rmax_r].
  - split; [left; reflexivity|]. intros x [<-|X]; [lra|]. destruct l as [|b l]; [destruct X|]. cbn [rmax_list] in E. destruct (rmax_list l); discriminate.
Qed.
Lemma some_min l : l <> [] -> exists m, rmin_list l = Some m.
Proof. destruct l as [|a l]; [contradiction|]. intros _. cbn [rmin_list]. destruct (rmin_list l); eauto. Qed.
Lemma some_max l : l <> [] -> exists m, rmax_list l = Some m.
Proof. destruct l as [|a l]; [contradiction|]. intros _. cbn [rmax_list]. destruct (rmax_list l); eauto. Qed.
Lemma in_present {A} (x : A) l : In x (present l) <-> In (Some x) l.
Proof. unfold present. rewrite in_flat_map. split; [intros ([y|] & I & J); [destruct J as [->|[]]; exact I|destruct J]|]. intro I. exists (Some x). split; [exact I|left; reflexivity]. Qed.
Lemma combine_pairs {A B C} (f : A -> B) (g : A -> C) l : combine (map f l) (map g l) = map (fun a => (f a, g a)) l.
Proof. induction l as [|a l IH]; [reflexivity|]. cbn [map combine]. f_equal. exact IH. Qed.

(** The map: each side is five degrees beyond the outermost vertex. *)
Theorem C131_extent : forall qs border, (exists v, In (Some v) border) -> exists p, map_rupture (QuadShape qs border) = Ok p /\
  (forall lon lat dep, In (Some (lon, lat, dep)) border -> west p + 5 <= lon <= east p - 5 /\ south p + 5 <= lat <= north p - 5) /\
  (exists v, In (Some v) border /\ fst (fst v) = west p + 5) /\ (exists v, In (Some v) border /\ fst (fst v) = east p - 5) /\
  (exists v, In (Some v) border /\ snd (fst v) = south p + 5) /\ (exists v, In (Some v) border /\ snd (fst v) = north p - 5).
Proof.
  intros qs border (v & V). apply in_present in V. unfold map_rupture.
  destruct (some_min (map (fun p : point => fst (fst p)) (present border))) as (x1 & X1). { destruct (present border); [destruct V|discriminate]. }
  destruct (some_max (map (fun p : point => fst (fst p)) (present border))) as (x2 & X2). { destruct (present border); [destruct V|discriminate]. }
  destruct (some_min (map (fun p : point => snd (fst p)) (present border))) as (y1 & Y1). { destruct (present border); [destruct V|discriminate]. }
  destruct (some_max (map (fun p : point => snd (fst p)) (present border))) as (y2 & Y2). { destruct (present border); [destruct V|discriminate]. }
  rewrite X1, X2, Y1, Y2. eexists. split; [reflexivity|]. cbn [west east south north]. apply min_low in X1, Y1. apply max_high in X2, Y2. unfold MAP_WIDTH.
  destruct X1 as [I1 L1], X2 as [I2 L2], Y1 as [J1 M1], Y2 as [J2 M2]. split.
  - intros lon lat dep I. apply in_present in I. pose proof (in_map (fun p : point => fst (fst p)) _ _ I) as A. pose proof (in_map (fun p : point => snd (fst p)) _ _ I) as B. cbn [fst snd] in A, B. specialize (L1 _ A). specialize (L2 _ A). specialize (M1 _ B). specialize (M2 _ B). lra.
  - apply in_map_iff in I1, I2, J1, J2. destruct I1 as (a & A & Ia), I2 as (b & B & Ib), J1 as (c & C & Ic), J2 as (d & D & Id). apply in_present in Ia, Ib, Ic, Id. repeat split; [exists a|exists b|exists c|exists d]; (split; [assumption|lra]).
Qed.
Theorem C131_nothing : forall qs border, ~ (exists v, In (Some v) border) -> map_rupture (QuadShape qs border) = Err ValueError.
Proof.
  intros qs border N. unfold map_rupture. assert (E : present border = []). { destruct (present border) as [|v l] eqn:E; [reflexivity|]. exfalso. apply N. exists v. apply in_present. rewrite E. left. reflexivity. }
  rewrite E. reflexivity.
Qed.

(** The line drawn is the outlines one after another, without a gap between them. *)
Definition flat (v : vertex) : R * R := fst v.
Lemma present_rings (polys : list (list point)) : present (flat_map (fun p => map Some p ++ [None]) polys) = concat polys.
Proof.
  induction polys as [|p polys IH]; [reflexivity|]. cbn [flat_map concat]. unfold present in *. rewrite !flat_map_app, IH. cbn [flat_map]. rewrite app_nil_r. f_equal. clear. induction p as [|v p IH]; [reflexivity|]. cbn [map flat_map app]. f_equal. exact IH.
Qed.
Lemma map_path qs border p : map_rupture (QuadShape qs border) = Ok p -> path p = map flat (present border).
Proof.
  unfold map_rupture. destruct (rmin_list _); [|discriminate]. destruct (rmax_list _); [|discriminate]. destruct (rmin_list _); [|discriminate]. destruct (rmax_list _); [|discriminate]. intro E. injection E as <-. cbn [path]. rewrite combine_pairs. apply map_ext. intros [[a b] c]. reflexivity.
Qed.
Theorem C131_path : forall es polys qs border p, Forall2 (fun e q => outline_of_edges (fst e) (snd e) q) es polys -> edge_outline (edge_init polys) = Ok border ->
  map_rupture (QuadShape qs border) = Ok p -> path p = map flat (concat polys).
Proof. intros es polys qs border p F B E. rewrite (C109_outline _ _ F) in B. injection B as <-. rewrite (map_path _ _ _ E), present_rings. reflexivity. Qed.
(** The last vertex of each outline is joined to the first of the next. *)
Theorem C131_joined_refuted : forall es polys qs border p before a u v b after, Forall2 (fun e q => outline_of_edges (fst e) (snd e) q) es polys -> edge_outline (edge_init polys) = Ok border ->
  map_rupture (QuadShape qs border) = Ok p -> polys = before ++ [a ++ [u]] ++ [v :: b] ++ after -> joined (path p) (flat u) (flat v).
Proof.
  intros es polys qs border p before a u v b after F B E ->. rewrite (C131_path _ _ _ _ _ F B E). rewrite !concat_app. cbn [concat]. rewrite !app_nil_r, !map_app. cbn [map].
  exists (map flat (concat before) ++ map flat a), (map flat b ++ map flat (concat after)). rewrite <- !app_assoc. cbn [app]. reflexivity.
Qed.
(** A rupture across the date line: the map is asked to go all the way round, and more. *)
Theorem C131_date_line_refuted : forall qs border p lat dep lat' dep' lon lon', In (Some (lon, lat, dep)) border -> In (Some (lon', lat', dep')) border -> 175 < lon -> lon' < -175 -> map_rupture (QuadShape qs border) = Ok p ->
  west p < -180 /\ 180 < east p.
Proof.
  intros qs border p lat dep lat' dep' lon lon' I J L L' E. destruct (C131_extent qs border (ex_intro (fun v => In (Some v) border) _ I)) as (p' & E' & V & _). rewrite E in E'. injection E' as <-. pose proof (V _ _ _ I). pose proof (V _ _ _ J). lra.
Qed.
Print Assumptions C131_wires.
Print Assumptions C131_refused.
Print Assumptions C131_extent.
Print Assumptions C131_nothing.
Print Assumptions C131_path.
Print Assumptions C131_joined_refuted.
Print Assumptions C131_date_line_refuted.
(** Two outlines a degree apart; the line between them is drawn. *)
Definition ex_ring (x : R) : list point := [(x, 0, 0); (x + 1/2, 0, 0); (x + 1/2, 0, 5); (x, 0, 5); (x, 0, 0)].
Example C131_example : exists border p, edge_outline (edge_init [ex_ring 0; ex_ring 1]) = Ok border /\ map_rupture (QuadShape [] border) = Ok p /\ joined (path p) (0, 0) (1, 0) /\ west p = -5 /\ east p = 13/2.
Proof.
  assert (F : Forall2 (fun e q => outline_of_edges (fst e) (snd e) q) (map (fun x : R => ([(x, 0, 0); (x + 1/2, 0, 0)], [(x, 0, 5); (x + 1/2, 0, 5)]) : list vertex * list vertex) [0; 1]) [ex_ring 0; ex_ring 1]).
  { repeat constructor; eexists; eexists; (split; [reflexivity|]); split; reflexivity. }
  pose proof (C109_outline _ _ F) as B. destruct (C131_extent [] (flat_map (fun p => map Some p ++ [None]) [ex_ring 0; ex_ring 1])) as (p & E & V & (w & W1 & W2) & (e & E1 & E2) & _). { eexists. left. reflexivity. }
  eexists. exists p. split; [exact B|]. split; [exact E|]. split.
  - pose proof (C131_joined_refuted _ _ _ _ _ [] (removelast (ex_ring 0)) (0, 0, 0) (1, 0, 0) (tl (ex_ring 1)) [] F B E eq_refl) as J. exact J.
  - cbn [ex_ring flat_map map app In] in *. repeat match goal with H : _ \/ _ |- _ => destruct H end; try contradiction; try discriminate; repeat match goal with H : Some _ = Some _ |- _ => injection H as <- end; cbn [fst snd] in *;
    pose proof (V 0 0 0 (or_introl eq_refl)); pose proof (V (1 + 1/2) 0 0 ltac:(cbn; auto 20)); lra.
Qed.
