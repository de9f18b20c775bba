(** Property C135: what a rupture of quadrilaterals tells about itself. *)
From Coq Require Import ZArith Reals String Ascii Bool List Lia Lra.
From Verif Require Import PyBase PyStr VecModel GeoModel RuptModel PolyModel PolySpec PolyProofs QuadProofs EdgeProofs EquatorProofs QuadProps CountModel.
Import ListNotations.
Open Scope nat_scope.

(** ** Vocabulary *)
(** How many quadrilaterals a closed ring of [n] vertices, the repeated one included, is cut into. *)
Definition cut_into (n : nat) : nat := if n <? 4 then 0 else if n =? 4 then 1 else Nat.div2 (n - 1) - 1.
Definition total (l : list nat) : nat := fold_right Nat.add 0 l.
(** Parts one after another, each ended by not-a-number. *)
Inductive ended {A} : list (list A) -> list (option A) -> Prop :=
| ended_none : ended [] []
| ended_more : forall p ps l, ended ps l -> ended (p :: ps) (map Some p ++ None :: l).
Definition nans {A} (l : list (option A)) : nat := length (filter (fun o => match o with None => true | Some _ => false end) l).

(** ** Lemmas *)
Lemma removelast_len {A} (l : list A) : length (removelast l) = length l - 1.
Proof. induction l as [|x [|y l] IH]; [reflexivity|reflexivity|]. change (length (removelast (x :: y :: l))) with (S (length (removelast (y :: l)))). rewrite IH. cbn [length]. lia. Qed.
Lemma removelast_map {A B} (f : A -> B) l : removelast (map f l) = map f (removelast l).
Proof. induction l as [|x [|y l] IH]; [reflexivity|reflexivity|]. change (f x :: removelast (map f (y :: l)) = f x :: map f (removelast (y :: l))). rewrite IH. reflexivity. Qed.
Lemma quad_count_cut n : quad_count (n - 1) = cut_into n.
Proof.
  unfold cut_into. destruct n as [|[|[|[|[|n]]]]]; [reflexivity..|]. cbn [Nat.ltb Nat.leb Nat.eqb]. replace (S (S (S (S (S n)))) - 1) with (S (S (S (S n)))) by lia. cbn [Nat.div2]. unfold quad_count. replace (Z.of_nat (S (S (S (S n)))) - 4)%Z with (Z.of_nat n) by lia.
  rewrite Z.quot_div_nonneg, Nat.div2_div by lia. change 2%Z with (Z.of_nat 2). rewrite <- Nat2Z.inj_div. lia.
Qed.
Lemma group_quads_len seg js : forall qs, group_quads seg js = Ok qs -> length qs = length js.
Proof.
  induction js as [|j js IH]; intros qs; cbn [group_quads]; [intro H; injection H as <-; reflexivity|]. do 5 (match goal with |- bind ?x _ = _ -> _ => destruct x; [cbn [bind]|discriminate] end). destruct (group_quads seg js) as [rest|]; [|discriminate]. cbn [bind]. intro H. injection H as <-. cbn [length]. rewrite (IH rest eq_refl). reflexivity.
Qed.
(** The numbers of the polygons that are cut into something. *)
Fixpoint present (g : nat) (polys : list (list point)) : list nat :=
  match polys with [] => [] | p :: r => if 4 <=? length p then g :: present (S g) r else present (S g) r end.
Lemma present_ge polys : forall g x, In x (present g polys) -> g <= x.
Proof. induction polys as [|p polys IH]; intros g x; cbn [present]; [intros []|]. destruct (4 <=? length p); [intros [->|H]; [lia|]|intro H]; apply IH in H; lia. Qed.
Lemma present_inc polys : forall g, increasing (present g polys).
Proof. induction polys as [|p polys IH]; intro g; cbn [present]; [constructor|]. destruct (4 <=? length p); [|apply IH]. apply inc_cons; [apply IH|]. intros x H. apply present_ge in H. lia. Qed.
Lemma present_length polys : forall g, length (present g polys) = length (filter (fun p => 4 <=? length p) polys).
Proof. induction polys as [|p polys IH]; intro g; cbn [present filter]; [reflexivity|]. destruct (4 <=? length p); cbn [length]; rewrite IH; reflexivity. Qed.
Lemma cut_zero n : cut_into n = 0 <-> n < 4.
Proof. unfold cut_into. destruct (Nat.ltb_spec n 4); [split; auto|]. destruct (Nat.eqb_spec n 4); [subst; split; [discriminate|lia]|]. destruct n as [|[|[|[|[|n]]]]]; try lia. cbn [Nat.sub Nat.div2]. split; lia. Qed.
Lemma by_polygon_counts polys : forall g qs gi, by_polygon polys g = Ok (qs, gi) ->
  length qs = total (map (fun p => cut_into (length p)) polys) /\ length gi = length qs /\ (forall x, In x (present g polys) <-> In x gi).
Proof.
  induction polys as [|p polys IH]; intros g qs gi; cbn [by_polygon map present].
  - intro H. injection H as <- <-. split; [reflexivity|]. split; [reflexivity|]. reflexivity.
  - rewrite map_length, removelast_len, quad_count_cut. destruct (group_quads _ _) as [qa|] eqn:G; [|discriminate]. cbn [bind]. destruct (by_polygon polys (g + 1)) as [[q2 g2]|] eqn:B; [|discriminate]. cbn [bind fst snd]. intro H. injection H as <- <-. apply group_quads_len in G. rewrite seq_length in G. destruct (IH _ _ _ B) as (A1 & A2 & A3).
    rewrite !app_length, repeat_length. cbn [total fold_right]. fold (total (map (fun p => cut_into (length p)) polys)). split; [lia|]. split; [lia|]. intro x. rewrite in_app_iff. replace (g + 1) with (S g) in A3 by lia. rewrite <- A3. destruct (Nat.leb_spec 4 (length p)).
    + cbn [In]. split; (intros [X|X]; [left|right; exact X]); [subst|apply repeat_spec in X; auto]. destruct (cut_into (length p)) eqn:E; [apply cut_zero in E; lia|left; reflexivity].
    + assert (E : cut_into (length p) = 0) by (apply cut_zero; lia). rewrite E. cbn [repeat In]. tauto.
Qed.
Lemma make_inv polys r : make polys = Ok r -> exists qs gi, by_polygon polys 0 = Ok (qs, gi) /\ r = mkqr (array_of lon_of polys) (array_of lat_of polys) (array_of dep_of polys) qs gi.
Proof. unfold make. rewrite set_quads_eq. destruct (by_polygon polys 0) as [[qs gi]|]; [|discriminate]. cbn [bind fst snd]. intro H. injection H as <-. exists qs, gi. split; reflexivity. Qed.
Lemma array_ended f polys : ended (map (fun p => map f (removelast p)) polys) (array_of f polys).
Proof.
  unfold array_of. assert (K : forall acc, exists l, fold_left (fun acc p => acc ++ map Some (removelast (map f p)) ++ [None]) polys acc = acc ++ l /\ ended (map (fun p => map f (removelast p)) polys) l).
  { induction polys as [|p polys IH]; intro acc; [exists []; split; [rewrite app_nil_r; reflexivity|constructor]|]. cbn [fold_left map]. destruct (IH (acc ++ map Some (removelast (map f p)) ++ [None])) as (l & -> & E). exists (map Some (map f (removelast p)) ++ None :: l). split; [rewrite removelast_map, <- !app_assoc; reflexivity|constructor; exact E]. }
  destruct (K []) as (l & -> & E). exact E.
Qed.
Lemma ended_fun {A} (ps ps' : list (list A)) l : ended ps l -> ended ps' l -> ps = ps'.
Proof.
  intro H. revert ps'. induction H as [|p ps l H IH]; intros ps' H'.
  { inversion H' as [|p' qs l' K E0 E1]; [reflexivity|destruct p'; discriminate]. }
  remember (map Some p ++ None :: l) as m eqn:Em. destruct H' as [|p' qs l' K]; [destruct p; discriminate|]. rename Em into E1.
  assert (X : p' = p /\ l' = l). { clear - E1. revert p E1. induction p' as [|x p' IH]; intros [|y p] E; cbn in E; try discriminate; [injection E as ->; auto|]. injection E as -> E. destruct (IH p E) as [-> ->]. auto. }
  destruct X as [-> ->]. f_equal. apply IH. exact K.
Qed.
Lemma nans_app {A} (a b : list (option A)) : nans (a ++ b) = nans a + nans b.
Proof. unfold nans. rewrite filter_app, app_length. reflexivity. Qed.
Lemma nans_some {A} (l : list A) : nans (map Some l) = 0.
Proof. induction l; [reflexivity|exact IHl]. Qed.
Lemma ended_count {A} (ps : list (list A)) l : ended ps l -> nans l = length ps /\ length l = total (map (@length A) ps) + length ps.
Proof.
  induction 1 as [|p ps l H [I1 I2]]; [split; reflexivity|]. rewrite nans_app, nans_some, app_length, map_length. change (None :: l) with ([None] ++ l). rewrite nans_app, I1. cbn [length map total fold_right app]. fold (total (map (@length A) ps)). split; [reflexivity|]. lia.
Qed.
Lemma members_picks g groups quads : length quads = length groups -> In g groups -> members groups g quads <> [].
Proof.
  unfold members. revert quads. induction groups as [|h groups IH]; intros [|q quads] L; try discriminate; [intros []|]. cbn [combine filter fst]. intros [->|I]; [rewrite Nat.eqb_refl; discriminate|]. destruct (h =? g); [discriminate|]. apply IH; [cbn in L; lia|exact I].
Qed.
Lemma outline_nans quads groups : length quads = length groups -> nans (outline quads groups) = length (unique groups).
Proof.
  intro L. unfold outline. assert (K : forall g, In g (unique groups) -> In g groups) by (intros g; apply (proj2 (unique_groups groups) g)). induction (unique groups) as [|g l IH]; [reflexivity|]. cbn [flat_map length]. rewrite nans_app, IH by (intros x X; apply K; right; exact X). pose proof (members_picks g groups quads L (K g (or_introl eq_refl))) as N. destruct (members groups g quads) as [|q qs]; [congruence|]. unfold outline_of. rewrite nans_app, nans_some. reflexivity.
Qed.

(** ** Theorems *)
(** Each polygon of [n] vertices is cut into its share of quadrilaterals; there are as many group
    numbers as quadrilaterals; the groups are the polygons that are cut into something, that is those
    with four vertices or more. *)
Theorem C135_counts : forall polys r, make polys = Ok r ->
  get_num_quads r = total (map (fun p => cut_into (length p)) polys) /\
  length (get_group_index r) = get_num_quads r /\
  get_num_groups r = length (filter (fun p => 4 <=? length p) polys).
Proof.
  intros polys r H. destruct (make_inv _ _ H) as (qs & gi & B & ->). destruct (by_polygon_counts _ _ _ _ B) as (A1 & A2 & A3). unfold get_num_quads, get_group_index, get_num_groups. cbn [qr_quads qr_group]. split; [exact A1|]. split; [exact A2|].
  rewrite <- (present_length polys 0). f_equal. apply (groups_of_fun gi); [apply unique_groups|]. split; [apply present_inc|exact A3].
Qed.
Print Assumptions C135_counts.
(** For polygons along two edges of as many vertices: one quadrilateral less than vertices of the top edge. *)
Theorem C135_edges : forall edges polys r, Forall2 (fun e p => outline_of_edges (fst e) (snd e) p) edges polys -> make polys = Ok r ->
  get_num_quads r = total (map (fun e => length (fst e) - 1) edges) /\
  (Forall (fun e => 2 <= length (fst e)) edges -> get_num_groups r = length polys).
Proof.
  intros edges polys r F H. destruct (C135_counts _ _ H) as (A & _ & B). rewrite A, B. clear A B H. split.
  - f_equal. induction F as [|e p edges polys O F IH]; [reflexivity|]. cbn [map]. f_equal; [|exact IH]. destruct (outline_length _ _ _ O) as [L _]. rewrite L, <- quad_count_cut. replace (length (fst e) + length (fst e) + 1 - 1) with (length (fst e) + length (fst e)) by lia. apply quad_count_even.
  - intro G. induction F as [|e p edges polys O F IH]; [reflexivity|]. inversion G; subst. cbn [filter]. destruct (outline_length _ _ _ O) as [L _]. destruct (Nat.leb_spec 4 (length p)); [cbn [length]; rewrite IH by assumption; reflexivity|lia].
Qed.
Print Assumptions C135_edges.
(** The three arrays are the longitudes, the latitudes and the depths of the polygons without their
    last vertex, each polygon ended by not-a-number; getDeps is the third; nothing else fits. *)
Theorem C135_arrays : forall polys r lons lats deps, make polys = Ok r -> get_rupture_as_arrays r = (lons, lats, deps) ->
  ended (map (fun p => map lon_of (removelast p)) polys) lons /\
  ended (map (fun p => map lat_of (removelast p)) polys) lats /\
  ended (map (fun p => map dep_of (removelast p)) polys) deps /\
  get_deps r = deps /\ length lons = length lats /\ length lats = length deps /\
  nans lons = length polys /\ nans lats = length polys /\ nans deps = length polys /\
  length lons = total (map (fun p => length p - 1) polys) + length polys.
Proof.
  intros polys r lons lats deps H G. destruct (make_inv _ _ H) as (qs & gi & _ & ->). unfold get_rupture_as_arrays in G. cbn [qr_lon qr_lat qr_dep] in G. injection G as <- <- <-. pose proof (array_ended lon_of polys) as E1. pose proof (array_ended lat_of polys) as E2. pose proof (array_ended dep_of polys) as E3.
  assert (K : forall f : point -> R, map (@length R) (map (fun p => map f (removelast p)) polys) = map (fun p => length p - 1) polys) by (intro f; rewrite map_map; apply map_ext; intro p; rewrite map_length; apply removelast_len).
  destruct (ended_count _ _ E1) as [N1 L1]. destruct (ended_count _ _ E2) as [N2 L2]. destruct (ended_count _ _ E3) as [N3 L3]. rewrite K in L1, L2, L3. rewrite !map_length in *. unfold get_deps. cbn [qr_dep]. repeat split; try assumption; congruence.
Qed.
Print Assumptions C135_arrays.
(** A vertex is longitude, latitude, depth, in this order. *)
Theorem C135_order : forall lon lat dep : R, lon_of (lon, lat, dep) = lon /\ lat_of (lon, lat, dep) = lat /\ dep_of (lon, lat, dep) = dep.
Proof. intros. repeat split. Qed.
Print Assumptions C135_order.
(** The parts can be told from the array. *)
Theorem C135_recovered : forall (A : Type) (ps ps' : list (list A)) l, ended ps l -> ended ps' l -> ps = ps'.
Proof. intros A ps ps' l. apply ended_fun. Qed.
Print Assumptions C135_recovered.
(** The outline has one closing not-a-number for every group. *)
Theorem C135_outline : forall polys r, make polys = Ok r -> nans (get_outline r) = get_num_groups r.
Proof. intros polys r H. destruct (make_inv _ _ H) as (qs & gi & B & ->). destruct (by_polygon_counts _ _ _ _ B) as (_ & A2 & _). apply outline_nans. cbn [qr_quads qr_group]. symmetry. exact A2. Qed.
Print Assumptions C135_outline.
(** A polygon of one vertex above one below is in the arrays, but it is no group. *)
Theorem C135_thin_refuted : exists polys r lons lats deps, Forall well_ordered polys /\ make polys = Ok r /\ get_rupture_as_arrays r = (lons, lats, deps) /\
  nans lons = 1 /\ get_num_groups r = 0 /\ get_outline r = [].
Proof.
  exists [[(0, 0, 0); (0, 0, 10); (0, 0, 0)]]%R. eexists. do 3 eexists. split; [|split; [vm_compute; reflexivity|split; [reflexivity|split; [reflexivity|split; reflexivity]]]].
  constructor; [|constructor]. right. exists [(0, 0, 0)]%R, [(0, 0, 10)]%R. split; [exists (0, 0, 0)%R, []; repeat split|]. constructor; [unfold shallower; cbn; lra|constructor].
Qed.
Print Assumptions C135_thin_refuted.

(** ** Examples *)
Example C135_ex : exists r, make [ex_poly] = Ok r /\ get_num_quads r = 1 /\ get_num_groups r = 1 /\ get_group_index r = [0] /\ get_deps r = [Some 0; Some 0; Some 10; Some 10; None]%R.
Proof. destruct C51_ex as (_ & E & _). unfold make. rewrite E. cbn [bind fst snd]. eexists. split; [reflexivity|]. repeat split; reflexivity. Qed.
Example C135_ex_cut : map cut_into [0; 1; 2; 3; 4; 5; 6; 7; 8; 9] = [0; 0; 0; 0; 1; 1; 1; 2; 2; 3].
Proof. reflexivity. Qed.
Example C135_ex_ended : ended [[1; 2]; []; [3]] [Some 1; Some 2; None; None; Some 3; None].
Proof. exact (ended_more [1; 2] _ _ (ended_more [] _ _ (ended_more [3] _ _ ended_none))). Qed.
