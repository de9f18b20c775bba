(** City tables: the filters and the grid. *)
From Coq Require Import ZArith Reals String Ascii Bool List Lia Lra Psatz Permutation Sorted.
From Flocq Require Import Core.
From Verif Require Import PyBase PyStr FloatBase FloatEval CityModel CitySpec CityProofs CityGridProofs.
Import ListNotations.
Open Scope R_scope.

Definition cols4 : list str := map str_of ["name"; "lat"; "lon"; "pop"]%string.
Definition named (n : string) (y x p : R) : city := {| c_lat := Some y; c_lon := Some x; c_pop := Some p; c_other := fun c => if str_eqb c (str_of "name") then str_of n else [] |}.
Definition three : frame := {| f_cols := cols4; f_rows := [named "Alta" 1 1 500; named "Bree" 2 2 900; named "Cove" 3 3 100] |}.
Example three_complete : complete three.
Proof. repeat split; cbn; tauto. Qed.

(** ** C34: every filter keeps exactly the rows it should, in their order *)
Theorem C34_filter : forall o f g, complete f -> fapply o f = Ok g ->
  selects (keeps o) (f_rows f) (f_rows g) /\ complete g /\
  (forall c, In c (f_cols g) <-> In c (f_cols f) /\ (c = str_of "dist" -> forall d r, o <> ByRadius d r)).
Proof.
  intros o f g H E. rewrite fapply_eq in E by assumption. destruct (refuse o f); [discriminate|]. injection E as <-. cbn [f_rows f_cols]. split; [apply selects_filter; apply test_iff|].
  split; [apply ncols_complete; assumption|]. intro c. rewrite ncols_in. split; intros [A B]; split; try assumption.
  - intros -> d r ->. apply (B d r eq_refl eq_refl).
  - intros d r -> ->. exact (B eq_refl d r eq_refl).
Qed.
Print Assumptions C34_filter.
Theorem C34_refuses : forall o f e, complete f ->
  (fapply o f = Err e <-> exists pop minpop, o = ByPopulation pop minpop /\
     ((~ In (str_of "pop") (f_cols f) /\ e = KeyError) \/ (In (str_of "pop") (f_cols f) /\ at_most pop minpop /\ e = ValueError))).
Proof.
  intros o f e H. rewrite fapply_eq by assumption. destruct o as [a b c d|d rad|p m|m]; cbn [refuse]; try (split; [discriminate|intros (? & ? & ? & _); discriminate]).
  destruct (col_in (str_of "pop") (f_cols f)) eqn:E; cbn [negb].
  - apply col_in_iff in E. destruct (fle p m) eqn:E'.
    + apply fle_iff in E'. split; [intro X; injection X as <-; eauto 8|]. intros (p' & m' & E1 & [[N _]|(_ & _ & ->)]); [contradiction|reflexivity].
    + split; [discriminate|]. intros (p' & m' & E1 & [[N _]|(_ & A & ->)]); [contradiction|]. injection E1 as <- <-. apply fle_iff in A. congruence.
  - assert (N : ~ In (str_of "pop") (f_cols f)) by (intro A; apply col_in_iff in A; congruence). split; [intro X; injection X as <-; eauto 8|].
    intros (p' & m' & E1 & [[_ ->]|(A & _)]); [reflexivity|contradiction].
Qed.
Print Assumptions C34_refuses.
(** A chain of filters keeps the rows that pass all of them. *)
Theorem C34_many : forall l f g, complete f -> fapply_all l f = Ok g ->
  complete g /\ selects (fun r => Forall (fun o => keeps o r) l) (f_rows f) (f_rows g).
Proof. exact fapply_all_sel. Qed.
Print Assumptions C34_many.
Theorem C34_commute : forall o o' f g g', complete f -> fapply o f = Ok g -> fapply o' f = Ok g' ->
  exists h, fapply o' g = Ok h /\ fapply o g' = Ok h.
Proof.
  intros o o' f g g' H E E'. pose proof (fapply_comm o o' f H) as C. rewrite E, E' in C.
  assert (Hg : complete g) by (destruct (C34_filter o f g H E) as (_ & X & _); exact X).
  rewrite <- C. destruct (fapply o' g) as [h|e] eqn:Eh; [exists h; split; reflexivity|exfalso].
  rewrite fapply_eq in E by assumption. destruct (refuse o f); [discriminate|]. injection E as <-. rewrite fapply_eq in E' by assumption. destruct (refuse o' f) eqn:R; [discriminate|].
  rewrite fapply_eq in Eh by assumption. destruct f as [cols rows]. cbn [f_cols f_rows] in Eh. rewrite (refuse_cols o' o cols _ rows), R in Eh. discriminate.
Qed.
Print Assumptions C34_commute.
Theorem C34_idempotent : forall o f g, complete f -> fapply o f = Ok g -> fapply o g = Ok g.
Proof.
  intros o f g H E. assert (Hg : complete g) by (destruct (C34_filter o f g H E) as (_ & X & _); exact X).
  rewrite fapply_eq in E by assumption. destruct (refuse o f) eqn:R; [discriminate|]. injection E as <-. rewrite fapply_eq by assumption. destruct f as [cols rows].
  cbn [f_cols f_rows] in *. rewrite (refuse_cols o o cols _ rows), R. rewrite ncols_idem, filter_filter. f_equal. f_equal. apply filter_ext. intro r. apply andb_diag.
Qed.
Print Assumptions C34_idempotent.
(** The constructor asks for the three required columns, nothing else. *)
Theorem C34_constructor : forall f, (complete f -> make f = Ok f) /\ (~ complete f -> make f = Err KeyError).
Proof. intro f. split; [apply make_ok|apply make_err]. Qed.
Print Assumptions C34_constructor.
Ltac rdec := repeat match goal with
  | |- context [Rle_dec ?a ?b] => first [destruct (Rle_dec a b); [|exfalso; lra] | destruct (Rle_dec a b); [exfalso; lra|]]
  | |- context [Rlt_dec ?a ?b] => first [destruct (Rlt_dec a b); [|exfalso; lra] | destruct (Rlt_dec a b); [exfalso; lra|]]
  end.
Example C34_ex_run : fapply_all [ByPopulation (Some 200) (Some 100); ByBounds (Some 1) (Some 3) (Some 1) (Some 2)] three = Ok {| f_cols := cols4; f_rows := [named "Bree" 2 2 900] |}.
Proof.
  cbn [fapply_all fapply]. unfold limit_by_population, fle. rdec. cbn. rdec. cbn. unfold limit_by_bounds, in_bounds, flt, fle. cbn. rdec. cbn. reflexivity.
Qed.
(** limitByRadius drops a column of the table called 'dist'. *)
Theorem C34_radius_column_refuted : exists dist radius f g, complete f /\ limit_by_radius dist radius f = Ok g /\ f_rows g = f_rows f /\
  In (str_of "dist") (f_cols f) /\ ~ In (str_of "dist") (f_cols g).
Proof.
  exists (fun _ => Some 0), (Some 1), {| f_cols := map str_of ["name"; "lat"; "lon"; "dist"]%string; f_rows := [named "Alta" 1 1 500] |},
    {| f_cols := map str_of ["name"; "lat"; "lon"]%string; f_rows := [named "Alta" 1 1 500] |}.
  split; [repeat split; cbn; tauto|]. split; [|split; [reflexivity|split; [cbn; tauto|]]].
  - unfold limit_by_radius. cbn [f_rows filter fle]. destruct (Rle_dec 0 1); [|lra]. reflexivity.
  - cbn. intros [C|[C|[C|[]]]]; discriminate.
Qed.
Print Assumptions C34_radius_column_refuted.
(** getBounds gives the extreme coordinates; NaN without any number. *)
Theorem C34_get_bounds : forall f xmin xmax ymin ymax, get_bounds f = (xmin, xmax, ymin, ymax) ->
  let rows := f_rows f in
  (forall m, xmin = Some m <-> least c_lon rows m) /\ (forall m, xmax = Some m <-> greatest c_lon rows m) /\
  (forall m, ymin = Some m <-> least c_lat rows m) /\ (forall m, ymax = Some m <-> greatest c_lat rows m).
Proof.
  intros f xmin xmax ymin ymax E. injection E as <- <- <- <-. cbn. split; [|split; [|split]]; intro m; split;
  try apply series_min_spec; try apply series_max_spec; try apply least_min; apply greatest_max.
Qed.
Print Assumptions C34_get_bounds.
Example C34_ex_bounds : least c_lon (f_rows three) 1 /\ greatest c_lon (f_rows three) 3.
Proof.
  split; (split; [first [exists (named "Alta" 1 1 500); split; [left; reflexivity|reflexivity] | exists (named "Cove" 3 3 100); split; [right; right; left; reflexivity|reflexivity]]|]); intros r x [<-|[<-|[<-|[]]]] E; cbn in E; injection E as <-; lra.
Qed.

(** ** C35: the grid
    The result is the cells' parts one after another; the part of a cell holds
    its most populous cities.  [rd] is the rounding of float arithmetic. *)
Definition left_edge (rd : R -> R) (lo hi : R) (n k : nat) : R := rd (lo + rd (INR k * rd (rd (hi - lo) / INR n))).
Definition right_edge (rd : R -> R) (lo hi : R) (n k : nat) : R := rd (left_edge rd lo hi n k + rd (rd (hi - lo) / INR n)).
Theorem C35_cells : forall rd s nx ny per f xmin xmax ymin ymax, sorts s -> complete f -> In (str_of "pop") (f_cols f) -> (0 < nx)%Z -> (0 < ny)%Z -> (0 <= per)%Z ->
  least c_lon (f_rows f) xmin -> greatest c_lon (f_rows f) xmax -> least c_lat (f_rows f) ymin -> greatest c_lat (f_rows f) ymax ->
  exists g parts, limit_by_grid rd s nx ny per f = Ok g /\ f_cols g = f_cols f /\
    f_rows g = flat_map (fun i => flat_map (parts i) (seq 0 (Z.to_nat nx))) (seq 0 (Z.to_nat ny)) /\
    forall i j, (i < Z.to_nat ny)%nat -> (j < Z.to_nat nx)%nat -> exists inside,
      selects (fun r => within (Some (left_edge rd xmin xmax (Z.to_nat nx) j)) (c_lon r) (Some (right_edge rd xmin xmax (Z.to_nat nx) j)) /\
                        within (Some (left_edge rd ymin ymax (Z.to_nat ny) i)) (c_lat r) (Some (right_edge rd ymin ymax (Z.to_nat ny) i))) (f_rows f) inside /\
      most_populous (Z.to_nat per) inside (parts i j).
Proof.
  intros rd s nx ny per f xmin xmax ymin ymax Hs H Hp Hx Hy Hper Lx Gx Ly Gy. destruct (grid_ok rd s nx ny per f H Hp Hx Hy) as (g & E & Ec).
  set (inside := fun i j => filter (in_bounds
       (Some (lo_ rd xmin xmax (Z.to_nat nx) j)) (Some (hi_ rd xmin xmax (Z.to_nat nx) j))
       (Some (lo_ rd ymin ymax (Z.to_nat ny) i)) (Some (hi_ rd ymin ymax (Z.to_nat ny) i))) (f_rows f)).
  exists g, (fun i j => head_rows per (s (inside i j))). split; [assumption|]. split; [assumption|]. split.
  - rewrite (grid_eq _ _ _ _ _ _ _ _ _ _ _ H Lx Gx Ly Gy E). exact (flat_map_cells (fun i j => head_rows per (s (inside i j))) (Z.to_nat nx) (Z.to_nat ny)).
  - intros i j Hi Hj. exists (inside i j). split; [apply selects_filter; intro r; apply in_bounds_iff|].
    pose proof (head_rows_top s (inside i j) per Hs) as T. unfold head_count in T. destruct (per <? 0)%Z eqn:En; [lia|]. exact T.
Qed.
Print Assumptions C35_cells.
(** Without rounding no city is returned twice ... *)
Theorem C35_exact_once : forall s nx ny per f g xmin xmax ymin ymax, sorts s -> complete f ->
  least c_lon (f_rows f) xmin -> greatest c_lon (f_rows f) xmax -> least c_lat (f_rows f) ymin -> greatest c_lat (f_rows f) ymax ->
  limit_by_grid (fun x => x) s nx ny per f = Ok g -> exists rest, Permutation (f_rows g ++ rest) (f_rows f).
Proof. exact grid_exact_once. Qed.
Print Assumptions C35_exact_once.
(** ... and the cells cover all but the southern and western edges. *)
Theorem C35_exact_cover : forall s nx ny per f g xmin xmax ymin ymax, (0 < nx)%Z -> (0 < ny)%Z -> (Z.of_nat (List.length (f_rows f)) <= per)%Z -> sorts s -> complete f ->
  least c_lon (f_rows f) xmin -> greatest c_lon (f_rows f) xmax -> least c_lat (f_rows f) ymin -> greatest c_lat (f_rows f) ymax ->
  limit_by_grid (fun x => x) s nx ny per f = Ok g ->
  forall r, In r (f_rows g) <-> In r (f_rows f) /\ exists x y, c_lon r = Some x /\ c_lat r = Some y /\ xmin < x /\ ymin < y.
Proof.
  intros s nx ny per f g xmin xmax ymin ymax Hnx Hny Hper Hs H Lx Gx Ly Gy E r. split.
  - exact (grid_edge (fun x => x) s nx ny per f g xmin xmax ymin ymax (conj (fun x y h => h) eq_refl) eq_refl eq_refl Hs H Lx Gx Ly Gy E r).
  - intros (Hr & x & y & Ex & Ey & Px & Py). exact (grid_all s nx ny per f g xmin xmax ymin ymax Hnx Hny Hper Hs H Lx Gx Ly Gy E r x y Hr Ex Ey Px Py).
Qed.
Print Assumptions C35_exact_cover.
(** In double arithmetic: the cities on the southern or western edge are never returned. *)
Theorem C35_edge : forall s nx ny per f g xmin xmax ymin ymax, is_double xmin -> is_double ymin -> sorts s -> complete f ->
  least c_lon (f_rows f) xmin -> greatest c_lon (f_rows f) xmax -> least c_lat (f_rows f) ymin -> greatest c_lat (f_rows f) ymax ->
  limit_by_grid rnd s nx ny per f = Ok g ->
  forall r, In r (f_rows g) -> In r (f_rows f) /\ exists x y, c_lon r = Some x /\ c_lat r = Some y /\ xmin < x /\ ymin < y.
Proof.
  intros s nx ny per f g xmin xmax ymin ymax Dx Dy. apply grid_edge; [split; [apply rnd_le|apply rnd_0]|apply rnd_id; assumption|apply rnd_id; assumption].
Qed.
Print Assumptions C35_edge.
(** Hence nothing is left of cities on one parallel or on one meridian. *)
Theorem C35_one_line : forall s nx ny per f g x0 y0, is_double x0 -> is_double y0 -> sorts s -> complete f -> least c_lon (f_rows f) x0 -> least c_lat (f_rows f) y0 ->
  (greatest c_lon (f_rows f) x0 \/ greatest c_lat (f_rows f) y0) ->
  limit_by_grid rnd s nx ny per f = Ok g -> f_rows g = [].
Proof.
  intros s nx ny per f g x0 y0 Dx Dy Hs H Lx Ly HG E.
  assert (Ex : exists xm, greatest c_lon (f_rows f) xm).
  { destruct (series_max (map c_lon (f_rows f))) as [m|] eqn:Em; [exists m; apply series_max_spec; assumption|]. exfalso. destruct Lx as [(r & Hr & Er) _]. clear - Hr Er Em.
    induction (f_rows f) as [|q l IH]; [destruct Hr|]. cbn [map series_max] in Em. destruct Hr as [->|Hr].
    - rewrite Er in Em. destruct (series_max (map c_lon l)); discriminate.
    - destruct (c_lon q); [destruct (series_max (map c_lon l)); discriminate|auto]. }
  assert (Ey : exists ym, greatest c_lat (f_rows f) ym).
  { destruct (series_max (map c_lat (f_rows f))) as [m|] eqn:Em; [exists m; apply series_max_spec; assumption|]. exfalso. destruct Ly as [(r & Hr & Er) _]. clear - Hr Er Em.
    induction (f_rows f) as [|q l IH]; [destruct Hr|]. cbn [map series_max] in Em. destruct Hr as [->|Hr].
    - rewrite Er in Em. destruct (series_max (map c_lat l)); discriminate.
    - destruct (c_lat q); [destruct (series_max (map c_lat l)); discriminate|auto]. }
  destruct Ex as (xm & Gx), Ey as (ym & Gy). destruct (f_rows g) as [|r rows] eqn:Eg; [reflexivity|exfalso].
  destruct (C35_edge s nx ny per f g x0 xm y0 ym Dx Dy Hs H Lx Gx Ly Gy E r) as (Hr & x & y & Vx & Vy & Px & Py); [rewrite Eg; left; reflexivity|].
  destruct HG as [[_ G]|[_ G]]; [specialize (G r x Hr Vx)|specialize (G r y Hr Vy)]; lra.
Qed.
Print Assumptions C35_one_line.
Theorem C35_errors : forall rd s nx ny per f, complete f ->
  (~ In (str_of "pop") (f_cols f) -> limit_by_grid rd s nx ny per f = Err KeyError) /\
  (In (str_of "pop") (f_cols f) -> (nx <= 0 \/ ny <= 0)%Z -> limit_by_grid rd s nx ny per f = Err AttributeError).
Proof.
  intros rd s nx ny per f H. unfold limit_by_grid. split; intro Hp.
  - destruct (col_in (str_of "pop") (f_cols f)) eqn:E; [apply col_in_iff in E; contradiction|reflexivity].
  - rewrite (proj2 (col_in_iff _ _) Hp). cbn [negb]. intro Hn. destruct (cells (Z.to_nat nx) (Z.to_nat ny)) as [|ij ijs] eqn:Ec; [reflexivity|exfalso].
    apply (f_equal (@List.length _)) in Ec. rewrite cells_length in Ec. cbn in Ec. nia.
Qed.
Print Assumptions C35_errors.
(** A sort meeting the hypotheses. *)
Fixpoint ins (r : city) (l : list city) : list city :=
  match l with
  | [] => [r]
  | q :: l' => match c_pop r with None => q :: ins r l' | Some x => match c_pop q with None => r :: l | Some y => if Rle_dec y x then r :: l else q :: ins r l' end end
  end.
Definition isort (l : list city) : list city := fold_right ins [] l.
Example C35_ex_sorts : sorts isort.
Proof.
  assert (T : forall a b c, pop_ge a b -> pop_ge b c -> pop_ge a c).
  { unfold pop_ge. intros a b c A B. destruct (c_pop c) as [z|]; [|exact I]. destruct B as (y & Ey & B). rewrite Ey in A. destruct A as (x & Ex & A). exists x. split; [assumption|lra]. }
  assert (P : forall r l, Permutation (ins r l) (r :: l)).
  { intros r l. induction l as [|q l IH]; [apply Permutation_refl|]. cbn [ins]. destruct (c_pop r) as [x|].
    - destruct (c_pop q) as [y|]; [|apply Permutation_refl]. destruct (Rle_dec y x); [apply Permutation_refl|]. rewrite IH. apply perm_swap.
    - rewrite IH. apply perm_swap. }
  intro l. induction l as [|r l [IH1 IH2]]; [split; constructor|]. split; cbn [isort fold_right].
  - rewrite P. constructor. exact IH1.
  - fold (isort l). revert IH2. generalize (isort l). clear IH1. intros m S. induction S as [|q m S IH F]; [repeat constructor|]. cbn [ins].
    assert (K : pop_ge q r -> StronglySorted pop_ge (q :: ins r m)).
    { intro Q. constructor; [assumption|]. apply Forall_forall. intros a Ha. apply (Permutation_in _ (P r m)) in Ha as [<-|Ha]; [assumption|]. rewrite Forall_forall in F. auto. }
    assert (K' : pop_ge r q -> StronglySorted pop_ge (r :: q :: m)).
    { intro Q. constructor; [constructor; assumption|]. constructor; [assumption|]. rewrite Forall_forall in *. intros a Ha. apply (T r q a Q). auto. }
    destruct (c_pop r) as [x|] eqn:Er.
    + destruct (c_pop q) as [y|] eqn:Eq.
      * destruct (Rle_dec y x); [apply K'; unfold pop_ge; rewrite Eq; eauto|apply K; unfold pop_ge; rewrite Er; exists y; split; [assumption|lra]].
      * apply K'. unfold pop_ge. rewrite Eq. exact I.
    + apply K. unfold pop_ge. rewrite Er. exact I.
Qed.
Example C35_ex_data : complete three /\ In (str_of "pop") (f_cols three) /\ least c_lat (f_rows three) 1 /\ greatest c_lat (f_rows three) 3 /\ is_double 1.
Proof.
  split; [apply three_complete|]. split; [cbn; tauto|]. split; [|split; [|apply (double_int 1); lia]];
  (split; [first [exists (named "Alta" 1 1 500); split; [left; reflexivity|reflexivity] | exists (named "Cove" 3 3 100); split; [right; right; left; reflexivity|reflexivity]]|]); intros r x [<-|[<-|[<-|[]]]] E; cbn in E; injection E as <-; lra.
Qed.

Definition two_frame (a b : city) : frame := {| f_cols := cols4; f_rows := [a; b] |}.
(** In double arithmetic the northernmost city can fall out of its cell: with
    latitudes -2.0 and 0.3 the default 2 x 2 grid returns nothing. *)
Theorem C35_lost_refuted : exists f ymin y, forall s g, sorts s -> limit_by_grid rnd s 2 2 20 f = Ok g ->
  complete f /\ least c_lat (f_rows f) ymin /\ least c_lon (f_rows f) 0 /\ is_double ymin /\ is_double y /\ ymin < y /\
  (exists r, In r (f_rows f) /\ c_lat r = Some y /\ c_lon r = Some 1) /\ f_rows g = [].
Proof.
  exists (two_frame (at_lat_lon (-2) 0) (at_lat_lon p3 1)), (-2), p3. intros s g Hs E.
  assert (P54 : bpow radix2 (-54) = / 18014398509481984) by (exact (bp 54 eq_refl)).
  assert (Pp : 0 < p3) by (unfold p3; rewrite P54; lra).
  assert (H : complete (two_frame (at_lat_lon (-2) 0) (at_lat_lon p3 1))) by (repeat split; cbn; tauto).
  assert (Ly : least c_lat (f_rows (two_frame (at_lat_lon (-2) 0) (at_lat_lon p3 1))) (-2)) by (split; [eexists; split; [left; reflexivity|reflexivity]|]; intros r x [<-|[<-|[]]] V; cbn in V; injection V as <-; lra).
  assert (Gy : greatest c_lat (f_rows (two_frame (at_lat_lon (-2) 0) (at_lat_lon p3 1))) p3) by (split; [eexists; split; [right; left; reflexivity|reflexivity]|]; intros r x [<-|[<-|[]]] V; cbn in V; injection V as <-; lra).
  assert (Lx : least c_lon (f_rows (two_frame (at_lat_lon (-2) 0) (at_lat_lon p3 1))) 0) by (split; [eexists; split; [left; reflexivity|reflexivity]|]; intros r x [<-|[<-|[]]] V; cbn in V; injection V as <-; lra).
  assert (Gx : greatest c_lon (f_rows (two_frame (at_lat_lon (-2) 0) (at_lat_lon p3 1))) 1) by (split; [eexists; split; [right; left; reflexivity|reflexivity]|]; intros r x [<-|[<-|[]]] V; cbn in V; injection V as <-; lra).
  assert (D2 : is_double (-2)) by (apply (double_int (-2)); lia).
  split; [assumption|]. split; [assumption|]. split; [assumption|]. split; [assumption|]. split; [apply double_F2R; [lia|reflexivity]|]. split; [lra|].
  split; [eexists; split; [right; left; reflexivity|split; reflexivity]|].
  destruct (f_rows g) as [|r rows] eqn:Eg; [reflexivity|exfalso].
  pose proof (C35_edge s 2 2 20 _ g 0 1 (-2) p3 (double_int 0 ltac:(lia)) D2 Hs H Lx Gx Ly Gy E r) as Q. rewrite Eg in Q. destruct (Q (or_introl eq_refl)) as (Hr & x & y & Vx & Vy & Px & Py).
  assert (Vr : r = at_lat_lon p3 1) by (destruct Hr as [<-|[<-|[]]]; [|reflexivity]; cbn in Vx; injection Vx as <-; lra). subst r.
  assert (In (at_lat_lon p3 1) (f_rows g)) as Hin by (rewrite Eg; left; reflexivity).
  rewrite (grid_eq _ _ _ _ _ _ _ _ _ _ _ H Lx Gx Ly Gy E) in Hin. apply in_flat_map in Hin as ([i j] & Hij & Hin). cbn [fst snd] in Hin. apply cells_in in Hij.
  match type of Hin with In _ (head_rows _ (s ?l)) => destruct (keep_some s 20 Hs l) as (d & Hp); assert (Hin' : In (at_lat_lon p3 1) l) by (eapply Permutation_in; [exact Hp|]; apply in_app_iff; left; exact Hin) end.
  apply filter_In in Hin' as [_ T]. apply in_bounds_iff in T as [_ (a & v & b & Ea & Ev & Eb & Hv)]. cbn in Ev. injection Ev as <-. injection Eb as <-. injection Ea as <-.
  destruct y2_hi as [B1 B0]. destruct Hij as [Hi _]. change (Pos.to_nat 2) with 2%nat in *. destruct i as [|[|i]]; [| |lia]; cbn [Z.to_nat] in Hv; change (Pos.to_nat 2) with 2%nat in Hv; lra.
Qed.
Print Assumptions C35_lost_refuted.
(** ... and a city can fall into two cells and be returned twice. *)
Theorem C35_twice_refuted : exists f r, forall s g, sorts s -> limit_by_grid rnd s 1 4 20 f = Ok g ->
  complete f /\ NoDup (map c_lat (f_rows f)) /\ (forall q, In q (f_rows f) -> exists y, c_lat q = Some y /\ is_double y) /\
  exists l1 l2 l3, f_rows g = l1 ++ r :: l2 ++ r :: l3.
Proof.
  set (f := {| f_cols := cols4; f_rows := [at_lat_lon (-2) 0; at_lat_lon mv 1; at_lat_lon m16 1] |}). exists f, (at_lat_lon mv 1). intros s g Hs E. destruct y4 as (C1 & C2 & Hm).
  assert (H : complete f) by (repeat split; cbn; tauto).
  assert (Ly : least c_lat (f_rows f) (-2)) by (split; [eexists; split; [left; reflexivity|reflexivity]|]; intros r x [<-|[<-|[<-|[]]]] V; cbn in V; injection V as <-; lra).
  assert (Gy : greatest c_lat (f_rows f) m16) by (split; [eexists; split; [right; right; left; reflexivity|reflexivity]|]; intros r x [<-|[<-|[<-|[]]]] V; cbn in V; injection V as <-; lra).
  assert (Lx : least c_lon (f_rows f) 0) by (split; [eexists; split; [left; reflexivity|reflexivity]|]; intros r x [<-|[<-|[<-|[]]]] V; cbn in V; injection V as <-; lra).
  assert (Gx : greatest c_lon (f_rows f) 1) by (split; [eexists; split; [right; left; reflexivity|reflexivity]|]; intros r x [<-|[<-|[<-|[]]]] V; cbn in V; injection V as <-; lra).
  split; [assumption|]. split.
  { cbn [f_rows f map c_lat at_lat_lon]. assert (N : forall a b : R, a < b -> Some b <> Some a) by (intros a b L X; injection X as X; lra).
    constructor; [intros [X|[X|[]]]; revert X; apply N; lra|]. constructor; [intros [X|[]]; revert X; apply N; lra|]. constructor; [intros []|constructor]. }
  split. { intros q [<-|[<-|[<-|[]]]]; cbn; eexists; (split; [reflexivity|]); [apply (double_int (-2)); lia|apply double_F2R; [lia|reflexivity]|apply double_F2R; [lia|reflexivity]]. }
  rewrite (grid_eq _ _ _ _ _ _ _ _ _ _ _ H Lx Gx Ly Gy E). change (cells (Z.to_nat 1) (Z.to_nat 4)) with [(0, 0); (1, 0); (2, 0); (3, 0)]%nat. cbn [flat_map fst snd].
  change (Z.to_nat 1) with 1%nat. change (Z.to_nat 4) with 4%nat. destruct x1 as [X0 X1]. rewrite X0, X1.
  assert (K : forall i, lo_ rnd (-2) m16 4 i < mv <= hi_ rnd (-2) m16 4 i -> In (at_lat_lon mv 1) (head_rows 20 (s (filter (in_bounds (Some 0) (Some 1) (Some (lo_ rnd (-2) m16 4 i)) (Some (hi_ rnd (-2) m16 4 i))) (f_rows f))))).
  { intros i Hi. set (l := filter _ (f_rows f)). destruct (Hs l) as [Hp _]. unfold head_rows. change (20 <? 0)%Z with false. cbv iota. rewrite firstn_all2.
    - eapply Permutation_in; [symmetry; exact Hp|]. unfold l. apply filter_In. split; [right; left; reflexivity|]. apply in_bounds_iff. split.
      + exists 0, 1, 1. repeat split; lra.
      + exists (lo_ rnd (-2) m16 4 i), mv, (hi_ rnd (-2) m16 4 i). repeat split; apply Hi.
    - rewrite (Permutation_length Hp). assert (Fl : forall (p : city -> bool) m, (List.length (filter p m) <= List.length m)%nat) by (intros p m; induction m as [|q m IH]; [apply le_n|cbn; destruct (p q); cbn; lia]).
      unfold l. eapply Nat.le_trans; [apply Fl|]. cbn. lia. }
  pose proof (K 1%nat C1) as K1. pose proof (K 2%nat C2) as K2. apply in_split in K1 as (a & b & ->). apply in_split in K2 as (c & d & ->).
  match goal with |- context [?A ++ (a ++ ?r :: b) ++ (c ++ ?r :: d) ++ ?B] => exists (A ++ a), (b ++ c), (d ++ B) end. rewrite <- !app_assoc. cbn [app]. rewrite <- ?app_assoc. reflexivity.
Qed.
Print Assumptions C35_twice_refuted.
