(** City labels on a map. *)
From Coq Require Import ZArith Reals String Ascii Bool List Lia Lra Permutation Sorted.
From Flocq Require Import Core.
From Verif Require Import PyBase PyStr FloatBase CityModel CitySpec CityProofs CityGridProofs CollideModel CollideSpec CollideProofs CityProps.
Import ListNotations.
Open Scope R_scope.

(** ** C36: the boxes of the survivors do not overlap *)
Theorem C36_disjoint : forall rd s ext pad x0 x1 y0 y1 f g boxes,
  limit_by_collision rd s ext pad x0 x1 y0 y1 f = Ok (g, boxes) ->
  List.length boxes = List.length (f_rows g) /\ ForallOrdPairs (fun a b => ~ overlap b a) boxes.
Proof.
  intros rd s ext pad x0 x1 y0 y1 f g boxes E. unfold limit_by_collision in E. destruct (bounding_boxes rd ext pad x0 x1 y0 y1 (s (f_rows f))) as [bs|]; [|discriminate].
  destruct (filter _ bs) as [|x l]; [discriminate|]. match type of E with match ?M with _ => _ end = _ => destruct M as [g'|] eqn:Em; [|discriminate] end. injection E as <- <-.
  apply make_inv in Em as [-> _]. cbn [f_rows]. split; [cbn [map List.length]; rewrite !map_length; reflexivity|].
  destruct (keep_spec l [snd x]) as [K1 K2].
  assert (G : ForallOrdPairs (fun a b => ~ overlap (snd b) (snd a)) (x :: keep_clear [snd x] l)).
  { constructor; [|assumption]. apply Forall_forall. intros y Hy. apply (K1 y Hy). left. reflexivity. }
  change (ForallOrdPairs (fun a b => ~ overlap b a) (map snd (x :: keep_clear [snd x] l))). revert G. generalize (x :: keep_clear [snd x] l). intros m G. induction G as [|a m F G IH]; cbn [map]; constructor; [|assumption].
  rewrite Forall_forall in *. intros b Hb. apply in_map_iff in Hb as (c & <- & Hc). auto.
Qed.
Print Assumptions C36_disjoint.
(** With padding of at least 0 the labels themselves do not overlap either. *)
Theorem C36_padded : forall ext pad r b, 0 <= pad -> ext r = b ->
  (forall v, In v [b_left b; b_right b; b_bottom b; b_top b] -> exists x, v = Some x /\ is_double x) ->
  forall x y, covers b x y -> covers (city_edges rnd ext (Some pad) r) x y.
Proof.
  intros ext pad r b Hp Eb D x y (l & rt & bt & t & E1 & E2 & E3 & E4 & Hx & Hy). unfold city_edges. rewrite Eb. cbn [b_left b_right b_bottom b_top]. rewrite E1, E2, E3, E4. cbn [fop].
  assert (Dbl : forall v, In (Some v) [b_left b; b_right b; b_bottom b; b_top b] -> rnd v = v) by (intros v Hv; destruct (D _ Hv) as (w & Ew & Hw); injection Ew as ->; apply rnd_id; assumption).
  rewrite E1, E2, E3, E4 in Dbl. cbn [In] in Dbl.
  assert (N : forall u v, u <= v -> 0 <= rnd (rnd (v - u) * pad)).
  { intros u v Huv. rewrite <- rnd_0. apply rnd_le. apply Rmult_le_pos; [|assumption]. rewrite <- rnd_0. apply rnd_le. lra. }
  pose proof (N l rt ltac:(lra)) as Nx. pose proof (N bt t ltac:(lra)) as Ny.
  do 4 eexists. split; [reflexivity|]. split; [reflexivity|]. split; [reflexivity|]. split; [reflexivity|].
  assert (L : forall v p, rnd v = v -> 0 <= p -> rnd (v - p) <= v) by (intros v p Ev Hp'; rewrite <- Ev at 2; apply rnd_le; lra).
  assert (G : forall v p, rnd v = v -> 0 <= p -> v <= rnd (v + p)) by (intros v p Ev Hp'; rewrite <- Ev at 1; apply rnd_le; lra).
  pose proof (L l _ (Dbl l ltac:(tauto)) Nx). pose proof (G rt _ (Dbl rt ltac:(tauto)) Nx). pose proof (L bt _ (Dbl bt ltac:(tauto)) Ny). pose proof (G t _ (Dbl t ltac:(tauto)) Ny). lra.
Qed.
Print Assumptions C36_padded.
(** Which cities survive: in descending order of population the first always
    does; another does exactly when it is on the map and clear of every larger
    city on the map, drawn or not.  The first counts as being on the map. *)
Theorem C36_survivors : forall rd s ext pad x0 x1 y0 y1 f g boxes, sorts s -> (forall r, In r (f_rows f) -> solid (city_edges rd ext pad r)) ->
  limit_by_collision rd s ext pad (Some x0) (Some x1) (Some y0) (Some y1) f = Ok (g, boxes) ->
  let e := city_edges rd ext pad in
  boxes = map e (f_rows g) /\ (forall c, In c (f_cols g) <-> In c (f_cols f) \/ In c box_cols) /\
  exists l keep, Permutation l (f_rows f) /\ StronglySorted pop_ge l /\ flagged l keep (f_rows g) /\ nth_error keep 0 = Some true /\
    forall i r, nth_error l (S i) = Some r ->
      (nth_error keep (S i) = Some true <->
       on_map x0 x1 y0 y1 (e r) /\ forall j q, (j <= i)%nat -> nth_error l j = Some q -> j = 0%nat \/ on_map x0 x1 y0 y1 (e q) -> ~ overlap (e r) (e q)).
Proof.
  intros rd s ext pad x0 x1 y0 y1 f g boxes Hs Hr E e. destruct (limit_eq rd s ext pad x0 x1 y0 y1 f g boxes Hs Hr E) as (r0 & l & Es & Eg & Eb & Ec).
  destruct (Hs (f_rows f)) as [Hp Hd]. rewrite Es in Hp, Hd. split; [assumption|]. split.
  - intro c. rewrite Ec. clear. generalize box_cols. intro cs. generalize (f_cols f). induction cs as [|k cs IH]; intro fc; cbn [fold_left In]; [tauto|].
    rewrite IH. unfold add_col. destruct (col_in k fc) eqn:K; [apply col_in_iff in K; split; intros [H|H]; auto; destruct H as [<-|H]; auto|]. rewrite in_app_iff. cbn [In]. tauto.
  - exists (r0 :: l), (true :: flags2 e (fun q => negb (off_map (Some x0) (Some x1) (Some y0) (Some y1) (e q))) [e r0] l).
    split; [exact Hp|]. split; [exact Hd|]. split; [rewrite Eg; constructor; apply flags2_flagged|]. split; [reflexivity|]. intros i r Hi. cbn [nth_error] in *.
    assert (Sol : forall q, In q (r0 :: l) -> solid (e q)) by (intros q Hq; apply Hr; eapply Permutation_in; [exact Hp|exact Hq]).
    rewrite (flags2_nth _ _ _ _ _ _ Hi). pose proof (Sol r (or_intror (nth_error_In _ _ Hi))) as Sr.
    split.
    + intro H. assert (S' : forall a b : bool, Some a = Some b -> a = b) by (intros a b X; congruence). apply S' in H. apply andb_prop in H as [H1 H2]. apply negb_true_iff in H1. split; [apply off_iff; assumption|]. intros j q Hj Hq Ho.
      rewrite forallb_forall in H2. apply clear_apart. apply H2. destruct j as [|j]; [injection Hq as <-; left; reflexivity|]. right. destruct Ho as [Ho|Ho]; [discriminate|].
      apply in_map. apply filter_In. cbn [nth_error] in Hq. split.
      * apply (nth_error_In _ j). rewrite nth_error_firstn_lt by lia. assumption.
      * apply negb_true_iff. apply (off_iff x0 x1 y0 y1); [|assumption]. apply Sol. right. exact (nth_error_In _ _ Hq).
    + intros [H1 H2]. f_equal. apply (off_iff x0 x1 y0 y1 _ Sr) in H1. rewrite H1. cbn [negb andb]. apply forallb_forall. intros b Hb. destruct (clear_of (e r) b) eqn:K; [reflexivity|exfalso].
      apply not_clear in K; [|assumption|].
      * cbn [app] in Hb. destruct Hb as [<-|Hb]; [apply (H2 0%nat r0 ltac:(lia) eq_refl (or_introl eq_refl)); assumption|]. apply in_map_iff in Hb as (q & <- & Hq). apply filter_In in Hq as [Hq Ho]. apply negb_true_iff in Ho.
        apply In_nth_error in Hq as (j & Hj). assert (L : (j < i)%nat).
        { assert (nth_error (firstn i l) j <> None) as Hn by congruence. apply nth_error_Some in Hn. rewrite firstn_length in Hn. lia. }
        rewrite nth_error_firstn_lt in Hj by assumption. apply (H2 (S j) q ltac:(lia) Hj); [right; apply off_iff; [apply Sol; right; exact (nth_error_In _ _ Hj)|assumption]|assumption].
      * cbn [app] in Hb. destruct Hb as [<-|Hb]; [apply Sol; left; reflexivity|]. apply in_map_iff in Hb as (q & <- & Hq). apply filter_In in Hq as [Hq _]. apply Sol. right.
        apply In_nth_error in Hq as (j & Hj). assert (L : (j < i)%nat).
        { assert (nth_error (firstn i l) j <> None) as Hn by congruence. apply nth_error_Some in Hn. rewrite firstn_length in Hn. lia. }
        rewrite nth_error_firstn_lt in Hj by assumption. exact (nth_error_In _ _ Hj).
Qed.
Print Assumptions C36_survivors.
(** The most populous city is always drawn. *)
Theorem C36_largest : forall rd s ext pad x0 x1 y0 y1 f, sorts s -> complete f -> f_rows f <> [] -> (forall r, In r (f_rows f) -> solid (city_edges rd ext pad r)) ->
  exists g boxes r rest, limit_by_collision rd s ext pad (Some x0) (Some x1) (Some y0) (Some y1) f = Ok (g, boxes) /\
    f_rows g = r :: rest /\ In r (f_rows f) /\ forall q, In q (f_rows f) -> q = r \/ pop_ge r q.
Proof.
  intros rd s ext pad x0 x1 y0 y1 f Hs Hc Hne Hr. destruct (limit_ok rd s ext pad x0 x1 y0 y1 f Hs Hc Hne Hr) as (g & bs & E).
  destruct (limit_eq rd s ext pad x0 x1 y0 y1 f g bs Hs Hr E) as (r & l & Es & Eg & _). exists g, bs, r. eexists. split; [exact E|]. split; [exact Eg|].
  destruct (Hs (f_rows f)) as [Hp Hd]. rewrite Es in Hp, Hd. split; [eapply Permutation_in; [exact Hp|left; reflexivity]|]. intros q Hq. symmetry in Hp. apply (Permutation_in _ Hp) in Hq as [->|Hq]; [left; reflexivity|right].
  inversion Hd as [|? ? _ F]; subst. rewrite Forall_forall in F. auto.
Qed.
Print Assumptions C36_largest.

(** Three labels in a row, of width 3 and height 1. *)
Definition wide (r : city) : box := match c_lon r, c_lat r with Some x, Some y => {| b_left := Some x; b_right := Some (x + 3); b_bottom := Some y; b_top := Some (y + 1) |} | _, _ => nan_box end.
Definition row3 : frame := {| f_cols := cols4; f_rows := [named "Alta" 0 0 900; named "Bree" 0 2 500; named "Cove" 0 4 100] |}.
Lemma wide_edges : forall y x n p, city_edges (fun z => z) wide (Some 0) (named n y x p) = {| b_left := Some x; b_right := Some (x + 3); b_bottom := Some y; b_top := Some (y + 1) |}.
Proof. intros. unfold city_edges, wide. cbn. f_equal; f_equal; ring. Qed.
Lemma wide_over : forall y x x' n p n' p', x <= x' <= x + 3 -> overlap (city_edges (fun z => z) wide (Some 0) (named n y x p)) (city_edges (fun z => z) wide (Some 0) (named n' y x' p')).
Proof. intros. rewrite !wide_edges. exists x', y. split; do 4 eexists; cbn; repeat split; lra. Qed.
Lemma isort_row3 : isort (f_rows row3) = f_rows row3.
Proof. cbn. repeat (destruct Rle_dec; [|exfalso; lra]; cbn). repeat (destruct Rle_dec; try (exfalso; lra); cbn); reflexivity. Qed.
(** A city can be left out because of a city that is left out itself. *)
Theorem C36_removed_by_removed_refuted : exists ext f g boxes c, sorts isort /\ limit_by_collision (fun z => z) isort ext (Some 0) (Some (-10)) (Some 10) (Some (-10)) (Some 10) f = Ok (g, boxes) /\
  In c (f_rows f) /\ ~ In c (f_rows g) /\ on_map (-10) 10 (-10) 10 (city_edges (fun z => z) ext (Some 0) c) /\
  forall q, In q (f_rows g) -> ~ overlap (city_edges (fun z => z) ext (Some 0) c) (city_edges (fun z => z) ext (Some 0) q).
Proof.
  exists wide, row3, {| f_cols := fold_left add_col box_cols cols4; f_rows := [named "Alta" 0 0 900] |}, [city_edges (fun z => z) wide (Some 0) (named "Alta" 0 0 900)], (named "Cove" 0 4 100).
  split; [apply C35_ex_sorts|]. split.
  - unfold limit_by_collision. rewrite isort_row3. cbn [row3 f_rows bounding_boxes map]. rewrite !wide_edges. unfold off_map. cbn [b_left b_right b_bottom b_top flt]. rdec. cbn [orb filter snd b_left].
    cbn [keep_clear forallb app]. unfold clear_of. cbn [b_left b_right b_bottom b_top flt snd]. rdec. cbn [orb andb]. reflexivity.
  - split; [right; right; left; reflexivity|]. split; [cbn; intros [H|[]]; injection H as H; lra|]. split; [rewrite wide_edges; do 4 eexists; cbn; repeat split; lra|].
    intros q [<-|[]]. rewrite !wide_edges. intros (x & y & (l & r & bt & t & E1 & E2 & E3 & E4 & Hx & Hy) & (l' & r' & bt' & t' & F1 & F2 & F3 & F4 & Hx' & Hy')). cbn in *.
    injection E1 as <-. injection E2 as <-. injection F1 as <-. injection F2 as <-. lra.
Qed.
Print Assumptions C36_removed_by_removed_refuted.
(** The most populous city is drawn even when its label is off the map. *)
Theorem C36_off_map_refuted : exists ext f g boxes c, limit_by_collision (fun z => z) isort ext (Some 0) (Some 5) (Some 10) (Some 5) (Some 10) f = Ok (g, boxes) /\
  In c (f_rows g) /\ forall x y, covers (city_edges (fun z => z) ext (Some 0) c) x y -> x < 5 /\ y < 5.
Proof.
  exists wide, {| f_cols := cols4; f_rows := [named "Alta" 0 0 900] |}, {| f_cols := fold_left add_col box_cols cols4; f_rows := [named "Alta" 0 0 900] |}, [city_edges (fun z => z) wide (Some 0) (named "Alta" 0 0 900)], (named "Alta" 0 0 900).
  split; [|split; [left; reflexivity|]].
  - unfold limit_by_collision. cbn [f_rows isort fold_right ins bounding_boxes map filter snd]. rewrite wide_edges. cbn [filter snd b_left]. reflexivity.
  - intros x y. rewrite wide_edges. intros (l & r & bt & t & E1 & E2 & E3 & E4 & Hx & Hy). cbn in *. injection E2 as <-. injection E4 as <-. lra.
Qed.
Print Assumptions C36_off_map_refuted.
Example C36_ex_solid : forall r, In r (f_rows row3) -> solid (city_edges (fun z => z) wide (Some 0) r).
Proof. intros r [<-|[<-|[<-|[]]]]; rewrite wide_edges; [exists 0, 0|exists 2, 0|exists 4, 0]; do 4 eexists; cbn; repeat split; lra. Qed.
Theorem C36_empty : forall rd s ext pad x0 x1 y0 y1 f, sorts s -> f_rows f = [] -> limit_by_collision rd s ext pad x0 x1 y0 y1 f = Err IndexError.
Proof. intros rd s ext pad x0 x1 y0 y1 f Hs E. unfold limit_by_collision. rewrite E. destruct (Hs []) as [Hp _]. symmetry in Hp. apply Permutation_nil in Hp. rewrite Hp. reflexivity. Qed.
Print Assumptions C36_empty.
(** drawCities renders at most 60 of the cities, 15 for each quarter of the data;
    an empty table is no error. *)
Theorem C36_draw : forall rd s ext pad x0 x1 y0 y1 f, sorts s -> complete f -> In (str_of "pop") (f_cols f) -> (forall r, In r (f_rows f) -> solid (city_edges rd ext pad r)) ->
  exists h, draw_cities rd s ext pad (Some x0) (Some x1) (Some y0) (Some y1) f = Ok h /\
    (forall r, In r (f_rows h) -> In r (f_rows f)) /\ (List.length (f_rows h) <= 60)%nat /\
    ForallOrdPairs (fun a b => ~ overlap (city_edges rd ext pad b) (city_edges rd ext pad a)) (f_rows h).
Proof.
  intros rd s ext pad x0 x1 y0 y1 f Hs Hc Hp Hr. unfold draw_cities.
  destruct (grid_ok rd s 2 2 15 f Hc Hp ltac:(lia) ltac:(lia)) as (g & Eg & _). rewrite Eg.
  assert (G : complete g /\ (forall r, In r (f_rows g) -> In r (f_rows f)) /\ (List.length (f_rows g) <= 60)%nat).
  { destruct (grid_gen _ _ _ _ _ _ _ Hc Eg) as (Gc & ts & Lt & Er). split; [assumption|]. rewrite Er. split.
    - intros r Hin. apply in_flat_map in Hin as (t & _ & Hin). destruct (head_rows_top s (filter t (f_rows f)) 15 Hs) as (d & Hperm & _).
      assert (Hl : In r (filter t (f_rows f))) by (eapply Permutation_in; [exact Hperm|]; apply in_app_iff; left; exact Hin). apply filter_In in Hl. apply Hl.
    - assert (L : forall l, (List.length (head_rows 15 l) <= 15)%nat) by (intro l; unfold head_rows; change (15 <? 0)%Z with false; cbv iota; rewrite firstn_length; change (Z.to_nat 15) with 15%nat; lia).
      assert (L' : forall (ts' : list (city -> bool)), (List.length (flat_map (fun t => head_rows 15 (s (filter t (f_rows f)))) ts') <= 15 * List.length ts')%nat).
      { intro ts'. induction ts' as [|t ts' IH]; [apply le_n|]. cbn [flat_map]. rewrite app_length. pose proof (L (s (filter t (f_rows f)))). cbn [List.length]. lia. }
      specialize (L' ts). rewrite Lt in L'. exact L'. }
  destruct G as (Gc & Gi & Gl). destruct (f_rows g) as [|q rows] eqn:Er.
  - exists g. rewrite make_ok by assumption. split; [reflexivity|]. rewrite Er. split; [intros r []|]. split; [cbn; lia|constructor].
  - destruct (limit_ok rd s ext pad x0 x1 y0 y1 g Hs Gc) as (h & bs & E); [rewrite Er; discriminate|intros r Hin; apply Hr; apply Gi; rewrite <- Er; assumption|]. rewrite E.
    assert (Hr' : forall r, In r (f_rows g) -> solid (city_edges rd ext pad r)) by (intros r Hin; apply Hr; apply Gi; rewrite <- Er; assumption).
    destruct (limit_eq rd s ext pad x0 x1 y0 y1 g h bs Hs Hr' E) as (r0 & l & Es & Eh & Eb & Ec).
    assert (Hh : complete h).
    { clear - E. unfold limit_by_collision in E. destruct (bounding_boxes rd ext pad (Some x0) (Some x1) (Some y0) (Some y1) (s (f_rows g))) as [b|]; [|discriminate]. destruct (filter _ b); [discriminate|].
      match type of E with match ?M with _ => _ end = _ => destruct M as [g'|] eqn:Em; [|discriminate] end. injection E as <- _. apply make_inv in Em as [-> Em]. exact Em. }
    rewrite make_ok by assumption. exists h. split; [reflexivity|].
    destruct (Hs (f_rows g)) as [Hperm _]. rewrite Es in Hperm.
    assert (Fl : forall l' bs' k, flagged l' bs' k -> (forall x : city, In x k -> In x l') /\ (List.length k <= List.length l')%nat).
    { intros l' bs' k F. induction F as [|x l' bs' k F [I1 I2]|x l' bs' k F [I1 I2]]; cbn [List.length In]; [split; [intros y Hy; exact Hy|apply le_n]| |]; (split; [|lia]); [intros y [Hy|Hy]; [left; assumption|right; apply I1; assumption]|intros y Hy; right; apply I1; assumption]. }
    destruct (Fl _ _ _ (flags2_flagged (city_edges rd ext pad) (fun q => negb (off_map (Some x0) (Some x1) (Some y0) (Some y1) (city_edges rd ext pad q))) l [city_edges rd ext pad r0])) as [F1 F2].
    split; [|split].
    + intros r Hin. apply Gi. rewrite <- Er. eapply Permutation_in; [exact Hperm|]. rewrite Eh in Hin. destruct Hin as [->|Hin]; [left; reflexivity|right; auto].
    + rewrite Eh. cbn [List.length]. apply Permutation_length in Hperm. cbn [List.length] in Hperm. rewrite Er in Hperm. cbn [List.length] in *. lia.
    + destruct (C36_disjoint _ _ _ _ _ _ _ _ _ _ _ E) as [_ Hd]. rewrite Eb in Hd. clear - Hd. induction (f_rows h) as [|a m IH]; [constructor|]. cbn [map] in Hd. inversion Hd; subst. constructor; [|auto].
      rewrite Forall_forall in *. intros b Hb. match goal with X : forall x, In x (map _ m) -> _ |- _ => apply X end. apply in_map. assumption.
Qed.
Print Assumptions C36_draw.
