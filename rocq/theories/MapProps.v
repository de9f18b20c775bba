(** C118, C119: the cities and the middle of a map. *)
From Coq Require Import ZArith Reals String Ascii Bool List Lia Lra Permutation.
From Flocq Require Import Core.
From Verif Require Import PyBase PyStr FloatBase FloatEval CityModel CitySpec CityProofs CityGridProofs CityProps CollideModel CollideSpec CollideProofs CollideProps MapModel MapSpec.
Import ListNotations.
Open Scope R_scope.

Lemma series_min_none : forall l, series_min l = None <-> forall x, In x l -> x = None.
Proof.
  induction l as [|[x|] l IH]; cbn [series_min].
  - split; [intros _ y []|reflexivity].
  - split; [intro H; destruct (series_min l); discriminate|]. intro H. specialize (H (Some x) (or_introl eq_refl)). discriminate.
  - rewrite IH. split; [intros H y [<-|Hy]; [reflexivity|auto]|intros H y Hy; apply H; right; exact Hy].
Qed.
Lemma series_max_none : forall l, series_max l = None <-> forall x, In x l -> x = None.
Proof.
  induction l as [|[x|] l IH]; cbn [series_max].
  - split; [intros _ y []|reflexivity].
  - split; [intro H; destruct (series_max l); discriminate|]. intro H. specialize (H (Some x) (or_introl eq_refl)). discriminate.
  - rewrite IH. split; [intros H y [<-|Hy]; [reflexivity|auto]|intros H y Hy; apply H; right; exact Hy].
Qed.
Lemma head_rows_in n l r : In r (head_rows n l) -> In r l.
Proof. unfold head_rows. generalize (Z.to_nat (if (n <? 0)%Z then Z.max 0 (n + Z.of_nat (List.length l)) else n)). intros k H. rewrite <- (firstn_skipn k l). apply in_or_app. left. exact H. Qed.
(** A city in the grid has both coordinates. *)
Lemma grid_numbers rd s nx ny per f g r : sorts s -> complete f -> limit_by_grid rd s nx ny per f = Ok g -> In r (f_rows g) ->
  In r (f_rows f) /\ exists x y, c_lon r = Some x /\ c_lat r = Some y.
Proof.
  intros Hs Hc E Hr. unfold limit_by_grid in E. destruct (negb _); [discriminate|]. destruct (cells (Z.to_nat nx) (Z.to_nat ny)) as [|ij ijs]; [discriminate|].
  destruct (all_parts rd s f (Z.to_nat nx) (Z.to_nat ny) per (ij :: ijs)) as [rows|] eqn:Ea; [|discriminate]. apply make_inv in E as [-> _]. cbn [f_rows] in Hr. revert rows Ea Hr.
  generalize (ij :: ijs). intro l. induction l as [|[i j] l IH]; intros rows Ea Hr; cbn [all_parts] in Ea; [injection Ea as <-; destruct Hr|].
  destruct (cell_part rd s f (Z.to_nat nx) (Z.to_nat ny) per i j) as [p|] eqn:Ep; [|discriminate]. destruct (all_parts rd s f (Z.to_nat nx) (Z.to_nat ny) per l) as [ps|]; [|discriminate]. injection Ea as <-.
  apply in_app_or in Hr as [Hr|Hr]; [|eapply IH; [reflexivity|exact Hr]]. unfold cell_part in Ep. destruct (get_bounds f) as [[[a b] c] d].
  destruct (limit_by_bounds _ _ _ _ f) as [t|] eqn:El; [|discriminate]. injection Ep as <-. unfold limit_by_bounds in El. apply make_inv in El as [-> _]. cbn [f_rows] in Hr.
  apply head_rows_in in Hr. destruct (Hs (filter (in_bounds (cell_lo rd a b (Z.to_nat nx) j) (cell_hi rd a b (Z.to_nat nx) j) (cell_lo rd c d (Z.to_nat ny) i) (cell_hi rd c d (Z.to_nat ny) i)) (f_rows f))) as [P _].
  apply (Permutation_in _ P) in Hr. apply filter_In in Hr as [H1 H2]. split; [exact H1|]. apply in_bounds_iff in H2 as [(? & x & ? & _ & X & _) (? & y & ? & _ & Y & _)]. eauto.
Qed.
Lemma grid_west s nx ny per f g r : sorts s -> complete f -> double_rows f -> limit_by_grid rnd s nx ny per f = Ok g -> In r (f_rows g) ->
  In r (f_rows f) /\ exists x y, c_lon r = Some x /\ c_lat r = Some y /\ exists xmin ymin, least c_lon (f_rows f) xmin /\ least c_lat (f_rows f) ymin /\ xmin < x /\ ymin < y.
Proof.
  intros Hs Hc Hd E Hr. destruct (grid_numbers _ _ _ _ _ _ _ _ Hs Hc E Hr) as (Hf & x & y & X & Y).
  destruct (series_min (map c_lon (f_rows f))) as [xm|] eqn:E1. 2:{ exfalso. pose proof (proj1 (series_min_none _) E1 (c_lon r) (in_map _ _ _ Hf)). congruence. }
  destruct (series_max (map c_lon (f_rows f))) as [xM|] eqn:E2. 2:{ exfalso. pose proof (proj1 (series_max_none _) E2 (c_lon r) (in_map _ _ _ Hf)). congruence. }
  destruct (series_min (map c_lat (f_rows f))) as [ym|] eqn:E3. 2:{ exfalso. pose proof (proj1 (series_min_none _) E3 (c_lat r) (in_map _ _ _ Hf)). congruence. }
  destruct (series_max (map c_lat (f_rows f))) as [yM|] eqn:E4. 2:{ exfalso. pose proof (proj1 (series_max_none _) E4 (c_lat r) (in_map _ _ _ Hf)). congruence. }
  pose proof (series_min_spec _ _ _ E1) as Lx. pose proof (series_max_spec _ _ _ E2) as Gx. pose proof (series_min_spec _ _ _ E3) as Ly. pose proof (series_max_spec _ _ _ E4) as Gy.
  destruct (C35_edge s nx ny per f g xm xM ym yM) with (r := r) as (_ & x' & y' & X' & Y' & Px & Py); try assumption.
  - destruct Lx as [(q & Hq & Eq) _]. apply (Hd q); auto.
  - destruct Ly as [(q & Hq & Eq) _]. apply (Hd q); auto.
  - split; [exact Hf|]. exists x', y'. split; [exact X'|]. split; [exact Y'|]. exists xm, ym. auto.
Qed.
(** What is drawn comes from the grid. *)
Lemma draw_from_grid rd s ext pad x0 x1 y0 y1 f h : sorts s -> draw_cities rd s ext pad x0 x1 y0 y1 f = Ok h ->
  exists g, limit_by_grid rd s 2 2 15 f = Ok g /\ (forall r, In r (f_rows h) -> In r (f_rows g)) /\ complete h.
Proof.
  intros Hs H. unfold draw_cities in H. destruct (limit_by_grid rd s 2 2 15 f) as [g|] eqn:Eg; [|discriminate]. exists g. split; [reflexivity|].
  destruct (f_rows g) as [|q rows] eqn:Er; [apply make_inv in H as [-> C]; rewrite Er; auto|]. rewrite <- Er.
  destruct (limit_by_collision rd s ext pad x0 x1 y0 y1 g) as [[h' bs]|] eqn:El; [|discriminate]. apply make_inv in H as [-> C]. split; [|exact C].
  intros r Hr. unfold limit_by_collision in El. destruct (bounding_boxes rd ext pad x0 x1 y0 y1 (s (f_rows g))) as [b|] eqn:Eb; [|discriminate].
  assert (Ib : forall x, In x b -> In (fst x) (f_rows g)).
  { destruct (Hs (f_rows g)) as [P _]. intros x Hx. apply (Permutation_in _ P). unfold bounding_boxes in Eb. destruct (s (f_rows g)) as [|r0 rs]; [discriminate|]. injection Eb as <-.
    destruct Hx as [<-|Hx]; [left; reflexivity|]. apply in_map_iff in Hx as (q' & <- & Hq). right. exact Hq. }
  destruct (filter _ b) as [|x l] eqn:Ef; [discriminate|]. match type of El with match ?M with _ => _ end = _ => destruct M as [g'|] eqn:Em; [|discriminate] end. injection El as <- _. apply make_inv in Em as [-> _]. cbn [f_rows] in Hr.
  assert (Il : forall y, In y (x :: l) -> In y b) by (intros y Hy; rewrite <- Ef in Hy; apply filter_In in Hy; apply Hy).
  assert (K : forall l' larger y, In y (keep_clear larger l') -> In y l').
  { induction l' as [|[r1 b1] l' IH]; intros larger y Hy; [destruct Hy|]. cbn [keep_clear] in Hy. destruct (forallb _ larger); [destruct Hy as [<-|Hy]; [left; reflexivity|]|]; right; eapply IH; exact Hy. }
  apply in_map_iff in Hr as (y & <- & Hy). apply Ib, Il. destruct Hy as [<-|Hy]; [left; reflexivity|right; eapply K; exact Hy].
Qed.

(** C118.  Every city that is drawn lies strictly east of the westernmost and strictly
    north of the southernmost city of the table. *)
Theorem C118_corner : forall s ext pad x0 x1 y0 y1 f h, sorts s -> complete f -> double_rows f -> draw_cities rnd s ext pad x0 x1 y0 y1 f = Ok h ->
  forall r, In r (f_rows h) -> In r (f_rows f) /\ exists x y west south, c_lon r = Some x /\ c_lat r = Some y /\
    least c_lon (f_rows f) west /\ least c_lat (f_rows f) south /\ west < x /\ south < y.
Proof.
  intros s ext pad x0 x1 y0 y1 f h Hs Hc Hd H r Hr. destruct (draw_from_grid _ _ _ _ _ _ _ _ _ _ Hs H) as (g & Eg & I & _).
  destruct (grid_west s 2 2 15 f g r Hs Hc Hd Eg (I r Hr)) as (Hf & x & y & X & Y & xm & ym & L1 & L2 & P1 & P2). split; [exact Hf|]. exists x, y, xm, ym. auto 7.
Qed.
Print Assumptions C118_corner.

(** Hence each call draws fewer cities than the one before, and after as many calls as
    there are cities nothing is drawn. *)
Definition lons (l : list city) : list R := flat_map (fun r => match c_lon r with Some x => [x] | None => [] end) l.
Lemma lons_in l x : In x (lons l) <-> exists r, In r l /\ c_lon r = Some x.
Proof.
  unfold lons. rewrite in_flat_map. split; intros (r & H1 & H2); exists r; (split; [exact H1|]); destruct (c_lon r); cbn in *; [destruct H2 as [->|[]]; reflexivity|destruct H2|injection H2 as ->; auto|discriminate].
Qed.
Definition distinct (l : list city) : nat := List.length (nodup Req_EM_T (lons l)).
Lemma distinct_le l : (distinct l <= List.length l)%nat.
Proof.
  unfold distinct. apply Nat.le_trans with (List.length (lons l)).
  - apply NoDup_incl_length; [apply NoDup_nodup|]. intros x H. apply nodup_In in H. exact H.
  - unfold lons. induction l as [|r l IH]; [apply le_n|]. cbn [flat_map]. rewrite app_length. destruct (c_lon r); cbn [List.length]; lia.
Qed.
Lemma distinct_less l l' m : (forall r, In r l' -> In r l) -> least c_lon l m -> (forall r x, In r l' -> c_lon r = Some x -> m < x) -> (distinct l' < distinct l)%nat.
Proof.
  intros Sub [(q & Hq & Eq) _] Low. unfold distinct.
  assert (N : NoDup (m :: nodup Req_EM_T (lons l'))). { constructor; [|apply NoDup_nodup]. intro H. apply nodup_In, lons_in in H as (r & Hr & Er). specialize (Low r m Hr Er). lra. }
  apply (NoDup_incl_length N). intros x [<-|H]; apply nodup_In; [apply lons_in; eauto|]. apply nodup_In, lons_in in H as (r & Hr & Er). apply lons_in. exists r. auto.
Qed.
Theorem C118_fades : forall s ext pad x0 x1 y0 y1 n f h, sorts s -> complete f -> double_rows f -> draws rnd s ext pad x0 x1 y0 y1 n f = Ok h ->
  (List.length (f_rows f) <= n)%nat -> f_rows h = [].
Proof.
  intros s ext pad x0 x1 y0 y1 n f h Hs Hc Hd H Hn.
  assert (G : forall n f h, complete f -> double_rows f -> (forall r, In r (f_rows f) -> c_lon r <> None) -> draws rnd s ext pad x0 x1 y0 y1 n f = Ok h -> (distinct (f_rows f) <= n)%nat -> f_rows h = []).
  { clear n f h Hc Hd H Hn. induction n as [|n IH]; intros f h Hc Hd Hx H Hn.
    - cbn in H. injection H as <-. destruct (f_rows f) as [|r l] eqn:E; [reflexivity|]. exfalso. specialize (Hx r (or_introl eq_refl)). destruct (c_lon r) as [x|] eqn:Er; [|congruence].
      assert (I : In x (nodup Req_EM_T (lons (r :: l)))) by (apply nodup_In, lons_in; exists r; split; [left; reflexivity|exact Er]). unfold distinct in Hn. destruct (nodup Req_EM_T (lons (r :: l))); [destruct I|cbn in Hn; lia].
    - cbn [draws] in H. destruct (draw_cities rnd s ext pad x0 x1 y0 y1 f) as [g|] eqn:Eg; [|discriminate]. pose proof (C118_corner _ _ _ _ _ _ _ _ _ Hs Hc Hd Eg) as C. destruct (draw_from_grid _ _ _ _ _ _ _ _ _ _ Hs Eg) as (_ & _ & _ & Cg).
      eapply IH; [exact Cg| | |exact H|].
      + intros r x Hr. apply Hd. apply (C r Hr).
      + intros r Hr. destruct (C r Hr) as (_ & x & y & ? & ? & X & _). congruence.
      + destruct (f_rows g) as [|r l] eqn:Er; [cbn; lia|]. destruct (C r (or_introl eq_refl)) as (_ & x & y & w & so & X & Y & Lw & Ls & P & _).
        assert (D : (distinct (r :: l) < distinct (f_rows f))%nat); [|lia]. apply (distinct_less (f_rows f) (r :: l) w); [intros q Hq; apply (C q Hq)|exact Lw|].
        intros q z Hq Ez. destruct (C q Hq) as (_ & x' & y' & w' & s' & X' & _ & Lw' & _ & P' & _). assert (w = w'). { destruct Lw as [(a & A1 & A2) A3], Lw' as [(b & B1 & B2) B3]. pose proof (A3 b w' B1 B2). pose proof (B3 a w A1 A2). lra. } rewrite X' in Ez. injection Ez as <-. lra. }
  destruct n as [|n].
  - cbn in H. injection H as <-. destruct (f_rows f); [reflexivity|cbn in Hn; lia].
  - cbn [draws] in H. destruct (draw_cities rnd s ext pad x0 x1 y0 y1 f) as [g|] eqn:Eg; [|discriminate]. pose proof (C118_corner _ _ _ _ _ _ _ _ _ Hs Hc Hd Eg) as C. destruct (draw_from_grid _ _ _ _ _ _ _ _ _ _ Hs Eg) as (_ & _ & _ & Cg).
    eapply G; [exact Cg| | |exact H|].
    + intros r x Hr. apply Hd. apply (C r Hr).
    + intros r Hr. destruct (C r Hr) as (_ & x & y & ? & ? & X & _). congruence.
    + destruct (f_rows g) as [|r l] eqn:Er; [cbn; lia|]. destruct (C r (or_introl eq_refl)) as (_ & x & y & w & so & X & Y & Lw & Ls & P & _).
      assert (D : (distinct (r :: l) < distinct (f_rows f))%nat); [|pose proof (distinct_le (f_rows f)); lia]. apply (distinct_less (f_rows f) (r :: l) w); [intros q Hq; apply (C q Hq)|exact Lw|].
      intros q z Hq Ez. destruct (C q Hq) as (_ & x' & y' & w' & s' & X' & _ & Lw' & _ & P' & _). assert (w = w'). { destruct Lw as [(a & A1 & A2) A3], Lw' as [(b & B1 & B2) B3]. pose proof (A3 b w' B1 B2). pose proof (B3 a w A1 A2). lra. } rewrite X' in Ez. injection Ez as <-. lra.
Qed.
Print Assumptions C118_fades.
(** Drawing never fails if the labels have numbers for edges. *)
Lemma draw_pop rd s ext pad x0 x1 y0 y1 f h : In (str_of "pop") (f_cols f) -> draw_cities rd s ext pad x0 x1 y0 y1 f = Ok h -> In (str_of "pop") (f_cols h).
Proof.
  intros Hp H. unfold draw_cities in H. destruct (limit_by_grid rd s 2 2 15 f) as [g|] eqn:Eg; [|discriminate].
  assert (Gp : In (str_of "pop") (f_cols g)). { unfold limit_by_grid in Eg. destruct (negb _); [discriminate|]. destruct (cells (Z.to_nat 2) (Z.to_nat 2)) as [|ij ijs]; [discriminate|]. destruct (all_parts _ _ _ _ _ _ _) as [rows|]; [|discriminate]. apply make_inv in Eg as [-> _]. exact Hp. }
  destruct (f_rows g); [apply make_inv in H as [-> _]; exact Gp|]. destruct (limit_by_collision rd s ext pad x0 x1 y0 y1 g) as [[h' bs]|] eqn:El; [|discriminate]. apply make_inv in H as [-> _]. unfold limit_by_collision in El.
  destruct (bounding_boxes rd ext pad x0 x1 y0 y1 (s (f_rows g))) as [b|]; [|discriminate]. destruct (filter _ b); [discriminate|]. match type of El with match ?M with _ => _ end = _ => destruct M as [g'|] eqn:Em; [|discriminate] end. injection El as <- _. apply make_inv in Em as [-> _]. cbn [f_cols].
  clear - Gp. assert (K : forall l cols, In (str_of "pop") cols -> In (str_of "pop") (fold_left add_col l cols)). { induction l as [|k l IH]; intros cols Hc; [exact Hc|]. cbn [fold_left]. apply IH. unfold add_col. destruct (col_in k cols); [exact Hc|]. apply in_or_app. left. exact Hc. }
  apply K. exact Gp.
Qed.
Theorem C118_total : forall rd s ext pad x0 x1 y0 y1 n f, sorts s -> complete f -> In (str_of "pop") (f_cols f) -> (forall r, In r (f_rows f) -> solid (city_edges rd ext pad r)) ->
  exists h, draws rd s ext pad (Some x0) (Some x1) (Some y0) (Some y1) n f = Ok h.
Proof.
  intros rd s ext pad x0 x1 y0 y1 n. induction n as [|n IH]; intros f Hs Hc Hp Hr; [eexists; reflexivity|]. cbn [draws].
  destruct (C36_draw rd s ext pad x0 x1 y0 y1 f Hs Hc Hp Hr) as (g & Eg & I & _). rewrite Eg. destruct (draw_from_grid _ _ _ _ _ _ _ _ _ _ Hs Eg) as (_ & _ & _ & Cg).
  apply IH; [exact Hs|exact Cg|exact (draw_pop _ _ _ _ _ _ _ _ _ _ Hp Eg)|auto].
Qed.
Print Assumptions C118_total.
(** The largest city of a table is not drawn when it is the westernmost; and drawing the
    same map twice does not give the same map. *)
Definition two : frame := {| f_cols := cols4; f_rows := [named "Alta" 0 0 900; named "Bree" 4 4 100] |}.
Definition dot (r : city) : box := {| b_left := Some 0; b_right := Some 1; b_bottom := Some 0; b_top := Some 1 |}.
Lemma rnd_z m : (Z.abs m < 2 ^ 53)%Z -> rnd (IZR m) = IZR m.
Proof. intro H. apply rnd_id, double_int, H. Qed.
Lemma two_grid : limit_by_grid rnd isort 2 2 15 two = Ok {| f_cols := cols4; f_rows := [named "Bree" 4 4 100] |}.
Proof.
  assert (E1 : forall k : nat, cell_lo rnd (Some 0) (Some 4) 2 k = Some (rnd (0 + rnd (INR k * rnd (rnd (4 - 0) / INR 2)))) /\ cell_hi rnd (Some 0) (Some 4) 2 k = Some (rnd (rnd (0 + rnd (INR k * rnd (rnd (4 - 0) / INR 2))) + rnd (rnd (4 - 0) / INR 2)))) by (intro; split; reflexivity).
  assert (D : rnd (rnd (4 - 0) / INR 2) = 2). { replace (4 - 0) with 4 by ring. rewrite (rnd_z 4) by lia. replace (4 / INR 2) with 2 by (cbn [INR]; field). apply (rnd_z 2). lia. }
  assert (L0 : cell_lo rnd (Some 0) (Some 4) 2 0 = Some 0). { rewrite (proj1 (E1 0%nat)), D. f_equal. cbn [INR]. rewrite Rmult_0_l, rnd_0, Rplus_0_l, rnd_0. reflexivity. }
  assert (H0 : cell_hi rnd (Some 0) (Some 4) 2 0 = Some 2). { rewrite (proj2 (E1 0%nat)), D. f_equal. cbn [INR]. rewrite Rmult_0_l, rnd_0, Rplus_0_l, rnd_0, Rplus_0_l. apply (rnd_z 2). lia. }
  assert (L1 : cell_lo rnd (Some 0) (Some 4) 2 1 = Some 2). { rewrite (proj1 (E1 1%nat)), D. f_equal. cbn [INR]. rewrite Rmult_1_l, (rnd_z 2), Rplus_0_l by lia. apply (rnd_z 2). lia. }
  assert (H1 : cell_hi rnd (Some 0) (Some 4) 2 1 = Some 4). { rewrite (proj2 (E1 1%nat)), D. f_equal. cbn [INR]. rewrite Rmult_1_l, (rnd_z 2), Rplus_0_l, (rnd_z 2) by lia. replace (2 + 2) with 4 by ring. apply (rnd_z 4). lia. }
  assert (B : get_bounds two = (Some 0, Some 4, Some 0, Some 4)). { unfold get_bounds, two. cbn [f_rows map named c_lon c_lat series_min series_max]. replace (Rmin 0 4) with 0 by (symmetry; apply Rmin_left; lra). replace (Rmax 0 4) with 4 by (symmetry; apply Rmax_right; lra). reflexivity. }
  unfold limit_by_grid. change (negb (col_in (str_of "pop") (f_cols two))) with false. cbv iota. change (cells (Z.to_nat 2) (Z.to_nat 2)) with [(0, 0); (0, 1); (1, 0); (1, 1)]%nat. change (Z.to_nat 2) with 2%nat. cbv iota. cbn [all_parts]. unfold cell_part. rewrite B, L0, H0, L1, H1.
  assert (X : forall a b c d r, in_bounds (Some a) (Some b) (Some c) (Some d) r = flt (Some c) (c_lat r) && fle (c_lat r) (Some d) && flt (Some a) (c_lon r) && fle (c_lon r) (Some b)) by reflexivity.
  assert (S : forall a b c d, limit_by_bounds (Some a) (Some b) (Some c) (Some d) two = Ok {| f_cols := cols4; f_rows := filter (in_bounds (Some a) (Some b) (Some c) (Some d)) (f_rows two) |}). { intros. unfold limit_by_bounds. rewrite make_ok; [reflexivity|]. repeat split; cbn; tauto. }
  rewrite !S. cbn [two f_rows filter]. rewrite !X. cbn [named c_lat c_lon flt fle]. rdec. cbn [andb]. reflexivity.
Qed.
Lemma dot_edges r : city_edges rnd dot (Some 0) r = {| b_left := Some 0; b_right := Some 1; b_bottom := Some 0; b_top := Some 1 |}.
Proof.
  unfold city_edges, dot. cbn [b_left b_right b_bottom b_top fop]. replace (1 - 0) with 1 by ring. rewrite (rnd_z 1) by lia. rewrite Rmult_0_r, rnd_0, Rminus_0_r, Rplus_0_r, rnd_0, (rnd_z 1) by lia. reflexivity.
Qed.
Theorem C118_again_refuted : exists s ext f h h' c, sorts s /\ complete f /\ double_rows f /\ draw_cities rnd s ext (Some 0) (Some (-10)) (Some 10) (Some (-10)) (Some 10) f = Ok h /\ draw_cities rnd s ext (Some 0) (Some (-10)) (Some 10) (Some (-10)) (Some 10) h = Ok h' /\
  f_rows h <> [] /\ f_rows h' = [] /\ greatest c_pop (f_rows f) 900 /\ In c (f_rows f) /\ c_pop c = Some 900 /\ ~ In c (f_rows h).
Proof.
  assert (Dt : double_rows two). { intros r x [<-|[<-|[]]] [E|E]; injection E as <-; apply double_int; lia. }
  assert (Ct : complete two) by (repeat split; cbn; tauto).
  assert (Ex : exists h, draw_cities rnd isort dot (Some 0) (Some (-10)) (Some 10) (Some (-10)) (Some 10) two = Ok h /\ f_rows h = [named "Bree" 4 4 100]).
  { unfold draw_cities. rewrite two_grid. cbn [f_rows]. unfold limit_by_collision. cbn [f_rows isort fold_right ins bounding_boxes map filter snd]. rewrite dot_edges. cbn [filter snd b_left]. cbn [keep_clear map fst]. eexists. split; [reflexivity|reflexivity]. }
  destruct Ex as (h & Eh & Hr). destruct (draw_from_grid _ _ _ _ _ _ _ _ _ _ C35_ex_sorts Eh) as (_ & _ & _ & Ch).
  destruct (C36_draw rnd isort dot (Some 0) (-10) 10 (-10) 10 h C35_ex_sorts Ch) as (h' & Eh' & _).
  - eapply draw_pop; [|exact Eh]. cbn. tauto.
  - intros r _. rewrite dot_edges. exists 0, 0. do 4 eexists. cbn. repeat split; lra.
  - exists isort, dot, two, h, h', (named "Alta" 0 0 900). split; [apply C35_ex_sorts|]. split; [exact Ct|]. split; [exact Dt|]. split; [exact Eh|]. split; [exact Eh'|]. split; [rewrite Hr; discriminate|]. split.
    + apply (C118_fades isort dot (Some 0) (Some (-10)) (Some 10) (Some (-10)) (Some 10) 2 two h' C35_ex_sorts Ct Dt); [|apply le_n]. cbn [draws]. rewrite Eh, Eh'. reflexivity.
    + split; [split; [exists (named "Alta" 0 0 900); split; [left; reflexivity|reflexivity]|intros r x [<-|[<-|[]]] E; injection E as <-; lra]|]. split; [left; reflexivity|]. split; [reflexivity|]. rewrite Hr. intros [E|[]]. injection E as E. lra.
Qed.
Print Assumptions C118_again_refuted.
Example C118_ex : double_rows two /\ forall r, In r (f_rows two) -> solid (city_edges rnd dot (Some 0) r).
Proof.
  split; [intros r x [<-|[<-|[]]] [E|E]; injection E as <-; apply double_int; lia|]. intros r _. rewrite dot_edges. exists 0, 0. do 4 eexists. cbn. repeat split; lra.
Qed.

(** ** C119: the middle of the map and the cities on it.
    The map goes eastwards from [xmin] to [xmax]. *)
Theorem C119_middle : forall xmin xmax, xmin <= xmax \/ xmax < 0 -> in_middle xmin xmax (central_longitude xmin xmax).
Proof.
  intros xmin xmax H. exists 0%Z. rewrite Rmult_0_r, Rplus_0_r. unfold central_longitude, width. repeat destruct Rlt_dec; lra.
Qed.
Print Assumptions C119_middle.
(** A map across the date line that ends east of Greenwich is centred on the opposite meridian. *)
Theorem C119_middle_refuted : forall xmin xmax, xmax < xmin -> 0 <= xmax -> same_meridian (central_longitude xmin xmax) (xmin + width xmin xmax / 2 + 180) /\ ~ in_middle xmin xmax (central_longitude xmin xmax).
Proof.
  intros xmin xmax H H0. assert (E : central_longitude xmin xmax = xmin + width xmin xmax / 2 - 180) by (unfold central_longitude, width; repeat destruct Rlt_dec; lra). rewrite E. split.
  - exists (-1)%Z. lra.
  - intros (k & Hk). assert (K : IZR (2 * k) = IZR (-1)) by (rewrite mult_IZR; lra). apply eq_IZR in K. lia.
Qed.
Print Assumptions C119_middle_refuted.
(** The cities of a map that does not cross the date line are those on it, but for its
    western and southern edge; each is at most half the width from the middle. *)
Theorem C119_cities : forall xmin xmax ymin ymax f g, complete f -> map_cities xmin xmax ymin ymax f = Ok g ->
  selects (fun r => exists x y, c_lon r = Some x /\ c_lat r = Some y /\ xmin < x <= xmax /\ ymin < y <= ymax) (f_rows f) (f_rows g) /\
  (forall r x, xmin <= xmax -> In r (f_rows g) -> c_lon r = Some x -> Rabs (x - central_longitude xmin xmax) <= width xmin xmax / 2).
Proof.
  intros xmin xmax ymin ymax f g Hc E. unfold map_cities in E. change (limit_by_bounds _ _ _ _ f) with (fapply (ByBounds (Some xmin) (Some xmax) (Some ymin) (Some ymax)) f) in E. destruct (C34_filter _ _ _ Hc E) as (S & _).
  assert (K : forall r, keeps (ByBounds (Some xmin) (Some xmax) (Some ymin) (Some ymax)) r <-> exists x y, c_lon r = Some x /\ c_lat r = Some y /\ xmin < x <= xmax /\ ymin < y <= ymax).
  { intro r. cbn [keeps]. unfold within. split.
    - intros [(a & x & b & Ea & Ex & Eb & X) (a' & y & b' & Ea' & Ey & Eb' & Y)]. injection Ea as <-. injection Eb as <-. injection Ea' as <-. injection Eb' as <-. exists x, y. auto.
    - intros (x & y & Ex & Ey & X & Y). split; do 3 eexists; repeat split; try eassumption; try reflexivity; tauto. }
  assert (S' : selects (fun r => exists x y, c_lon r = Some x /\ c_lat r = Some y /\ xmin < x <= xmax /\ ymin < y <= ymax) (f_rows f) (f_rows g)).
  { revert S. generalize (f_rows f) (f_rows g). intros l l' S. induction S; econstructor; try assumption; rewrite <- K; assumption. }
  split; [exact S'|]. intros r x L Hr Ex.
  assert (P : exists x y, c_lon r = Some x /\ c_lat r = Some y /\ xmin < x <= xmax /\ ymin < y <= ymax).
  { revert S' Hr. generalize (f_rows f) (f_rows g). intros l l' S'. induction S'; intro Hr; [destruct Hr| |auto]. destruct Hr as [<-|Hr]; [assumption|auto]. }
  destruct P as (x' & y' & E1 & _ & P & _). rewrite E1 in Ex. injection Ex as <-. unfold central_longitude, width. repeat destruct Rlt_dec; try lra; apply Rabs_le; lra.
Qed.
Print Assumptions C119_cities.
(** A map across the date line has no cities. *)
Theorem C119_date_line : forall xmin xmax ymin ymax f g, xmax <= xmin -> complete f -> map_cities xmin xmax ymin ymax f = Ok g -> f_rows g = [].
Proof.
  intros xmin xmax ymin ymax f g L Hc E. destruct (C119_cities _ _ _ _ _ _ Hc E) as (S & _). revert S. generalize (f_rows f) (f_rows g). intros l l' S. induction S; [reflexivity| |assumption]. exfalso. match goal with H : exists _ _, _ |- _ => destruct H as (? & ? & _ & _ & ? & _) end. lra.
Qed.
Print Assumptions C119_date_line.
Theorem C119_date_line_refuted : exists xmin xmax ymin ymax f g r x, complete f /\ map_cities xmin xmax ymin ymax f = Ok g /\ In r (f_rows f) /\ c_lon r = Some x /\ xmin < x < 180 /\ on_this_map xmin xmax x /\ c_lat r = Some 0 /\ ymin < 0 < ymax /\ ~ In r (f_rows g).
Proof.
  set (f := {| f_cols := cols4; f_rows := [named "Suva" 0 178 500] |}). assert (Hc : complete f) by (repeat split; cbn; tauto).
  exists 170, (-170), (-5), 5, f, {| f_cols := f_cols f; f_rows := filter (in_bounds (Some 170) (Some (-170)) (Some (-5)) (Some 5)) (f_rows f) |}, (named "Suva" 0 178 500), 178. split; [exact Hc|].
  assert (E : map_cities 170 (-170) (-5) 5 f = Ok {| f_cols := f_cols f; f_rows := filter (in_bounds (Some 170) (Some (-170)) (Some (-5)) (Some 5)) (f_rows f) |}) by (unfold map_cities, limit_by_bounds; apply make_ok; exact Hc).
  split; [exact E|]. split; [left; reflexivity|]. split; [reflexivity|]. split; [lra|]. split; [exists 0%Z; unfold width; destruct Rlt_dec; lra|]. split; [reflexivity|]. split; [lra|]. rewrite (C119_date_line 170 (-170) (-5) 5 _ _ ltac:(lra) Hc E). intros [].
Qed.
Print Assumptions C119_date_line_refuted.
Example C119_ex : central_longitude 170 (-170) = 180 /\ central_longitude (-20) 10 = -5 /\ central_longitude 170 10 = 90 /\ in_middle 170 10 270.
Proof. repeat split; try (unfold central_longitude; repeat destruct Rlt_dec; lra). exists 0%Z. unfold width. destruct Rlt_dec; lra. Qed.
