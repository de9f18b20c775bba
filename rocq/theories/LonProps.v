(** C46, C63, C64: longitudes, boxes and points around the date line. *)
From Coq Require Import ZArith Reals List Bool Lra Psatz Lia.
From Flocq Require Import Core.
From Verif Require Import PyBase VecModel VecProofs GeoModel GeoSpec GeoTrig GeoProofs GeoProps.
Import ListNotations.
Open Scope R_scope.

Lemma rmin_iff : forall l m, rmin_list l = Some m <-> smallest l m.
Proof.
  assert (F : forall l, (l = [] /\ rmin_list l = None) \/ exists m, rmin_list l = Some m /\ smallest l m).
  { induction l as [|x l IH]; [left; auto|right]. cbn. destruct IH as [[-> ->]|(m & -> & Hi & Hm)].
    - exists x. split; [reflexivity|]. split; [left; reflexivity|]. intros y [<-|[]]. lra.
    - exists (Rmin x m). split; [reflexivity|]. split.
      + unfold Rmin. destruct Rle_dec; [left; reflexivity|right; assumption].
      + intros y [<-|Hy]; [apply Rmin_l|]. eapply Rle_trans; [apply Rmin_r|apply Hm; assumption]. }
  intros l m. destruct (F l) as [[-> ->]|(m' & -> & Hi & Hm)]; split; intro E.
  - discriminate.
  - destruct E as [[] _].
  - injection E as <-. split; assumption.
  - destruct E as [Hi' Hm']. f_equal. apply Rle_antisym; [apply Hm; assumption|apply Hm'; assumption].
Qed.
Lemma rmax_iff : forall l m, rmax_list l = Some m <-> largest l m.
Proof.
  assert (F : forall l, (l = [] /\ rmax_list l = None) \/ exists m, rmax_list l = Some m /\ largest l m).
  { induction l as [|x l IH]; [left; auto|right]. cbn. destruct IH as [[-> ->]|(m & -> & Hi & Hm)].
    - exists x. split; [reflexivity|]. split; [left; reflexivity|]. intros y [<-|[]]. lra.
    - exists (Rmax x m). split; [reflexivity|]. split.
      + unfold Rmax. destruct Rle_dec; [right; assumption|left; reflexivity].
      + intros y [<-|Hy]; [apply Rmax_l|]. eapply Rle_trans; [apply Hm; assumption|apply Rmax_r]. }
  intros l m. destruct (F l) as [[-> ->]|(m' & -> & Hi & Hm)]; split; intro E.
  - discriminate.
  - destruct E as [[] _].
  - injection E as <-. split; assumption.
  - destruct E as [Hi' Hm']. f_equal. apply Rle_antisym; [apply Hm'; assumption|apply Hm; assumption].
Qed.
Lemma rmin_none : forall l, rmin_list l = None <-> l = [].
Proof. intros [|x l]; cbn; [tauto|]. destruct (rmin_list l); split; discriminate. Qed.
Lemma rmax_none : forall l, rmax_list l = None <-> l = [].
Proof. intros [|x l]; cbn; [tauto|]. destruct (rmax_list l); split; discriminate. Qed.

Lemma ext_range : forall a b, -180 <= longitudinal_extent a b < 180.
Proof. intros. unfold longitudinal_extent. pose proof (mod_range (b - a + 180) 360 ltac:(lra)). lra. Qed.
Lemma ext_unique : forall a b e k, -180 <= e < 180 -> e = b - a + 360 * IZR k -> longitudinal_extent a b = e.
Proof. intros a b e k He E. unfold longitudinal_extent. rewrite (mod_unique (b - a + 180) 360 (e + 180) k); lra. Qed.
Lemma ext_same : forall a b, exists k, longitudinal_extent a b = b - a + 360 * IZR k.
Proof. intros a b. unfold longitudinal_extent. destruct (mod_same (b - a + 180) 360 ltac:(lra)) as (k & E). exists k. lra. Qed.
Lemma ext_near : forall a b, -180 <= b - a < 180 -> longitudinal_extent a b = b - a.
Proof. intros. apply (ext_unique _ _ _ 0); lra. Qed.
Lemma ext_east : forall a b, 180 <= b - a < 540 -> longitudinal_extent a b = b - a - 360.
Proof. intros. apply (ext_unique _ _ _ (-1)); lra. Qed.
Lemma ext_west : forall a b, -540 <= b - a < -180 -> longitudinal_extent a b = b - a + 360.
Proof. intros. apply (ext_unique _ _ _ 1); lra. Qed.
Lemma turn_zero : forall x k, -360 < x < 360 -> x = 360 * IZR k -> x = 0.
Proof. intros x k H E. assert (-1 < IZR k < 1) as [A B] by (split; lra). apply lt_IZR in A, B. assert (k = 0%Z) by lia. subst k. lra. Qed.

(** ** C46 *)
(** The extent is the signed way from one longitude to the other. *)
Theorem C46_extent : forall a b, let e := longitudinal_extent a b in -180 <= e < 180 /\ same_lon b (a + e) /\
  (forall e', -180 <= e' < 180 -> same_lon b (a + e') -> e' = e) /\ (e <> -180 -> longitudinal_extent b a = - e) /\ (e = -180 -> longitudinal_extent b a = -180).
Proof.
  intros a b e. pose proof (ext_range a b) as B. fold e in B. destruct (ext_same a b) as (k & E). fold e in E. split; [exact B|].
  split; [exists (- k)%Z; rewrite opp_IZR; lra|]. split; [intros e' H (j & Ej); symmetry; apply (ext_unique _ _ _ (- j)); [exact H|rewrite opp_IZR; lra]|].
  split; intro H; [apply (ext_unique _ _ _ (- k)); [lra|rewrite opp_IZR; lra]|apply (ext_unique _ _ _ (- k - 1)); [lra|rewrite minus_IZR, opp_IZR; lra]].
Qed.
Print Assumptions C46_extent.
(** A box reaches from the western to the eastern longitude, both of points of
    the collection, is less than 180 degrees wide and contains all points; or it
    goes once around the globe. *)
Theorem C46_box : forall lons lats w e n s, spherical_bounding_box lons lats = Ok (w, e, n, s) ->
  largest lats n /\ smallest lats s /\ In w lons /\ In e lons /\
  ((w = -180 /\ e = 180 /\ forall x, In x lons -> -180 <= x <= 180) \/ (exists d, arc_to w e d /\ d < 180) /\ forall x, In x lons -> on_arc w e x).
Proof.
  intros lons lats w e n s H. unfold spherical_bounding_box in H.
  destruct (rmax_list lats) as [n'|] eqn:En; [|discriminate]. destruct (rmin_list lats) as [s'|] eqn:Es; [|discriminate]. destruct (rmin_list lons) as [w0|] eqn:Ew; [|discriminate]. destruct (rmax_list lons) as [e0|] eqn:Ee; [|discriminate].
  apply rmax_iff in En. apply rmin_iff in Es. apply rmin_iff in Ew. apply rmax_iff in Ee. destruct (_ && _ && _) eqn:R; [|discriminate]. rewrite !andb_true_iff, !rleb_iff in R.
  assert (All : forall x, In x lons -> w0 <= x <= e0) by (intros x Hx; split; [apply Ew|apply Ee]; assumption).
  destruct (rltb (longitudinal_extent w0 e0) 0) eqn:C; cmp.
  - destruct (rmin_list (filter _ lons)) as [w1|] eqn:Ew1; [|discriminate]. destruct (rmax_list (filter _ lons)) as [e1|] eqn:Ee1; [|discriminate]. destruct (forallb _ lons) eqn:F; [|discriminate]. injection H as <- <- <- <-.
    apply rmin_iff in Ew1 as [Iw _]. apply rmax_iff in Ee1 as [Ie _]. apply filter_In in Iw as [Iw _]. apply filter_In in Ie as [Ie _].
    rewrite forallb_forall in F. assert (Fx : forall x, In x lons -> 0 <= longitudinal_extent w1 x /\ 0 <= longitudinal_extent x e1) by (intros x Hx; specialize (F x Hx); rewrite andb_true_iff, !rleb_iff in F; exact F).
    split; [exact En|]. split; [exact Es|]. split; [exact Iw|]. split; [exact Ie|]. right. destruct (Fx e1 Ie) as [D0 _]. pose proof (ext_range w1 e1) as Dr. destruct (ext_same w1 e1) as (kd & Ed). set (d := longitudinal_extent w1 e1) in *.
    assert (A : arc_to w1 e1 d) by (split; [lra|]; exists (- kd)%Z; rewrite opp_IZR; lra). split; [exists d; split; [exact A|lra]|]. intros x Hx. destruct (Fx x Hx) as [T0 S0]. pose proof (ext_range w1 x) as Tr. pose proof (ext_range x e1) as Sr. destruct (ext_same w1 x) as (kt & Et). destruct (ext_same x e1) as (ks & Es').
    exists d, (longitudinal_extent w1 x). split; [exact A|]. split; [|exists (- kt)%Z; rewrite opp_IZR; lra]. split; [exact T0|].
    assert (Z : longitudinal_extent w1 x + longitudinal_extent x e1 - d = 0) by (apply (turn_zero _ (kt + ks - kd)); [lra|rewrite minus_IZR, plus_IZR; lra]). lra.
  - injection H as <- <- <- <-. split; [exact En|]. split; [exact Es|]. split; [apply Ew|]. split; [apply Ee|]. assert (Le : w0 <= e0) by (apply All, Ew).
    destruct (Rlt_dec (e0 - w0) 180) as [D|D]; [right|destruct (Rlt_dec (e0 - w0) 360) as [D'|D']; [rewrite ext_east in C by lra; lra|left]].
    + assert (A : arc_to w0 e0 (e0 - w0)) by (split; [lra|exists 0%Z; lra]). split; [exists (e0 - w0); split; [exact A|lra]|]. intros x Hx. specialize (All x Hx). exists (e0 - w0), (x - w0). split; [exact A|]. split; [lra|exists 0%Z; lra].
    + split; [lra|]. split; [lra|]. intros x Hx. specialize (All x Hx). lra.
Qed.
Print Assumptions C46_box.
(** There is a box whenever the points fit on an arc of less than 180 degrees;
    otherwise (and if neither edge of the map is among them together) ValueError. *)
Theorem C46_complete : forall lons lats, lons <> [] -> lats <> [] -> (forall x, In x lons -> -180 <= x <= 180) ->
  ((exists b, spherical_bounding_box lons lats = Ok b) <->
   (exists a d, 0 <= d < 180 /\ forall x, In x lons -> exists t, 0 <= t <= d /\ same_lon x (a + t)) \/ (In (-180) lons /\ In 180 lons)) /\
  (forall e, spherical_bounding_box lons lats = Err e -> e = ValueError).
Proof.
  intros lons lats Nl Na Rg.
  destruct (rmax_list lats) as [n|] eqn:En; [|apply rmax_none in En; contradiction]. destruct (rmin_list lats) as [s|] eqn:Es; [|apply rmin_none in Es; contradiction].
  destruct (rmin_list lons) as [w|] eqn:Ew; [|apply rmin_none in Ew; contradiction]. destruct (rmax_list lons) as [e|] eqn:Ee; [|apply rmax_none in Ee; contradiction].
  pose proof (proj1 (rmin_iff _ _) Ew) as [Iw Mw]. pose proof (proj1 (rmax_iff _ _) Ee) as [Ie Me]. pose proof (Rg w Iw) as Rw. pose proof (Rg e Ie) as Re. pose proof (Mw e Ie) as Le.
  assert (Ck : rleb (-180) w && rleb w 180 && (rleb (-180) e && rleb e 180) = true) by (rewrite !andb_true_iff, !rleb_iff; lra).
  split.
  - split.
    + intros ([[[w' e'] n'] s'] & H). apply C46_box in H as (_ & _ & Hw & He & [(-> & -> & _)|((d & (Hd & Hk) & Hd') & H)]); [right; auto|left].
      exists w', d. split; [lra|]. intros x Hx. destruct (H x Hx) as (d2 & t & (Hd2 & Hk2) & Ht & Hx2). exists t. split; [|exact Hx2]. destruct Hk as (k & Ek), Hk2 as (k2 & Ek2).
      assert (d2 - d = 0) by (apply (turn_zero _ (k - k2)); [lra|rewrite minus_IZR; lra]). lra.
    + intro H. unfold spherical_bounding_box. rewrite En, Es, Ew, Ee, Ck. destruct (rltb (longitudinal_extent w e) 0) eqn:C; cmp; [|eauto].
      destruct H as [(a & d & Hd & H)|[Hl Hr]].
      2: { exfalso. assert (w = -180) by (specialize (Mw _ Hl); lra). assert (e = 180) by (specialize (Me _ Hr); lra). subst w e. rewrite ext_east in C by lra. lra. }
      (* extents between points of the arc add up *)
      assert (P : forall x y, In x lons -> In y lons -> -180 < longitudinal_extent x y < 180).
      { intros x y Hx Hy. destruct (H x Hx) as (tx & Tx & kx & Ex), (H y Hy) as (ty & Ty & ky & Ey). rewrite (ext_unique x y (ty - tx) (kx - ky)); [lra|lra|rewrite minus_IZR; lra]. }
      assert (Q : forall x y z, In x lons -> In y lons -> In z lons -> longitudinal_extent x y + longitudinal_extent y z = longitudinal_extent x z).
      { intros x y z Hx Hy Hz. destruct (H x Hx) as (tx & Tx & kx & Ex), (H y Hy) as (ty & Ty & ky & Ey), (H z Hz) as (tz & Tz & kz & Ez).
        rewrite (ext_unique x y (ty - tx) (kx - ky)), (ext_unique y z (tz - ty) (ky - kz)), (ext_unique x z (tz - tx) (kx - kz)); try lra; rewrite minus_IZR; lra. }
      assert (D : 180 <= e - w). { apply Rnot_lt_le. intro L. rewrite ext_near in C by lra. lra. }
      assert (D' : 180 < e - w). { destruct (Req_dec (e - w) 180) as [E|E]; [|lra]. pose proof (P w e Iw Ie) as B. rewrite ext_east in B by lra. lra. }
      assert (Wn : w < 0 < e) by lra.
      (* no two points with x < 0 <= y, less than 180 apart *)
      assert (Gap : forall x y, In x lons -> In y lons -> x <= 0 <= y -> longitudinal_extent x y <= 0 \/ (x = 0 /\ y = 0)).
      { intros x y Hx Hy Hs. destruct (Rle_dec (longitudinal_extent x y) 0) as [|G]; [left; assumption|]. exfalso.
        assert (L : y - x < 180). { apply Rnot_le_lt. intro L. pose proof (Rg x Hx). pose proof (Rg y Hy). destruct (Req_dec (y - x) 360) as [E|E]; [rewrite (ext_unique x y 0 (-1)) in G by lra; lra|]. rewrite ext_east in G by lra. lra. }
        pose proof (Mw x Hx). pose proof (Me y Hy). assert (E1 : longitudinal_extent w x = x - w) by (pose proof (P w x Iw Hx) as B; destruct (Req_dec (x - w) 180) as [E|E]; [rewrite ext_east in B by lra; lra|apply ext_near; lra]).
        assert (E2 : longitudinal_extent y e = e - y) by (pose proof (P y e Hy Ie) as B; destruct (Req_dec (e - y) 180) as [E|E]; [rewrite ext_east in B by lra; lra|apply ext_near; lra]).
        rewrite ext_near in G by lra. pose proof (Q w x y Iw Hx Hy) as Q1. pose proof (Q w y e Iw Hy Ie) as Q2. rewrite E1, (ext_near x y) in Q1 by lra. lra. }
      assert (No0 : ~ In 0 lons).
      { intro H0. destruct (Gap w 0 Iw H0 ltac:(lra)) as [B|B]; [|lra]. pose proof (P w 0 Iw H0). destruct (Req_dec w (-180)) as [E|E]; [rewrite E, ext_east in H1 by lra; lra|]. rewrite ext_near in B by lra. lra. }
      destruct (rmin_list (filter (rltb 0) lons)) as [w1|] eqn:Ew1.
      2: { apply rmin_none in Ew1. assert (I : In e (filter (rltb 0) lons)) by (apply filter_In; split; [assumption|apply rltb_iff; lra]). rewrite Ew1 in I. destruct I. }
      destruct (rmax_list (filter (fun l => rltb l 0) lons)) as [e1|] eqn:Ee1.
      2: { apply rmax_none in Ee1. assert (I : In w (filter (fun l => rltb l 0) lons)) by (apply filter_In; split; [assumption|apply rltb_iff; lra]). rewrite Ee1 in I. destruct I. }
      apply rmin_iff in Ew1 as [Iw1 Mw1]. apply rmax_iff in Ee1 as [Ie1 Me1]. apply filter_In in Iw1 as [Iw1 Pw1]. apply filter_In in Ie1 as [Ie1 Pe1]. apply rltb_iff in Pw1. apply rltb_iff in Pe1.
      assert (F : forallb (fun lon => rleb 0 (longitudinal_extent w1 lon) && rleb 0 (longitudinal_extent lon e1)) lons = true); [|rewrite F; eauto].
      apply forallb_forall. intros x Hx. rewrite andb_true_iff, !rleb_iff. pose proof (Rg x Hx) as Rx. pose proof (Rg w1 Iw1). pose proof (Rg e1 Ie1). assert (x <> 0) by (intros ->; contradiction).
      assert (Anti : forall u v, In u lons -> In v lons -> longitudinal_extent u v = - longitudinal_extent v u). { intros u v Hu Hv. pose proof (Q u v u Hu Hv Hu) as E. rewrite (ext_near u u) in E by lra. lra. }
      destruct (Rlt_dec x 0) as [Sx|Sx].
      * split.
        -- destruct (Gap x w1 Hx Iw1 ltac:(lra)) as [G|G]; [|lra]. rewrite (Anti w1 x Iw1 Hx). lra.
        -- assert (x <= e1) by (apply Me1, filter_In; split; [assumption|apply rltb_iff; assumption]). rewrite ext_near by lra. lra.
      * split.
        -- assert (w1 <= x) by (apply Mw1, filter_In; split; [assumption|apply rltb_iff; lra]). rewrite ext_near by lra. lra.
        -- destruct (Gap e1 x Ie1 Hx ltac:(lra)) as [G|G]; [|lra]. rewrite (Anti x e1 Hx Ie1). lra.
  - intros er H. unfold spherical_bounding_box in H. rewrite En, Es, Ew, Ee, Ck in H. destruct (rltb _ 0); [|discriminate]. destruct (rmin_list (filter _ _)); [|congruence]. destruct (rmax_list (filter _ _)); [|congruence]. destruct (forallb _ _); congruence.
Qed.
Print Assumptions C46_complete.
(** Points exactly 180 degrees apart are refused, although the description says
    more than 180. *)
Theorem C46_half_refuted : spherical_bounding_box [-90; 90] [0] = Err ValueError.
Proof.
  unfold spherical_bounding_box. cbn [rmax_list rmin_list]. rewrite Rmin_left, Rmax_right by lra.
  rewrite !(proj2 (rleb_iff _ _)) by lra. cbn [andb]. rewrite ext_east by lra. rewrite (proj2 (rltb_iff _ _)) by lra. cbn [filter]. rewrite (proj2 (rltb_f 0 (-90))), (proj2 (rltb_iff 0 90)), (proj2 (rltb_iff (-90) 0)), (proj2 (rltb_f 90 0)) by lra.
  cbn [rmin_list rmax_list forallb]. rewrite (ext_near 90 (-90)), (proj2 (rleb_f 0 (-90 - 90))) by lra. reflexivity.
Qed.
Print Assumptions C46_half_refuted.
Example C46_ex : exists a d, 0 <= d < 180 /\ forall x, In x [170; -170; 180] -> exists t, 0 <= t <= d /\ same_lon x (a + t).
Proof.
  exists 170, 20. split; [lra|]. intros x [<-|[<-|[<-|[]]]]; [exists 0; split; [lra|exists 0%Z; lra]|exists 20; split; [lra|exists (-1)%Z; lra]|exists 10; split; [lra|exists 0%Z; lra]].
Qed.

(** ** C63: fixes for the date line *)
Theorem C63_cross : forall a b, -180 <= a <= 180 -> -180 <= b <= 180 ->
  (cross_idl a b = true <-> (a < 0 < b /\ b - a > 180) \/ (b < 0 < a /\ a - b > 180)) /\ cross_idl a b = cross_idl b a.
Proof.
  intros a b Ha Hb. assert (G : forall x y, cross_idl x y = true <-> x * y < 0 /\ 180 < Rabs (x - y)) by (intros; unfold cross_idl; rewrite andb_true_iff, !rltb_iff; tauto). split.
  - rewrite G. split.
    + intros [P A]. unfold Rabs in A. destruct (Rcase_abs (a - b)) as [L|L]; [left|right]; split; try lra; split; apply Rnot_le_lt; intro Q; nra.
    + intros [[L D]|[L D]]; (split; [nra|]); unfold Rabs; destruct (Rcase_abs (a - b)); lra.
  - unfold cross_idl. rewrite Rmult_comm, Rabs_minus_sym. reflexivity.
Qed.
Print Assumptions C63_cross.
(** Longitudes which cross the date line come back between 0 and 360, otherwise
    unchanged; always the same meridians in the same order. *)
Theorem C63_lons : forall lons, lons <> [] -> (forall x, In x lons -> -180 <= x <= 180) -> exists l f, fix_lons_idl lons = Ok (l, f) /\ Forall2 same_lon l lons /\
  (f = true <-> exists a b, In a lons /\ In b lons /\ a < 0 < b /\ b - a > 180) /\ (f = true -> forall x, In x l -> 0 <= x < 360) /\ (f = false -> l = lons).
Proof.
  intros lons N Rg. destruct (rmin_list lons) as [lo|] eqn:El; [|apply rmin_none in El; contradiction]. destruct (rmax_list lons) as [hi|] eqn:Eh; [|apply rmax_none in Eh; contradiction].
  pose proof (proj1 (rmin_iff _ _) El) as [Il Ml]. pose proof (proj1 (rmax_iff _ _) Eh) as [Ih Mh]. pose proof (C63_cross lo hi (Rg _ Il) (Rg _ Ih)) as [C _].
  assert (X : cross_idl lo hi = true <-> exists a b, In a lons /\ In b lons /\ a < 0 < b /\ b - a > 180).
  { rewrite C. split; [intros [[L D]|[L D]]; [exists lo, hi; auto|pose proof (Ml hi Ih); lra]|]. intros (a & b & Ha & Hb & L & D). left. pose proof (Ml a Ha). pose proof (Mh b Hb). lra. }
  unfold fix_lons_idl. rewrite El, Eh. destruct (cross_idl lo hi) eqn:E.
  - do 2 eexists. split; [reflexivity|]. split; [|split; [split; [intros _; apply X; reflexivity|reflexivity]|split; [|discriminate]]].
    + clear. induction lons as [|x l IH]; cbn; [constructor|]. constructor; [|exact IH]. destruct (rltb x 0); [exists 1%Z|exists 0%Z]; lra.
    + intros _ y Hy. apply in_map_iff in Hy as (x & <- & Hx). specialize (Rg x Hx). destruct (rltb x 0) eqn:Q; cmp; lra.
  - do 2 eexists. split; [reflexivity|]. split; [|split; [split; [discriminate|intro H; apply X in H; discriminate]|split; [discriminate|reflexivity]]].
    clear. induction lons as [|x l IH]; constructor; [exists 0%Z; lra|exact IH].
Qed.
Print Assumptions C63_lons.
(** A fixed box is the shorter way around when it crosses the date line; forcing
    the fix turns a box around the zero meridian inside out, and gives nothing for
    a box with an edge on it. *)
Theorem C63_bounding : forall a s b n, -180 <= a <= b -> b <= 180 ->
  (cross_idl a b = true -> fix_bounding_box_idl (a, s, b, n) false = Some (b, s, a + 360, n) /\ a + 360 - b < 180) /\
  (cross_idl a b = false -> fix_bounding_box_idl (a, s, b, n) false = Some (a, s, b, n)) /\
  ((0 < a \/ b < 0) -> exists a' b', fix_bounding_box_idl (a, s, b, n) true = Some (a', s, b', n) /\ same_lon a' a /\ same_lon b' b /\ b' - a' = b - a /\ 0 < a' /\ b' < 360) /\
  (a < 0 < b -> fix_bounding_box_idl (a, s, b, n) true = Some (b, s, a + 360, n)) /\
  (fix_bounding_box_idl (a, s, b, n) true = None <-> a = 0 \/ b = 0).
Proof.
  intros a s b n Ha Hb. assert (X : cross_idl a b = true <-> a < 0 < b /\ b - a > 180) by (destruct (C63_cross a b ltac:(lra) ltac:(lra)) as [C _]; rewrite C; split; [intros [H|H]; lra|auto]).
  unfold fix_bounding_box_idl. rewrite orb_false_r, orb_true_r. split; [|split; [|split; [|split]]].
  - intro E. rewrite E. apply X in E. rewrite (proj2 (rltb_iff a 0)), (proj2 (rltb_iff 0 b)) by lra. split; [reflexivity|lra].
  - intros ->. reflexivity.
  - intros [H|H].
    + rewrite (proj2 (rltb_f a 0)), (proj2 (rltb_iff 0 a)), (proj2 (rltb_iff 0 b)) by lra. cbn [andb]. exists a, b. split; [reflexivity|]. split; [exists 0%Z; lra|]. split; [exists 0%Z; lra|]. lra.
    + rewrite (proj2 (rltb_iff a 0)), (proj2 (rltb_f 0 b)), (proj2 (rltb_iff b 0)) by lra. cbn [andb]. exists (a + 360), (b + 360). split; [reflexivity|]. split; [exists 1%Z; lra|]. split; [exists 1%Z; lra|]. lra.
  - intro H. rewrite (proj2 (rltb_iff a 0)), (proj2 (rltb_iff 0 b)) by lra. reflexivity.
  - destruct (rltb a 0) eqn:A1, (rltb 0 b) eqn:B1, (rltb b 0) eqn:B2, (rltb 0 a) eqn:A2; cmp; cbn [andb]; split; intro H; first [discriminate|reflexivity|exfalso; lra|lra].
Qed.
Print Assumptions C63_bounding.
(** The inside-out box does not contain the points of the original one. *)
Theorem C63_bounding_refuted : exists a b x a' b', a <= x <= b /\ fix_bounding_box_idl (a, 0, b, 1) true = Some (a', 0, b', 1) /\ a' <= b' /\ ~ on_arc a' b' x.
Proof.
  exists (-10), 10, 0, 10, 350. split; [lra|]. destruct (C63_bounding (-10) 0 10 1) as (_ & _ & _ & H & _); [lra|lra|]. split; [rewrite H by lra; repeat f_equal; lra|]. split; [lra|].
  intros (d & t & (Hd & k & Ek) & Ht & j & Ej). assert (d - 340 = 0) by (apply (turn_zero _ (- k)); [lra|rewrite opp_IZR; lra]). assert (t - 350 = 0) by (apply (turn_zero _ (- j - 1)); [lra|rewrite minus_IZR, opp_IZR; lra]). lra.
Qed.
Print Assumptions C63_bounding_refuted.
Example C63_ex : cross_idl (-170) 170 = true /\ fix_bounding_box_idl (-170, 0, 170, 1) false = Some (170, 0, -170 + 360, 1).
Proof.
  assert (E : cross_idl (-170) 170 = true) by (apply C63_cross; lra). split; [exact E|]. destruct (C63_bounding (-170) 0 170 1) as (H & _); [lra|lra|]. apply H. exact E.
Qed.

(** ** C64: points *)
Theorem C64_point : forall lon lat dep, (new_point lon lat dep = Ok (lon, lat, dep) <-> -180 <= lon <= 180 /\ -90 <= lat <= 90 /\ -8.848 < dep < 6371) /\
  (new_point lon lat dep = Err ValueError <-> ~ (-180 <= lon <= 180 /\ -90 <= lat <= 90 /\ -8.848 < dep < 6371)).
Proof.
  intros. unfold new_point, EARTH_RADIUS. destruct (rltb dep 6371) eqn:A, (rltb (-8.848) dep) eqn:B, (rleb (-180) lon) eqn:C, (rleb lon 180) eqn:D, (rleb (-90) lat) eqn:E, (rleb lat 90) eqn:F; cmp; cbn [negb andb];
    split; split; intro H; try discriminate; try reflexivity; try lra; exfalso; lra.
Qed.
Print Assumptions C64_point.
(** Points are equal if they are at most a metre apart: symmetric, reflexive, the
    same across the date line, but not transitive. *)
Theorem C64_eq : forall lon1 lat1 d1 lon2 lat2 d2,
  point_eq (lon1, lat1, d1) None = false /\ point_eq (lon1, lat1, d1) (Some (lon1, lat1, d1)) = true /\
  point_eq (lon1, lat1, d1) (Some (lon2, lat2, d2)) = point_eq (lon2, lat2, d2) (Some (lon1, lat1, d1)) /\
  (point_eq (lon1, lat1, d1) (Some (lon2, lat2, d2)) = true <-> geo_distance lon1 lat1 d1 lon2 lat2 d2 <= 1 / 1000).
Proof.
  intros. unfold point_eq. destruct (C42_depth lon1 lat1 d1 lon2 lat2 d2) as (P & _ & S & _). split; [reflexivity|]. split; [|split; [rewrite S; reflexivity|]].
  - assert (Z : geo_distance lon1 lat1 d1 lon1 lat1 d1 = 0).
    { unfold geo_distance. cbv zeta. destruct (dist_angle lon1 lat1 lon1 lat1) as (t & A & E). rewrite E. assert (A0 : angle (place lon1 lat1) (place lon1 lat1) 0) by (apply angle_zero; [apply place_unit|apply place_unit|reflexivity]).
      rewrite (angle_det _ _ _ _ A A0). replace ((6371 * 0) ^ 2 + (d1 - d1) ^ 2) with 0 by ring. apply sqrt_0. }
    rewrite Z, Rabs_R0. apply rleb_iff. lra.
  - rewrite rleb_iff, Rabs_right by lra. split; intro; lra.
Qed.
Print Assumptions C64_eq.
Lemma same_place_dist : forall lon lat d1 d2, geo_distance lon lat d1 lon lat d2 = Rabs (d1 - d2).
Proof.
  intros. unfold geo_distance. cbv zeta. destruct (dist_angle lon lat lon lat) as (t & A & E). rewrite E. assert (A0 : angle (place lon lat) (place lon lat) 0) by (apply angle_zero; [apply place_unit|apply place_unit|reflexivity]).
  rewrite (angle_det _ _ _ _ A A0). replace ((6371 * 0) ^ 2 + (d1 - d2) ^ 2) with (Rsqr (d1 - d2)) by (unfold Rsqr; ring). apply sqrt_Rsqr_abs.
Qed.
Theorem C64_transitive_refuted : exists a b c, point_eq a (Some b) = true /\ point_eq b (Some c) = true /\ point_eq a (Some c) = false.
Proof.
  exists (0, 0, 0), (0, 0, 1 / 1000), (0, 0, 2 / 1000). unfold point_eq. rewrite !same_place_dist, !Rabs_Rabsolu. repeat split; [apply rleb_iff|apply rleb_iff|apply rleb_f]; unfold Rabs; destruct Rcase_abs; lra.
Qed.
Print Assumptions C64_transitive_refuted.

(** Removing duplicates keeps a subsequence starting with the first point, in
    which neighbours differ, and every point dropped equals the one kept before. *)
Inductive subseq {A} : list A -> list A -> Prop :=
| sub_nil : subseq [] [] | sub_keep : forall x l l', subseq l l' -> subseq (x :: l) (x :: l') | sub_drop : forall x l l', subseq l l' -> subseq l (x :: l').
Definition differ (l : list (R * R * R)) : Prop := forall i a b, nth_error l i = Some a -> nth_error l (S i) = Some b -> point_eq b (Some a) = false.
(** [dedup last l]: what remains of [l] after [last]. *)
Inductive dedup : R * R * R -> list (R * R * R) -> list (R * R * R) -> Prop :=
| de_nil : forall a, dedup a [] [] | de_same : forall a b l r, point_eq b (Some a) = true -> dedup a l r -> dedup a (b :: l) r
| de_new : forall a b l r, point_eq b (Some a) = false -> dedup b l r -> dedup a (b :: l) (b :: r).
Lemma clean_fold : forall l a acc, exists r, dedup a l r /\
  rev (fold_left (fun acc p => match acc with last :: _ => if point_eq p (Some last) then acc else p :: acc | [] => acc end) l (a :: acc)) = rev acc ++ a :: r.
Proof.
  induction l as [|b l IH]; intros a acc.
  - exists []. split; [constructor|]. reflexivity.
  - cbn [fold_left]. destruct (point_eq b (Some a)) eqn:E.
    + destruct (IH a acc) as (r & D & F). exists r. split; [constructor; assumption|exact F].
    + destruct (IH b (a :: acc)) as (r & D & F). exists (b :: r). split; [apply de_new; assumption|]. rewrite F. cbn [rev]. rewrite <- app_assoc. reflexivity.
Qed.
Lemma dedup_facts : forall a l r, dedup a l r -> subseq r l /\ differ (a :: r) /\ (forall p, In p l -> exists q, In q (a :: r) /\ point_eq p (Some q) = true).
Proof.
  intros a l r D. induction D as [a|a b l r E D [I1 [I2 I3]]|a b l r E D [I1 [I2 I3]]].
  - split; [constructor|]. split; [intros [|[|]] x y Ex Ey; discriminate|]. intros p [].
  - split; [apply sub_drop; exact I1|]. split; [exact I2|]. intros p [<-|Hp]; [exists a; split; [left; reflexivity|exact E]|apply I3; exact Hp].
  - split; [apply sub_keep; exact I1|]. split.
    + intros [|i] x y Ex Ey; [cbn in Ex, Ey; injection Ex as <-; injection Ey as <-; exact E|]. exact (I2 i x y Ex Ey).
    + intros p [<-|Hp].
      * exists b. split; [right; left; reflexivity|]. destruct b as [[x y] z]. exact (proj1 (proj2 (C64_eq x y z x y z))).
      * destruct (I3 p Hp) as (q & Hq & Eq). exists q. split; [right; exact Hq|exact Eq].
Qed.
Theorem C64_clean : clean_points [] = [] /\ forall p l, exists r, clean_points (p :: l) = p :: r /\ subseq r l /\ differ (p :: r) /\
  (forall x, In x l -> exists q, In q (p :: r) /\ point_eq x (Some q) = true).
Proof.
  split; [reflexivity|]. intros p l. unfold clean_points. cbn [fold_left]. assert (E : point_eq p (Some p) = true) by (destruct p as [[x y] z]; exact (proj1 (proj2 (C64_eq x y z x y z)))). rewrite E.
  destruct (clean_fold l p []) as (r & D & F). exists r. rewrite F. split; [reflexivity|]. exact (dedup_facts _ _ _ D).
Qed.
Print Assumptions C64_clean.
Lemma column_eq : forall a b, (a - b) ^ 2 <= 0.000001 <-> point_eq (0, 0, a) (Some (0, 0, b)) = true.
Proof.
  intros. unfold point_eq. rewrite same_place_dist, Rabs_Rabsolu, rleb_iff. unfold Rabs. destruct Rcase_abs; split; intro; nra.
Qed.
Example C64_ex : clean_points [(0, 0, 0); (0, 0, 1 / 2000); (0, 0, 3)] = [(0, 0, 0); (0, 0, 3)].
Proof.
  assert (E1 : point_eq (0, 0, 0) (Some (0, 0, 0)) = true) by (apply column_eq; lra). assert (E2 : point_eq (0, 0, 1 / 2000) (Some (0, 0, 0)) = true) by (apply column_eq; lra).
  assert (E3 : point_eq (0, 0, 3) (Some (0, 0, 0)) = false) by (apply not_true_is_false; intro H; apply column_eq in H; lra).
  unfold clean_points. cbn [fold_left]. rewrite E1. cbv beta iota. rewrite E2. cbv beta iota. rewrite E3. reflexivity.
Qed.
