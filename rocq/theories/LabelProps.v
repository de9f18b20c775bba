(** C133: the labels of a map. *)
From Coq Require Import Reals String Ascii Bool List Lia Lra.
From Verif Require Import PyBase PyStr CityModel CitySpec CityProofs CollideModel CollideSpec CollideProps LabelModel.
Import ListNotations.
Open Scope R_scope.

(** Axes that are drawn at some size, not mirrored. *)
Definition proper (a : axes) : Prop := 0 < x_scale a /\ 0 < y_scale a.
(** The pixels of the label of [r] on the axes [a]. *)
Definition shown_at (proj : R -> R -> R * R) (wide high : city -> R) (a : axes) (r : city) (px py : R) : Prop :=
  exists l b rt t, window_extent proj wide high a r = Some ((l, b), (rt, t)) /\ l <= px <= rt /\ b <= py <= t.
Lemma extent_eq proj wide high a r lon lat : proper a -> c_lon r = Some lon -> c_lat r = Some lat ->
  let x := fst (proj lon lat) in let y := snd (proj lon lat) in
  window_extent proj wide high a r = Some ((x_offset a + x_scale a * x + 4, y_offset a + y_scale a * y - high r / 2), (x_offset a + x_scale a * x + 4 + wide r, y_offset a + y_scale a * y + high r / 2)).
Proof.
  intros [Px Py] X Y x y. unfold window_extent, render_row. rewrite X, Y. destruct (proj lon lat) as [u v] eqn:E. cbn [fst snd] in x, y. unfold to_display, to_data, XOFFSET. cbn [fst snd].
  assert (O : x_offset a + x_scale a * (u + ((1 + 4 - x_offset a) / x_scale a - (1 - x_offset a) / x_scale a)) = x_offset a + x_scale a * u + 4) by (field; lra). rewrite O. reflexivity.
Qed.
(** On whichever axes, the label begins four pixels to the right of the city and is centred on it. *)
Theorem C133_offset : forall proj wide high a r lon lat, proper a -> c_lon r = Some lon -> c_lat r = Some lat ->
  exists l b rt t, window_extent proj wide high a r = Some ((l, b), (rt, t)) /\ l = fst (to_display a (proj lon lat)) + 4 /\ rt - l = wide r /\ (b + t) / 2 = snd (to_display a (proj lon lat)) /\ t - b = high r.
Proof.
  intros proj wide high a r lon lat P X Y. rewrite (extent_eq _ _ _ _ _ _ _ P X Y). do 4 eexists. split; [reflexivity|]. unfold to_display. cbn [fst snd]. repeat split; lra.
Qed.
Lemma label_eq proj wide high a r lon lat : proper a -> c_lon r = Some lon -> c_lat r = Some lat ->
  let x := fst (proj lon lat) in let y := snd (proj lon lat) in
  label_extents proj wide high a r = {| b_left := Some (x + 4 / x_scale a); b_right := Some (x + (4 + wide r) / x_scale a); b_bottom := Some (y - high r / 2 / y_scale a); b_top := Some (y + high r / 2 / y_scale a) |}.
Proof.
  intros P X Y x y. unfold label_extents. rewrite (extent_eq _ _ _ _ _ _ _ P X Y). fold x y. unfold to_data. cbn [fst snd]. destruct P. f_equal; f_equal; field; lra.
Qed.
Lemma edges_solid proj wide high a pad r lon lat : proper a -> c_lon r = Some lon -> c_lat r = Some lat -> 0 <= wide r -> 0 <= high r -> 0 <= pad -> solid (city_edges (fun z => z) (label_extents proj wide high a) (Some pad) r).
Proof.
  intros P X Y W H D. unfold city_edges. rewrite (label_eq _ _ _ _ _ _ _ P X Y). cbn [b_left b_right b_bottom b_top fop]. set (x := fst (proj lon lat)). set (y := snd (proj lon lat)). destruct P as [Px Py].
  assert (A : 0 <= wide r / x_scale a) by (apply Rmult_le_pos; [exact W|left; apply Rinv_0_lt_compat, Px]). assert (B : 0 <= high r / 2 / y_scale a) by (apply Rmult_le_pos; [lra|left; apply Rinv_0_lt_compat, Py]).
  assert (A' : x + (4 + wide r) / x_scale a - (x + 4 / x_scale a) = wide r / x_scale a) by (field; lra). assert (E1 : 0 <= (x + (4 + wide r) / x_scale a - (x + 4 / x_scale a)) * pad) by (rewrite A'; apply Rmult_le_pos; assumption).
  assert (E2 : 0 <= (y + high r / 2 / y_scale a - (y - high r / 2 / y_scale a)) * pad) by (apply Rmult_le_pos; lra).
  exists (x + 4 / x_scale a), y. do 4 eexists. repeat (split; [reflexivity|]). lra.
Qed.
(** Boxes that are clear on the hidden axes are clear on axes that are at least as large. *)
Lemma clear_on_larger proj wide high clone a pad r q lon lat lon' lat' : proper clone -> x_scale clone <= x_scale a -> y_scale clone <= y_scale a -> 0 <= pad ->
  c_lon r = Some lon -> c_lat r = Some lat -> c_lon q = Some lon' -> c_lat q = Some lat' -> 0 <= wide r -> 0 <= high r -> 0 <= wide q -> 0 <= high q ->
  ~ overlap (city_edges (fun z => z) (label_extents proj wide high clone) (Some pad) r) (city_edges (fun z => z) (label_extents proj wide high clone) (Some pad) q) ->
  forall px py, ~ (shown_at proj wide high a r px py /\ shown_at proj wide high a q px py).
Proof.
  intros P Sx Sy D X Y X' Y' W H W' H' N px py [(l & b & rt & t & E & Hx & Hy) (l' & b' & rt' & t' & E' & Hx' & Hy')]. apply N. clear N. assert (Pa : proper a) by (destruct P; split; lra).
  rewrite (extent_eq _ _ _ _ _ _ _ Pa X Y) in E. rewrite (extent_eq _ _ _ _ _ _ _ Pa X' Y') in E'. injection E as <- <- <- <-. injection E' as <- <- <- <-.
  unfold overlap, city_edges. rewrite (label_eq _ _ _ _ _ _ _ P X Y), (label_eq _ _ _ _ _ _ _ P X' Y'). cbn [b_left b_right b_bottom b_top fop].
  set (x := fst (proj lon lat)) in *. set (y := snd (proj lon lat)) in *. set (x' := fst (proj lon' lat')) in *. set (y' := snd (proj lon' lat')) in *. destruct P as [Px Py].
  set (s := x_scale clone) in *. set (s2 := y_scale clone) in *. set (S := x_scale a) in *. set (S2 := y_scale a) in *.
  (* the distance between the labels is at most the width of the left one *)
  assert (M : forall u u' w w' k K, 0 < k -> k <= K -> 0 <= w -> 0 <= w' -> K * u <= K * u' + w' -> K * u' <= K * u + w -> u <= u' + w' / k /\ u' <= u + w / k).
  { intros u u' w w' k K K0 KK W0 W0' A B. assert (I : forall d z, 0 <= z -> K * d <= z -> d <= z / k). { intros d z Z A1. apply Rmult_le_reg_l with k; [exact K0|]. replace (k * (z / k)) with z by (field; lra). destruct (Rle_dec d 0); nra. }
    split; [assert (u - u' <= w' / k) by (apply I; lra)|assert (u' - u <= w / k) by (apply I; lra)]; lra. }
  destruct (M x x' (wide r) (wide q) s S Px Sx W W' ltac:(lra) ltac:(lra)) as [Mx Mx'].
  destruct (M y y' ((high r + high q) / 2) ((high r + high q) / 2) s2 S2 Py Sy ltac:(lra) ltac:(lra) ltac:(lra) ltac:(lra)) as [My My'].
  assert (Q : forall z k, 0 < k -> 0 <= z -> 0 <= z / k) by (intros z k K Z; apply Rmult_le_pos; [exact Z|left; apply Rinv_0_lt_compat, K]).
  pose proof (Q _ _ Px W). pose proof (Q _ _ Px W'). pose proof (Q _ _ Py H). pose proof (Q _ _ Py H').
  replace ((high r + high q) / 2 / s2) with (high r / s2 / 2 + high q / s2 / 2) in My, My' by (field; lra).
  replace (high r / 2 / s2) with (high r / s2 / 2) by (field; lra). replace (high q / 2 / s2) with (high q / s2 / 2) by (field; lra).
  replace ((4 + wide r) / s) with (4 / s + wide r / s) by (field; lra). replace ((4 + wide q) / s) with (4 / s + wide q / s) by (field; lra).
  set (wr := wide r / s) in *. set (wq := wide q / s) in *. set (hr := high r / s2) in *. set (hq := high q / s2) in *. set (o := 4 / s) in *.
  assert (R1 : 0 <= (x + (o + wr) - (x + o)) * pad) by (apply Rmult_le_pos; lra). assert (R2 : 0 <= (x' + (o + wq) - (x' + o)) * pad) by (apply Rmult_le_pos; lra).
  assert (R3 : 0 <= (y + hr / 2 - (y - hr / 2)) * pad) by (apply Rmult_le_pos; lra). assert (R4 : 0 <= (y' + hq / 2 - (y' - hq / 2)) * pad) by (apply Rmult_le_pos; lra).
  exists (Rmax (x + o) (x' + o)), (Rmax (y - hr / 2) (y' - hq / 2)). pose proof (Rmax_l (x + o) (x' + o)). pose proof (Rmax_r (x + o) (x' + o)). pose proof (Rmax_l (y - hr / 2) (y' - hq / 2)). pose proof (Rmax_r (y - hr / 2) (y' - hq / 2)).
  assert (B1 : Rmax (x + o) (x' + o) <= x + (o + wr)) by (apply Rmax_lub; lra). assert (B2 : Rmax (x + o) (x' + o) <= x' + (o + wq)) by (apply Rmax_lub; lra).
  assert (B3 : Rmax (y - hr / 2) (y' - hq / 2) <= y + hr / 2) by (apply Rmax_lub; lra). assert (B4 : Rmax (y - hr / 2) (y' - hq / 2) <= y' + hq / 2) by (apply Rmax_lub; lra).
  split; do 4 eexists; repeat (split; [reflexivity|]); lra.
Qed.
(** If the axes of the map are at least as large as the hidden ones, no two labels that are drawn
    touch. *)
Theorem C133_apart : forall proj wide high clone a pad s x0 x1 y0 y1 f, sorts s -> complete f -> In (str_of "pop") (f_cols f) ->
  (forall r, In r (f_rows f) -> c_lon r <> None /\ c_lat r <> None /\ 0 <= wide r /\ 0 <= high r) -> 0 <= pad ->
  proper clone -> x_scale clone <= x_scale a -> y_scale clone <= y_scale a ->
  exists h, draw_cities (fun z => z) s (label_extents proj wide high clone) (Some pad) (Some x0) (Some x1) (Some y0) (Some y1) f = Ok h /\
    ForallOrdPairs (fun r q => forall px py, ~ (shown_at proj wide high a r px py /\ shown_at proj wide high a q px py)) (f_rows h).
Proof.
  intros proj wide high clone a pad s x0 x1 y0 y1 f Hs Hc Hp Hr D P Sx Sy.
  assert (So : forall r, In r (f_rows f) -> solid (city_edges (fun z => z) (label_extents proj wide high clone) (Some pad) r)).
  { intros r I. destruct (Hr r I) as (A & B & W & H). destruct (c_lon r) eqn:X; [|contradiction]. destruct (c_lat r) eqn:Y; [|contradiction]. eapply edges_solid; eassumption. }
  destruct (C36_draw (fun z => z) s (label_extents proj wide high clone) (Some pad) x0 x1 y0 y1 f Hs Hc Hp So) as (h & E & I & _ & F). exists h. split; [exact E|].
  clear E So. revert I F. generalize (f_rows h). intros l I F. induction F as [|r l F1 F IH]; [constructor|]. constructor; [|apply IH; intros q Q; apply I; right; exact Q].
  rewrite Forall_forall in *. intros q Q px py. specialize (F1 q Q). destruct (Hr r (I r (or_introl eq_refl))) as (A & B & W & H). destruct (Hr q (I q (or_intror Q))) as (A' & B' & W' & H').
  destruct (c_lon r) eqn:X; [|contradiction]. destruct (c_lat r) eqn:Y; [|contradiction]. destruct (c_lon q) eqn:X'; [|contradiction]. destruct (c_lat q) eqn:Y'; [|contradiction].
  intros [S1 S2]. exact (clear_on_larger proj wide high clone a pad q r _ _ _ _ P Sx Sy D X' Y' X Y W' H' W H F1 px py (conj S2 S1)).
Qed.
(** Otherwise they may: on smaller axes there are labels, clear of each other on the hidden axes,
    that cover the same pixels of the map. *)
Theorem C133_smaller_refuted : forall clone a pad, proper a -> 0 <= pad -> (1 + 2 * pad) * x_scale a < x_scale clone -> 0 < y_scale clone -> exists proj wide high r q,
  ~ overlap (city_edges (fun z => z) (label_extents proj wide high clone) (Some pad) r) (city_edges (fun z => z) (label_extents proj wide high clone) (Some pad) q) /\
  0 < wide r /\ 0 < wide q /\ 0 < high r /\ 0 < high q /\ exists px py, shown_at proj wide high a r px py /\ shown_at proj wide high a q px py.
Proof.
  intros clone a pad Pa D L Py. destruct Pa as [Pa Pa2]. assert (Pc : proper clone) by (split; nra). set (s := x_scale clone) in *. set (S := x_scale a) in *.
  set (place (x : R) := {| c_lat := Some 0; c_lon := Some x; c_pop := Some 0; c_other := fun _ => [] |} : city).
  exists (fun x y => (x, y)), (fun _ => 1), (fun _ => 1), (place 0), (place (/ S)). split.
  - intros (x & y & (l & r & b & t & E1 & E2 & _ & _ & [_ Hx] & _) & (l' & r' & b' & t' & E1' & E2' & _ & _ & [Hx' _] & _)).
    unfold city_edges in *. rewrite (label_eq _ _ _ _ (place 0) 0 0 Pc eq_refl eq_refl) in E2. rewrite (label_eq _ _ _ _ (place (/ S)) (/ S) 0 Pc eq_refl eq_refl) in E1'. cbn [b_left b_right fop fst snd] in *. fold s in E2, E1'. injection E2 as <-. injection E1' as <-.
    assert (K : / S * s > 1 + 2 * pad). { apply Rlt_gt. apply Rmult_lt_reg_l with S; [exact Pa|]. replace (S * (/ S * s)) with s by (field; lra). lra. }
    assert (s0 : 0 < s) by (destruct Pc; assumption). assert (A : (/ S + 4 / s - (/ S + (4 + 1) / s - (/ S + 4 / s)) * pad) <= 0 + (4 + 1) / s + (0 + (4 + 1) / s - (0 + 4 / s)) * pad) by lra.
    apply (Rmult_le_compat_r s) in A; [|lra]. replace ((/ S + 4 / s - (/ S + (4 + 1) / s - (/ S + 4 / s)) * pad) * s) with (/ S * s + 4 - pad) in A by (field; lra). replace ((0 + (4 + 1) / s + (0 + (4 + 1) / s - (0 + 4 / s)) * pad) * s) with (5 + pad) in A by (field; lra). lra.
  - repeat (split; [lra|]). exists (x_offset a + 5), (y_offset a). split; do 4 eexists.
    + split; [apply (extent_eq _ _ _ _ (place 0) 0 0 (conj Pa Pa2) eq_refl eq_refl)|]. cbn [fst snd]. lra.
    + split; [apply (extent_eq _ _ _ _ (place (/ S)) (/ S) 0 (conj Pa Pa2) eq_refl eq_refl)|]. cbn [fst snd]. fold S. rewrite Rinv_r by lra. lra.
Qed.
(** All getters but getAxesClone give an attribute of the map. *)
Theorem C133_getters : forall name, In name ["figure"; "axes"; "proj"; "geoproj"; "getFigureClone"; "getFonts"]%string -> exists k, getter name = Ok k /\ In k attributes.
Proof. intros name I. cbn [In] in I. repeat (destruct I as [<-|I]; [eexists; split; [vm_compute; reflexivity|vm_compute; tauto]|]). destruct I. Qed.
Theorem C133_clone_refuted : getter "getAxesClone" = Err AttributeError.
Proof. vm_compute. reflexivity. Qed.
Print Assumptions C133_offset.
Print Assumptions C133_apart.
Print Assumptions C133_smaller_refuted.
Print Assumptions C133_getters.
Print Assumptions C133_clone_refuted.
(** Axes that fill nine tenths of the figure, without padding. *)
Example C133_example : exists proj wide high r q px py,
  ~ overlap (city_edges (fun z => z) (label_extents proj wide high (mkaxes 100 0 100 0)) (Some 0) r) (city_edges (fun z => z) (label_extents proj wide high (mkaxes 100 0 100 0)) (Some 0) q) /\
  shown_at proj wide high (mkaxes 90 5 90 5) r px py /\ shown_at proj wide high (mkaxes 90 5 90 5) q px py.
Proof.
  destruct (C133_smaller_refuted (mkaxes 100 0 100 0) (mkaxes 90 5 90 5) 0) as (proj & wide & high & r & q & N & _ & _ & _ & _ & px & py & A & B); [split; cbn; lra|lra|cbn; lra|cbn; lra|].
  exists proj, wide, high, r, q, px, py. auto.
Qed.
