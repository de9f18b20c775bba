(** Properties C51 (quadrilaterals of a rupture), C52 and C53 (edge ruptures). *)
From Coq Require Import ZArith Reals String Ascii Bool List Lia Lra.
From Verif Require Import PyBase PyStr VecModel VecProofs GeoModel GeoTrig RuptModel RuptSpec RuptProofs RuptProps EcefProps FrameProps PolyModel PolySpec PolyProofs QuadProofs EdgeProofs EquatorProofs.
Import ListNotations.
Open Scope nat_scope.

(** A quadrilateral laid on a patch: its corners are the patch's up to rounding, except that the
    lower right one is moved to lie in the direction of the top edge from the lower left one, at
    the length of the bottom edge. *)
Definition laid (c : patch) (q : quad) : Prop :=
  nearly (q0 q) (p_tl c) /\ nearly (q1 q) (p_tr c) /\ nearly (q3 q) (p_bl c) /\
  exists w, q2 q = to_point w /\ dist w (ecef (p_bl c)) = dist (ecef (p_br c)) (ecef (p_bl c)) /\
  exists k, (0 <= k)%R /\ vsub w (ecef (p_bl c)) = vscale k (vsub (ecef (p_tr c)) (ecef (p_tl c))).
Definition turned (q : quad) : quad := mkquad (q1 q) (q0 q) (q3 q) (q2 q).
Definition made_from (c : patch) (q : quad) : Prop := exists q', laid c q' /\ (q = q' \/ q = turned q').
Lemma as_point_ok v p : as_point (Some v) = Ok p -> p = to_point v.
Proof. unfold as_point. destruct (to_point v) as [[lon lat] dep]. intro H. apply new_point_ok in H. apply H. Qed.
Lemma as_point_err o e : as_point o = Err e -> e = ValueError.
Proof. unfold as_point. destruct o as [v|]; [|congruence]. destruct (to_point v) as [[lon lat] dep]. destruct (new_point_cases lon lat dep) as [[_ E]|[_ E]]; rewrite E; congruence. Qed.
Lemma trip v : nearly (to_point (ecef v)) v.
Proof.
  destruct v as [[lon lat] dep]. unfold nearly, ecef. pose proof (C44_point lon lat dep) as H. destruct (to_point (from_point lon lat dep)) as [[lon' lat'] dep']. auto.
Qed.
Lemma becomes_made c q : becomes c q -> made_from c q.
Proof.
  intros (_ & _ & _ & _ & t & E & ->). destruct c as [tl tr br bl]. cbn [p_tl p_tr p_br p_bl] in *. unfold plane_quad in E. cbn [q0 q1 q2 q3] in E. set (p0 := ecef tl) in *. set (p1 := ecef tr) in *. set (p2 := ecef br) in *. set (p3 := ecef bl) in *.
  destruct (is_quad p0 p1 p2 p3) as [on new] eqn:Eq. destruct (as_point (Some p0)) as [a|] eqn:Ea; [|discriminate]. destruct (as_point (Some p1)) as [b|] eqn:Eb; [|discriminate]. cbn [bind] in E. destruct (as_point new) as [c|] eqn:Ec; [|discriminate]. destruct (as_point (Some p3)) as [d|] eqn:Ed; [|discriminate]. cbn [bind] in E. injection E as <-. cbn [snd].
  apply as_point_ok in Ea, Eb, Ed. destruct new as [w|]; [|discriminate]. apply as_point_ok in Ec. subst a b c d.
  assert (N : p0 <> p1). { intro X. assert (Y : snd (is_quad p0 p1 p2 p3) = Some w) by (rewrite Eq; reflexivity). unfold is_quad in Y. cbn [snd] in Y. rewrite X in Y. unfold norm in Y. assert (Z : mag (vsub p1 p1) = 0%R) by (apply mag_zero; unfold vsub, v0; f_equal; ring). rewrite Z, reqd_refl in Y. discriminate. }
  destruct (C49_fixed p0 p1 p2 p3 N) as (w' & W & D & K & _). rewrite Eq in W. cbn [snd] in W. injection W as <-.
  exists (mkquad (to_point p0) (to_point p1) (to_point w) (to_point p3)). split.
  - split; [apply trip|]. split; [apply trip|]. split; [apply trip|]. exists w. split; [reflexivity|]. split; [exact D|exact K].
  - unfold fix_strike_direction. cbn [q0 q1 q2 q3]. destruct (norm _); [|right; reflexivity]. destruct (ecef2latlon _ _ _) as [[x y] z]. destruct (rltb _ _); [left; reflexivity|right; reflexivity].
Qed.
(** n top and n bottom vertices make n - 1 quadrilaterals, the k-th from the k-th and next
    vertices of both edges, group by group; every vertex used lies on the earth. *)
Theorem C51_quads : forall edges polys qs gi, Forall2 (fun e p => outline_of_edges (fst e) (snd e) p) edges polys -> set_quadrilaterals polys = Ok (qs, gi) ->
  exists pss, Forall2 (fun e ps => patches (fst e) (snd e) ps) edges pss /\ Forall2 made_from (concat pss) qs /\ gi = numbered 0 pss /\
  Forall (fun c => on_earth (p_tl c) /\ on_earth (p_tr c) /\ on_earth (p_br c) /\ on_earth (p_bl c)) (concat pss).
Proof.
  intros edges polys qs gi F. rewrite set_quads_eq. generalize 0 as g. revert qs gi. induction F as [|[top bot] p edges polys O F IH]; intros qs gi g; cbn [by_polygon].
  - intro H. injection H as <- <-. exists []. repeat split; constructor.
  - cbn [fst snd] in O. destruct (outline_length _ _ _ O) as [Lp L0]. destruct O as (f & rest & Et & Lb & Ep). assert (Er : removelast p = top ++ rev bot) by (rewrite Ep, app_assoc; apply removelast_last). rewrite Er.
    assert (Eq : quad_count (length (map Some (top ++ rev bot))) = length top - 1) by (rewrite map_length, app_length, rev_length, Lb; apply quad_count_even). rewrite Eq.
    destruct (group_quads (map Some (top ++ rev bot)) (seq 0 (length top - 1))) as [qa|] eqn:G; [|discriminate]. cbn [bind]. destruct (by_polygon polys (g + 1)) as [[q2 g2]|] eqn:B; [|discriminate]. cbn [bind fst snd]. intro H. injection H as <- <-.
    assert (J : forall j, In j (seq 0 (length top - 1)) -> j + 1 < length top) by (intros j J; apply in_seq in J; lia).
    destruct (group_quads_rec top bot Lb _ _ J G) as (ps & F1 & F2). destruct (IH q2 g2 (g + 1) B) as (pss & H1 & H2 & H3 & H4). pose proof (patches_of top bot ps Lb L0 F2) as P. destruct (patches_count _ _ _ P) as [C _].
    exists (ps :: pss). split; [constructor; assumption|]. cbn [concat numbered]. split; [apply Forall2_app; [|exact H2]|split].
    + clear - F1. induction F1; constructor; [apply becomes_made; assumption|assumption].
    + replace (length top - 1) with (length ps) by lia. rewrite H3. replace (g + 1) with (S g) by lia. reflexivity.
    + apply Forall_app. split; [|exact H4]. clear - F1. induction F1 as [|c q ps qs (A & B & C & D & _) F IH]; constructor; auto.
Qed.
Print Assumptions C51_quads.
(** The only failure is ValueError. *)
Theorem C51_errors : forall polys e, Forall well_ordered polys -> set_quadrilaterals polys = Err e -> e = ValueError.
Proof.
  intros polys e W. rewrite set_quads_eq. generalize 0 as g. induction W as [|p polys W F IH]; intros g; cbn [by_polygon]; [discriminate|].
  assert (G : forall e, group_quads (map Some (removelast p)) (seq 0 (quad_count (length (map Some (removelast p))))) = Err e -> e = ValueError).
  { destruct W as [[v ->]|(top & bot & O & _)]; [cbn; discriminate|]. destruct (outline_length _ _ _ O) as [Lp L0]. destruct O as (f & rest & Et & Lb & Ep). assert (Er : removelast p = top ++ rev bot) by (rewrite Ep, app_assoc; apply removelast_last). rewrite Er.
    assert (Eq : quad_count (length (map Some (top ++ rev bot))) = length top - 1) by (rewrite map_length, app_length, rev_length, Lb; apply quad_count_even). rewrite Eq.
    assert (J : forall j, In j (seq 0 (length top - 1)) -> j + 1 < length top) by (intros j J; apply in_seq in J; lia). revert J. generalize (seq 0 (length top - 1)) as js. induction js as [|j js IHj]; intros J e'; cbn [group_quads]; [discriminate|].
    pose proof (J j (or_introl eq_refl)) as Jj. unfold nth_end. replace (j + 2 - 1) with (j + 1) by lia. replace (j + 1 - 1) with j by lia. rewrite !nth_error_map, <- !map_rev, !nth_error_map, !nth_error_rev_app.
    assert (T : forall o e'', the_point (option_map Some o) = Err e'' -> o <> None -> e'' = ValueError). { intros [[[lon lat] dep]|] e''; [|congruence]. cbn [option_map the_point]. destruct (new_point_cases lon lat dep) as [[_ X]|[_ X]]; rewrite X; congruence. }
    destruct (the_point (option_map Some (nth_error (top ++ rev bot) j))) as [P0|e0] eqn:T0; cbn [bind]; [|intro H; injection H as <-; apply (T _ _ T0); rewrite nth_error_first by lia; apply nth_error_Some; lia].
    destruct (the_point (option_map Some (nth_error (top ++ rev bot) (j + 1)))) as [P1|e1] eqn:T1; cbn [bind]; [|intro H; injection H as <-; apply (T _ _ T1); rewrite nth_error_first by lia; apply nth_error_Some; lia].
    destruct (the_point (option_map Some (nth_error (bot ++ rev top) (j + 1)))) as [P2|e2] eqn:T2; cbn [bind]; [|intro H; injection H as <-; apply (T _ _ T2); rewrite nth_error_first by lia; apply nth_error_Some; lia].
    destruct (the_point (option_map Some (nth_error (bot ++ rev top) j))) as [P3|e3] eqn:T3; cbn [bind]; [|intro H; injection H as <-; apply (T _ _ T3); rewrite nth_error_first by lia; apply nth_error_Some; lia].
    destruct (plane_quad (mkquad P0 P1 P2 P3)) as [t|ep] eqn:Ep'; cbn [bind].
    - destruct (group_quads (map Some (top ++ rev bot)) js) as [r|er] eqn:Egr; cbn [bind]; [discriminate|]. intro H. injection H as <-. apply (IHj (fun k K => J k (or_intror K))). reflexivity.
    - intro H. injection H as <-. unfold plane_quad in Ep'. cbn [q0 q1 q2 q3] in Ep'. destruct (is_quad _ _ _ _) as [on new]. destruct (as_point (Some (ecef P0))) eqn:A0; cbn [bind] in Ep'; [|injection Ep' as <-; apply (as_point_err _ _ A0)]. destruct (as_point (Some (ecef P1))) eqn:A1; cbn [bind] in Ep'; [|injection Ep' as <-; apply (as_point_err _ _ A1)].
      destruct (as_point new) eqn:A2; cbn [bind] in Ep'; [|injection Ep' as <-; apply (as_point_err _ _ A2)]. destruct (as_point (Some (ecef P3))) eqn:A3; cbn [bind] in Ep'; [discriminate|injection Ep' as <-; apply (as_point_err _ _ A3)]. }
  destruct (group_quads _ _) as [qs|e'] eqn:Eg; cbn [bind]; [|intro H; injection H as <-; apply G; reflexivity]. destruct (by_polygon polys (g + 1)) as [r|e'] eqn:B; cbn [bind]; [discriminate|]. intro H. injection H as <-. apply (IH _ B).
Qed.
Print Assumptions C51_errors.
Lemma three_squares a b c : (a ^ 2 + b ^ 2 + c ^ 2 <= 0 -> a = 0 /\ b = 0 /\ c = 0)%R.
Proof. intro H. pose proof (pow2_ge_0 a). pose proof (pow2_ge_0 b). pose proof (pow2_ge_0 c). repeat split; apply Rsqr_0_uniq; unfold Rsqr; nra. Qed.
(** The moved corner is where it was iff the bottom edge points the way the top edge does; so
    adjoining quadrilaterals share their lower corner only then. *)
Theorem C51_moved : forall p0 p1 p2 p3, p0 <> p1 -> exists w, snd (is_quad p0 p1 p2 p3) = Some w /\
  (w = p2 <-> exists k, (0 <= k)%R /\ vsub p2 p3 = vscale k (vsub p1 p0)).
Proof.
  intros p0 p1 p2 p3 N. destruct (C49_fixed p0 p1 p2 p3 N) as (w & W & D & (k & K & E) & _). exists w. split; [exact W|]. split; [intros ->; eauto|]. intros (k' & K' & E').
  assert (P : (0 < sq (vsub p1 p0))%R). { destruct (Rle_lt_dec (sq (vsub p1 p0)) 0) as [H|H]; [|exact H]. exfalso. apply N. unfold sq, vsub in H. cbn [vx vy vz] in H. destruct (three_squares _ _ _ H) as (X & Y & Z). apply vec_ext; lra. }
  assert (Q : (k * k = k' * k')%R).
  { rewrite !dist_sq in D. apply sqrt_inj in D; [|apply sq_nonneg|apply sq_nonneg]. rewrite E, E', !scaled_sq in D. apply Rmult_eq_reg_r in D; lra. }
  assert (k = k') by nra. subst k'. rewrite <- E in E'. unfold vsub in E'. injection E' as E1 E2 E3. apply vec_ext; lra.
Qed.
Print Assumptions C51_moved.
(** A quadrilateral keeps its direction iff one metre along its upward normal (second edge by first,
    from the first corner) does not go down by a millimetre or more; a degenerate one is turned round. *)
Theorem C51_direction : forall q,
  let c := vcross (vsub (ecef (q2 q)) (ecef (q0 q))) (vsub (ecef (q1 q)) (ecef (q0 q))) in
  (c = v0 /\ fix_strike_direction q = turned q) \/
  exists n k, (0 < k)%R /\ n = vscale k c /\ mag n = 1%R /\
    let sinks := (0.000001 <= snd (to_point (vadd (ecef (q0 q)) n)) - snd (q0 q))%R in
    (sinks /\ fix_strike_direction q = turned q) \/ (~ sinks /\ fix_strike_direction q = q).
Proof.
  intros q c. unfold fix_strike_direction. fold c. destruct (norm c) as [n|] eqn:E.
  - right. apply norm_some in E. destruct E as (M & _ & D & Nn). exists n, (/ mag c)%R. split; [apply Rinv_0_lt_compat; exact M|]. split; [exact Nn|]. split; [rewrite mag_dot, D; apply sqrt_1|].
    unfold to_point. destruct (ecef2latlon _ _ _) as [[lat lon] z]. cbn [snd]. destruct (q0 q) as [[lon0 lat0] dep0]. cbn [depth_of snd] in *. replace (/ 10 ^ 6)%R with 0.000001%R by lra. destruct (rltb (z - dep0) 0.000001) eqn:L.
    + right. apply rltb_iff in L. split; [lra|reflexivity].
    + left. apply rltb_f in L. split; [lra|reflexivity].
  - left. split; [|reflexivity]. apply norm_none. exact E.
Qed.
Print Assumptions C51_direction.

(** ** Outlines *)
Lemma Forall2_len {A B} (P : A -> B -> Prop) l m : Forall2 P l m -> length l = length m.
Proof. induction 1; cbn; congruence. Qed.
Lemma Forall2_concat {A B} (P : A -> B -> Prop) ls : forall l, Forall2 P (concat ls) l -> exists ms, l = concat ms /\ Forall2 (Forall2 P) ls ms.
Proof.
  induction ls as [|x ls IH]; intros l H; [inversion H; exists []; split; [reflexivity|constructor]|]. cbn [concat] in H. apply Forall2_app_inv_l in H. destruct H as (a & b & F1 & F2 & ->). destruct (IH b F2) as (ms & -> & F). exists (a :: ms). split; [reflexivity|constructor; assumption].
Qed.
Lemma laid_line top bot ps qs : patches top bot ps -> Forall2 laid ps qs ->
  Forall2 nearly (map q1 qs) (tl top) /\ length (map q2 qs) = length (tl bot) /\ forall q qs', qs = q :: qs' -> nearly (q0 q) (hd (0, 0, 0)%R top) /\ nearly (q3 q) (hd (0, 0, 0)%R bot).
Proof.
  intros P. revert qs. induction P as [t b|t t' ts b b' bs ps P IH]; intros qs F; inversion F as [|? q ? qs' L F']; subst.
  - split; [constructor|]. split; [reflexivity|discriminate].
  - destruct (IH qs' F') as (I1 & I2 & _). destruct L as (L0 & L1 & L3 & _). cbn [p_tl p_tr p_bl tl hd] in *. split; [constructor; assumption|]. split; [cbn [map length]; rewrite I2; reflexivity|]. intros q' qs'' E. injection E as -> ->. auto.
Qed.
(** When no quadrilateral was turned round, the outline of each group is a closed ring along the
    vertices of the top edge and back along as many bottom vertices, ended by not-a-number. *)
Theorem C51_outline : forall edges polys qs gi pss, Forall2 (fun e p => outline_of_edges (fst e) (snd e) p) edges polys ->
  Forall (fun e => 2 <= length (fst e)) edges -> set_quadrilaterals polys = Ok (qs, gi) ->
  Forall2 (fun e ps => patches (fst e) (snd e) ps) edges pss -> Forall2 laid (concat pss) qs ->
  exists rings, outline qs gi = concat (map (fun r => map Some r ++ [None]) rings) /\
  Forall2 (fun e r => exists top b bot, outline_of_edges top (b :: bot) r /\ Forall2 nearly top (fst e) /\ nearly b (hd (0, 0, 0)%R (snd e)) /\ length (b :: bot) = length (snd e)) edges rings.
Proof.
  intros edges polys qs gi pss O L2 Q P D. destruct (C51_quads _ _ _ _ O Q) as (pss' & P' & _ & -> & _). assert (pss' = pss). { clear - P P'. revert pss' P'. induction P as [|e ps edges pss H F IH]; intros pss' P'; inversion P'; subst; [reflexivity|]. f_equal; [eapply patches_fun; eassumption|apply IH; assumption]. } subst pss'. clear P' Q O polys.
  apply Forall2_concat in D. destruct D as (qss & -> & D). assert (NE : Forall (fun l => l <> []) qss). { clear - P D L2. revert pss qss P D. induction L2 as [|e edges L F IH]; intros pss qss P D; inversion P as [|? ps ? pss' H P']; subst; inversion D as [|? q ? qss' H' D']; subst; [constructor|]. constructor; [|eapply IH; eassumption]. destruct (patches_count _ _ _ H) as [C _]. apply Forall2_len in H'. intro E. subst q. cbn in H'. lia. }
  rewrite (numbered_shape pss qss); [|clear - D; induction D as [|a b ? ? H D IH]; constructor; [eapply Forall2_len; exact H|exact IH]]. rewrite (outline_blocks _ NE).
  clear - P D NE L2. revert edges L2 P. induction D as [|ps q pss qss H D IH]; intros edges L2 P; inversion P as [|e ? edges' ? He P']; subst; [exists []; split; [reflexivity|constructor]|].
  inversion NE; subst. inversion L2; subst. destruct (IH H3 edges' H5 P') as (rings & E & F). destruct e as [top bot]. cbn [fst snd] in *. destruct q as [|f q]; [congruence|].
  destruct (laid_line _ _ _ _ He H) as (N1 & N2 & N0). destruct (N0 f q eq_refl) as [NA NB]. destruct (patches_count _ _ _ He) as [C1 C2]. destruct top as [|t top]; [discriminate|]. destruct bot as [|b bot]; [discriminate|]. cbn [tl hd] in *.
  exists (((q0 f :: map q1 (f :: q)) ++ rev (q3 f :: map q2 (f :: q)) ++ [q0 f]) :: rings). split.
  - cbn [flat_map map concat]. rewrite E. reflexivity.
  - constructor; [|exact F]. cbn [fst snd hd]. exists (q0 f :: map q1 (f :: q)), (q3 f), (map q2 (f :: q)). split; [|split; [constructor; assumption|split; [exact NB|cbn [length]; f_equal; exact N2]]].
    exists (q0 f), (map q1 (f :: q)). split; [reflexivity|]. split; [cbn [length]; rewrite !map_length; reflexivity|reflexivity].
Qed.
Print Assumptions C51_outline.
(** When they all were turned round, the outline of two or more adjoining quadrilaterals starts at the
    second vertex of the top edge, goes along all but the last, and never reaches that one. *)
Theorem C51_outline_turned : forall top last prev qs f g r, map q0 qs = top -> top = f :: g :: r -> (forall j q q', nth_error qs j = Some q -> nth_error qs (S j) = Some q' -> q1 q = q0 q') ->
  q1 (List.last qs (mkquad prev prev prev prev)) = last -> ~ In last top -> (forall q, In q qs -> q2 q <> last /\ q3 q <> last) ->
  ~ In (Some last) (outline_of (map turned qs)) /\ exists rest, outline_of (map turned qs) = Some g :: map Some top ++ rest.
Proof.
  intros top last prev qs f g r Et Efg A El N B. destruct qs as [|x [|y qs]]; [cbn in Et; congruence|cbn in Et; congruence|]. cbn [map] in *. rewrite Efg in Et. injection Et as E1 E2 E3. pose proof (A 0 x y eq_refl eq_refl) as Axy. unfold outline_of. cbn [map]. split.
  - rewrite in_app_iff, in_map_iff. intros [(v & E & V)|[E|[]]]; [|discriminate]. injection E as ->. rewrite !in_app_iff, <- in_rev in V. subst top.
    assert (M : forall l : list quad, map q1 (map turned l) = map q0 l) by (intro l; rewrite map_map; apply map_ext; intros []; reflexivity).
    assert (M2 : forall l : list quad, map q2 (map turned l) = map q3 l) by (intro l; rewrite map_map; apply map_ext; intros []; reflexivity).
    cbn [turned q0 q1 q2 q3] in V. rewrite M, M2 in V. destruct x as [x0 x1 x2 x3], y as [y0 y1 y2 y3]. cbn [q0 q1 q2 q3 In] in *. rewrite E3 in V.
    destruct V as [[V|[V|[V|V]]]|[[V|[V|[V|V]]]|[V|[]]]].
    + apply N. right. left. congruence.
    + apply N. left. congruence.
    + apply N. right. left. congruence.
    + apply N. right. right. exact V.
    + destruct (B _ (or_introl eq_refl)) as [B1 B2]. cbn in B1, B2. congruence.
    + destruct (B _ (or_introl eq_refl)) as [B1 B2]. cbn in B1, B2. congruence.
    + destruct (B _ (or_intror (or_introl eq_refl))) as [B1 B2]. cbn in B1, B2. congruence.
    + apply in_map_iff in V. destruct V as (z & Z & I). destruct (B z (or_intror (or_intror I))) as [B1 B2]. congruence.
    + apply N. right. left. congruence.
  - exists (map Some (rev (q3 (turned x) :: q2 (turned x) :: q2 (turned y) :: map q2 (map turned qs)) ++ [q0 (turned x)]) ++ [None]).
    assert (M : map q1 (map turned qs) = map q0 qs) by (rewrite map_map; apply map_ext; intros []; reflexivity). rewrite M. destruct x as [x0 x1 x2 x3], y as [y0 y1 y2 y3]. cbn [turned q0 q1 q2 q3] in *. subst. cbn [map app]. rewrite !map_app, <- !app_assoc. reflexivity.
Qed.
Print Assumptions C51_outline_turned.

(** One vertical patch along the equator: it is read as it is, in its direction. *)
Definition ex_top : list point := [(0, 0, 0); (-1, 0, 0)]%R.
Definition ex_bot : list point := [(0, 0, 10); (-1, 0, 10)]%R.
Definition ex_poly : list point := [(0, 0, 0); (-1, 0, 0); (-1, 0, 10); (0, 0, 10); (0, 0, 0)]%R.
Example C51_ex : Forall2 (fun e p => outline_of_edges (fst e) (snd e) p) [(ex_top, ex_bot)] [ex_poly] /\ set_quadrilaterals [ex_poly] = Ok ([wall (-1) 10], [0]) /\ Forall well_ordered [ex_poly].
Proof.
  assert (O : outline_of_edges ex_top ex_bot ex_poly) by (exists (0, 0, 0)%R, [(-1, 0, 0)%R]; repeat split). split; [constructor; [exact O|constructor]|]. split.
  - rewrite set_quads_eq. unfold ex_poly. cbn [by_polygon removelast map length app group_quads]. change (quad_count 4) with 1. cbn [seq group_quads nth_end nth_error rev app Nat.sub Nat.add].
    assert (P : forall lon dep, (-180 < lon <= 180 -> -8 < dep <= 1000 -> the_point (Some (Some (lon, 0, dep))) = Ok (lon, 0, dep))%R) by (intros lon dep H1 H2; apply the_point_some; split; [reflexivity|unfold on_earth; lra]).
    rewrite !P by lra. cbn [bind]. fold (wall (-1) 10). destruct (wall_plane (-1) 10 ltac:(lra) ltac:(lra)) as (on & E). rewrite E. cbn [bind snd app]. rewrite (wall_direction (-1) 10) by lra. reflexivity.
  - constructor; [|constructor]. right. exists ex_top, ex_bot. split; [exact O|]. unfold ex_top, ex_bot. constructor; [unfold shallower; cbn; lra|constructor; [unfold shallower; cbn; lra|constructor]].
Qed.
(** Its outline; the hypotheses of [C51_outline] hold. *)
Example C51_ex_outline : Forall (fun e => 2 <= length (fst e)) [(ex_top, ex_bot)] /\
  (exists pss, Forall2 (fun e ps => patches (fst e) (snd e) ps) [(ex_top, ex_bot)] pss /\ Forall2 laid (concat pss) [wall (-1) 10]) /\
  outline [wall (-1) 10] [0] = map Some ex_poly ++ [None].
Proof.
  split; [constructor; [cbn; lia|constructor]|]. split; [|reflexivity]. exists [[mkpatch (0, 0, 0) (-1, 0, 0) (-1, 0, 10) (0, 0, 10)]]%R. split; [constructor; [repeat constructor|constructor]|].
  cbn [concat app]. constructor; [|constructor]. unfold laid, wall. cbn [q0 q1 q2 q3 p_tl p_tr p_br p_bl].
  assert (Nr : forall v, nearly v v). { intros [[lon lat] dep]. unfold nearly. intros _ _ _. replace (lat - lat)%R with 0%R by ring. replace (dep - dep)%R with 0%R by ring. rewrite Rabs_R0. split; [reflexivity|]. split; lra. }
  split; [apply Nr|]. split; [apply Nr|]. split; [apply Nr|]. exists (ecef (-1, 0, 10)%R). split; [symmetry; apply trip_equator; [lra|apply Rabs_le; lra]|]. split; [reflexivity|]. rewrite !equator_ecef, deg0, sin_0, cos_0. exists ((WGS84_A - 1000 * 10) / WGS84_A)%R. split; [unfold WGS84_A; lra|]. unfold vsub, vscale, WGS84_A. apply vec_ext; cbn [vx vy vz]; field.
Qed.
(** The corner that stays. *)
Example C51_ex_moved : mkvec 0 0 0 <> mkvec 1 0 0. Proof. intro H. injection H as H. lra. Qed.
(** Both directions occur: a patch, and the same patch from the other end. *)
Example C51_ex_direction : fix_strike_direction (wall (-1) 10) = wall (-1) 10 /\ fix_strike_direction (mkquad (0, 0, 0) (0, 0, 0) (0, 0, 1) (0, 0, 1))%R = mkquad (0, 0, 0)%R (0, 0, 0)%R (0, 0, 1)%R (0, 0, 1)%R.
Proof. split; [apply wall_direction; lra|]. destruct (C51_direction (mkquad (0, 0, 0) (0, 0, 0) (0, 0, 1) (0, 0, 1))%R) as [[_ E]|(n & k & _ & _ & _ & [[_ E]|[_ E]])]; exact E. Qed.
(** Two adjoining quadrilaterals turned round. *)
Example C51_ex_turned : let a := (0, 0, 0)%R in let b := (1, 0, 0)%R in let c := (2, 0, 0)%R in let d := (0, 0, 9)%R in let e := (1, 0, 9)%R in let f := (2, 0, 9)%R in
  ~ In (Some c) (outline_of (map turned [mkquad a b e d; mkquad b c f e])) /\ outline_of (map turned [mkquad a b e d; mkquad b c f e]) = map Some [b; a; b; e; d; e; b] ++ [None].
Proof.
  intros a b c d e f. split; [|reflexivity]. apply (C51_outline_turned [a; b] c a [mkquad a b e d; mkquad b c f e] a b []); [reflexivity|reflexivity| |reflexivity| |].
  - intros [|[|j]] q q' H1 H2; cbn in H1, H2; [injection H1 as <-; injection H2 as <-; reflexivity|discriminate|destruct j; discriminate].
  - intros [H|[H|[]]]; unfold a, b, c in H; injection H; intros; lra.
  - intros q [<-|[<-|[]]]; cbn [q2 q3]; unfold c, d, e, f; split; intro H; injection H; intros; lra.
Qed.
