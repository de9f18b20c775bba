(** Proofs about the constructors of quadrilateral ruptures. *)
From Coq Require Import ZArith Reals String Ascii Bool List Lia Lra.
From Verif Require Import PyBase PyStr VecModel VecProofs GeoModel GeoTrig GeoSpec GeoProofs RuptModel PolyModel PolySpec PolyProofs QuadProofs EdgeProofs SphereProps BuildModel BuildSpec.
Import ListNotations.
Open Scope nat_scope.

(** ** Arrays *)
Lemma chain_eq_iff l : chain_eq l = true <-> forall a b, In a l -> In b l -> a = b.
Proof.
  induction l as [|a [|b l] IH]; [split; [intros _ x y []|reflexivity]|split; [intros _ x y [<-|[]] [<-|[]]; reflexivity|reflexivity]|].
  change (chain_eq (a :: b :: l)) with ((a =? b) && chain_eq (b :: l))%bool. rewrite andb_true_iff, IH, Nat.eqb_eq. split.
  - intros [-> H] x y [<-|X] [<-|Y]; [reflexivity|apply H; [left; reflexivity|exact Y]|apply H; [exact X|left; reflexivity]|apply H; assumption].
  - intros H. split; [apply H; cbn; auto|]. intros x y X Y. apply H; right; assumption.
Qed.
Lemma zip3_columns {A} (f : A -> vertex) l : zip3 (map (fun c => lon_of (f c)) l) (map (fun c => lat_of (f c)) l) (map (fun c => dep_of (f c)) l) = map f l.
Proof. induction l as [|c l IH]; [reflexivity|]. cbn [map zip3]. rewrite IH. f_equal. unfold lon_of, lat_of, dep_of. destruct (f c) as [[x y] z]. reflexivity. Qed.
Lemma where_first g gi {A} (l r : list A) x : picks g gi l (x :: r) -> exists k ks, where_group g gi = k :: ks /\ nth_error l k = Some x.
Proof.
  intro P. apply picks_take0 in P. destruct (where_group g gi) as [|k ks]; [discriminate|]. exists k, ks. split; [reflexivity|]. cbn [take] in P. destruct (nth_error l k) as [y|]; [|discriminate]. destruct (take l ks); [|discriminate]. cbn [bind] in P. congruence.
Qed.
Lemma picks_map {A B} (f : A -> B) g gi l r : picks g gi l r -> picks g gi (map f l) (map f r).
Proof. induction 1; cbn [map]; constructor; assumption. Qed.
Lemma picks_some {A} g gi (l : list A) : length l = length gi -> In g gi -> exists x r, picks g gi l (x :: r).
Proof.
  intros L I. destruct (picks_total g gi l L) as ([|x r] & P & C); [|eauto]. apply count_occ_In with (eq_dec := Nat.eq_dec) in I. cbn in C. lia.
Qed.
Lemma follows_fun c l a : follows c l a -> forall b, follows c l b -> a = b.
Proof. induction 1; intros b H'; inversion H'; subst; [reflexivity|]. f_equal. auto. Qed.
Lemma follows_exists l : forall c, exists l', follows c l l'.
Proof. induction l as [|d l IH]; intro c; [exists []; constructor|]. destruct (IH d) as (l' & H). eexists. constructor. exact H. Qed.
Lemma follows_length c l l' : follows c l l' -> length l' = length l.
Proof. induction 1; cbn; congruence. Qed.
Lemma follows_joined l : forall c, joined (c :: l) -> follows c l l.
Proof. induction l as [|d l IH]; intros c J; [constructor|]. inversion J; subst. specialize (IH d H4). destruct d as [tl tr br bl]. cbn [p_tl p_bl] in *. subst. constructor. exact IH. Qed.
Lemma pulled_joined l : joined l -> pulled l l.
Proof. destruct l as [|c l]; intro J; [left; auto|]. right. exists c, l, l. repeat split. apply follows_joined. exact J. Qed.
Lemma follows_patches l : forall c l', follows c l l' -> patches (p_tr c :: map p_tr l) (p_br c :: map p_br l) l'.
Proof. induction l as [|d l IH]; intros c l' F; inversion F; subst; cbn [map]; constructor. apply IH. assumption. Qed.
Lemma pulled_patches c l l' : follows c l l' -> patches (p_tl c :: map p_tr (c :: l)) (p_bl c :: map p_br (c :: l)) (c :: l').
Proof. intro F. apply follows_patches in F. cbn [map]. destruct c as [tl tr br bl]. cbn [p_tl p_tr p_br p_bl] in *. constructor. exact F. Qed.
(** The polygons. *)
Lemma quad_polygons_ok ps gi : length ps = length gi -> forall ids, (forall g, In g ids -> In g gi) ->
  exists ms polys, quad_polygons (map p_tl ps) (map p_tr ps) (map p_br ps) (map p_bl ps) gi ids = Ok polys /\ Forall2 (fun g m => picks g gi ps m) ids ms /\
  Forall2 (fun m p => exists c r, m = c :: r /\ p = p_tl c :: map p_tr m ++ rev (map p_br m) ++ [p_bl c; p_tl c]) ms polys.
Proof.
  intros L. induction ids as [|g ids IH]; intros I; [exists [], []; repeat split; constructor|].
  destruct (IH (fun h H => I h (or_intror H))) as (ms & polys & E & F1 & F2). destruct (picks_some g gi ps L (I g (or_introl eq_refl))) as (c & r & P).
  exists ((c :: r) :: ms), ((p_tl c :: map p_tr (c :: r) ++ rev (map p_br (c :: r)) ++ [p_bl c; p_tl c]) :: polys). split; [|split; [constructor; assumption|constructor; [exists c, r; auto|exact F2]]].
  cbn [quad_polygons]. destruct (where_first _ _ _ _ _ P) as (k & ks & W & N). pose proof (picks_take0 _ _ _ _ (picks_map p_tr _ _ _ _ P)) as T1. pose proof (picks_take0 _ _ _ _ (picks_map p_br _ _ _ _ P)) as T2. rewrite W in *.
  rewrite !nth_error_map, N. cbn [option_map]. rewrite T1. cbn [bind]. rewrite T2. cbn [bind]. rewrite E. reflexivity.
Qed.
Lemma polygon_outline c r : outline_of_edges (p_tl c :: map p_tr (c :: r)) (p_bl c :: map p_br (c :: r)) (p_tl c :: map p_tr (c :: r) ++ rev (map p_br (c :: r)) ++ [p_bl c; p_tl c]).
Proof. exists (p_tl c), (map p_tr (c :: r)). split; [reflexivity|]. split; [cbn [length]; rewrite !map_length; reflexivity|]. cbn [rev]. cbn [app]. f_equal. f_equal. rewrite <- !app_assoc. reflexivity. Qed.
Lemma polygons_fun gi ps ids : forall a b : list (list patch), Forall2 (fun g m => picks g gi ps m) ids a -> Forall2 (fun g m => picks g gi ps m) ids b -> a = b.
Proof. induction ids as [|g ids IH]; intros a b A B; inversion A; inversion B; subst; [reflexivity|]. f_equal; [eapply picks_fun; eassumption|apply IH; assumption]. Qed.
(** ** Failures *)
Lemma outline_errors polys e : Forall (fun p => exists top bot, outline_of_edges top bot p) polys -> set_quadrilaterals polys = Err e -> e = ValueError.
Proof.
  intros W. rewrite set_quads_eq. generalize 0 as g. induction W as [|p polys W F IH]; intros g; cbn [by_polygon]; [discriminate|].
  assert (A0' : forall o e, as_point o = Err e -> e = ValueError).
  { intros o e'. unfold as_point. destruct o as [v|]; [|congruence]. destruct (to_point v) as [[lon lat] dep]. destruct (new_point_cases lon lat dep) as [[_ E]|[_ E]]; rewrite E; congruence. }
  assert (G : forall e, group_quads (map Some (removelast p)) (seq 0 (quad_count (length (map Some (removelast p))))) = Err e -> e = ValueError).
  { destruct W as (top & bot & O). destruct (outline_length _ _ _ O) as [Lp L0]. destruct O as (f & rest & Et & Lb & Ep). assert (Er : removelast p = top ++ rev bot) by (rewrite Ep, app_assoc; apply removelast_last). rewrite Er.
    assert (Eq : quad_count (length (map Some (top ++ rev bot))) = length top - 1) by (rewrite map_length, app_length, rev_length, Lb; apply quad_count_even). rewrite Eq.
    assert (J : forall j, In j (seq 0 (length top - 1)) -> j + 1 < length top) by (intros j J; apply in_seq in J; lia). revert J. generalize (seq 0 (length top - 1)) as js. induction js as [|j js IHj]; intros J e'; cbn [group_quads]; [discriminate|].
    pose proof (J j (or_introl eq_refl)) as Jj. unfold nth_end. replace (j + 2 - 1) with (j + 1) by lia. replace (j + 1 - 1) with j by lia. rewrite !nth_error_map, <- !map_rev, !nth_error_map, !nth_error_rev_app.
    assert (T : forall o e'', the_point (option_map Some o) = Err e'' -> o <> None -> e'' = ValueError). { intros [[[lon lat] dep]|] e''; [|congruence]. cbn [option_map the_point]. destruct (new_point_cases lon lat dep) as [[_ X]|[_ X]]; rewrite X; congruence. }
    destruct (the_point (option_map Some (nth_error (top ++ rev bot) j))) as [P0|e0] eqn:T0; cbn [bind]; [|intro H; injection H as <-; apply (T _ _ T0); rewrite nth_error_first by lia; apply nth_error_Some; lia].
    destruct (the_point (option_map Some (nth_error (top ++ rev bot) (j + 1)))) as [P1|e1] eqn:T1; cbn [bind]; [|intro H; injection H as <-; apply (T _ _ T1); rewrite nth_error_first by lia; apply nth_error_Some; lia].
    destruct (the_point (option_map Some (nth_error (bot ++ rev top) (j + 1)))) as [P2|e2] eqn:T2; cbn [bind]; [|intro H; injection H as <-; apply (T _ _ T2); rewrite nth_error_first by lia; apply nth_error_Some; lia].
    destruct (the_point (option_map Some (nth_error (bot ++ rev top) j))) as [P3|e3] eqn:T3; cbn [bind]; [|intro H; injection H as <-; apply (T _ _ T3); rewrite nth_error_first by lia; apply nth_error_Some; lia].
    destruct (plane_quad (mkquad P0 P1 P2 P3)) as [t|ep] eqn:Ep'; cbn [bind].
    - destruct (group_quads (map Some (top ++ rev bot)) js) as [r|er] eqn:Egr; cbn [bind]; [discriminate|]. intro H. injection H as <-. apply (IHj (fun k K => J k (or_intror K))). reflexivity.
    - intro H. injection H as <-. unfold plane_quad in Ep'. cbn [q0 q1 q2 q3] in Ep'. destruct (is_quad _ _ _ _) as [on new]. destruct (as_point (Some (ecef P0))) eqn:A0; cbn [bind] in Ep'; [|injection Ep' as <-; apply (A0' _ _ A0)]. destruct (as_point (Some (ecef P1))) eqn:A1; cbn [bind] in Ep'; [|injection Ep' as <-; apply (A0' _ _ A1)].
      destruct (as_point new) eqn:A2; cbn [bind] in Ep'; [|injection Ep' as <-; apply (A0' _ _ A2)]. destruct (as_point (Some (ecef P3))) eqn:A3; cbn [bind] in Ep'; [discriminate|injection Ep' as <-; apply (A0' _ _ A3)]. }
  destruct (group_quads _ _) as [qs|e'] eqn:Eg; cbn [bind]; [|intro H; injection H as <-; apply G; reflexivity]. destruct (by_polygon polys (g + 1)) as [r|e'] eqn:B; cbn [bind]; [discriminate|]. intro H. injection H as <-. apply (IH _ B).
Qed.
(** ** The view from above *)
Open Scope R_scope.
Lemma turn_back theta dx p : turn (- theta) (fst (turn theta p) + dx, snd (turn theta p)) = (fst p + dx * cos theta, snd p - dx * sin theta).
Proof.
  destruct p as [x y]. unfold turn. cbn [fst snd]. rewrite cos_neg, sin_neg. pose proof (sc2 theta) as S. f_equal.
  - transitivity (x * (sin theta * sin theta + cos theta * cos theta) + dx * cos theta); [ring|rewrite S; ring].
  - transitivity (y * (sin theta * sin theta + cos theta * cos theta) - dx * sin theta); [ring|rewrite S; ring].
Qed.
Lemma heads_arctan2 dx dy : heads (arctan2 dx dy) dx dy.
Proof.
  assert (G : dy <> 0 \/ dx <> 0 -> heads (arctan2 dx dy) dx dy).
  { intro N. destruct (arctan2_spec dx dy N) as [S C]. exists (sqrt (dy ^ 2 + dx ^ 2)). pose proof (hyp_pos dy dx N). split; [lra|]. rewrite S, C. split; [field; lra|]. split; [field; lra|lra]. }
  destruct (Req_dec dy 0) as [Z|Z]; [destruct (Req_dec dx 0) as [W|W]; auto|auto].
  subst. exists 0. split; [lra|]. split; [ring|]. split; [ring|]. intros _. apply arctan2_00.
Qed.
Lemma heads_trig theta dx dy : heads theta dx dy -> sin theta = sin (arctan2 dx dy) /\ cos theta = cos (arctan2 dx dy).
Proof.
  intros (d & D & -> & -> & Z). destruct (Req_dec d 0) as [E|E].
  - rewrite E, !Rmult_0_l, arctan2_00, (Z E). auto.
  - assert (N : d * cos theta <> 0 \/ d * sin theta <> 0). { pose proof (sc2 theta) as S. destruct (Req_dec (cos theta) 0) as [C|C]; [right|left; apply Rmult_integral_contrapositive; auto]. rewrite C in S. apply Rmult_integral_contrapositive. split; [exact E|]. intro Q. rewrite Q in S. lra. }
    destruct (arctan2_spec _ _ N) as [S C]. rewrite S, C. pose proof (sc2 theta) as U. replace ((d * cos theta) ^ 2 + (d * sin theta) ^ 2) with (d ^ 2) by (transitivity (d ^ 2 * (sin theta * sin theta + cos theta * cos theta)); [rewrite U; ring|ring]).
    rewrite sqrt_pow2 by exact D. split; field; exact E.
Qed.
Lemma forward_shown c lon lat x y : ortho_forward (fst c) (snd c) lon lat = Ok (x, y) <-> shown (fst c) (snd c) lon lat x y.
Proof.
  destruct (dist_angle (fst c) (snd c) lon lat) as (t & A & _). destruct (C45_forward _ _ _ _ _ A) as [F1 F2]. destruct A as [B E]. change (cos t = vdot (place (fst c) (snd c)) (place lon lat)) in E. unfold shown. rewrite <- E. pose proof pi_pos as P. destruct (Rle_lt_dec t (PI / 2)) as [L|L].
  - rewrite (F1 L). assert (0 <= cos t) by (apply cos_ge_0; lra). split; [intro X; injection X as <- <-; auto|intros (_ & -> & ->); reflexivity].
  - rewrite (F2 L). assert (cos t < 0) by (apply cos_lt_0; lra). split; [discriminate|intros (X & _); lra].
Qed.
Lemma shown_disc c lon lat x y : shown (fst c) (snd c) lon lat x y -> x ^ 2 + y ^ 2 <= 6371 * 6371.
Proof.
  intros (_ & -> & ->). pose proof (components (fst c) (snd c) lon lat) as C. unfold eastward, northward in C. set (e := vdot (east_of (fst c)) (place lon lat)) in *. set (n := vdot (north_of (fst c) (snd c)) (place lon lat)) in *. set (k := vdot (place (fst c) (snd c)) (place lon lat)) in *. pose proof (pow2_ge_0 k). nra.
Qed.
Lemma unproject_ok c p : -180 <= fst c <= 180 -> (exists r, unproject c p = Ok r) <-> fst p ^ 2 + snd p ^ 2 <= 6371 * 6371.
Proof. intro B. unfold unproject, EARTH_RADIUS. destruct (rltb _ _) eqn:E; cmp; split; try (intros (r & H); discriminate || lra); [lra|intros _; eauto]. Qed.
Lemma unproject_shown c p r : -180 <= fst c <= 180 -> unproject c p = Ok r -> shown (fst c) (snd c) (fst r) (snd r) (fst p) (snd p).
Proof.
  intro B. unfold unproject, EARTH_RADIUS. destruct (rltb _ _) eqn:E; cmp; [discriminate|]. intro H. injection H as <-. destruct (C45_disc (fst c) (snd c) (fst p) (snd p) B) as (_ & _ & F); [nra|]. apply forward_shown. exact F.
Qed.
Lemma bind_ok {A B} (x : res A) (f : A -> res B) r : bind x f = Ok r <-> exists a, x = Ok a /\ f a = Ok r.
Proof. destruct x; cbn; split; [eauto|intros (a' & E & F); injection E as <-; exact F|discriminate|intros (a' & E & _); discriminate]. Qed.
Definition theta_of (strike : option R) (p0 p1 : R * R) : R := match strike with None => arctan2 (fst p1 - fst p0) (snd p1 - snd p0) | Some s => radians s end.
Lemma lower_ok c x0 y0 x1 y1 z w dip strike p2 p3 : -180 <= fst c <= 180 -> lower c x0 y0 x1 y1 z w (radians dip) strike = Ok (p2, p3) ->
  dips_from (fst c) (snd c) strike (mkrow (x0, y0) (x1, y1) z w dip) (mkpatch (x0, y0, z) (x1, y1, z) p2 p3).
Proof.
  intros B H. unfold lower in H. apply bind_ok in H. destruct H as ([a0 b0] & F0 & H). apply bind_ok in H. destruct H as ([a1 b1] & F1 & H). cbv zeta in H. change (match strike with None => arctan2 (fst (a1, b1) - fst (a0, b0)) (snd (a1, b1) - snd (a0, b0)) | Some s => radians s end) with (theta_of strike (a0, b0) (a1, b1)) in H. set (theta := theta_of strike (a0, b0) (a1, b1)) in *.
  apply bind_ok in H. destruct H as (l3 & U3 & H). apply bind_ok in H. destruct H as (l2 & U2 & H). injection H as <- <-. rewrite turn_back in U2, U3. cbn [fst snd] in U2, U3. rewrite radians_deg in *.
  apply forward_shown in F0, F1. apply (unproject_shown _ _ _ B) in U2, U3. cbn [fst snd] in U2, U3. exists a0, b0, a1, b1, theta. cbn [r_start r_end r_top r_width r_dip p_tl p_tr p_br p_bl fst snd]. unfold lon_of, lat_of, dep_of. cbn [fst snd].
  split; [exact F0|]. split; [exact F1|]. split; [unfold theta, theta_of; destruct strike as [s|]; [apply radians_deg|cbn [fst snd]; apply heads_arctan2]|]. split; [reflexivity|]. split; [reflexivity|]. split; [ring|]. split; [ring|]. rewrite (Rmult_comm w). split; assumption.
Qed.
Lemma lower_total c r strike cc : -180 <= fst c <= 180 -> dips_from (fst c) (snd c) strike r cc -> exists p2 p3, lower c (fst (r_start r)) (snd (r_start r)) (fst (r_end r)) (snd (r_end r)) (r_top r) (r_width r) (radians (r_dip r)) strike = Ok (p2, p3).
Proof.
  intros B (a0 & b0 & a1 & b1 & theta & S0 & S1 & T & _ & _ & _ & _ & S3 & S2). apply shown_disc in S2, S3. apply forward_shown in S0, S1. unfold lower. rewrite S0. cbn [bind]. rewrite S1. cbn [bind]. cbv zeta.
  change (match strike with None => arctan2 (fst (a1, b1) - fst (a0, b0)) (snd (a1, b1) - snd (a0, b0)) | Some s => radians s end) with (theta_of strike (a0, b0) (a1, b1)). set (th := theta_of strike (a0, b0) (a1, b1)) in *.
  assert (E : sin theta = sin th /\ cos theta = cos th). { unfold th, theta_of. destruct strike as [s|]; [rewrite radians_deg, T; auto|]. cbn [fst snd]. apply heads_trig. exact T. } destruct E as [Es Ec]. rewrite Es, Ec in *.
  rewrite !turn_back, radians_deg. cbn [fst snd].
  destruct (proj2 (unproject_ok c (a0 + cos (deg (r_dip r)) * r_width r * cos th, b0 - cos (deg (r_dip r)) * r_width r * sin th) B)) as (l3 & U3); [cbn [fst snd]; rewrite (Rmult_comm (cos (deg (r_dip r)))); exact S3|]. rewrite U3. cbn [bind].
  destruct (proj2 (unproject_ok c (a1 + cos (deg (r_dip r)) * r_width r * cos th, b1 - cos (deg (r_dip r)) * r_width r * sin th) B)) as (l2 & U2); [cbn [fst snd]; rewrite (Rmult_comm (cos (deg (r_dip r)))); exact S2|]. rewrite U2. cbn [bind]. eauto.
Qed.
(** ** Short group numbers *)
Open Scope nat_scope.
Lemma nth_firstn {A} (l : list A) : forall k i, i < k -> nth_error (firstn k l) i = nth_error l i.
Proof. induction l as [|x l IH]; intros [|k] [|i] H; cbn; try reflexivity; try lia. apply IH. lia. Qed.
Lemma where_lt g gi i : In i (where_group g gi) -> i < length gi.
Proof. unfold where_group. intro H. apply in_map_iff in H. destruct H as ([j h] & <- & H). apply filter_In in H. destruct H as [H _]. apply in_combine_l in H. apply in_seq in H. cbn. lia. Qed.
Lemma take_firstn {A} (l : list A) k ind : (forall i, In i ind -> i < k) -> take (firstn k l) ind = take l ind.
Proof. induction ind as [|i ind IH]; intro H; [reflexivity|]. cbn [take]. rewrite nth_firstn by (apply H; left; reflexivity). destruct (nth_error l i); [|reflexivity]. rewrite IH by (intros j J; apply H; right; exact J). reflexivity. Qed.
Lemma polygons_firstn p0 p1 p2 p3 gi ids : let k := length gi in quad_polygons (firstn k p0) (firstn k p1) (firstn k p2) (firstn k p3) gi ids = quad_polygons p0 p1 p2 p3 gi ids.
Proof.
  intro k. induction ids as [|g ids IH]; [reflexivity|]. cbn [quad_polygons]. pose proof (where_lt g gi) as W. destruct (where_group g gi) as [|f ind] eqn:E; [reflexivity|]. rewrite !nth_firstn by (apply W; left; reflexivity). rewrite !take_firstn by exact W. rewrite IH. reflexivity.
Qed.
