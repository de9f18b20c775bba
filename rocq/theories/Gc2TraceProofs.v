From Coq Require Import ZArith Reals String Ascii Bool List Lra Lia Psatz.
From Verif Require Import PyBase PyStr VecModel GeoModel GeoTrig GeoSpec GeoProofs EcefProofs EcefProps RuptModel RuptSpec PolyModel PolySpec BuildModel BuildSpec BuildProofs EdgeProofs SizeModel SizeSpec VecProofs RuptProofs DipProofs Gc2Model Gc2Spec Gc2Proofs.
Import ListNotations.
Open Scope R_scope.

(** ** Places at the surface *)
Lemma surface_dist P Q : apart P Q (surface_distance P Q).
Proof.
  destruct P as [[lon1 lat1] d1], Q as [[lon2 lat2] d2]. unfold apart, surface_distance. destruct (dist_angle lon1 lat1 lon2 lat2) as (t & A & E). exists t. split; [exact A|].
  unfold geo_distance. rewrite E. replace ((6371 * t) ^ 2 + (0 - 0) ^ 2) with ((6371 * t) ^ 2) by ring. apply sqrt_pow2. destruct A. lra.
Qed.
Lemma apart_fun P Q r r' : apart P Q r -> apart P Q r' -> r = r'.
Proof.
  destruct P as [[lon1 lat1] d1], Q as [[lon2 lat2] d2]. intros (t & [A E] & ->) (t' & [A' E'] & ->). f_equal. apply cos_inj; [exact A|exact A'|congruence].
Qed.
Lemma surface_inj lon1 lat1 lon2 lat2 : ecef (lon1, lat1, 0) = ecef (lon2, lat2, 0) -> place lon1 lat1 = place lon2 lat2.
Proof.
  unfold ecef, from_point. rewrite !coords. intro H. injection H as Hx Hy Hz. unfold place.
  pose proof (sc2 (deg lat1)) as C1. pose proof (sc2 (deg lat2)) as C2. set (s1 := sin (deg lat1)) in *. set (s2 := sin (deg lat2)) in *. set (c1 := cos (deg lat1)) in *. set (c2 := cos (deg lat2)) in *.
  assert (S1 : s1 * s1 <= 1) by (pose proof (Rle_0_sqr c1); unfold Rsqr in *; lra). assert (S2 : s2 * s2 <= 1) by (pose proof (Rle_0_sqr c2); unfold Rsqr in *; lra).
  pose proof (W_sq s1 S1) as Q1. pose proof (W_sq s2 S2) as Q2. pose proof (W_bounds s1 S1) as B1. pose proof (W_bounds s2 S2) as B2. pose proof Q_bounds as QB. pose proof E_bounds as EB.
  set (W1 := WW s1) in *. set (W2 := WW s2) in *. assert (P1 : 0 < W1) by lra. assert (P2 : 0 < W2) by lra.
  replace (- 0 * 1000 / WGS84_A) with 0 in * by (unfold WGS84_A; field). rewrite !Rplus_0_r in *.
  assert (A0 : 0 < WGS84_A) by (unfold WGS84_A; lra).
  assert (Z : s1 * W2 = s2 * W1).
  { assert (K : WGS84_A * (QQ * QQ) <> 0) by (assert (0 < QQ * QQ) by nra; assert (0 < WGS84_A * (QQ * QQ)) by (apply Rmult_lt_0_compat; assumption); lra).
    apply (Rmult_eq_reg_l (WGS84_A * (QQ * QQ))); [|exact K]. apply (Rmult_eq_reg_r (/ W1 * / W2)); [|apply Rmult_integral_contrapositive; split; apply Rinv_neq_0_compat; lra].
    transitivity (WGS84_A * (QQ * QQ * / W1) * s1); [field; lra|]. rewrite Hz. field. lra. }
  assert (SS : s1 * s1 = s2 * s2). { assert (T : s1 * s1 * (W2 * W2) = s2 * s2 * (W1 * W1)) by (transitivity ((s1 * W2) * (s1 * W2)); [ring|rewrite Z; ring]). rewrite Q1, Q2 in T. lra. }
  assert (WE : W1 = W2). { apply Rsqr_inj; [lra|lra|]. unfold Rsqr. rewrite Q1, Q2. rewrite !Rmult_assoc, SS. reflexivity. }
  assert (SE : s1 = s2) by (rewrite WE in Z; apply (Rmult_eq_reg_r W2); [exact Z|lra]). rewrite WE in Hx, Hy.
  assert (K : WGS84_A * / W2 <> 0) by (apply Rmult_integral_contrapositive; split; [lra|apply Rinv_neq_0_compat; lra]).
  apply vec_ext; cbn [vx vy vz]; [| |exact SE]; apply (Rmult_eq_reg_l (WGS84_A * / W2)); try exact K; lra.
Qed.
Lemma surface_vec P Q : 0 < surface_distance P Q -> vsub (ecef (at_surface Q)) (ecef (at_surface P)) <> v0.
Proof.
  intros D Z. pose proof (surface_dist P Q) as A. destruct P as [[lon1 lat1] d1], Q as [[lon2 lat2] d2]. destruct A as (t & A & E). cbn [at_surface] in Z.
  assert (X : ecef (lon1, lat1, 0) = ecef (lon2, lat2, 0)). { revert Z. generalize (ecef (lon1, lat1, 0)) (ecef (lon2, lat2, 0)). intros [x1 y1 z1] [x2 y2 z2] Z. unfold vsub, v0 in Z. cbn [vx vy vz] in Z. injection Z as Zx Zy Zz. apply vec_ext; cbn [vx vy vz]; lra. }
  apply surface_inj in X. rewrite X in A. assert (A0 : angle (place lon2 lat2) (place lon2 lat2) 0) by (apply angle_zero; [apply place_unit|apply place_unit|reflexivity]).
  assert (t = 0) by (destruct A as [A1 A2], A0 as [A3 A4]; apply cos_inj; [exact A1|exact A3|congruence]). subst t. lra.
Qed.

(** ** The loop that chooses the direction *)
Lemma vdot_add a b c : vdot (vadd a b) c = vdot a c + vdot b c. Proof. unfold vdot, vadd. cbn [vx vy vz]. ring. Qed.
Lemma vsum_dot l c : forall v, vdot (fold_left vadd l v) c = vdot v c + total (map (fun x => vdot x c) l).
Proof. induction l as [|x l IH]; intro v; cbn [fold_left map total]; [ring|]. rewrite IH, vdot_add. ring. Qed.
Lemma vscale_dot k u c : vdot (vscale k u) c = k * vdot u c. Proof. unfold vdot, vscale. cbn [vx vy vz]. ring. Qed.
Lemma vdot_comm u w : vdot u w = vdot w u. Proof. unfold vdot. ring. Qed.
Lemma sign_abs x : sign x * x = Rabs x.
Proof. destruct (sign_cases x) as [[H ->]|[[H ->]|[-> ->]]]; [rewrite Rabs_right; lra|rewrite Rabs_left; lra|rewrite Rabs_R0; lra]. Qed.
Lemma sum_dot a bs s : total (map (fun x => vdot x a) (map (fun bd => vscale (snd bd) (fst bd)) (combine bs (map (fun e => sign e * s) (map (vdot a) bs))))) = s * total (map (fun b => Rabs (vdot a b)) bs).
Proof.
  induction bs as [|b bs IH]; cbn [map combine total fst snd]; [ring|]. rewrite IH, vscale_dot, (vdot_comm b a). rewrite <- (sign_abs (vdot a b)). ring.
Qed.
Lemma abs_total {A} (f : A -> R) l : Rabs (total (map f l)) <= total (map (fun x => Rabs (f x)) l).
Proof. induction l as [|x l IH]; cbn [map total]; [rewrite Rabs_R0; lra|]. eapply Rle_trans; [apply Rabs_triang|]. lra. Qed.
Lemma vsum_zero bs : fold_left vadd (map (fun bd => vscale (snd bd) (fst bd)) (combine bs (map (fun _ => 0) bs))) (mkvec 0 0 0) = v0.
Proof. induction bs as [|b bs IH]; cbn [map combine fold_left fst snd]; [reflexivity|]. replace (vadd (mkvec 0 0 0) (vscale 0 b)) with (mkvec 0 0 0) by (unfold vadd, vscale; apply vec_ext; cbn [vx vy vz]; ring). exact IH. Qed.
Definition choice (bs : list vec) (P Q : point) (n : nominal) : Prop :=
  exists a, n_origin n = ecef (at_surface P) /\ n_ahat n = Some a /\ direction (vsub (ecef (at_surface Q)) (ecef (at_surface P))) a /\
  n_E n = total (map (vdot a) bs) /\ 0 <= n_E n /\ n_dc n = map (fun b => sign (vdot a b) * sign (n_E n)) bs.
Lemma orientation_step fuel bs P Q a : direction (vsub (ecef (at_surface Q)) (ecef (at_surface P))) a ->
  (0 <= total (map (vdot a) bs) -> exists n, orientation (S fuel) bs P Q = Some n /\ choice bs P Q n) /\
  (total (map (vdot a) bs) < 0 -> orientation (S fuel) bs P Q = orientation fuel bs Q P).
Proof.
  intro D. cbn [orientation]. rewrite (norm_unit _ _ D). unfold discordancy. cbv zeta. change (rsum (map (vdot a) bs)) with (total (map (vdot a) bs)). set (E := total (map (vdot a) bs)). unfold vsum.
  set (b := fold_left vadd _ _). assert (BD : vdot b a = sign E * total (map (fun x => Rabs (vdot a x)) bs)). { unfold b. rewrite vsum_dot, sum_dot. unfold vdot at 1. cbn [vx vy vz]. ring. }
  pose proof (abs_total (vdot a) bs) as AT. fold E in AT.
  assert (CH : 0 <= E -> choice bs P Q (mknominal (ecef (at_surface P)) (Some a) E (map (fun e => sign e * sign E) (map (vdot a) bs)))).
  { intro E0. exists a. cbn [n_origin n_ahat n_E n_dc]. repeat (split; [first [reflexivity|exact D|exact E0]|]). rewrite map_map. reflexivity. }
  split; intro H.
  - destruct (sign_cases E) as [[P0 S]|[[P0 S]|[P0 S]]]; [|lra|].
    + rewrite S in BD. destruct (norm b) as [bh|] eqn:NB; [|eexists; split; [reflexivity|apply CH; lra]].
      replace (rltb (vdot bh a) 0) with false; [eexists; split; [reflexivity|apply CH; lra]|]. symmetry. unfold rltb. destruct (Rlt_dec (vdot bh a) 0) as [X|_]; [|reflexivity]. exfalso.
      assert (N : b <> v0) by (intros Z; rewrite Z, norm_zero in NB; discriminate). destruct (norm_nz b N) as [NE MP]. rewrite NE in NB. injection NB as <-. rewrite vscale_dot, BD in X.
      assert (0 <= / mag b * (1 * total (map (fun x => Rabs (vdot a x)) bs))); [|lra]. apply Rmult_le_pos; [left; apply Rinv_0_lt_compat; exact MP|]. pose proof (Rabs_pos E). lra.
    + assert (B0 : b = v0). { unfold b. rewrite S. rewrite <- (vsum_zero bs). do 3 f_equal. rewrite map_map. apply map_ext. intro. ring. } rewrite B0, norm_zero. eexists. split; [reflexivity|apply CH; lra].
  - destruct (sign_cases E) as [[P0 S]|[[P0 S]|[P0 S]]]; [lra| |lra]. rewrite S in BD. rewrite Rabs_left in AT by lra.
    assert (N : b <> v0) by (intro Z; rewrite Z in BD; assert (Z0 : vdot v0 a = 0) by (unfold vdot, v0; cbn [vx vy vz]; ring); rewrite Z0 in BD; lra). destruct (norm_nz b N) as [-> MP]. rewrite vscale_dot, BD.
    replace (rltb _ 0) with true; [reflexivity|]. symmetry. unfold rltb. destruct (Rlt_dec _ 0) as [_|X]; [reflexivity|]. elim X.
    pose proof (Rinv_0_lt_compat _ MP) as IP. nra.
Qed.
Lemma direction_opp P Q a : direction (vsub Q P) a -> direction (vsub P Q) (vscale (-1) a).
Proof.
  intros (U & k & K & E). split; [rewrite mag_scale, U, Rabs_left; lra|]. exists k. split; [exact K|]. unfold vsub, vscale in *. injection E as Ex Ey Ez. apply vec_ext; cbn [vx vy vz] in *; lra.
Qed.
Lemma orientation_ends fuel bs P Q : (2 <= fuel)%nat -> vsub (ecef (at_surface Q)) (ecef (at_surface P)) <> v0 ->
  exists n, orientation fuel bs P Q = Some n /\ (choice bs P Q n \/ choice bs Q P n).
Proof.
  intros F N. destruct fuel as [|[|fuel]]; [lia|lia|]. pose proof (direction_exists _ N) as D. set (a := vscale _ _) in D. clearbody a.
  destruct (orientation_step (S fuel) bs P Q a D) as [H1 H2]. destruct (Rle_lt_dec 0 (total (map (vdot a) bs))) as [L|L].
  - destruct (H1 L) as (n & E & C). eauto.
  - rewrite (H2 L). pose proof (direction_opp _ _ _ D) as D'. destruct (orientation_step fuel bs Q P _ D') as [H3 _]. destruct H3 as (n & E & C); [|eauto].
    replace (total (map (vdot (vscale (-1) a)) bs)) with (- total (map (vdot a) bs)); [lra|]. clear. induction bs as [|b bs IH]; cbn [map total]; [ring|]. rewrite <- IH, vscale_dot. ring.
Qed.

(** ** The farthest ends *)
Lemma farthest_spec quads groups ks : (forall k, In k ks -> exists PQ, ends_at quads groups k = Ok PQ) -> forall d A, 
  (match A with None => d = 0 | Some PQ => d = surface_distance (fst PQ) (snd PQ) /\ 0 < d end) ->
  exists r, farthest quads groups ks d A = Ok r /\
  (match r with
   | None => A = None /\ forall k PQ, In k ks -> ends_at quads groups k = Ok PQ -> surface_distance (fst PQ) (snd PQ) <= 0
   | Some PQ => 0 < surface_distance (fst PQ) (snd PQ) /\ d <= surface_distance (fst PQ) (snd PQ) /\ (A = Some PQ \/ exists k, In k ks /\ ends_at quads groups k = Ok PQ) /\
       forall k PQ', In k ks -> ends_at quads groups k = Ok PQ' -> surface_distance (fst PQ') (snd PQ') <= surface_distance (fst PQ) (snd PQ)
   end).
Proof.
  induction ks as [|k ks IH]; intros OK d A H; cbn [farthest].
  - exists A. split; [reflexivity|]. destruct A as [PQ|].
    + destruct H as [-> P]. split; [exact P|]. split; [lra|]. split; [left; reflexivity|]. intros k PQ' [].
    + split; [reflexivity|]. intros k PQ [].
  - destruct (OK k (or_introl eq_refl)) as (PQ & E). rewrite E. cbn [bind]. assert (OK' : forall k, In k ks -> exists PQ, ends_at quads groups k = Ok PQ) by (intros k' I; apply OK; right; exact I).
    unfold rltb. destruct (Rlt_dec d (surface_distance (fst PQ) (snd PQ))) as [L|L].
    + assert (D0 : 0 <= d) by (destruct A as [x|]; [destruct H; lra|lra]). destruct (IH OK' (surface_distance (fst PQ) (snd PQ)) (Some PQ)) as (r & Er & Hr); [split; [reflexivity|lra]|]. exists r. split; [exact Er|].
      destruct r as [PQ'|]; [|destruct Hr; discriminate]. destruct Hr as (P1 & P2 & P3 & P4). split; [exact P1|]. split; [lra|]. split.
      * right. destruct P3 as [X|(k' & I & X)]; [injection X as <-; exists k; split; [left; reflexivity|exact E]|exists k'; split; [right; exact I|exact X]].
      * intros k' PQ2 [<-|I] E2; [rewrite E in E2; injection E2 as <-; lra|apply (P4 k'); assumption].
    + destruct (IH OK' d A H) as (r & Er & Hr). exists r. split; [exact Er|]. destruct r as [PQ'|].
      * destruct Hr as (P1 & P2 & P3 & P4). split; [exact P1|]. split; [exact P2|]. split; [destruct P3 as [X|(k' & I & X)]; [left; exact X|right; exists k'; split; [right; exact I|exact X]]|].
        intros k' PQ2 [<-|I] E2; [rewrite E in E2; injection E2 as <-; lra|apply (P4 k'); assumption].
      * destruct Hr as [-> P]. subst d. split; [reflexivity|]. intros k' PQ2 [<-|I] E2; [rewrite E in E2; injection E2 as <-; lra|apply (P k'); assumption].
Qed.

(** ** Positions and members of a trace *)
Lemma take_iff {A} (l : list A) ind : forall r, take l ind = Ok r <-> map (nth_error l) ind = map Some r.
Proof.
  induction ind as [|i ind IH]; intros r; cbn [take map].
  - split; intro H; [injection H as <-; reflexivity|destruct r; [reflexivity|discriminate]].
  - destruct (nth_error l i) as [x|]; [|split; [discriminate|destruct r; discriminate]]. destruct (take l ind) as [r'|e] eqn:E; cbn [bind].
    + split; intro H; [injection H as <-; cbn [map]; f_equal; apply IH; reflexivity|]. destruct r as [|y r]; [discriminate|]. cbn [map] in H. injection H as -> H. apply IH in H. injection H as ->. reflexivity.
    + split; [discriminate|]. destruct r as [|y r]; [discriminate|]. cbn [map]. intro H. injection H as -> H. apply IH in H. discriminate.
Qed.
Lemma get_first {A} g gi (l r : list A) x : picks g gi l r -> begins r x -> get l (iq0 gi g) = Ok x.
Proof.
  intros P (r' & ->). apply picks_take0, take_iff in P. unfold iq0, get. destruct (where_group g gi) as [|i w]; [discriminate|]. cbn [map hd] in *. injection P as -> _. reflexivity.
Qed.
Lemma get_last {A} g gi (l r : list A) x : picks g gi l r -> finishes r x -> get l (iq1 gi g) = Ok x.
Proof.
  intros P (r' & ->). apply picks_take0, take_iff in P. unfold iq1, get. rewrite map_app in P. cbn [map] in P.
  destruct (exists_last (l := where_group g gi)) as (w & i & E); [intro Z; rewrite Z in P; destruct (map Some r'); discriminate|]. rewrite E, last_last. rewrite E, map_app in P. cbn [map] in P. apply app_inj_tail in P. destruct P as [_ ->]. reflexivity.
Qed.
Lemma ends_exist {A} (l : list A) : l <> [] -> (exists x, begins l x) /\ exists x, finishes l x.
Proof. intro N. split; [destruct l as [|x r]; [congruence|exists x, r; reflexivity]|]. destruct (exists_last N) as (r & x & E). exists x, r. exact E. Qed.
Lemma numbered_unique n groups : numbered_to n groups -> unique groups = seq 0 n.
Proof. intro H. apply (groups_of_fun groups); [apply unique_groups|]. split; [apply inc_seq|]. intro g. rewrite in_seq. destruct (H g) as [A B]. split; [intro X; apply B; lia|intro X; apply A in X; lia]. Qed.
Lemma numbered_picks {A} n groups (l : list A) : numbered_to n groups -> length groups = length l -> forall g, (g < n)%nat -> exists r, picks g groups l r /\ r <> [].
Proof. intros H L g G. destruct (picks_some g groups l) as (x & r & P); [congruence|apply H; exact G|]. exists (x :: r). split; [exact P|congruence]. Qed.
Lemma comb_in n : forall k x y, In (x, y) (combinations2 (seq k n)) <-> (k <= x < y /\ y < k + n)%nat.
Proof.
  induction n as [|n IH]; intros k x y; cbn [seq combinations2]; [split; [intros []|lia]|]. rewrite in_app_iff, in_map_iff, IH. split.
  - intros [(z & E & I)|H]; [injection E as -> ->; apply in_seq in I; lia|lia].
  - intro H. destruct (Nat.eq_dec k x) as [->|N]; [left; exists y; split; [reflexivity|apply in_seq; lia]|right; lia].
Qed.
Lemma it_in n g h f0 f1 : In (g, h, (f0, f1)) (it_seg (seq 0 n)) <-> (g < h < n)%nat.
Proof.
  unfold it_seg. rewrite in_flat_map. split.
  - intros ([x y] & I & J). apply in_map_iff in J. destruct J as (f & E & _). injection E as -> -> _. apply comb_in in I. lia.
  - intro H. exists (g, h). split; [apply comb_in; lia|]. apply in_map_iff. exists (f0, f1). split; [reflexivity|]. destruct f0, f1; cbn [In]; tauto.
Qed.

(** ** Turning the discordant traces *)
Lemma take_length {A} (l : list A) ind r : take l ind = Ok r -> length r = length ind.
Proof. intro H. apply take_iff in H. apply (f_equal (@length _)) in H. rewrite !map_length in H. congruence. Qed.
Lemma take_ok {A} (l : list A) ind : (forall i, In i ind -> (i < length l)%nat) -> exists r, take l ind = Ok r.
Proof.
  induction ind as [|i ind IH]; intro H; cbn [take]; [eauto|]. destruct (nth_error l i) as [x|] eqn:E; [|apply nth_error_None in E; specialize (H i (or_introl eq_refl)); lia]. destruct IH as [r ->]; [intros j J; apply H; right; exact J|]. cbn [bind]. eauto.
Qed.
Lemma where_in g gi : forall i, In i (where_group g gi) <-> nth_error gi i = Some g.
Proof.
  assert (G : forall k i, In i (where_from k g gi) <-> exists j, (i = k + j)%nat /\ nth_error gi j = Some g).
  { induction gi as [|h gi IH]; intros k i.
    - split; [intros []|intros (j & _ & X); destruct j; discriminate].
    - rewrite where_cons. destruct (Nat.eqb_spec h g) as [->|N]; cbn [In]; rewrite IH; split.
      + intros [<-|(j & -> & X)]; [exists 0%nat; split; [lia|reflexivity]|exists (S j); split; [lia|exact X]].
      + intros ([|j] & -> & X); [left; lia|right; exists j; split; [lia|exact X]].
      + intros (j & -> & X). exists (S j). split; [lia|exact X].
      + intros ([|j] & -> & X); [cbn in X; congruence|exists j; split; [lia|exact X]]. }
  intro i. change (where_group g gi) with (where_from 0 g gi). rewrite G. split; [intros (j & -> & X); exact X|intro X; exists i; split; [lia|exact X]].
Qed.
Lemma where_nodup g gi : NoDup (where_group g gi).
Proof.
  change (where_group g gi) with (where_from 0 g gi). generalize 0%nat as k. induction gi as [|h gi IH]; intro k; [constructor|]. rewrite where_cons. destruct (h =? g)%nat; [|apply IH]. constructor; [|apply IH].
  intro I. clear IH. assert (G : forall m i, In i (where_from m g gi) -> (m <= i)%nat).
  { clear. induction gi as [|h gi IH]; intros m i; [intros []|]. rewrite where_cons. destruct (h =? g)%nat; cbn [In]; [intros [<-|I]; [lia|]|intro I]; apply IH in I; lia. }
  apply G in I. lia.
Qed.
Lemma find_pos_map ps : NoDup ps -> forall qs, length qs = length ps -> map (fun p => find_pos p (combine ps qs)) ps = qs.
Proof.
  induction 1 as [|p ps N ND IH]; intros [|q qs] L; try discriminate; [reflexivity|]. cbn [combine map]. f_equal.
  - unfold find_pos. cbn [find fst snd]. rewrite Nat.eqb_refl. reflexivity.
  - etransitivity; [|apply (IH qs); cbn in L; lia]. apply map_ext_in. intros x I. unfold find_pos. cbn [find fst]. destruct (Nat.eqb_spec p x) as [->|_]; [contradiction|reflexivity].
Qed.
Lemma combine_seq_nth {A} (l : list A) : forall k i, nth_error (combine (seq k (length l)) l) i = option_map (fun x => ((k + i)%nat, x)) (nth_error l i).
Proof. induction l as [|x l IH]; intros k [|i]; cbn [length seq combine nth_error option_map]; try reflexivity; [rewrite Nat.add_0_r; reflexivity|]. rewrite IH. replace (S k + i)%nat with (k + S i)%nat by lia. reflexivity. Qed.
Lemma flip_nth dc groups : forall quads i, length groups = length quads -> nth_error (flip_quads dc groups quads) i =
  match nth_error groups i, nth_error quads i with Some g, Some q => Some (if discordant dc g then reverse_quad q else q) | _, _ => None end.
Proof.
  unfold flip_quads. induction groups as [|g groups IH]; intros [|q quads] [|i] L; try discriminate; try reflexivity. cbn [combine map nth_error]. apply IH. cbn in L. lia.
Qed.
Lemma mirror_pos dc groups g : map (fun i => mirrored dc groups (i, g)) (where_group g groups) = if discordant dc g then rev (where_group g groups) else where_group g groups.
Proof.
  unfold mirrored. destruct (discordant dc g); [|apply map_id]. apply find_pos_map; [apply where_nodup|apply rev_length].
Qed.
Lemma picks_of_take {A} g gi (l r : list A) : length l = length gi -> take l (where_group g gi) = Ok r -> picks g gi l r.
Proof. intros L T. destruct (picks_total g gi l L) as (r' & P & _). pose proof (picks_take0 _ _ _ _ P) as T'. rewrite T in T'. injection T' as ->. exact P. Qed.
Lemma rearrange_spec dc groups quads : length groups = length quads -> exists quads', rearrange dc groups quads = Ok quads' /\ length quads' = length quads /\
  (forall g l, picks g groups quads l -> picks g groups quads' (if discordant dc g then map reverse_quad (rev l) else l)) /\
  (forall q, In q quads' -> exists q1, In q1 quads /\ (q = q1 \/ q = reverse_quad q1)).
Proof.
  intro L. unfold rearrange. set (fl := flip_quads dc groups quads). assert (LF : length fl = length quads) by (unfold fl, flip_quads; rewrite map_length, combine_length; lia).
  set (ind := map (mirrored dc groups) (combine (seq 0 (length groups)) groups)).
  assert (MI : forall i g, nth_error groups i = Some g -> In (mirrored dc groups (i, g)) (where_group g groups)).
  { intros i g E. assert (I : In i (where_group g groups)) by (apply where_in; exact E). pose proof (mirror_pos dc groups g) as M. assert (J : In (mirrored dc groups (i, g)) (map (fun i => mirrored dc groups (i, g)) (where_group g groups))) by (apply (in_map (fun i => mirrored dc groups (i, g))); exact I). rewrite M in J. destruct (discordant dc g); [apply in_rev; exact J|exact J]. }
  assert (IN : forall i, nth_error ind i = option_map (fun g => mirrored dc groups (i, g)) (nth_error groups i)).
  { intro i. unfold ind. rewrite nth_error_map, combine_seq_nth. destruct (nth_error groups i); reflexivity. }
  destruct (take_ok fl ind) as (quads' & T).
  { intros j J. apply In_nth_error in J. destruct J as (i & E). rewrite IN in E. destruct (nth_error groups i) as [g|] eqn:G; [|discriminate]. change (Some (mirrored dc groups (i, g)) = Some j) in E. assert (Ej : j = mirrored dc groups (i, g)) by congruence. rewrite Ej. specialize (MI i g G). apply where_in in MI. rewrite LF, <- L. apply nth_error_Some. congruence. }
  exists quads'. split; [exact T|]. assert (LQ : length quads' = length quads) by (rewrite (take_length _ _ _ T); unfold ind; rewrite map_length, combine_length, seq_length; lia). split; [exact LQ|].
  apply take_iff in T. assert (NT : forall i, nth_error quads' i = match nth_error groups i with Some g => nth_error fl (mirrored dc groups (i, g)) | None => None end).
  { intro i. pose proof (f_equal (fun l => nth_error l i) T) as N. cbv beta in N. rewrite !nth_error_map, IN in N. destruct (nth_error groups i) as [g|] eqn:G; cbn [option_map] in N.
    - destruct (nth_error quads' i); cbn [option_map] in N; [injection N as N; symmetry; exact N|discriminate].
    - destruct (nth_error quads' i); [discriminate|reflexivity]. }
  split.
  - intros g l P. apply picks_of_take; [congruence|]. pose proof (picks_take0 _ _ _ _ P) as TP. apply take_iff in TP. apply take_iff.
    assert (E1 : map (nth_error quads') (where_group g groups) = map (nth_error fl) (map (fun i => mirrored dc groups (i, g)) (where_group g groups))).
    { rewrite map_map. apply map_ext_in. intros i I. apply where_in in I. rewrite NT, I. reflexivity. }
    assert (E2 : map (nth_error fl) (where_group g groups) = map (option_map (fun q => if discordant dc g then reverse_quad q else q)) (map (nth_error quads) (where_group g groups))).
    { rewrite map_map. apply map_ext_in. intros i I. apply where_in in I. unfold fl. rewrite flip_nth, I by exact L. destruct (nth_error quads i); reflexivity. }
    rewrite E1, mirror_pos. rewrite TP, map_map in E2. destruct (discordant dc g).
    + rewrite map_rev, E2. cbn [option_map]. rewrite <- map_rev, map_map. reflexivity.
    + rewrite E2. cbn [option_map]. apply map_ext. reflexivity.
  - intros q I. apply In_nth_error in I. destruct I as (i & E). rewrite NT in E. destruct (nth_error groups i) as [g|] eqn:G; [|discriminate]. unfold fl in E. rewrite flip_nth in E by exact L. destruct (nth_error groups (mirrored dc groups (i, g))) as [g'|]; [|discriminate]. destruct (nth_error quads (mirrored dc groups (i, g))) as [q1|] eqn:Q; [|discriminate]. injection E as <-. exists q1. split; [eapply nth_error_In; exact Q|]. destruct (discordant dc g'); [right|left]; reflexivity.
Qed.
