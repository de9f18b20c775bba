(** C125: lines and polygons that intersect themselves. *)
From Coq Require Import ZArith Reals String Ascii Bool List Lra Psatz Lia.
From Verif Require Import PyBase PyStr VecModel VecProofs GeoModel GeoSpec GeoTrig GeoProofs GeoProps SphereProps MiddleModel MiddleSpec MiddleProps SelfModel SelfSpec.
Import ListNotations.
Open Scope R_scope.

Lemma roll_nth l : l <> [] -> length (roll1 l) = length l /\ nth_error (roll1 l) 0 = nth_error l (length l - 1) /\ forall i, (S i < length l)%nat -> nth_error (roll1 l) (S i) = nth_error l i.
Proof.
  intro N. destruct (exists_last N) as (l' & z & ->). assert (E : roll1 (l' ++ [z]) = z :: l'). { unfold roll1. destruct (l' ++ [z]) as [|a r] eqn:Q; [destruct l'; discriminate|]. rewrite <- Q. f_equal; [apply last_last|apply removelast_last]. }
  rewrite E, app_length. cbn [length]. split; [lia|]. split; [rewrite nth_error_app2 by lia; replace (length l' + 1 - 1 - length l')%nat with 0%nat by lia; reflexivity|]. intros i Hi. cbn [nth_error]. rewrite nth_error_app1 by lia. reflexivity.
Qed.
Lemma seg_start a b : on_segment a b a.
Proof. exists 0. split; [lra|]. split; ring. Qed.
Lemma seg_end a b : on_segment a b b.
Proof. exists 1. split; [lra|]. split; ring. Qed.
Lemma seg_rev a b x : on_segment a b x -> on_segment b a x.
Proof. intros (t & T & X & Y). exists (1 - t). split; [lra|]. rewrite X, Y. split; ring. Qed.
(** Two segments from [b] that share another point overlap. *)
Lemma overlap a b c x : on_segment b a x -> on_segment b c x -> x <> b -> on_segment b a c \/ on_segment b c a.
Proof.
  intros (s & S & X1 & Y1) (r & Rr & X2 & Y2) N. assert (S0 : 0 < s). { destruct (Req_dec s 0) as [Z|Z]; [|lra]. exfalso. apply N. destruct x, b. cbn [fst snd] in *. rewrite Z in *. f_equal; lra. } assert (R0 : 0 < r). { destruct (Req_dec r 0) as [Z|Z]; [|lra]. exfalso. apply N. destruct x, b. cbn [fst snd] in *. rewrite Z in *. f_equal; lra. }
  assert (Ex : s * (fst a - fst b) = r * (fst c - fst b)) by lra. assert (Ey : s * (snd a - snd b) = r * (snd c - snd b)) by lra. destruct (Rle_dec s r) as [L|L].
  - left. exists (s / r). split; [split; [apply Rmult_le_pos; [lra|left; apply Rinv_0_lt_compat; lra]|apply Rmult_le_reg_r with r; [lra|]; unfold Rdiv; rewrite Rmult_assoc, Rinv_l by lra; lra]|]. split; apply Rmult_eq_reg_l with r; try lra; rewrite Rmult_plus_distr_l; field_simplify; try lra.
  - right. exists (r / s). split; [split; [apply Rmult_le_pos; [lra|left; apply Rinv_0_lt_compat; lra]|apply Rmult_le_reg_r with s; [lra|]; unfold Rdiv; rewrite Rmult_assoc, Rinv_l by lra; lra]|]. split; apply Rmult_eq_reg_l with s; try lra; rewrite Rmult_plus_distr_l; field_simplify; try lra.
Qed.
Lemma polygon_lines l : (4 <= length l)%nat -> no_repeats l -> nth_error l 0 <> nth_error l (length l - 1) -> (simple_polygon l <-> simple_line l /\ simple_line (roll1 l)).
Proof.
  intros L N F. assert (Nl : l <> []) by (destruct l; [cbn in L; lia|discriminate]). destruct (roll_nth l Nl) as (RL & R0 & RS). set (n := length l) in *.
  assert (SP : forall i a b, piece l i a b -> side l i a b). { intros i a b [A B]. split; [exact A|]. assert (S i < length l)%nat by (apply nth_error_Some; congruence). fold n in H |- *. replace (Nat.eqb (S i) n) with false by (symmetry; apply Nat.eqb_neq; lia). exact B. }
  assert (PS : forall i a b, side l i a b -> (S i < n)%nat -> piece l i a b). { intros i a b [A B] H. split; [exact A|]. fold n in B. replace (Nat.eqb (S i) n) with false in B by (symmetry; apply Nat.eqb_neq; lia). exact B. }
  assert (PL : forall i a b, piece l i a b -> (S i < n)%nat) by (intros i a b [A B]; apply nth_error_Some; congruence).
  assert (R1 : forall a b, piece (roll1 l) 0 a b -> side l (n - 1) a b). { intros a b [A B]. rewrite R0 in A. rewrite RS in B by lia. split; [exact A|]. fold n. replace (Nat.eqb (S (n - 1)) n) with true by (symmetry; apply Nat.eqb_eq; lia). exact B. }
  assert (R1' : forall a b, side l (n - 1) a b -> piece (roll1 l) 0 a b). { intros a b [A B]. fold n in B. replace (Nat.eqb (S (n - 1)) n) with true in B by (symmetry; apply Nat.eqb_eq; lia). split; [rewrite R0; exact A|rewrite RS by lia; exact B]. }
  assert (R2 : forall i a b, piece (roll1 l) (S i) a b -> piece l i a b /\ (S (S i) < n)%nat). { intros i a b [A B]. assert (S (S i) < n)%nat by (rewrite <- RL; apply nth_error_Some; congruence). rewrite RS in A, B by lia. split; [split; assumption|assumption]. }
  assert (R2' : forall i a b, piece l i a b -> (S (S i) < n)%nat -> piece (roll1 l) (S i) a b). { intros i a b [A B] H. split; rewrite RS by lia; assumption. }
  split.
  - intro P. split.
    + intros i j a b c d x Hij A B X Y. destruct (P i j a b c d x Hij (SP _ _ _ A) (SP _ _ _ B) X Y) as [Q|(_ & Q & _)]; [left; exact Q|]. fold n in Q. apply PL in B. lia.
    + intros [|i] [|j] a b c d x Hij A B X Y; try lia.
      * apply R1 in A. apply R2 in B as [B Bj]. destruct (P j (n - 1)%nat c d a b x ltac:(lia) (SP _ _ _ B) A Y X) as [[Q _]|(Q & _ & E)]; [lia|]. left. subst j x. split; [reflexivity|]. destruct A as [_ A]. fold n in A. replace (Nat.eqb (S (n - 1)) n) with true in A by (symmetry; apply Nat.eqb_eq; lia). destruct B as [B _]. congruence.
      * apply R2 in A as [A Ai]. apply R2 in B as [B Bj]. destruct (P i j a b c d x ltac:(lia) (SP _ _ _ A) (SP _ _ _ B) X Y) as [[Q E]|(_ & Q & _)]; [left; split; [lia|exact E]|fold n in Q; lia].
  - intros [P1 P2] i j a b c d x Hij A B X Y. assert (Jn : (j < n)%nat) by (destruct B as [B _]; apply nth_error_Some; congruence). destruct (Nat.eq_dec j (n - 1)) as [->|Hj].
    + assert (Ai : piece l i a b) by (apply PS; [exact A|lia]). pose proof (R1' _ _ B) as B1. destruct (Nat.eq_dec i (n - 2)) as [->|Hi].
      * (* the two sides at the last corner *)
        left. split; [lia|]. assert (Eb : b = c). { destruct Ai as [_ Ai]. destruct B as [B _]. replace (S (n - 2)) with (n - 1)%nat in Ai by lia. congruence. } subst c. assert (Dx : {x = b} + {x <> b}). { destruct x as [x1 x2], b as [b1 b2]. destruct (Req_EM_T x1 b1) as [->|]; [destruct (Req_EM_T x2 b2) as [->|]; [left; reflexivity|right; congruence]|right; congruence]. } destruct Dx as [E|E]; [exact E|exfalso].
        assert (H0 : nth_error l 0 = Some d). { destruct B as [_ B]. fold n in B. replace (Nat.eqb (S (n - 1)) n) with true in B by (symmetry; apply Nat.eqb_eq; lia). exact B. } assert (Hb : nth_error l (n - 1) = Some b) by (destruct B as [B _]; exact B).
        destruct (overlap a b d x (seg_rev _ _ _ X) Y E) as [O|O].
        -- destruct (nth_error l 1) as [e|] eqn:H1; [|apply nth_error_None in H1; fold n in H1; lia]. destruct (P1 0%nat (n - 2)%nat d e a b d ltac:(lia) (conj H0 H1) Ai (seg_start _ _) (seg_rev _ _ _ O)) as [[Q _]|(_ & _ & _ & Q)]; [lia|]. apply F. rewrite H0, Hb, Q. reflexivity.
        -- destruct (nth_error l (n - 3)) as [e|] eqn:H3; [|apply nth_error_None in H3; fold n in H3; lia]. assert (Pe : piece l (n - 3) e a) by (split; [exact H3|replace (S (n - 3)) with (n - 2)%nat by lia; destruct Ai as [Ai _]; exact Ai]). assert (Pr : piece (roll1 l) (n - 2) e a) by (replace (n - 2)%nat with (S (n - 3)) by lia; apply R2'; [exact Pe|lia]).
           destruct (P2 0%nat (n - 2)%nat b d e a a ltac:(lia) B1 Pr O (seg_end _ _)) as [[Q _]|(_ & _ & Q & _)]; [lia|]. apply (N _ _ _ Ai). exact Q.
      * assert (A1 : piece (roll1 l) (S i) a b) by (apply R2'; [exact Ai|lia]). destruct (P2 0%nat (S i) c d a b x ltac:(lia) B1 A1 Y X) as [[Q E]|(_ & Q & E1 & E2)].
        -- right. assert (i = 0%nat) by lia. subst i. repeat split; [fold n; lia|]. rewrite E. destruct B as [_ B]. fold n in B. replace (Nat.eqb (S (n - 1)) n) with true in B by (symmetry; apply Nat.eqb_eq; lia). destruct Ai as [Ai _]. congruence.
        -- exfalso. rewrite RL in Q. assert (i = (n - 3)%nat) by lia. subst i. assert (Pc : piece l (n - 2) b c). { split; [destruct Ai as [_ Ai]; replace (S (n - 3)) with (n - 2)%nat in Ai by lia; exact Ai|replace (S (n - 2)) with (n - 1)%nat by lia; destruct B as [B _]; exact B]. } apply (N _ _ _ Pc). congruence.
    + destruct (P1 i j a b c d x Hij ltac:(apply PS; [exact A|lia]) ltac:(apply PS; [exact B|lia]) X Y) as [Q|(Q1 & Q2 & E1 & E2)]; [left; exact Q|exfalso]. fold n in Q2. apply F. subst i. destruct A as [A _]. assert (Bj : piece l j c d) by (apply PS; [exact B|lia]). destruct Bj as [_ Bj]. replace (S j) with (n - 1)%nat in Bj by lia. congruence.
Qed.
Lemma roll_project c l : forall xs, project_all (R * R) fst snd c l = Ok xs -> l <> [] -> project_all (R * R) fst snd c (roll1 l) = Ok (roll1 xs).
Proof.
  assert (App : forall l1 l2 x1 x2, project_all (R * R) fst snd c l1 = Ok x1 -> project_all (R * R) fst snd c l2 = Ok x2 -> project_all (R * R) fst snd c (l1 ++ l2) = Ok (x1 ++ x2)). { induction l1 as [|a l1 IH]; intros l2 x1 x2 E1 E2; cbn [project_all app] in *; [injection E1 as <-; exact E2|]. destruct (ortho_forward (fst c) (snd c) (fst a) (snd a)) as [x|]; [|discriminate]. cbn [bind] in *. destruct (project_all (R * R) fst snd c l1) as [y|] eqn:Q; [|discriminate]. injection E1 as <-. rewrite (IH l2 y x2 eq_refl E2). reflexivity. }
  assert (Inv : forall l1 l2 xs, project_all (R * R) fst snd c (l1 ++ l2) = Ok xs -> exists x1 x2, xs = x1 ++ x2 /\ project_all (R * R) fst snd c l1 = Ok x1 /\ project_all (R * R) fst snd c l2 = Ok x2). { induction l1 as [|a l1 IH]; intros l2 xs E; cbn [project_all app] in *; [exists [], xs; repeat split; exact E|]. destruct (ortho_forward (fst c) (snd c) (fst a) (snd a)) as [x|]; [|discriminate]. cbn [bind] in *. destruct (project_all (R * R) fst snd c (l1 ++ l2)) as [y|] eqn:Q; [|discriminate]. injection E as <-. destruct (IH l2 y Q) as (x1 & x2 & -> & -> & ->). exists (x :: x1), x2. repeat split. }
  intros xs E N. assert (RR : forall (l' : list (R * R)) z, roll1 (l' ++ [z]) = z :: l'). { intros l' z. unfold roll1. destruct (l' ++ [z]) as [|a r] eqn:Q; [destruct l'; discriminate|]. rewrite <- Q. f_equal; [apply last_last|apply removelast_last]. }
  destruct (exists_last N) as (l' & z & ->). apply Inv in E as (x1 & x2 & -> & E1 & E2). cbn [project_all] in E2. destruct (ortho_forward (fst c) (snd c) (fst z) (snd z)) as [x|] eqn:F; [|discriminate]. injection E2 as <-. rewrite !RR. cbn [project_all]. rewrite F, E1. reflexivity.
Qed.
(** With closed_shape, False is the answer exactly for polygons whose sides meet only in their corners;
    without, for simple lines. *)
Theorem C125_answer : forall point_at is_simple lons lats west east north south xs, knows_simple is_simple -> length lons = length lats -> (4 <= length lons)%nat ->
  spherical_bounding_box lons lats = Ok (west, east, north, south) -> let m := get_middle_point point_at west north east south in
  length xs = length lons -> (forall i lon lat, nth_error lons i = Some lon -> nth_error lats i = Some lat -> exists x, nth_error xs i = Some x /\ ortho_forward (fst m) (snd m) lon lat = Ok x) ->
  no_repeats xs ->
  (exists b, line_intersects_itself point_at is_simple lons lats false = Ok b /\ (b = false <-> simple_line xs)) /\
  (nth_error xs 0 <> nth_error xs (length xs - 1) -> exists b, line_intersects_itself point_at is_simple lons lats true = Ok b /\ (b = false <-> simple_polygon xs)).
Proof.
  intros point_at is_simple lons lats west east north south xs Ks L L4 B m Lx P N.
  assert (Pa : project_all (R * R) fst snd m (combine lons lats) = Ok xs).
  { clear - L Lx P. revert lats xs L Lx P. induction lons as [|a lons IH]; intros [|b lats] [|x xs] L Lx P; cbn in L, Lx; try lia; [reflexivity|]. cbn [combine project_all fst snd]. destruct (P 0%nat a b eq_refl eq_refl) as (x' & E & ->). injection E as <-. cbn [bind]. rewrite (IH lats xs); [reflexivity|lia|lia|]. intros i. exact (P (S i)). }
  assert (Hc : combine lons lats <> []) by (destruct lons, lats; cbn in L, L4; try lia; discriminate). pose proof (roll_project _ _ _ Pa Hc) as Pr.
  unfold line_intersects_itself. rewrite (proj2 (Nat.eqb_eq _ _) L). cbn [negb]. rewrite (proj2 (Nat.leb_gt (length lons) 3)) by lia. rewrite B. cbn [bind]. unfold ortho_centre. fold m. rewrite Pa. cbn [bind]. rewrite Pr. cbn [bind]. split.
  - destruct (is_simple xs) eqn:S; cbn [negb]; eexists; (split; [reflexivity|]); rewrite <- (Ks xs N), S; split; congruence.
  - intro F. assert (N' : no_repeats (roll1 xs)). { destruct (roll_nth xs) as (RL & R0 & RS); [destruct xs; [cbn in Lx; lia|discriminate]|]. intros [|i] a b [A Bb] E; subst b.
      - rewrite RS in Bb by lia. rewrite R0 in A. apply F. congruence.
      - assert (S (S i) < length xs)%nat by (rewrite <- RL; apply nth_error_Some; congruence). rewrite RS in A, Bb by lia. exact (N i a a (conj A Bb) eq_refl). }
    assert (Q : simple_polygon xs <-> is_simple xs = true /\ is_simple (roll1 xs) = true) by (rewrite (Ks xs N), (Ks _ N'); apply polygon_lines; [lia|exact N|exact F]).
    destruct (is_simple xs); cbn [negb]; [destruct (is_simple (roll1 xs)); cbn [negb]|]; eexists; (split; [reflexivity|]); rewrite Q; split; try congruence; intuition congruence.
Qed.
Print Assumptions C125_answer.
(** Fewer than four places never intersect; lists of different lengths: AssertionError. *)
Theorem C125_few : forall point_at is_simple lons lats closed, (length lons <> length lats -> line_intersects_itself point_at is_simple lons lats closed = Err AssertionError) /\
  (length lons = length lats -> (length lons <= 3)%nat -> line_intersects_itself point_at is_simple lons lats closed = Ok false).
Proof.
  intros. unfold line_intersects_itself. split; [intro H; rewrite (proj2 (Nat.eqb_neq _ _) H); reflexivity|]. intros H H3. rewrite (proj2 (Nat.eqb_eq _ _) H), (proj2 (Nat.leb_le _ _) H3). reflexivity.
Qed.
Print Assumptions C125_few.
(** The end at the beginning is no intersection, against the docstring: a triangle with its first
    corner repeated. *)
Lemma deg_60 : deg 60 = PI / 3. Proof. unfold deg. field. Qed.
Lemma deg_30 : deg 30 = PI / 6. Proof. unfold deg. field. Qed.
Lemma deg_m60 : deg (-60) = - (PI / 3). Proof. unfold deg. field. Qed.
Lemma deg_m30 : deg (-30) = - (PI / 6). Proof. unfold deg. field. Qed.
Lemma middle_sum point_at lon1 lat1 lon2 lat2 : travels point_at -> let m := get_middle_point point_at lon1 lat1 lon2 lat2 in exists k, 0 <= k /\ vadd (place lon1 lat1) (place lon2 lat2) = vscale k (place (fst m) (snd m)).
Proof.
  intros T m. destruct (C121_middle point_at lon1 lat1 lon2 lat2 T) as [H1 H2]. fold m in H1, H2. set (lon := fst m) in *. set (lat := snd m) in *. destruct (dist_angle lon1 lat1 lon2 lat2) as (t & A & D). rewrite D in H1, H2. destruct (dist_angle lon1 lat1 lon lat) as (t1 & A1 & D1). destruct (dist_angle lon lat lon2 lat2) as (t2 & A2 & D2). rewrite D1 in H1. rewrite D2 in H2. assert (t1 = t / 2) by lra. assert (t2 = t / 2) by lra. subst t1 t2. apply angle_sym in A1.
  exists (2 * cos (t / 2)). split; [destruct A as [A _]; assert (0 <= cos (t / 2)) by (apply cos_ge_0; pose proof PI_RGT_0; lra); lra|]. set (p := place lon1 lat1) in *. set (q := place lon2 lat2) in *. set (mm := place lon lat) in *. assert (Up : vdot p p = 1) by apply place_unit. assert (Uq : vdot q q = 1) by apply place_unit. assert (Um : vdot mm mm = 1) by apply place_unit.
  destruct A as [_ Ep]. destruct A1 as [_ E1]. destruct A2 as [_ E2]. change (cos t = vdot p q) in Ep. change (cos (t / 2) = vdot mm p) in E1. change (cos (t / 2) = vdot mm q) in E2.
  set (w := vsub (vadd p q) (vscale (2 * cos (t / 2)) mm)). assert (Z : vdot w w = 0). { transitivity (vdot p p + vdot q q + 2 * vdot p q - 4 * cos (t / 2) * (vdot mm p + vdot mm q) + 4 * cos (t / 2) * cos (t / 2) * vdot mm mm); [unfold w, vdot, vsub, vadd, vscale; cbn [vx vy vz]; ring|]. rewrite Up, Uq, Um, <- Ep, <- E1, <- E2. replace t with (2 * (t / 2)) at 1 by field. rewrite cos_2a_cos. ring. }
  unfold vdot in Z. pose proof (Rle_0_sqr (vx w)) as Wx. pose proof (Rle_0_sqr (vy w)) as Wy. pose proof (Rle_0_sqr (vz w)) as Wz. unfold Rsqr in *. assert (X : vx w = 0) by (apply Rsqr_0_uniq; unfold Rsqr; lra). assert (Y : vy w = 0) by (apply Rsqr_0_uniq; unfold Rsqr; lra). assert (V : vz w = 0) by (apply Rsqr_0_uniq; unfold Rsqr; lra).
  unfold w, vsub in X, Y, V. cbn [vx vy vz] in X, Y, V. unfold vadd, vscale in *. cbn [vx vy vz] in *. apply vec_ext; cbn [vx vy vz]; lra.
Qed.
Theorem C125_closed_refuted : forall point_at is_simple, travels point_at -> knows_simple is_simple ->
  line_intersects_itself point_at is_simple [-60; 60; 60; -60] [30; -30; 30; 30] false = Ok false.
Proof.
  intros point_at is_simple T Ks. set (m := get_middle_point point_at (-60) 30 60 (-30)).
  assert (S3 : sqrt 3 * sqrt 3 = 3) by (apply sqrt_sqrt; lra). assert (S3p : 0 < sqrt 3) by (apply sqrt_lt_R0; lra).
  assert (M : exists lon, m = (lon, 0) /\ sin (deg lon) = 0 /\ cos (deg lon) = 1).
  { destruct (middle_sum point_at (-60) 30 60 (-30) T) as (k & K & E). fold m in E. assert (Hl : -90 <= snd m <= 90). { unfold m, get_middle_point. destruct (reqd (-60) 60) eqn:Q; [apply reqd_iff in Q; lra|]. cbn [andb]. match goal with |- context [point_at ?a ?b ?c ?d] => specialize (T a b c d); destruct (point_at a b c d) as [x y] end. cbn [snd]. tauto. }
    destruct m as [lon lat]. cbn [fst snd] in *. unfold place, vadd, vscale in E. cbn [vx vy vz] in E. rewrite deg_m60, deg_m30, deg_60, deg_30, !cos_neg, !sin_neg, cos_PI3, sin_PI3, cos_PI6, sin_PI6 in E. injection E as Ex Ey Ez. assert (K0 : k <> 0) by (intro Z; rewrite Z in Ex; lra). assert (Sl : sin (deg lat) = 0) by (apply Rmult_eq_reg_l with k; lra).
    assert (Lz : deg lat = 0). { pose proof PI_RGT_0. rewrite <- (asin_sin (deg lat)) by (apply lat_bounds; exact Hl). rewrite Sl. apply asin_0. } assert (lat = 0). { unfold deg in Lz. pose proof PI_RGT_0. nra. } subst lat. rewrite Lz, cos_0 in Ex, Ey. assert (Sn : sin (deg lon) = 0) by (apply Rmult_eq_reg_l with k; lra). exists lon. split; [reflexivity|]. split; [exact Sn|]. pose proof (sc2 (deg lon)) as Q. rewrite Sn in Q. assert (0 < cos (deg lon)) by (apply Rmult_lt_reg_l with k; lra). nra. }
  destruct M as (lon & M & Sn & Cn). assert (F : forall a b, 0 <= cos (deg b) * cos (deg a) -> ortho_forward lon 0 a b = Ok (6371 * (cos (deg b) * sin (deg a)), 6371 * sin (deg b))).
  { intros a b H. destruct (dist_angle lon 0 a b) as (t & A & _). destruct (C45_forward _ _ _ _ _ A) as [G _]. rewrite G.
    - unfold vdot, east_of, north_of, place. cbn [vx vy vz]. replace (deg 0) with 0 by (unfold deg; field). rewrite Sn, Cn, sin_0, cos_0. f_equal. f_equal; ring.
    - destruct A as [A C]. apply Rnot_lt_le. intro N. unfold place in C. cbn [vx vy vz] in C. replace (deg 0) with 0 in C by (unfold deg; field). rewrite Sn, Cn, sin_0, cos_0 in C. assert (cos t < 0) by (apply cos_lt_0; pose proof PI_RGT_0; lra). lra. }
  assert (Bx : spherical_bounding_box [-60; 60; 60; -60] [30; -30; 30; 30] = Ok (-60, 60, 30, -30)).
  { unfold spherical_bounding_box. cbn [rmin_list rmax_list]. replace (Rmax 30 (Rmax (-30) (Rmax 30 30))) with 30 by (rewrite (Rmax_left 30 30), (Rmax_right (-30) 30), (Rmax_left 30 30) by lra; reflexivity). replace (Rmin 30 (Rmin (-30) (Rmin 30 30))) with (-30) by (rewrite (Rmin_left 30 30), (Rmin_left (-30) 30), (Rmin_right 30 (-30)) by lra; reflexivity). replace (Rmin (-60) (Rmin 60 (Rmin 60 (-60)))) with (-60) by (rewrite !(Rmin_right 60 (-60)), (Rmin_left (-60) (-60)) by lra; reflexivity). replace (Rmax (-60) (Rmax 60 (Rmax 60 (-60)))) with 60 by (rewrite (Rmax_left 60 (-60)), (Rmax_left 60 60), (Rmax_right (-60) 60) by lra; reflexivity).
    rewrite (proj2 (rleb_iff (-180) (-60))), (proj2 (rleb_iff (-60) 180)), (proj2 (rleb_iff (-180) 60)), (proj2 (rleb_iff 60 180)) by lra. cbn [andb]. assert (E : longitudinal_extent (-60) 60 = 120). { unfold longitudinal_extent, pymod. replace (60 - -60 + 180) with 300 by ring. rewrite (Flocq.Core.Raux.Zfloor_imp 0); [ring|cbn; lra]. } rewrite E, (proj2 (rltb_f 120 0)) by lra. reflexivity. }
  assert (F1 : ortho_forward lon 0 (-60) 30 = Ok (- (6371 * (3 / 4)), 6371 / 2)). { assert (G := F (-60) 30). rewrite ?deg_m60, ?deg_m30, ?deg_60, ?deg_30, cos_neg, sin_neg, cos_PI3, sin_PI3, cos_PI6, sin_PI6 in G. rewrite G by lra. f_equal. f_equal; [|lra]. replace (6371 * (sqrt 3 / 2 * - (sqrt 3 / 2))) with (- (6371 * (sqrt 3 * sqrt 3 / 4))) by field. rewrite S3. reflexivity. }
  assert (F2 : ortho_forward lon 0 60 (-30) = Ok (6371 * (3 / 4), - (6371 / 2))). { assert (G := F 60 (-30)). rewrite ?deg_m60, ?deg_m30, ?deg_60, ?deg_30, cos_neg, sin_neg, cos_PI3, sin_PI3, cos_PI6, sin_PI6 in G. rewrite G by lra. f_equal. f_equal; [|lra]. replace (6371 * (sqrt 3 / 2 * (sqrt 3 / 2))) with (6371 * (sqrt 3 * sqrt 3 / 4)) by field. rewrite S3. reflexivity. }
  assert (F3 : ortho_forward lon 0 60 30 = Ok (6371 * (3 / 4), 6371 / 2)). { assert (G := F 60 30). rewrite deg_60, deg_30, cos_PI3, sin_PI3, cos_PI6, sin_PI6 in G. rewrite G by lra. f_equal. f_equal; [|lra]. replace (6371 * (sqrt 3 / 2 * (sqrt 3 / 2))) with (6371 * (sqrt 3 * sqrt 3 / 4)) by field. rewrite S3. reflexivity. }
  set (p1 := (- (6371 * (3 / 4)), 6371 / 2)) in *. set (p2 := (6371 * (3 / 4), - (6371 / 2))) in *. set (p3 := (6371 * (3 / 4), 6371 / 2)) in *. set (xs := [p1; p2; p3; p1]).
  destruct (C125_answer point_at is_simple [-60; 60; 60; -60] [30; -30; 30; 30] (-60) 60 30 (-30) xs Ks eq_refl ltac:(cbn; lia) Bx) as [(b & E & H) _].
  - reflexivity.
  - fold m. rewrite M. cbn [fst snd]. intros [|[|[|[|i]]]] a c Ha Hc; cbn in Ha, Hc; try (destruct i; discriminate); injection Ha as <-; injection Hc as <-; eexists; (split; [reflexivity|]); assumption.
  - intros [|[|[|[|i]]]] a c [Ha Hc] Eq; cbn in Ha, Hc; try (destruct i; discriminate); try discriminate; injection Ha as <-; injection Hc as <-; unfold p1, p2, p3 in Eq; injection Eq as E1; lra.
  - rewrite E. f_equal. apply H. assert (Np1 : forall i a b0, piece xs i a b0 -> (i = 0%nat /\ a = p1 /\ b0 = p2) \/ (i = 1%nat /\ a = p2 /\ b0 = p3) \/ (i = 2%nat /\ a = p3 /\ b0 = p1)). { intros [|[|[|[|i]]]] a b0 [Ha Hb]; cbn in Ha, Hb; try (destruct i; discriminate); try discriminate; injection Ha as <-; injection Hb as <-; tauto. }
    intros i j a b0 c d x Hij A B X Y. apply Np1 in A. apply Np1 in B. assert (Ex : forall u v : R * R, fst u = fst v -> snd u = snd v -> u = v) by (intros [] []; cbn; congruence).
    destruct A as [(-> & -> & ->)|[(-> & -> & ->)|(-> & -> & ->)]], B as [(-> & -> & ->)|[(-> & -> & ->)|(-> & -> & ->)]]; try lia; destruct X as (s & Hs & X1 & X2); destruct Y as (r & Hr & Y1 & Y2); unfold p1, p2, p3 in X1, X2, Y1, Y2; cbn [fst snd] in X1, X2, Y1, Y2.
    + left. split; [reflexivity|]. apply Ex; unfold p2; cbn [fst snd]; lra.
    + right. repeat split; apply Ex; unfold p1; cbn [fst snd]; lra.
    + left. split; [reflexivity|]. apply Ex; unfold p3; cbn [fst snd]; lra.
Qed.
Print Assumptions C125_closed_refuted.
