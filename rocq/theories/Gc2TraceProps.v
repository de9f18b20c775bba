(** C89, C90: GC2 coordinates about several traces. *)
From Coq Require Import ZArith Reals String Ascii Bool List Lra Lia Psatz.
From Verif Require Import PyBase PyStr VecModel GeoModel GeoTrig GeoSpec GeoProofs RuptModel RuptSpec PolyModel PolySpec BuildModel BuildSpec BuildProofs EdgeProofs SizeModel SizeSpec SizeProps VecProofs DipProofs EquatorProofs EcefProps Gc2Model Gc2Spec Gc2Proofs Gc2Props Gc2TraceProofs.
Import ListNotations.
Open Scope R_scope.

(** C89. *)
(** The pairs of places looked at: an end of one trace, and of a later trace the last segment's beginning
    or the first segment's end. *)
Definition end_pair (groups : list nat) (quads : list quad) (P Q : point) : Prop :=
  exists g h lg lh x y, (g < h)%nat /\ picks g groups quads lg /\ picks h groups quads lh /\
  ((begins lg x /\ P = q0 x) \/ (finishes lg x /\ P = q1 x)) /\ ((finishes lh y /\ Q = q0 y) \/ (begins lh y /\ Q = q1 y)).
(** [P] and [Q] are as far apart as any such pair. *)
Definition farthest_pair (groups : list nat) (quads : list quad) (P Q : point) : Prop :=
  (end_pair groups quads P Q \/ end_pair groups quads Q P) /\ exists r, apart P Q r /\ 0 < r /\ forall P' Q' r', end_pair groups quads P' Q' -> apart P' Q' r' -> r' <= r.
(** From the first to the last point of each trace, at the surface. *)
Definition along_traces (groups : list nat) (quads : list quad) (n : nat) (trs : list vec) : Prop :=
  length trs = n /\ forall g tr, nth_error trs g = Some tr -> exists l f e, picks g groups quads l /\ begins l f /\ finishes l e /\ tr = vsub (ecef (at_surface (q1 e))) (ecef (at_surface (q0 f))).
Definition quad_turned (q q' : quad) : Prop := q0 q' = q1 q /\ q1 q' = q0 q /\ q2 q' = q3 q /\ q3 q' = q2 q.
(** The traces that lead against the direction [a], while the sum leads along it, are turned round. *)
Definition lined_up (groups : list nat) (quads quads' : list quad) (trs : list vec) (a : vec) (E : R) : Prop :=
  length quads' = length quads /\
  forall g tr l, nth_error trs g = Some tr -> picks g groups quads l -> exists l', picks g groups quads' l' /\
    (0 < E -> scalar a tr < 0 -> backwards quad_turned l l') /\ (E = 0 \/ 0 <= scalar a tr -> l' = l).
(** Every segment begins where the earlier ones of its trace end, and each trace where it lies along [a]
    from [P]; without a direction every trace begins at zero. *)
Definition placed (groups : list nat) (quads : list quad) (vs : list view) (P : point) (a : vec) (E : R) : Prop :=
  forall k g v, nth_error groups k = Some g -> nth_error vs k = Some v -> exists l f es off, picks g groups quads l /\ begins l f /\ picks g (firstn k groups) (firstn k quads) es /\
    v_start v = total (map top_length es) / 1000 + off / 1000 /\ (0 < E -> off = scalar (vsub (ecef (q0 f)) (ecef (at_surface P))) a) /\ (E = 0 -> off = 0).

Lemma apart_sym P Q r : apart P Q r -> apart Q P r.
Proof. destruct P as [[lon1 lat1] d1], Q as [[lon2 lat2] d2]. intros (t & [A E] & ->). exists t. split; [|reflexivity]. split; [exact A|]. rewrite E. ring. Qed.
Lemma ends_at_pair n groups quads g h f0 f1 : numbered_to n groups -> length groups = length quads -> (g < h < n)%nat ->
  exists PQ, ends_at quads groups (g, h, (f0, f1)) = Ok PQ /\ end_pair groups quads (fst PQ) (snd PQ).
Proof.
  intros N L H. destruct (numbered_picks n groups quads N L g ltac:(lia)) as (lg & Pg & Ng). destruct (numbered_picks n groups quads N L h ltac:(lia)) as (lh & Ph & Nh).
  destruct (ends_exist lg Ng) as [(x0 & B0) (x1 & F0)]. destruct (ends_exist lh Nh) as [(y0 & B1) (y1 & F1)]. unfold ends_at.
  destruct f0; [rewrite (get_last _ _ _ _ _ Pg F0)|rewrite (get_first _ _ _ _ _ Pg B0)]; cbn [bind]; (destruct f1; [rewrite (get_first _ _ _ _ _ Ph B1)|rewrite (get_last _ _ _ _ _ Ph F1)]); cbn [bind]; eexists; (split; [reflexivity|]); cbn [fst snd];
  [exists g, h, lg, lh, x1, y0|exists g, h, lg, lh, x1, y1|exists g, h, lg, lh, x0, y0|exists g, h, lg, lh, x0, y1]; (split; [lia|]); (split; [exact Pg|]); (split; [exact Ph|]); auto.
Qed.
Lemma pair_ends_at n groups quads P Q : numbered_to n groups -> end_pair groups quads P Q -> exists k, In k (it_seg (seq 0 n)) /\ ends_at quads groups k = Ok (P, Q).
Proof.
  intros N (g & h & lg & lh & x & y & H & Pg & Ph & HP & HQ).
  assert (Hn : (h < n)%nat). { apply N. assert (lh <> []) by (destruct HQ as [[[r ->] _]|[[r ->] _]]; [destruct r; discriminate|discriminate]). destruct (in_dec Nat.eq_dec h groups) as [I|I]; [exact I|]. destruct (picks_length _ _ _ _ Ph) as [_ C]. apply count_occ_not_In with (eq_dec := Nat.eq_dec) in I. destruct lh; [congruence|cbn in C; lia]. }
  assert (E : exists f0 f1, ends_at quads groups (g, h, (f0, f1)) = Ok (P, Q)).
  { destruct HP as [[B ->]|[F ->]]; [exists false|exists true]; (destruct HQ as [[F' ->]|[B' ->]]; [exists false|exists true]); unfold ends_at; [rewrite (get_first _ _ _ _ _ Pg B)|rewrite (get_first _ _ _ _ _ Pg B)|rewrite (get_last _ _ _ _ _ Pg F)|rewrite (get_last _ _ _ _ _ Pg F)]; cbn [bind]; (rewrite (get_last _ _ _ _ _ Ph F') || rewrite (get_first _ _ _ _ _ Ph B')); reflexivity. }
  destruct E as (f0 & f1 & E). exists (g, h, (f0, f1)). split; [apply it_in; lia|exact E].
Qed.
Lemma traces_ok n groups quads : numbered_to n groups -> length groups = length quads -> exists trs, trace_vectors quads groups (seq 0 n) = Ok trs /\ along_traces groups quads n trs.
Proof.
  intros N L. assert (G : forall js, (forall j, In j js -> (j < n)%nat) -> exists trs, trace_vectors quads groups js = Ok trs /\ length trs = length js /\
    forall i g tr, nth_error js i = Some g -> nth_error trs i = Some tr -> exists l f e, picks g groups quads l /\ begins l f /\ finishes l e /\ tr = vsub (ecef (at_surface (q1 e))) (ecef (at_surface (q0 f)))).
  { induction js as [|j js IH]; intro H; cbn [trace_vectors].
    - exists []. split; [reflexivity|]. split; [reflexivity|]. intros [|i] g tr E; discriminate.
    - destruct (numbered_picks n groups quads N L j (H j (or_introl eq_refl))) as (l & P & Nl). destruct (ends_exist l Nl) as [(f & B) (e & F)]. rewrite (get_first _ _ _ _ _ P B). cbn [bind]. rewrite (get_last _ _ _ _ _ P F). cbn [bind].
      destruct IH as (trs & -> & LT & HT); [intros i I; apply H; right; exact I|]. cbn [bind]. eexists. split; [reflexivity|]. split; [cbn [length]; lia|].
      intros [|i] g tr E1 E2; cbn [nth_error] in E1, E2; [injection E1 as <-; injection E2 as <-; exists l, f, e; auto|apply (HT i); assumption]. }
  destruct (G (seq 0 n)) as (trs & E & LT & HT); [intros j J; apply in_seq in J; lia|]. rewrite seq_length in LT. exists trs. split; [exact E|]. split; [exact LT|]. intros g tr T. apply (HT g); [|exact T].
  assert (Gn : (g < n)%nat) by (rewrite <- LT; apply nth_error_Some; congruence). rewrite nth_error_nth' with (d := 0%nat) by (rewrite seq_length; exact Gn). rewrite seq_nth by exact Gn. reflexivity.
Qed.
Lemma picks_filter {A} g gi (l r : list A) : picks g gi l r -> map snd (filter (fun x => (fst x =? g)%nat) (combine gi l)) = r.
Proof.
  induction 1 as [|gs l r x H IH|g' gs l r x N H IH]; [reflexivity| |]; cbn [combine filter fst]; [rewrite Nat.eqb_refl; cbn [map snd]; congruence|]. apply Nat.eqb_neq in N. rewrite N. exact IH.
Qed.
Lemma picks_firstn {A} g gi (l r : list A) k : picks g gi l r -> exists es, picks g (firstn k gi) (firstn k l) es.
Proof. intro P. destruct (picks_length _ _ _ _ P) as [L _]. destruct (picks_total g (firstn k gi) (firstn k l)) as (es & Q & _); [rewrite !firstn_length; lia|]. eauto. Qed.
Lemma earlier_total g groups quads es k : nth_error groups k = Some g -> picks g (firstn k groups) (firstn k quads) es -> earlier groups (map q_length quads) k = total (map top_length es) / 1000.
Proof.
  intros E P. unfold earlier. rewrite (nth_error_nth _ _ 0%nat E). rewrite combine_firstn, firstn_map. rewrite (picks_filter g _ _ (map q_length es)) by (apply picks_map; exact P). rewrite rsum_total.
  clear. induction es as [|q es IH]; cbn [map total]; [lra|]. rewrite IH, q_length_dist. unfold top_length. lra.
Qed.
Lemma rev_back l : backwards quad_turned l (map reverse_quad (rev l)).
Proof. induction l as [|q l IH]; cbn [rev map]; [constructor|]. rewrite map_app. cbn [map]. constructor; [repeat split|exact IH]. Qed.
Lemma last_finishes {A} (l : list A) x r : rev l = x :: r -> finishes l x.
Proof. intro E. exists (rev r). rewrite <- (rev_involutive l), E. reflexivity. Qed.
Lemma finishes_map {A B} (f : A -> B) l x : finishes l x -> finishes (map f l) (f x).
Proof. intros (r & ->). exists (map f r). apply map_app. Qed.

Theorem C89_several : forall fuel c quads groups n lon lat d, (2 <= fuel)%nat -> (2 <= n)%nat -> numbered_to n groups -> length groups = length quads ->
  (exists P Q r, end_pair groups quads P Q /\ apart P Q r /\ 0 < r) ->
  beside_all c (lon, lat, d) quads -> Forall (fun q => clear_of c (lon, lat, d) (q1 q) (q0 q) (ecef (q1 q)) (ecef (q0 q))) quads ->
  exists P Q a trs quads' vs v T U r0, farthest_pair groups quads P Q /\ direction (vsub (ecef (at_surface Q)) (ecef (at_surface P))) a /\
  along_traces groups quads n trs /\ let E := total (map (scalar a) trs) in 0 <= E /\ lined_up groups quads quads' trs a E /\
  Forall2 (fun q v => viewed c (lon, lat, d) (q0 q) (q1 q) v /\ 1000 * v_l v = top_length q /\ 0 < v_w v) quads' vs /\ placed groups quads' vs P a E /\
  weighed vs T U /\ finishes vs v /\ beyond 0 (v_start v + v_l v) U r0 /\
  compute_gc2 fuel c quads groups lon lat = Some (Ok (mkgc2 (Some T) (Some U) (Some T) (Some (U - total (map v_l vs) / 2)) r0)).
Proof.
  intros fuel c quads groups n lon lat d Fu N2 N L (P0 & Q0 & r00 & EP0 & A0 & R0) B1 B2.
  unfold compute_gc2. rewrite (numbered_unique n groups N), seq_length. replace (n =? 0)%nat with false by (symmetry; apply Nat.eqb_neq; lia). replace (n =? 1)%nat with false by (symmetry; apply Nat.eqb_neq; lia).
  replace (forallb (fun k => (k <? n)%nat) (seq 0 n)) with true by (symmetry; apply forallb_forall; intros k K; apply in_seq in K; apply Nat.ltb_lt; lia). cbn [negb].
  destruct (farthest_spec quads groups (it_seg (seq 0 n))) with (d := 0) (A := @None (point * point)) as (r & Er & Hr); [|reflexivity|].
  { intros [[g h] [f0 f1]] I. apply it_in in I. destruct (ends_at_pair n groups quads g h f0 f1 N L I) as (PQ & E & _). eauto. }
  rewrite Er. destruct (pair_ends_at n groups quads P0 Q0 N EP0) as (k0 & I0 & E0).
  assert (S0 : surface_distance P0 Q0 = r00) by (eapply apart_fun; [apply surface_dist|exact A0]).
  destruct r as [[A A']|]; [|destruct Hr as [_ Z]; specialize (Z k0 _ I0 E0); cbn [fst snd] in Z; lra]. cbn [fst snd] in Hr. destruct Hr as (DP & _ & [X|([[g h] [f0 f1]] & I & E)] & MAX); [discriminate|].
  assert (EP : end_pair groups quads A A'). { apply it_in in I. destruct (ends_at_pair n groups quads g h f0 f1 N L I) as (PQ & E' & H). rewrite E in E'. injection E' as <-. exact H. }
  assert (MX : forall P' Q' r', end_pair groups quads P' Q' -> apart P' Q' r' -> r' <= surface_distance A A'). { intros P' Q' r' H1 H2. destruct (pair_ends_at n groups quads P' Q' N H1) as (k' & I' & E'). specialize (MAX k' _ I' E'). cbn [fst snd] in MAX. rewrite (apart_fun _ _ _ _ H2 (surface_dist P' Q')). exact MAX. }
  destruct (traces_ok n groups quads N L) as (trs & ET & AT). rewrite ET.
  destruct (orientation_ends fuel trs A A' Fu (surface_vec _ _ DP)) as (nom & EO & CH). rewrite EO. replace (length groups =? length quads)%nat with true by (symmetry; apply Nat.eqb_eq; exact L). cbn [negb].
  assert (G : exists P Q a, farthest_pair groups quads P Q /\ n_origin nom = ecef (at_surface P) /\ n_ahat nom = Some a /\ direction (vsub (ecef (at_surface Q)) (ecef (at_surface P))) a /\
    n_E nom = total (map (vdot a) trs) /\ 0 <= n_E nom /\ n_dc nom = map (fun b => sign (vdot a b) * sign (n_E nom)) trs).
  { destruct CH as [(a & H)|(a & H)]; [exists A, A', a|exists A', A, a]; (split; [|exact H]).
    - split; [left; exact EP|]. exists (surface_distance A A'). split; [apply surface_dist|]. split; [exact DP|exact MX].
    - split; [right; exact EP|]. exists (surface_distance A A'). split; [apply apart_sym, surface_dist|]. split; [exact DP|exact MX]. }
  clear CH. destruct G as (P & Q & a & FP & NO & NA & DA & NE & E0' & ND).
  destruct (rearrange_spec (n_dc nom) groups quads L) as (quads' & RQ & LQ & PQ & IQ). rewrite RQ. cbn [bind]. unfold sum_up.
  assert (B : beside_all c (lon, lat, d) quads').
  { apply Forall_forall. intros q I'. destruct (IQ q I') as (q' & I2 & [E1|E1]); subst q; [unfold beside_all in B1; rewrite Forall_forall in B1; apply B1; exact I2|rewrite Forall_forall in B2; exact (B2 q' I2)]. }
  assert (NG : forall k, (k < length quads')%nat -> exists g l f es, nth_error groups k = Some g /\ picks g groups quads' l /\ begins l f /\ picks g (firstn k groups) (firstn k quads') es).
  { intros k K. destruct (nth_error groups k) as [g'|] eqn:Eg; [|apply nth_error_None in Eg; lia]. destruct (picks_some g' groups quads') as (x & l & Pk); [congruence|eapply nth_error_In; exact Eg|]. destruct (picks_firstn g' groups quads' (x :: l) k Pk) as (es & Pe). exists g', (x :: l), x, es. repeat split; [exact Pk|exists l; reflexivity|exact Pe]. }
  set (os := map (fun k => match offset nom groups quads' k with Ok x => x | Err _ => 0 end) (seq 0 (length quads'))).
  assert (OF : forall k, (k < length quads')%nat -> exists g l f es, nth_error groups k = Some g /\ picks g groups quads' l /\ begins l f /\ picks g (firstn k groups) (firstn k quads') es /\
    offset nom groups quads' k = Ok (total (map top_length es) / 1000 + vdot (vsub (ecef (q0 f)) (ecef (at_surface P))) (vscale (sign (n_E nom)) a) / 1000)).
  { intros k K. destruct (NG k K) as (g' & l & f & es & Eg & Pl & Bf & Pe). exists g', l, f, es. repeat (split; [assumption|]). unfold offset. rewrite (nth_error_nth _ _ 0%nat Eg), (get_first _ _ _ _ _ Pl Bf). cbn [bind]. rewrite NA, NO, (earlier_total g' groups quads' es k Eg Pe). reflexivity. }
  destruct (segments_clear c lon lat d (offset nom groups quads') quads' B 0 os) as (segs & ES & LS & FS & SO).
  { intros k K. rewrite Nat.add_0_l. unfold os. rewrite nth_map_seq by exact K. destruct (OF k K) as (? & ? & ? & ? & _ & _ & _ & _ & ->). reflexivity. }
  rewrite ES. cbn [bind]. assert (NS : segs <> []). { destruct segs; [|congruence]. assert (In 0%nat groups) by (apply N; lia). destruct groups; [contradiction|cbn [length] in *; lia]. }
  assert (F1 : Forall (fun s => 0 < s_l s /\ ~ on_it (s_u s) (s_t s) (s_l s)) segs). { clear -FS. induction FS as [|q s qs ss (V & E & N) _ IH]; constructor; [|exact IH]. split; [apply V|exact N]. }
  destruct (finish_clear segs (rsum (map q_length quads')) (far_end (rsum (map q_length quads'))) NS F1) as (T & U & W & EF). rewrite EF.
  assert (EL : rsum (map q_length quads') = total (map v_l (map view_of segs))). { rewrite rsum_total. clear -FS. induction FS as [|q s qs ss (V & E & N) _ IH]; cbn [map total]; [reflexivity|]. rewrite IH. cbn [view_of v_l]. rewrite E. reflexivity. }
  destruct (rev segs) as [|sl rs] eqn:RS; [elim NS; rewrite <- (rev_involutive segs), RS; reflexivity|].
  exists P, Q, a, trs, quads', (map view_of segs), (view_of sl), T, U, (ry0_of (Some U) (far_end (rsum (map q_length quads')) segs)). cbv zeta. change (map (scalar a) trs) with (map (vdot a) trs). rewrite <- NE.
  split; [exact FP|]. split; [exact DA|]. split; [exact AT|]. split; [exact E0'|]. split; [|split; [|split; [|split; [exact W|split; [apply finishes_map; eapply last_finishes; exact RS|split; [|rewrite EL; reflexivity]]]]]].
  - split; [exact LQ|]. intros g' tr l Tg Pl. specialize (PQ g' l Pl). exists (if discordant (n_dc nom) g' then map reverse_quad (rev l) else l). split; [exact PQ|].
    assert (ED : discordant (n_dc nom) g' = rltb (sign (vdot a tr) * sign (n_E nom)) 0). { unfold discordant. rewrite ND. f_equal. apply nth_error_nth. rewrite nth_error_map, Tg. reflexivity. }
    rewrite ED. change (scalar a tr) with (vdot a tr). unfold rltb. split; intro H.
    + intro H2. destruct (Rlt_dec _ 0) as [_|X]; [apply rev_back|]. elim X. destruct (sign_cases (n_E nom)) as [[_ ->]|[[? _]|[? _]]]; try lra. destruct (sign_cases (vdot a tr)) as [[? _]|[[_ ->]|[? _]]]; lra.
    + destruct (Rlt_dec _ 0) as [X|_]; [|reflexivity]. exfalso. destruct (sign_cases (n_E nom)) as [[E1 E2]|[[E1 E2]|[E1 E2]]]; rewrite E2 in X; try lra. destruct (sign_cases (vdot a tr)) as [[E3 E4]|[[E3 E4]|[E3 E4]]]; rewrite E4 in X; lra.
  - clear -FS. induction FS as [|q s qs ss (V & E & N) _ IH]; cbn [map]; constructor; [|exact IH]. split; [exact V|]. split; [cbn [view_of v_l]; rewrite E, q_length_dist; unfold top_length; lra|]. destruct V as (_ & P & Q). eapply pull_pos; [exact P|exact N|exact Q].
  - intros k g' v Eg Ev. rewrite nth_error_map in Ev. destruct (nth_error segs k) as [s|] eqn:Es; [|discriminate]. injection Ev as <-. cbn [view_of v_start]. assert (K : (k < length quads')%nat) by (rewrite <- LS; apply nth_error_Some; congruence).
    destruct (OF k K) as (g2 & l & f & es & Eg2 & Pl & Bf & Pe & EOF). rewrite Eg in Eg2. injection Eg2 as <-. exists l, f, es, (vdot (vsub (ecef (q0 f)) (ecef (at_surface P))) (vscale (sign (n_E nom)) a)). repeat (split; [assumption|]).
    specialize (SO k K). rewrite (nth_error_nth _ _ _ Es) in SO. rewrite SO. unfold os. rewrite nth_map_seq, EOF by exact K. split; [reflexivity|]. split; intro H.
    + destruct (sign_cases (n_E nom)) as [[_ ->]|[[? _]|[? _]]]; try lra. unfold scalar, vdot, vscale. cbn [vx vy vz]. ring.
    + destruct (sign_cases (n_E nom)) as [[? _]|[[? _]|[_ ->]]]; try lra. unfold vdot, vscale. cbn [vx vy vz]. ring.
  - assert (FE : far_end (rsum (map q_length quads')) segs = v_start (view_of sl) + v_l (view_of sl)) by (unfold far_end; rewrite RS; reflexivity). rewrite FE. apply ry0_beyond.
Qed.
Print Assumptions C89_several.
