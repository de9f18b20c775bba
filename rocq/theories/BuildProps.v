(** Properties C80 (fromVertices) and C81 (fromTrace, fromOrientation). *)
From Coq Require Import ZArith Reals String Ascii Bool List Lia Lra.
From Verif Require Import PyBase PyStr VecModel VecProofs GeoModel GeoTrig GeoSpec GeoProofs RuptModel PolyModel PolySpec PolyProofs QuadProofs EdgeProofs EquatorProofs QuadProps LonProps SphereProps BuildModel BuildSpec BuildProofs.
Import ListNotations.
Open Scope nat_scope.

(** The call for a list of patches. *)
Definition call (ps : list patch) (gi : option (list nat)) : outcome (list quad * list nat) :=
  let lons f := map (fun c : patch => lon_of (f c)) ps in let lats f := map (fun c : patch => lat_of (f c)) ps in let deps f := map (fun c : patch => dep_of (f c)) ps in
  from_vertices (lons p_tl) (lats p_tl) (deps p_tl) (lons p_tr) (lats p_tr) (deps p_tr) (lons p_br) (lats p_br) (deps p_br) (lons p_bl) (lats p_bl) (deps p_bl) gi.
Lemma call_eq ps gi : call ps gi = match gi with
  | Some g => if negb (length g =? length ps) then Inconsistent else finish (grouped (map p_tl ps) (map p_tr ps) (map p_br ps) (map p_bl ps) g)
  | None => finish (grouped (map p_tl ps) (map p_tr ps) (map p_br ps) (map p_bl ps) (seq 0 (length ps))) end.
Proof.
  unfold call, from_vertices. cbv zeta. replace (chain_eq _) with true by (symmetry; apply chain_eq_iff; cbn [map]; rewrite !map_length; intros a b A B; cbn [In] in A, B; repeat destruct A as [A|A]; repeat destruct B as [B|B]; try contradiction; congruence).
  rewrite !zip3_columns, !map_length. destruct gi; reflexivity.
Qed.
Lemma grouped_polys ps gi ids : length gi = length ps -> groups_of gi ids -> exists ms polys, grouped (map p_tl ps) (map p_tr ps) (map p_br ps) (map p_bl ps) gi = set_quadrilaterals polys /\ Forall2 (fun g m => picks g gi ps m) ids ms /\
  Forall2 (fun m p => exists c r, m = c :: r /\ p = p_tl c :: map p_tr m ++ rev (map p_br m) ++ [p_bl c; p_tl c]) ms polys.
Proof.
  intros L G. assert (ids = unique gi) by (apply (groups_of_fun gi); [exact G|apply unique_groups]). subst ids. destruct (quad_polygons_ok ps gi (eq_sym L) (unique gi) (fun g X => proj1 (proj2 G g) X)) as (ms & polys & E & F1 & F2). exists ms, polys. unfold grouped. rewrite E. auto.
Qed.
(** ** C80 *)
(** Quadrilaterals group by group, in the order of the group numbers.  Within a group each but the
    first is made from its right corners and the right corners of the one before it. *)
Theorem C80_actual : forall ps gi ids qs gs, groups_of gi ids -> call ps (Some gi) = Made (qs, gs) ->
  exists ms ms', Forall2 (fun g m => picks g gi ps m) ids ms /\ Forall2 pulled ms ms' /\ Forall2 made_from (concat ms') qs /\ gs = numbered 0 ms /\
  Forall (fun c => on_earth (p_tl c) /\ on_earth (p_tr c) /\ on_earth (p_br c) /\ on_earth (p_bl c)) (concat ms').
Proof.
  intros ps gi ids qs gs G. rewrite call_eq. destruct (length gi =? length ps) eqn:L; [|discriminate]. apply Nat.eqb_eq in L. cbn [negb]. destruct (grouped_polys ps gi ids L G) as (ms & polys & E & F1 & F2). rewrite E. destruct (set_quadrilaterals polys) as [[a b]|] eqn:S; [|discriminate]. cbn [finish]. intro H. injection H as -> ->.
  assert (O : exists edges ms', Forall2 (fun e p => outline_of_edges (fst e) (snd e) p) edges polys /\ Forall2 pulled ms ms' /\ Forall2 (fun e ps => patches (fst e) (snd e) ps) edges ms').
  { clear - F2. induction F2 as [|m p ms polys (c & r & -> & ->) F2 (edges & ms' & A & B & C)]; [exists [], []; repeat split; constructor|]. destruct (follows_exists r c) as (r' & Fr).
    exists ((p_tl c :: map p_tr (c :: r), p_bl c :: map p_br (c :: r)) :: edges), ((c :: r') :: ms'). split; [constructor; [apply polygon_outline|exact A]|]. split; [constructor; [right; exists c, r, r'; auto|exact B]|]. constructor; [|exact C]. cbn [fst snd]. apply pulled_patches. exact Fr. }
  destruct O as (edges & ms' & O & P & Q). destruct (C51_quads _ _ _ _ O S) as (pss & P' & M & Hn & On). assert (pss = ms'). { clear - P' Q. revert pss P'. induction Q as [|e m edges ms' H F IH]; intros pss P'; inversion P'; subst; [reflexivity|]. f_equal; [eapply patches_fun; eassumption|apply IH; assumption]. } subst pss.
  exists ms, ms'. split; [exact F1|]. split; [exact P|]. split; [exact M|]. split; [|exact On]. rewrite Hn. apply numbered_shape. clear - P. induction P as [|m m' ms ms' H P IH]; constructor; [|exact IH]. destruct H as [[-> ->]|(c & r & r' & -> & -> & F)]; [reflexivity|]. cbn. f_equal. eapply follows_length. exact F.
Qed.
Print Assumptions C80_actual.
(** When within each group every patch begins where the one before it ends, there is one
    quadrilateral for each patch, made from its four corners. *)
Theorem C80_joined : forall ps gi ids qs gs, groups_of gi ids -> (forall g m, picks g gi ps m -> joined m) -> call ps (Some gi) = Made (qs, gs) ->
  exists ms, Forall2 (fun g m => picks g gi ps m) ids ms /\ Forall2 made_from (concat ms) qs /\ gs = numbered 0 ms /\
  Forall (fun c => on_earth (p_tl c) /\ on_earth (p_tr c) /\ on_earth (p_br c) /\ on_earth (p_bl c)) (concat ms).
Proof.
  intros ps gi ids qs gs G J H. destruct (C80_actual _ _ _ _ _ G H) as (ms & ms' & F & P & M & N & O). assert (ms' = ms).
  { clear - F P J. revert ms' P. induction F as [|g m ids ms H F IH]; intros ms' P; inversion P; subst; [reflexivity|]. f_equal; [|apply IH; assumption]. specialize (J _ _ H). destruct H2 as [[-> ->]|(c & r & r' & -> & -> & Fo)]; [reflexivity|]. f_equal. eapply follows_fun; [exact Fo|]. apply follows_joined. exact J. }
  subst ms'. exists ms. auto.
Qed.
Print Assumptions C80_joined.
Lemma picks_shift k (c : patch) gi l js ms : Forall2 (fun g m => picks g gi l m) js ms -> (forall g, In g js -> k <> g) -> Forall2 (fun g m => picks g (k :: gi) (c :: l) m) js ms.
Proof. induction 1 as [|g m js ms P F IH]; intro W; constructor; [constructor; [apply W; left; reflexivity|exact P]|apply IH; intros h I; apply W; right; exact I]. Qed.
(** Without group numbers every patch is a group by itself and is kept as it is. *)
Theorem C80_default : forall ps qs gs, call ps None = Made (qs, gs) -> Forall2 made_from ps qs /\ gs = seq 0 (length ps) /\
  Forall (fun c => on_earth (p_tl c) /\ on_earth (p_tr c) /\ on_earth (p_br c) /\ on_earth (p_bl c)) ps.
Proof.
  intros ps qs gs H. assert (H' : call ps (Some (seq 0 (length ps))) = Made (qs, gs)) by (rewrite call_eq in H; rewrite call_eq, seq_length, Nat.eqb_refl; exact H).
  assert (P : forall l k, Forall2 (fun g (m : list patch) => picks g (seq k (length l)) l m) (seq k (length l)) (map (fun c => [c]) l)).
  { induction l as [|c l IH]; intro k; [constructor|]. cbn [length seq map]. constructor.
    - constructor. apply picks_none; [rewrite seq_length; reflexivity|]. intro I. apply in_seq in I. lia.
    - apply picks_shift; [apply IH|]. intros g I. apply in_seq in I. lia. }
  assert (G : groups_of (seq 0 (length ps)) (seq 0 (length ps))) by (split; [apply inc_seq|intro g; reflexivity]).
  assert (J : forall g m, picks g (seq 0 (length ps)) ps m -> joined m).
  { intros g m Pm. destruct (picks_length _ _ _ _ Pm) as [_ C]. assert (C1 : count_occ Nat.eq_dec (seq 0 (length ps)) g <= 1) by (apply NoDup_count_occ; apply seq_NoDup). destruct m as [|c [|d m]]; [constructor|constructor|cbn in C; lia]. }
  destruct (C80_joined _ _ _ _ _ G J H') as (ms & F & M & N & O). assert (E : ms = map (fun c => [c]) ps) by (apply (polygons_fun (seq 0 (length ps)) ps (seq 0 (length ps))); [exact F|apply P]). subst ms.
  assert (Ec : forall l : list patch, concat (map (fun c => [c]) l) = l) by (induction l as [|c l IH]; [reflexivity|cbn; rewrite IH; reflexivity]). rewrite Ec in M, O. split; [exact M|]. split; [|exact O]. rewrite N. clear. generalize 0 as k. induction ps as [|c ps IH]; intro k; [reflexivity|]. cbn [map numbered length repeat app seq]. f_equal. apply IH.
Qed.
Print Assumptions C80_default.
(** The left corners of all but the first patch of a group have no effect: what was asked for
    there is dropped without a word. *)
Theorem C80_ignored : forall ps ps' gi, length gi = length ps -> length ps' = length ps ->
  (forall g m m', picks g gi ps m -> picks g gi ps' m' -> same_start m m') -> call ps (Some gi) = call ps' (Some gi).
Proof.
  intros ps ps' gi L L' A. rewrite !call_eq, L', <- L, Nat.eqb_refl. cbn [negb]. destruct (grouped_polys ps gi _ L (unique_groups gi)) as (ms & polys & E & F1 & F2). destruct (grouped_polys ps' gi _ (eq_trans L (eq_sym L')) (unique_groups gi)) as (ms' & polys' & E' & F1' & F2'). rewrite E, E'. f_equal. f_equal.
  clear - A F1 F2 F1' F2'. revert ms' F1' polys polys' F2 F2'. induction F1 as [|g m ids ms H F1 IH]; intros ms' F1' polys polys' F2 F2'.
  - inversion F1'; subst. inversion F2; inversion F2'; subst. reflexivity.
  - inversion F1' as [|? m' ? ms'' H' F1'']; subst. inversion F2 as [|? p ? polys2 X F2a]; subst. inversion F2' as [|? p' ? polys2' X' F2a']; subst. f_equal; [|eapply IH; eassumption].
    specialize (A _ _ _ H H'). destruct X as (c & r & -> & ->). destruct X' as (c' & r' & -> & ->). destruct A as [<- S]. cbn [map].
    assert (Et : map p_tr r = map p_tr r' /\ map p_br r = map p_br r'). { clear - S. induction S as [|x y r r' [S1 S2] S [I1 I2]]; [auto|]. cbn [map]. rewrite S1, S2, I1, I2. auto. } destruct Et as [-> ->]. reflexivity.
Qed.
Print Assumptions C80_ignored.
(** The arrays must all have one length, and so must the group numbers if there are any; otherwise
    the only failure is ValueError. *)
Theorem C80_errors : forall x0 y0 z0 x1 y1 z1 x2 y2 z2 x3 y3 z3 gi, let f := from_vertices x0 y0 z0 x1 y1 z1 x2 y2 z2 x3 y3 z3 gi in
  (f = Inconsistent <-> ((exists a, In a [y0; z0; x1; y1; z1; x2; y2; z2; x3; y3; z3] /\ length a <> length x0) \/ exists g, gi = Some g /\ length g <> length x0)) /\
  (forall e, f = Raised e -> e = ValueError).
Proof.
  intros x0 y0 z0 x1 y1 z1 x2 y2 z2 x3 y3 z3 gi f. unfold f, from_vertices. destruct (chain_eq _) eqn:C.
  - assert (Q : forall a, In a [x0; y0; z0; x1; y1; z1; x2; y2; z2; x3; y3; z3] -> length a = length x0) by (intros a I; apply (proj1 (chain_eq_iff _) C); apply in_map; [exact I|left; reflexivity]).
    assert (Z : forall xs ys zs : list R, length xs = length x0 -> length ys = length x0 -> length zs = length x0 -> length (zip3 xs ys zs) = length x0).
    { intros xs ys zs A B D. rewrite <- A. rewrite <- A in B, D. clear - B D. revert ys zs B D. induction xs as [|x xs IH]; intros [|y ys] [|z zs] B D; try discriminate; [reflexivity|]. cbn. f_equal. apply IH; cbn in B, D; lia. }
    set (v0 := zip3 x0 y0 z0). set (v1 := zip3 x1 y1 z1). set (v2 := zip3 x2 y2 z2). set (v3 := zip3 x3 y3 z3).
    assert (Lv : length v0 = length x0 /\ length v1 = length x0 /\ length v2 = length x0 /\ length v3 = length x0) by (repeat split; apply Z; apply Q; cbn [In]; tauto). destruct Lv as (L0 & L1 & L2 & L3).
    assert (P : exists ps, v0 = map p_tl ps /\ v1 = map p_tr ps /\ v2 = map p_br ps /\ v3 = map p_bl ps /\ length ps = length x0).
    { clearbody v0 v1 v2 v3. clear - L0 L1 L2 L3. revert v0 v1 v2 v3 L0 L1 L2 L3. generalize (length x0) as n. induction n as [|n IH]; intros [|a v0] [|b v1] [|c v2] [|d v3] L0 L1 L2 L3; try discriminate; [exists []; repeat split|].
      destruct (IH v0 v1 v2 v3) as (ps & -> & -> & -> & -> & <-); try (cbn in *; lia). exists (mkpatch a b c d :: ps). repeat split. }
    destruct P as (ps & E0 & E1 & E2 & E3 & Lp). rewrite E0, E1, E2, E3.
    assert (W : forall g, length g = length ps -> finish (grouped (map p_tl ps) (map p_tr ps) (map p_br ps) (map p_bl ps) g) <> Inconsistent /\ forall e, finish (grouped (map p_tl ps) (map p_tr ps) (map p_br ps) (map p_bl ps) g) = Raised e -> e = ValueError).
    { intros g L. destruct (grouped_polys ps g _ L (unique_groups g)) as (ms & polys & E & _ & F). rewrite E. destruct (set_quadrilaterals polys) as [t|e'] eqn:S; cbn [finish]; (split; [discriminate|]); [discriminate|]. intros e H. injection H as <-. refine (outline_errors _ _ _ S). clear - F. induction F as [|m p ms polys (c & r & -> & ->) F IH]; constructor; [eexists; eexists; apply polygon_outline|exact IH]. }
    assert (Y : ~ exists a, In a [y0; z0; x1; y1; z1; x2; y2; z2; x3; y3; z3] /\ length a <> length x0) by (intros (a & I & N); apply N, Q; right; exact I). destruct gi as [g|].
    + destruct (length g =? length x0) eqn:L; cbn [negb].
      * apply Nat.eqb_eq in L. destruct (W g ltac:(congruence)) as [W1 W2]. split; [|exact W2]. split; [contradiction|]. intros [H|(g' & E & N)]; [contradiction|]. injection E as <-. contradiction.
      * apply Nat.eqb_neq in L. split; [|discriminate]. split; [|reflexivity]. intros _. right. exists g. auto.
    + destruct (W (seq 0 (length x0))) as [W1 W2]; [rewrite seq_length; congruence|]. split; [|exact W2]. split; [contradiction|]. intros [H|(g' & E & N)]; [contradiction|discriminate].
  - split; [|discriminate]. split; [|reflexivity]. intros _. left.
    assert (D : forall l : list (list R), (exists a, In a l /\ length a <> length x0) \/ (forall a, In a l -> length a = length x0)). { induction l as [|a l [(b & I & N)|IH]]; [right; intros a []|left; exists b; split; [right; exact I|exact N]|]. destruct (Nat.eq_dec (length a) (length x0)) as [E|E]; [right; intros b [<-|I]; auto|left; exists a; split; [left; reflexivity|exact E]]. }
    destruct (D [y0; z0; x1; y1; z1; x2; y2; z2; x3; y3; z3]) as [H|H]; [exact H|]. exfalso. apply diff_true_false. rewrite <- C. symmetry. apply chain_eq_iff. intros a b A B. apply in_map_iff in A, B. destruct A as (la & <- & A). destruct B as (lb & <- & B). transitivity (length x0); [|symmetry]; [destruct A as [<-|A]; [reflexivity|apply H; exact A]|destruct B as [<-|B]; [reflexivity|apply H; exact B]].
Qed.
Print Assumptions C80_errors.
(** One patch, and two patches of one group with a gap between them. *)
Definition ex_patch : patch := mkpatch (0, 0, 0)%R (-1, 0, 0)%R (-1, 0, 10)%R (0, 0, 10)%R.
Example C80_ex : call [ex_patch] (Some [3]) = Made ([wall (-1) 10], [0]) /\ groups_of [3] [3] /\ (forall m, picks 3 [3] [ex_patch] m -> joined m) /\ call [ex_patch] None = Made ([wall (-1) 10], [0]).
Proof.
  assert (E : forall n, grouped (map p_tl [ex_patch]) (map p_tr [ex_patch]) (map p_br [ex_patch]) (map p_bl [ex_patch]) [n] = set_quadrilaterals [ex_poly]).
  { intro n. destruct (grouped_polys [ex_patch] [n] [n] eq_refl) as (ms & polys & E & F1 & F2); [split; [constructor|intro g; reflexivity]|]. rewrite E. inversion F1 as [|? m ? ms' P F1']; subst. inversion F1'; subst. inversion F2 as [|? p ? ps' X F2']; subst. inversion F2'; subst.
    assert (m = [ex_patch]) by (eapply picks_fun; [exact P|]; repeat constructor). subst m. destruct X as (c & r & Em & ->). injection Em as <- <-. reflexivity. }
  destruct C51_ex as (_ & S & _). split; [rewrite call_eq; cbn [length Nat.eqb negb]; rewrite E, S; reflexivity|]. split; [split; [constructor|intro g; reflexivity]|]. split; [|rewrite call_eq; cbn [length seq]; rewrite E, S; reflexivity].
  intros m P. assert (m = [ex_patch]) by (eapply picks_fun; [exact P|]; repeat constructor). subst m. constructor.
Qed.
Theorem C80_gap_refuted : exists ps ps' gi, ps <> ps' /\ length gi = length ps /\ length ps' = length ps /\ call ps (Some gi) = call ps' (Some gi).
Proof.
  exists [ex_patch; mkpatch (-1, 0, 0) (-2, 0, 0) (-2, 0, 10) (-1, 0, 10)]%R, [ex_patch; mkpatch (-1.5, 0, 0) (-2, 0, 0) (-2, 0, 10) (-1, 0, 10)]%R, [0; 0]. split; [intro H; injection H; intros; lra|]. split; [reflexivity|]. split; [reflexivity|]. apply C80_ignored; [reflexivity|reflexivity|].
  intros g m m' P P'. inversion P as [|? ? ? ? P1|? ? ? ? ? N P1]; subst; inversion P' as [|? ? ? ? P1'|? ? ? ? ? N' P1']; subst; try congruence; inversion P1 as [|? ? ? ? P2|? ? ? ? ? N2 P2]; subst; inversion P1' as [|? ? ? ? P2'|? ? ? ? ? N2' P2']; subst; try congruence; inversion P2; inversion P2'; subst; [|exact I].
  split; [reflexivity|]. constructor; [split; reflexivity|constructor].
Qed.
Print Assumptions C80_gap_refuted.

(** ** C81 *)
(** The call for a list of rows. *)
Definition trace_call (middle : R -> R -> R -> R -> R * R) (rows : list row) (strike : option (list R)) (gi : option (list nat)) : outcome (list quad * list nat) :=
  from_trace middle (map (fun r => fst (r_start r)) rows) (map (fun r => snd (r_start r)) rows) (map (fun r => fst (r_end r)) rows) (map (fun r => snd (r_end r)) rows)
    (map r_top rows) (map r_width rows) (map r_dip rows) strike gi.
Definition lons_of (rows : list row) : list R := map (fun r => fst (r_start r)) rows ++ map (fun r => fst (r_end r)) rows.
Definition lats_of (rows : list row) : list R := map (fun r => snd (r_start r)) rows ++ map (fun r => snd (r_end r)) rows.
(** The middle of the extent of the rows. *)
Definition centred (middle : R -> R -> R -> R -> R * R) (rows : list row) (lon0 lat0 : R) : Prop :=
  exists w e s n, smallest (lons_of rows) w /\ largest (lons_of rows) e /\ smallest (lats_of rows) s /\ largest (lats_of rows) n /\ middle w n e s = (lon0, lat0).
Lemma lowers_eq c rows strike : forall i, lowers c (map (fun r => fst (r_start r)) rows) (map (fun r => snd (r_start r)) rows) (map (fun r => fst (r_end r)) rows) (map (fun r => snd (r_end r)) rows) (map r_top rows) (map r_width rows) (map r_dip rows) strike i =
  (fix go (rs : list row) (i : nat) := match rs with [] => Ok [] | r :: rs' => bind (lower c (fst (r_start r)) (snd (r_start r)) (fst (r_end r)) (snd (r_end r)) (r_top r) (r_width r) (radians (r_dip r)) (strike_at strike i)) (fun l => bind (go rs' (S i)) (fun t => Ok (l :: t))) end) rows i.
Proof. induction rows as [|r rows IH]; intro i; [reflexivity|]. cbn [map lowers]. rewrite IH. reflexivity. Qed.
Definition patch_of (r : row) (l : point * point) : patch := mkpatch (r_start r, r_top r) (r_end r, r_top r) (fst l) (snd l).
(** Rows whose strikes are looked up by position. *)
Lemma lowers_spec c rows strike : (-180 <= fst c <= 180)%R -> forall i ss, length ss = length rows -> (forall j s, nth_error ss j = Some s -> strike_at strike (i + j) = s) ->
  (forall l, lowers c (map (fun r => fst (r_start r)) rows) (map (fun r => snd (r_start r)) rows) (map (fun r => fst (r_end r)) rows) (map (fun r => snd (r_end r)) rows) (map r_top rows) (map r_width rows) (map r_dip rows) strike i = Ok l ->
    length l = length rows /\ Forall2 (fun sr p => dips_from (fst c) (snd c) (fst sr) (snd sr) p) (combine ss rows) (map (fun rl => patch_of (fst rl) (snd rl)) (combine rows l))) /\
  ((Forall (fun sr => exists p, dips_from (fst c) (snd c) (fst sr) (snd sr) p) (combine ss rows)) -> exists l, lowers c (map (fun r => fst (r_start r)) rows) (map (fun r => snd (r_start r)) rows) (map (fun r => fst (r_end r)) rows) (map (fun r => snd (r_end r)) rows) (map r_top rows) (map r_width rows) (map r_dip rows) strike i = Ok l).
Proof.
  intro B. induction rows as [|r rows IH]; intros i ss L H; destruct ss as [|s ss]; try discriminate.
  - split; [intros l E; injection E as <-; split; [reflexivity|constructor]|]. intros _. exists []. reflexivity.
  - specialize (IH (S i) ss ltac:(cbn in L; lia)). destruct IH as [I1 I2]. { intros j t J. specialize (H (S j) t J). replace (S i + j) with (i + S j) by lia. exact H. } pose proof (H 0 s eq_refl) as Hs. rewrite Nat.add_0_r in Hs. cbn [map lowers]. rewrite Hs. split.
    + intros l E. apply bind_ok in E. destruct E as ([p2 p3] & E1 & E). apply bind_ok in E. destruct E as (t & E2 & E). injection E as <-. destruct (I1 t E2) as [Lt F]. split; [cbn; congruence|]. cbn [combine map]. constructor; [|exact F]. cbn [fst snd]. apply (lower_ok _ _ _ _ _ _ _ _ _ _ _ B) in E1. unfold patch_of. cbn [fst snd]. destruct r as [[x0 y0] [x1 y1] z w d]. cbn [r_start r_end r_top r_width r_dip fst snd] in *. exact E1.
    + intro F. cbn [combine] in F. inversion F as [|? ? (p & P) F']; subst. cbn [fst snd] in P. destruct (lower_total _ _ _ _ B P) as (p2 & p3 & E). rewrite E. cbn [bind]. destruct (I2 F') as (t & ->). cbn [bind]. eauto.
Qed.
Lemma strikes_at n strike ss : (match strike with None => false | Some s => negb (n =? length s)%nat && negb (length s =? 1)%nat end) = false -> strikes n strike ss ->
  length ss = n /\ forall j s, nth_error ss j = Some s -> strike_at strike j = s.
Proof.
  intros W S. assert (Rp : forall (x : option R) n j s, nth_error (repeat x n) j = Some s -> x = s) by (intros x m j s H; apply nth_error_In in H; apply repeat_spec in H; congruence).
  destruct strike as [l|]; cbn [strikes] in S.
  - destruct S as [[L ->]|(s & -> & ->)].
    + split; [rewrite map_length; exact L|]. intros j s H. rewrite nth_error_map in H. destruct (nth_error l j) as [x|] eqn:E; [|discriminate]. injection H as <-. destruct l as [|a [|b l]]; [destruct j; discriminate| |exact E]. destruct j as [|[|j]]; cbn in E; [exact E|discriminate|discriminate].
    + split; [apply repeat_length|]. intros j t H. cbn [strike_at]. exact (Rp _ _ _ _ H).
  - subst ss. split; [apply repeat_length|]. intros j s H. exact (Rp _ _ _ _ H).
Qed.
Lemma combine_cols rows l : length l = length rows -> let ps := map (fun rl => patch_of (fst rl) (snd rl)) (combine rows l) in
  map p_tl ps = zip3 (map (fun r => fst (r_start r)) rows) (map (fun r => snd (r_start r)) rows) (map r_top rows) /\
  map p_tr ps = zip3 (map (fun r => fst (r_end r)) rows) (map (fun r => snd (r_end r)) rows) (map r_top rows) /\ map p_br ps = map fst l /\ map p_bl ps = map snd l.
Proof.
  revert l. induction rows as [|r rows IH]; intros [|x l] L; try discriminate; [repeat split|]. destruct (IH l ltac:(cbn in L; lia)) as (A & B & C & D). cbn [combine map zip3]. rewrite A, B, C, D. unfold patch_of. cbn [p_tl p_tr p_br p_bl fst snd]. destruct (r_start r), (r_end r). repeat split.
Qed.
Lemma extent rows : rows <> [] -> exists w e s n, rmin2 (map (fun r => fst (r_start r)) rows) (map (fun r => fst (r_end r)) rows) = Some w /\ rmax2 (map (fun r => fst (r_start r)) rows) (map (fun r => fst (r_end r)) rows) = Some e /\
  rmin2 (map (fun r => snd (r_start r)) rows) (map (fun r => snd (r_end r)) rows) = Some s /\ rmax2 (map (fun r => snd (r_start r)) rows) (map (fun r => snd (r_end r)) rows) = Some n /\
  smallest (lons_of rows) w /\ largest (lons_of rows) e /\ smallest (lats_of rows) s /\ largest (lats_of rows) n.
Proof.
  intro N. unfold rmin2, rmax2. fold (lons_of rows) (lats_of rows). assert (N1 : lons_of rows <> []) by (destruct rows; [congruence|discriminate]). assert (N2 : lats_of rows <> []) by (destruct rows; [congruence|discriminate]).
  destruct (rmin_list (lons_of rows)) as [w|] eqn:W; [|apply rmin_none in W; contradiction]. destruct (rmax_list (lons_of rows)) as [e|] eqn:E; [|apply rmax_none in E; contradiction]. destruct (rmin_list (lats_of rows)) as [s|] eqn:S; [|apply rmin_none in S; contradiction]. destruct (rmax_list (lats_of rows)) as [n|] eqn:X; [|apply rmax_none in X; contradiction].
  exists w, e, s, n. do 4 (split; [reflexivity|]). apply rmin_iff in W, S. apply rmax_iff in E, X. auto.
Qed.
Lemma smallest_fun l a b : smallest l a -> smallest l b -> a = b.
Proof. intros [A1 A2] [B1 B2]. apply Rle_antisym; auto. Qed.
Lemma largest_fun l a b : largest l a -> largest l b -> a = b.
Proof. intros [A1 A2] [B1 B2]. apply Rle_antisym; auto. Qed.
Lemma trace_eq middle rows strike gi ss lon0 lat0 : rows <> [] -> strikes (length rows) strike ss -> centred middle rows lon0 lat0 ->
  trace_call middle rows strike gi = finish (bind (lowers (lon0, lat0) (map (fun r => fst (r_start r)) rows) (map (fun r => snd (r_start r)) rows) (map (fun r => fst (r_end r)) rows) (map (fun r => snd (r_end r)) rows) (map r_top rows) (map r_width rows) (map r_dip rows) strike 0) (fun l =>
    grouped (zip3 (map (fun r => fst (r_start r)) rows) (map (fun r => snd (r_start r)) rows) (map r_top rows)) (zip3 (map (fun r => fst (r_end r)) rows) (map (fun r => snd (r_end r)) rows) (map r_top rows)) (map fst l) (map snd l) (match gi with None => seq 0 (length rows) | Some g => g end))) /\
  length ss = length rows /\ forall j s, nth_error ss j = Some s -> strike_at strike (0 + j) = s.
Proof.
  intros N S C. unfold trace_call, from_trace. replace (chain_eq _) with true by (symmetry; apply chain_eq_iff; cbn [map]; rewrite !map_length; intros a b A B; cbn [In] in A, B; repeat destruct A as [A|A]; repeat destruct B as [B|B]; try contradiction; congruence).
  rewrite map_length. cbv zeta. assert (W : (match strike with None => false | Some s => negb (length rows =? length s)%nat && negb (length s =? 1)%nat end) = false).
  { destruct strike as [l|]; [|reflexivity]. cbn [strikes] in S. destruct S as [[L _]|(s & -> & _)]; [rewrite L, Nat.eqb_refl; reflexivity|cbn [length Nat.eqb negb]; apply andb_false_r]. }
  rewrite W. destruct (extent rows N) as (w & e & s & n & -> & -> & -> & -> & A1 & A2 & A3 & A4). destruct C as (w' & e' & s' & n' & B1 & B2 & B3 & B4 & M). rewrite (smallest_fun _ _ _ A1 B1), (largest_fun _ _ _ A2 B2), (smallest_fun _ _ _ A3 B3), (largest_fun _ _ _ A4 B4), M. split; [reflexivity|]. apply strikes_at with (n := length rows); assumption.
Qed.
(** When every row can be seen from above the middle, the rupture is the one built from the
    patches of the rows; group numbers that run out leave the remaining rows out.  When some row
    cannot be seen nothing is made. *)
Theorem C81_trace : forall middle rows strike gi ss lon0 lat0, (-180 <= lon0 <= 180)%R -> rows <> [] -> strikes (length rows) strike ss -> centred middle rows lon0 lat0 ->
  (Forall (fun sr => exists c, dips_from lon0 lat0 (fst sr) (snd sr) c) (combine ss rows) ->
   exists ps, Forall2 (fun sr c => dips_from lon0 lat0 (fst sr) (snd sr) c) (combine ss rows) ps /\
   match gi with
   | None => trace_call middle rows strike gi = call ps None
   | Some g => length g <= length rows -> trace_call middle rows strike gi = call (firstn (length g) ps) (Some g)
   end) /\
  (forall r, trace_call middle rows strike gi = Made r -> Forall (fun sr => exists c, dips_from lon0 lat0 (fst sr) (snd sr) c) (combine ss rows)).
Proof.
  intros middle rows strike gi ss lon0 lat0 B N S C. destruct (trace_eq middle rows strike gi ss lon0 lat0 N S C) as (E & Ls & Hs). rewrite E. destruct (lowers_spec (lon0, lat0) rows strike B 0 ss Ls Hs) as [P1 P2]. cbn [fst snd] in P1, P2. split.
  - intro V. destruct (P2 V) as (l & El). destruct (P1 l El) as [Ll F]. rewrite El. cbn [bind]. destruct (combine_cols rows l Ll) as (E1 & E2 & E3 & E4). set (ps := map (fun rl => patch_of (fst rl) (snd rl)) (combine rows l)) in *. exists ps. split; [exact F|]. assert (Lp : length ps = length rows) by (unfold ps; rewrite map_length, combine_length, Ll; apply Nat.min_id).
    rewrite <- E1, <- E2, <- E3, <- E4. destruct gi as [g|]; [|rewrite call_eq, Lp; reflexivity]. intro Lg. rewrite call_eq. assert (Lf : length (firstn (length g) ps) = length g) by (apply firstn_length_le; lia). rewrite Lf, Nat.eqb_refl. cbn [negb]. rewrite <- !firstn_map. unfold grouped. rewrite polygons_firstn. reflexivity.
  - intros r H. destruct (lowers _ _ _ _ _ _ _ _ _ _) as [l|] eqn:El; [|discriminate]. destruct (P1 l eq_refl) as [Ll F]. clear - F. induction F; constructor; eauto.
Qed.
Print Assumptions C81_trace.
(** Too many group numbers. *)
Lemma where_self g gi : forall i, nth_error gi i = Some g -> In i (where_group g gi).
Proof.
  intros i H. unfold where_group. apply in_map_iff. exists (i, g). split; [reflexivity|]. apply filter_In. split; [|apply Nat.eqb_refl]. apply nth_error_In with (n := i). revert i H. enough (X : forall k i, nth_error gi i = Some g -> nth_error (combine (seq k (length gi)) gi) i = Some (k + i, g)) by (intros i H; apply (X 0 i H)).
  induction gi as [|h gi IH]; intros k [|i] H; try discriminate; cbn in *; [injection H as ->; f_equal; f_equal; lia|]. rewrite (IH (S k) i H). f_equal. f_equal. lia.
Qed.
Theorem C81_index : forall middle rows strike g r, length rows < length g -> trace_call middle rows strike (Some g) <> Made r.
Proof.
  intros middle rows strike g r L H. unfold trace_call, from_trace in H. destruct (chain_eq _); [|discriminate]. cbv zeta in H. destruct (match strike with None => false | Some s => _ end); [discriminate|]. destruct (rmin2 _ _); [|discriminate]. destruct (rmax2 _ _); [|discriminate]. destruct (rmin2 _ _); [|discriminate]. destruct (rmax2 _ _); [|discriminate].
  destruct (lowers _ _ _ _ _ _ _ _ _ _) as [l|] eqn:El; [|discriminate]. cbn [bind] in H. unfold grouped in H. destruct (quad_polygons _ _ _ _ _ _) as [polys|] eqn:Q; [|discriminate]. clear H.
  assert (X : forall ids polys, quad_polygons (zip3 (map (fun r => fst (r_start r)) rows) (map (fun r => snd (r_start r)) rows) (map r_top rows)) (zip3 (map (fun r => fst (r_end r)) rows) (map (fun r => snd (r_end r)) rows) (map r_top rows)) (map fst l) (map snd l) g ids = Ok polys -> forall h i, In h ids -> In i (where_group h g) -> i < length rows).
  { induction ids as [|h ids IH]; intros polys' Q' h' i I W; [contradiction|]. destruct I as [<-|I].
    - cbn [quad_polygons] in Q'. destruct (where_group h g) as [|f ind]; [contradiction|]. destruct (nth_error _ f); [|discriminate]. destruct (nth_error _ f); [|discriminate]. apply bind_ok in Q'. destruct Q' as (b & T & _). pose proof (take_none _ _ _ T i W) as K. enough (E : length (zip3 (map (fun r => fst (r_end r)) rows) (map (fun r => snd (r_end r)) rows) (map r_top rows)) = length rows) by (rewrite E in K; exact K). clear. induction rows; [reflexivity|cbn; congruence].
    - cbn [quad_polygons] in Q'. destruct (where_group h g) as [|f ind]; [discriminate|]. destruct (nth_error _ f); [|discriminate]. destruct (nth_error _ f); [|discriminate]. apply bind_ok in Q'. destruct Q' as (b & _ & Q'). apply bind_ok in Q'. destruct Q' as (c & _ & Q'). apply bind_ok in Q'. destruct Q' as (r' & Q' & _). exact (IH _ Q' h' i I W). }
  destruct (nth_error g (length rows)) as [h|] eqn:Nh; [|apply nth_error_None in Nh; lia]. pose proof (X _ _ Q h (length rows)) as Y. enough (length rows < length rows) by lia. apply Y; [|apply where_self; exact Nh]. apply (unique_groups g). eapply nth_error_In. exact Nh.
Qed.
Print Assumptions C81_index.
(** Arrays of different lengths are refused as such, and a number of strikes that is neither one
    nor the number of rows with a TypeError; no rows at all with a ValueError. *)
Theorem C81_refused : forall middle x0 y0 x1 y1 z w d strike gi, let f := from_trace middle x0 y0 x1 y1 z w d strike gi in
  (f = Inconsistent <-> exists a, In a [y0; x1; y1; z; w; d] /\ length a <> length x0) /\
  ((forall a, In a [y0; x1; y1; z; w; d] -> length a = length x0) -> forall s, strike = Some s -> length s <> length x0 -> length s <> 1 -> f = Raised TypeError) /\
  ((forall a, In a [y0; x1; y1; z; w; d] -> length a = length x0) -> x0 = [] -> (forall s, strike = Some s -> length s <= 1) -> f = Raised ValueError).
Proof.
  intros middle x0 y0 x1 y1 z w d strike gi f.
  assert (D : forall l : list (list R), (exists a, In a l /\ length a <> length x0) \/ (forall a, In a l -> length a = length x0)). { induction l as [|a l [(b & I & N)|IH]]; [right; intros a []|left; exists b; split; [right; exact I|exact N]|]. destruct (Nat.eq_dec (length a) (length x0)) as [E|E]; [right; intros b [<-|I]; auto|left; exists a; split; [left; reflexivity|exact E]]. }
  assert (T : chain_eq (map (@length R) [x0; y0; x1; y1; z; d; w]) = true <-> forall a, In a [y0; x1; y1; z; w; d] -> length a = length x0).
  { rewrite chain_eq_iff. split.
    - intros H a I. apply H; apply in_map; cbn [In] in *; tauto.
    - intros H a b A B. apply in_map_iff in A, B. destruct A as (la & <- & A). destruct B as (lb & <- & B). assert (Q : forall l, In l [x0; y0; x1; y1; z; d; w] -> length l = length x0) by (intros l I; destruct I as [<-|I]; [reflexivity|apply H; cbn [In] in *; tauto]). rewrite (Q _ A), (Q _ B). reflexivity. }
  unfold f, from_trace. destruct (chain_eq _) eqn:C.
  - pose proof (proj1 T eq_refl) as A. split; [|split].
    + split; [|intros (a & I & N); exfalso; apply N, A; exact I]. cbv zeta. destruct (match strike with None => false | Some s => _ end); [discriminate|]. destruct (rmin2 _ _); [|discriminate]. destruct (rmax2 _ _); [|discriminate]. destruct (rmin2 _ _); [|discriminate]. destruct (rmax2 _ _); [|discriminate]. destruct (bind _ _); discriminate.
    + intros _ s -> N1 N2. cbv zeta. replace (length x0 =? length s) with false by (symmetry; apply Nat.eqb_neq; congruence). replace (length s =? 1) with false by (symmetry; apply Nat.eqb_neq; exact N2). reflexivity.
    + intros _ -> Hs. cbv zeta. replace (match strike with None => false | Some s => _ end) with false. 2: { destruct strike as [[|s [|t l]]|]; try reflexivity. specialize (Hs _ eq_refl). cbn in Hs. lia. }
      assert (x1 = []) by (apply length_zero_iff_nil; apply A; cbn; tauto). subst x1. reflexivity.
  - assert (F : ~ forall a, In a [y0; x1; y1; z; w; d] -> length a = length x0) by (intro H; apply T in H; discriminate). split; [|split; [intro H; contradiction|intro H; contradiction]]. split; [|reflexivity]. intros _. destruct (D [y0; x1; y1; z; w; d]) as [H|H]; [exact H|contradiction].
Qed.
Print Assumptions C81_refused.

Open Scope R_scope.
(** As seen from above the patch of a row is a parallelogram; when the strike is not given its
    sides are at right angles and the lower edge is on the right of the upper one for dips below
    ninety degrees; side and depth make up the width. *)
Theorem C81_shape : forall lon0 lat0 strike r c, dips_from lon0 lat0 strike r c -> exists x0 y0 x1 y1 x2 y2 x3 y3,
  shown lon0 lat0 (lon_of (p_tl c)) (lat_of (p_tl c)) x0 y0 /\ shown lon0 lat0 (lon_of (p_tr c)) (lat_of (p_tr c)) x1 y1 /\
  shown lon0 lat0 (lon_of (p_br c)) (lat_of (p_br c)) x2 y2 /\ shown lon0 lat0 (lon_of (p_bl c)) (lat_of (p_bl c)) x3 y3 /\
  x2 - x1 = x3 - x0 /\ y2 - y1 = y3 - y0 /\ dep_of (p_tl c) = dep_of (p_tr c) /\ dep_of (p_bl c) = dep_of (p_br c) /\
  (x3 - x0) ^ 2 + (y3 - y0) ^ 2 + (dep_of (p_bl c) - dep_of (p_tl c)) ^ 2 = r_width r ^ 2 /\
  (strike = None -> (x3 - x0) * (x1 - x0) + (y3 - y0) * (y1 - y0) = 0 /\
     (x3 - x0) * (y1 - y0) - (y3 - y0) * (x1 - x0) = r_width r * cos (deg (r_dip r)) * sqrt ((x1 - x0) ^ 2 + (y1 - y0) ^ 2)).
Proof.
  intros lon0 lat0 strike r c (x0 & y0 & x1 & y1 & th & S0 & S1 & T & E0 & E1 & D3 & D2 & S3 & S2). exists x0, y0, x1, y1, (x1 + r_width r * cos (deg (r_dip r)) * cos th), (y1 - r_width r * cos (deg (r_dip r)) * sin th), (x0 + r_width r * cos (deg (r_dip r)) * cos th), (y0 - r_width r * cos (deg (r_dip r)) * sin th).
  rewrite E0, E1. unfold lon_of, lat_of, dep_of in *. cbn [fst snd]. split; [exact S0|]. split; [exact S1|]. split; [exact S2|]. split; [exact S3|]. split; [ring|]. split; [ring|]. split; [reflexivity|]. split; [congruence|]. pose proof (sc2 th) as A. pose proof (sc2 (deg (r_dip r))) as B. split.
  - rewrite D3. set (w := r_width r) in *. set (cd := cos (deg (r_dip r))) in *. set (sd := sin (deg (r_dip r))) in *. transitivity (w ^ 2 * (cd * cd * (sin th * sin th + cos th * cos th) + sd * sd)); [ring|]. rewrite A. replace (cd * cd * 1 + sd * sd) with (sd * sd + cd * cd) by ring. rewrite B. ring.
  - intros ->. destruct T as (d & Hd & Ex & Ey & _). rewrite Ex, Ey. set (k := r_width r * cos (deg (r_dip r))). replace ((d * sin th) ^ 2 + (d * cos th) ^ 2) with (d ^ 2) by (transitivity (d ^ 2 * (sin th * sin th + cos th * cos th)); [rewrite A; ring|ring]). rewrite sqrt_pow2 by exact Hd. split; [ring|]. transitivity (k * d * (sin th * sin th + cos th * cos th)); [ring|rewrite A; ring].
Qed.
Print Assumptions C81_shape.
(** ** Orientation *)
Definition orientation_call (middle point_at : R -> R -> R -> R -> R * R) (ks : list known) : outcome (list quad * list nat) :=
  from_orientation middle point_at (map (fun k => fst (k_at k)) ks) (map (fun k => snd (k_at k)) ks) (map k_depth ks) (map k_along ks) (map k_down ks) (map k_length ks) (map k_width ks) (map k_strike ks) (map k_dip ks).
Lemma tangent_mag lon lat s a b : mag (tangent lon lat s a b) = sqrt (a ^ 2 + b ^ 2).
Proof.
  unfold mag, tangent, vadd, vscale, east_of, north_of. cbn [vx vy vz]. f_equal. pose proof (sc2 (deg lon)) as A. pose proof (sc2 (deg lat)) as B. pose proof (sc2 (deg s)) as C. set (sl := sin (deg lon)) in *. set (cl := cos (deg lon)) in *. set (sp := sin (deg lat)) in *. set (cp := cos (deg lat)) in *. set (ss := sin (deg s)) in *. set (cs := cos (deg s)) in *. clearbody sl cl sp cp ss cs.
  set (e := a * ss + b * cs). set (n := a * cs - b * ss). transitivity (e ^ 2 * (sl * sl + cl * cl) + n ^ 2 * (sp * sp * (sl * sl + cl * cl) + cp * cp)); [ring|]. rewrite A. replace (sp * sp * 1 + cp * cp) with (sp * sp + cp * cp) by ring. rewrite B. unfold e, n. transitivity ((a ^ 2 + b ^ 2) * (ss * ss + cs * cs)); [ring|rewrite C; ring].
Qed.
Lemma deg_add a b : deg (a + b) = deg a + deg b. Proof. unfold deg. field. Qed.
Lemma goes_reached point_at lon lat s a b d az : goes point_at -> Rabs d = sqrt (a ^ 2 + b ^ 2) -> d * sin (deg az) = a * sin (deg s) + b * cos (deg s) -> d * cos (deg az) = a * cos (deg s) - b * sin (deg s) ->
  reached lon lat (tangent lon lat s a b) (fst (point_at lon lat az d)) (snd (point_at lon lat az d)).
Proof.
  intros G M Es Ec. exists (Rabs d). split; [apply Rabs_pos|]. split; [rewrite tangent_mag; symmetry; exact M|]. rewrite G. split.
  - intro Z. assert (d = 0) by (destruct (Req_dec d 0) as [|N]; [assumption|apply Rabs_pos_lt in N; lra]). subst d. replace (0 / 6371) with 0 by field. rewrite cos_0, sin_0. unfold vadd, vscale. destruct (place lon lat) as [px py pz]. cbn [vx vy vz]. f_equal; ring.
  - intro N. unfold tangent. rewrite <- Es, <- Ec. unfold Rabs in *. destruct (Rcase_abs d) as [L|L].
    + replace (- d / 6371) with (- (d / 6371)) by field. rewrite cos_neg, sin_neg. f_equal. unfold vscale, vadd. cbn [vx vy vz]. f_equal; field; lra.
    + f_equal. unfold vscale, vadd. cbn [vx vy vz]. f_equal; field; lra.
Qed.
(** With a faithful way of going over the sphere, the rupture is the one built from a trace whose
    rows start at the upper corner of each plane, found from the known point by going back along
    the strike and up the dip, and run along the strike for the length. *)
Theorem C81_orientation : forall middle point_at ks, goes point_at -> exists rows, Forall2 oriented ks rows /\
  orientation_call middle point_at ks = trace_call middle rows (Some (map k_strike ks)) None.
Proof.
  intros middle point_at ks G. set (row_of := fun k : known => let t := top_of point_at (fst (k_at k)) (snd (k_at k)) (k_depth k) (k_along k) (k_down k) (k_length k) (k_strike k) (k_dip k) in mkrow (fst (fst t)) (snd (fst t)) (snd t) (k_width k) (k_dip k)).
  exists (map row_of ks). split.
  - induction ks as [|k ks IH]; constructor; [|exact IH]. unfold oriented, row_of, top_of. cbn [fst snd r_start r_end r_top r_width r_dip]. rewrite radians_deg. split; [|split; [|auto]].
    + set (b := k_down k * cos (deg (k_dip k))). set (a := k_along k). set (th := arctan2 b a). assert (H : sqrt (a ^ 2 + b ^ 2) * cos th = a /\ sqrt (a ^ 2 + b ^ 2) * sin th = b).
      { destruct (heads_arctan2 b a) as (d & D & Eb & Ea & _). fold th in Eb, Ea. assert (Q : sqrt (a ^ 2 + b ^ 2) = d). { rewrite Ea, Eb. pose proof (sc2 th) as S. replace ((d * cos th) ^ 2 + (d * sin th) ^ 2) with (d ^ 2) by (transitivity (d ^ 2 * (sin th * sin th + cos th * cos th)); [rewrite S; ring|ring]). apply sqrt_pow2. exact D. } rewrite Q. split; congruence. }
      destruct H as [Ha Hb]. apply goes_reached; [exact G| | |].
      * rewrite Rabs_right by (apply Rle_ge, sqrt_pos). f_equal. ring.
      * rewrite !deg_add, deg_degrees, deg_180. fold th. replace (deg (k_strike k) + PI + th) with (deg (k_strike k) + th + PI) by ring. rewrite neg_sin, sin_plus. transitivity (- (sqrt (a ^ 2 + b ^ 2) * cos th) * sin (deg (k_strike k)) + - (sqrt (a ^ 2 + b ^ 2) * sin th) * cos (deg (k_strike k))); [ring|]. rewrite Ha, Hb. reflexivity.
      * rewrite !deg_add, deg_degrees, deg_180. fold th. replace (deg (k_strike k) + PI + th) with (deg (k_strike k) + th + PI) by ring. rewrite neg_cos, cos_plus. transitivity (- (sqrt (a ^ 2 + b ^ 2) * cos th) * cos (deg (k_strike k)) - - (sqrt (a ^ 2 + b ^ 2) * sin th) * sin (deg (k_strike k))); [ring|]. rewrite Ha, Hb. reflexivity.
    + apply goes_reached; [exact G| |ring|ring]. replace (k_length k ^ 2 + 0 ^ 2) with (Rsqr (k_length k)) by (unfold Rsqr; ring). symmetry. apply sqrt_Rsqr_abs.
  - unfold orientation_call, from_orientation. replace (chain_eq _) with true by (symmetry; apply chain_eq_iff; cbn [map]; rewrite !map_length; intros a b A B; cbn [In] in A, B; repeat destruct A as [A|A]; repeat destruct B as [B|B]; try contradiction; congruence).
    assert (T : tops point_at (map (fun k => fst (k_at k)) ks) (map (fun k => snd (k_at k)) ks) (map k_depth ks) (map k_along ks) (map k_down ks) (map k_length ks) (map k_strike ks) (map k_dip ks) = map (fun k => top_of point_at (fst (k_at k)) (snd (k_at k)) (k_depth k) (k_along k) (k_down k) (k_length k) (k_strike k) (k_dip k)) ks) by (clear; induction ks as [|k ks IH]; [reflexivity|cbn [map tops]; rewrite IH; reflexivity]).
    rewrite T. unfold trace_call. rewrite !map_map. unfold row_of. cbn [r_start r_end r_top r_width r_dip fst snd]. reflexivity.
Qed.
Print Assumptions C81_orientation.
(** Arrays of different lengths. *)
Theorem C81_orientation_lengths : forall middle point_at px py pz dx dy l w s d, (exists a b, In a [px; py; pz; dx; dy; l; w; s; d] /\ In b [px; py; pz; dx; dy; l; w; s; d] /\ length a <> length b) ->
  from_orientation middle point_at px py pz dx dy l w s d = Inconsistent.
Proof.
  intros middle point_at px py pz dx dy l w s d (a & b & A & B & N). unfold from_orientation. destruct (chain_eq _) eqn:C; [|reflexivity]. exfalso. apply N. apply (proj1 (chain_eq_iff _) C); apply in_map; assumption.
Qed.
Print Assumptions C81_orientation_lengths.
(** A vertical plane on the equator, ten kilometres wide, and the same one by its middle. *)
Definition ex_row : row := mkrow (0, 0) (-1, 0) 0 10 90.
Example C81_ex : centred (fun _ _ _ _ => (0, 0)) [ex_row] 0 0 /\ strikes 1 None [None] /\ dips_from 0 0 None ex_row ex_patch.
Proof.
  split; [|split; [reflexivity|]].
  - exists (-1), 0, 0, 0. unfold lons_of, lats_of, ex_row. cbn [map r_start r_end fst snd app]. repeat split; cbn [In]; try tauto; intros x X; repeat destruct X as [X|X]; try contradiction; lra.
  - assert (D0 : deg 0 = 0) by apply deg0. exists (6371 * vdot (east_of 0) (place 0 0)), (6371 * vdot (north_of 0 0) (place 0 0)), (6371 * vdot (east_of 0) (place (-1) 0)), (6371 * vdot (north_of 0 0) (place (-1) 0)).
    eexists. unfold ex_row, ex_patch. cbn [r_start r_end r_top r_width r_dip p_tl p_tr p_br p_bl fst snd]. unfold lon_of, lat_of, dep_of. cbn [fst snd]. rewrite deg_90, cos_PI2, sin_PI2.
    assert (C1 : 0 <= cos (deg (-1))). { apply cos_ge_0; pose proof pi_pos; unfold deg; lra. }
    assert (V : 0 <= vdot (place 0 0) (place 0 0) /\ 0 <= vdot (place 0 0) (place (-1) 0)). { unfold vdot, place. cbn [vx vy vz]. rewrite D0, cos_0, sin_0. split; lra. } destruct V as [V0 V1].
    split; [repeat split; exact V0|]. split; [repeat split; exact V1|]. split; [apply heads_arctan2|]. split; [reflexivity|]. split; [reflexivity|]. split; [ring|]. split; [ring|]. split; repeat split; try assumption; ring.
Qed.
(** There is a faithful way of going over the sphere. *)
Definition ahead (lon lat az d : R) : vec := vadd (vscale (cos (d / 6371)) (place lon lat)) (vscale (sin (d / 6371)) (vadd (vscale (sin (deg az)) (east_of lon)) (vscale (cos (deg az)) (north_of lon lat)))).
Definition ex_goes (lon lat az d : R) : R * R := match cartesian_to_spherical (ahead lon lat az d) with (l, Some p, _) => (l, p) | (l, None, _) => (l, 0) end.
Example C81_ex_goes : goes ex_goes.
Proof.
  intros lon lat az d. fold (ahead lon lat az d). set (v := ahead lon lat az d). assert (U : vdot v v = 1).
  { unfold v, ahead, vdot, vadd, vscale, place, east_of, north_of. cbn [vx vy vz]. pose proof (sc2 (deg lon)) as A. pose proof (sc2 (deg lat)) as B. pose proof (sc2 (deg az)) as C. pose proof (sc2 (d / 6371)) as D. set (sl := sin (deg lon)) in *. set (cl := cos (deg lon)) in *. set (sp := sin (deg lat)) in *. set (cp := cos (deg lat)) in *. set (ss := sin (deg az)) in *. set (cs := cos (deg az)) in *. set (st := sin (d / 6371)) in *. set (ct := cos (d / 6371)) in *. clearbody sl cl sp cp ss cs st ct.
    transitivity ((ct * cp - st * cs * sp) ^ 2 * (sl * sl + cl * cl) + (st * ss) ^ 2 * (sl * sl + cl * cl) + (ct * sp + st * cs * cp) ^ 2); [ring|]. rewrite A. transitivity ((ct * ct + (st * cs) ^ 2) * (sp * sp + cp * cp) + (st * ss) ^ 2); [ring|]. rewrite B. transitivity (ct * ct + st * st * (ss * ss + cs * cs)); [ring|]. rewrite C. lra. }
  destruct (C45_back v) as [Z F]. unfold ex_goes. fold v. destruct (cartesian_to_spherical v) as [[l [p|]] dd] eqn:E.
  - destruct (F l p dd eq_refl) as (S & _). cbn [fst snd]. rewrite <- S. assert (Dd : EARTH_RADIUS - dd = 1).
    { unfold cartesian_to_spherical in E. cbv zeta in E. change (vx v * vx v + vy v * vy v + vz v * vz v) with (vdot v v) in E. rewrite U, sqrt_1 in E. destruct (reqd 1 0); [discriminate|]. injection E as _ _ <-. ring. }
    unfold spherical_to_cartesian. cbv zeta. rewrite Dd, !radians_deg. unfold place. f_equal; ring.
  - exfalso. assert (X : v = mkvec 0 0 0) by (apply Z; eauto). rewrite X in U. unfold vdot in U. cbn in U. lra.
Qed.
