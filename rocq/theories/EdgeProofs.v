(** Lemmas about groups and edge ruptures. *)
From Coq Require Import ZArith Reals String Ascii Bool List Lia Lra.
From Verif Require Import PyBase PyStr VecModel VecProofs GeoModel GeoTrig RuptModel PolyModel PolySpec PolyProofs QuadProofs.
Import ListNotations.
Open Scope nat_scope.

Lemma inc_lt g l : increasing (g :: l) -> increasing l /\ forall x, In x l -> g < x.
Proof.
  revert g. induction l as [|h l IH]; intros g H; [split; [constructor|intros x []]|]. inversion H as [| |? ? ? L H']; subst. split; [exact H'|]. destruct (IH h H') as [_ B]. intros x [->|X]; [exact L|]. specialize (B x X). lia.
Qed.
Lemma inc_cons g l : increasing l -> (forall x, In x l -> g < x) -> increasing (g :: l).
Proof. intros H B. destruct l as [|h l]; constructor; [apply B; left; reflexivity|exact H]. Qed.
Lemma inc_filter f l : increasing l -> increasing (filter f l).
Proof.
  induction l as [|g l IH]; intro H; [constructor|]. destruct (inc_lt _ _ H) as [H' B]. cbn [filter]. destruct (f g); [|apply IH; exact H']. apply inc_cons; [apply IH; exact H'|]. intros x X. apply filter_In in X. apply B. apply X.
Qed.
Lemma inc_seq n : forall k, increasing (seq k n).
Proof. induction n as [|n IH]; intro k; [constructor|]. cbn [seq]. apply inc_cons; [apply IH|]. intros x X. apply in_seq in X. lia. Qed.
Lemma fold_max l x : In x l -> x <= fold_right Nat.max 0 l.
Proof. induction l as [|y l IH]; [intros []|]. cbn [fold_right]. intros [->|X]; [lia|]. specialize (IH X). lia. Qed.
Lemma unique_groups gi : groups_of gi (unique gi).
Proof.
  destruct gi as [|g0 gi]; [split; [constructor|reflexivity]|]. unfold unique. set (l := g0 :: gi) in *. clearbody l. split; [apply inc_filter, inc_seq|]. intro g. rewrite filter_In, in_seq, existsb_exists. split.
  - intros (_ & x & X & E). apply Nat.eqb_eq in E. subst. exact X.
  - intro X. pose proof (fold_max _ _ X). split; [lia|]. exists g. split; [exact X|apply Nat.eqb_refl].
Qed.
Lemma groups_of_fun gi : forall a b, groups_of gi a -> groups_of gi b -> a = b.
Proof.
  intros a b [Ia Ha] [Ib Hb]. assert (E : forall g, In g a <-> In g b) by (intro g; rewrite Ha, Hb; reflexivity). clear Ha Hb gi. revert b Ib E. induction a as [|x a IH]; intros b Ib E.
  - destruct b as [|y b]; [reflexivity|]. destruct (proj2 (E y) (or_introl eq_refl)).
  - destruct b as [|y b]; [destruct (proj1 (E x) (or_introl eq_refl))|]. destruct (inc_lt _ _ Ia) as [Ia' Ba]. destruct (inc_lt _ _ Ib) as [Ib' Bb].
    assert (x = y). { destruct (proj1 (E x) (or_introl eq_refl)) as [X|X]; [auto|]. destruct (proj2 (E y) (or_introl eq_refl)) as [Y|Y]; [auto|]. specialize (Ba _ Y). specialize (Bb _ X). lia. } subst y.
    f_equal. apply IH; [exact Ia'|exact Ib'|]. intro g. split; intro G.
    + destruct (proj1 (E g) (or_intror G)) as [->|Y]; [specialize (Ba _ G); lia|exact Y].
    + destruct (proj2 (E g) (or_intror G)) as [->|Y]; [specialize (Bb _ G); lia|exact Y].
Qed.

(** ** Picking out a group *)
Definition where_from (k g : nat) (gs : list nat) : list nat := map fst (filter (fun ig => snd ig =? g) (combine (seq k (length gs)) gs)).
Lemma where_cons k g h gs : where_from k g (h :: gs) = if h =? g then k :: where_from (S k) g gs else where_from (S k) g gs.
Proof. unfold where_from. cbn [length seq combine filter snd fst]. destruct (h =? g); reflexivity. Qed.
Lemma picks_take {A} g gi : forall (pre l r : list A), picks g gi l r -> take (pre ++ l) (where_from (length pre) g gi) = Ok r.
Proof.
  intros pre l r H. revert pre. induction H as [|gs l r x H IH|g' gs l r x N H IH]; intro pre; [reflexivity| |].
  - rewrite where_cons, Nat.eqb_refl. cbn [take]. rewrite nth_error_app2, Nat.sub_diag by lia. cbn [nth_error]. specialize (IH (pre ++ [x])). rewrite <- app_assoc, app_length in IH. cbn [app length] in IH. replace (length pre + 1) with (S (length pre)) in IH by lia. rewrite IH. reflexivity.
  - rewrite where_cons. apply Nat.eqb_neq in N. rewrite N. specialize (IH (pre ++ [x])). rewrite <- app_assoc, app_length in IH. cbn [app length] in IH. replace (length pre + 1) with (S (length pre)) in IH by lia. exact IH.
Qed.
Lemma picks_take0 {A} g gi (l r : list A) : picks g gi l r -> take l (where_group g gi) = Ok r.
Proof. exact (picks_take g gi [] l r). Qed.
Lemma picks_total {A} g gi : forall l : list A, length l = length gi -> exists r, picks g gi l r /\ length r = count_occ Nat.eq_dec gi g.
Proof.
  induction gi as [|h gi IH]; intros [|x l] L; try discriminate; [exists []; split; [constructor|reflexivity]|]. destruct (IH l ltac:(cbn in L; lia)) as (r & P & C). cbn [count_occ]. destruct (Nat.eq_dec h g) as [->|N].
  - exists (x :: r). split; [constructor; exact P|cbn; lia].
  - exists r. split; [constructor; assumption|exact C].
Qed.
Lemma picks_fun {A} g gi : forall (l r s : list A), picks g gi l r -> picks g gi l s -> r = s.
Proof. intros l r s H K. apply picks_take0 in H, K. congruence. Qed.
Lemma picks_length {A} g gi (l r : list A) : picks g gi l r -> length l = length gi /\ length r = count_occ Nat.eq_dec gi g.
Proof. induction 1 as [|gs l r x H [I1 I2]|g' gs l r x N H [I1 I2]]; cbn [length count_occ]; [auto| |]; [destruct (Nat.eq_dec g g) as [_|X]; [|congruence]|destruct (Nat.eq_dec g' g) as [X|_]; [congruence|]]; lia. Qed.

(** ** Blocks *)
Lemma numbered_length {A} (ls : list (list A)) : forall i, length (numbered i ls) = length (concat ls).
Proof. induction ls as [|l ls IH]; intro i; [reflexivity|]. cbn [numbered concat]. rewrite !app_length, repeat_length, IH. reflexivity. Qed.
Lemma numbered_ge {A} (ls : list (list A)) : forall i g, In g (numbered i ls) -> i <= g.
Proof. induction ls as [|l ls IH]; intros i g; [intros []|]. cbn [numbered]. rewrite in_app_iff. intros [X|X]; [apply repeat_spec in X; lia|]. apply IH in X. lia. Qed.
Lemma numbered_groups {A} (ls : list (list A)) : Forall (fun l => l <> []) ls -> forall i, groups_of (numbered i ls) (seq i (length ls)).
Proof.
  intros F i. split; [apply inc_seq|]. revert i. induction F as [|l ls N F IH]; intros i g; [reflexivity|]. cbn [length seq numbered In]. rewrite in_app_iff, (IH (S i) g). split; (intros [X|X]; [left|right; exact X]).
  - subst. destruct l; [congruence|]. left. reflexivity.
  - apply repeat_spec in X. auto.
Qed.
Lemma unique_numbered {A} (ls : list (list A)) : Forall (fun l => l <> []) ls -> unique (numbered 0 ls) = seq 0 (length ls).
Proof. intro F. apply (groups_of_fun (numbered 0 ls)); [apply unique_groups|apply numbered_groups; exact F]. Qed.
Lemma picks_app {A} g gi1 gi2 (l1 r1 l2 r2 : list A) : picks g gi1 l1 r1 -> picks g gi2 l2 r2 -> picks g (gi1 ++ gi2) (l1 ++ l2) (r1 ++ r2).
Proof. intros H K. induction H; cbn [app]; [exact K|constructor; assumption|constructor; assumption]. Qed.
Lemma picks_repeat {A} g (l : list A) : picks g (repeat g (length l)) l l.
Proof. induction l; constructor; assumption. Qed.
Lemma picks_none {A} g gi : forall l : list A, length l = length gi -> ~ In g gi -> picks g gi l [].
Proof. induction gi as [|h gi IH]; intros [|x l] L N; try discriminate; [constructor|]. apply picks_out; [intros ->; apply N; left; reflexivity|]. apply IH; [cbn in L; lia|]. intro X. apply N. right. exact X. Qed.
Lemma picks_block {A} (ls : list (list A)) : forall i k l, nth_error ls k = Some l -> picks (i + k) (numbered i ls) (concat ls) l.
Proof.
  induction ls as [|x ls IH]; intros i k l H; [destruct k; discriminate|]. cbn [numbered concat]. destruct k as [|k]; cbn in H.
  - injection H as ->. rewrite Nat.add_0_r. replace l with (l ++ []) at 3 by apply app_nil_r. apply picks_app; [apply picks_repeat|]. apply picks_none; [symmetry; apply numbered_length|]. intro X. apply numbered_ge in X. lia.
  - change l with ([] ++ l). apply picks_app; [apply picks_none; [symmetry; apply repeat_length|intro X; apply repeat_spec in X; lia]|]. replace (i + S k) with (S i + k) by lia. apply IH. exact H.
Qed.
Lemma numbered_shape {A B} (ls : list (list A)) (ms : list (list B)) : Forall2 (fun l m => length l = length m) ls ms -> forall i, numbered i ls = numbered i ms.
Proof. induction 1 as [|l m ls ms E F IH]; intro i; [reflexivity|]. cbn [numbered]. rewrite E, IH. reflexivity. Qed.
Lemma members_picks g gi : forall qs r, picks g gi qs r -> members gi g qs = r.
Proof.
  unfold members. intros qs r H. induction H as [|gs l r x H IH|g' gs l r x N H IH]; [reflexivity| |]; cbn [combine filter fst].
  - rewrite Nat.eqb_refl. cbn [map snd]. rewrite IH. reflexivity.
  - apply Nat.eqb_neq in N. rewrite N. exact IH.
Qed.
Lemma flat_map_nth {A B} (f : nat -> list B) (h : A -> list B) (ls : list A) : forall i, (forall k l, nth_error ls k = Some l -> f (i + k) = h l) -> flat_map f (seq i (length ls)) = flat_map h ls.
Proof.
  induction ls as [|x ls IH]; intros i H; [reflexivity|]. cbn [length seq flat_map]. rewrite <- (H 0 x eq_refl), Nat.add_0_r. f_equal. apply IH. intros k l K. rewrite <- (H (S k) l K). f_equal. lia.
Qed.
Lemma outline_blocks qss : Forall (fun l => l <> []) qss -> outline (concat qss) (numbered 0 qss) = flat_map outline_of qss.
Proof.
  intro F. unfold outline. rewrite (unique_numbered _ F). apply flat_map_nth. intros k l K. cbn [Nat.add]. rewrite (members_picks k _ _ l); [reflexivity|]. exact (picks_block qss 0 k l K).
Qed.

(** ** Edge ruptures *)
Lemma edges_from_outlines es : forall polys, Forall2 (fun e p => outline_of_edges (fst e) (snd e) p) es polys -> forall g,
  edges_from polys g = mkedges (concat (map fst es)) (concat (map snd es)) (numbered g (map fst es)).
Proof.
  induction 1 as [|[top bot] p es polys O F IH]; intro g; [reflexivity|]. cbn [fst snd] in O. destruct (outline_length _ _ _ O) as [Lp L0]. destruct O as (f & rest & Et & Lb & Ep). cbn [edges_from map concat numbered fst snd].
  rewrite Lp, Nat.add_sub, div2_double, (IH (g + 1)). cbn [e_top e_bot e_group]. assert (Er : removelast p = top ++ rev bot) by (rewrite Ep, app_assoc; apply removelast_last). rewrite Er.
  rewrite firstn_app, Nat.sub_diag, firstn_all, skipn_app, Nat.sub_diag, skipn_all. cbn [firstn skipn app]. rewrite app_nil_r, rev_involutive. replace (g + 1) with (S g) by lia. reflexivity.
Qed.
Lemma group_polygons_ok top bot gi : forall ids, (forall g, In g ids -> In g gi) -> length top = length gi -> length bot = length gi ->
  exists es polys, group_polygons top bot gi ids = Ok polys /\ Forall2 (fun g e => picks g gi top (fst e) /\ picks g gi bot (snd e)) ids es /\ Forall2 (fun e p => outline_of_edges (fst e) (snd e) p) es polys.
Proof.
  intros ids H Lt Lb. induction ids as [|g ids IH]; [exists [], []; split; [reflexivity|split; constructor]|]. destruct (IH (fun x X => H x (or_intror X))) as (es & polys & E & F1 & F2).
  destruct (picks_total g gi top Lt) as (t & Pt & Ct). destruct (picks_total g gi bot Lb) as (b & Pb & Cb). assert (C : 0 < count_occ Nat.eq_dec gi g) by (apply count_occ_In; apply H; left; reflexivity). destruct t as [|f t]; [cbn in Ct; lia|].
  exists ((f :: t, b) :: es), (((f :: t) ++ rev b ++ [f]) :: polys). cbn [group_polygons]. rewrite (picks_take0 _ _ _ _ Pt), (picks_take0 _ _ _ _ Pb), E. cbn [bind]. split; [reflexivity|]. split; constructor; auto.
  exists f, t. cbn [fst snd]. repeat split. cbn in *. lia.
Qed.
Lemma take_none {A} (a : list A) ind r : take a ind = Ok r -> forall i, In i ind -> i < length a.
Proof.
  revert r. induction ind as [|j ind IH]; intros r H i; [intros []|]. cbn [take] in H. destruct (nth_error a j) eqn:E; [|discriminate]. destruct (take a ind) as [r'|] eqn:T; [|discriminate]. intros [->|I]; [apply nth_error_Some; congruence|apply (IH r' eq_refl); exact I].
Qed.
(** An ascending index lists its groups one after the other. *)
Lemma asc_lt g l : ascending (g :: l) -> ascending l /\ forall x, In x l -> g <= x.
Proof.
  revert g. induction l as [|h l IH]; intros g H; [split; [constructor|intros x []]|]. inversion H as [| |? ? ? L H']; subst. split; [exact H'|]. destruct (IH h H') as [_ B]. intros x [->|X]; [exact L|]. specialize (B x X). lia.
Qed.
Lemma picks_concat {A} gi : ascending gi -> forall ids (l : list A) rs, groups_of gi ids -> length l = length gi -> Forall2 (fun g r => picks g gi l r) ids rs ->
  concat rs = l /\ forall i, Forall2 (fun g k => exists j, k = i + j /\ nth_error ids j = Some g) gi (numbered i rs).
Proof.
  induction gi as [|h gi IH]; intros Asc ids l rs G L F.
  - destruct l; [|discriminate]. destruct ids as [|g ids]; [inversion F; split; [reflexivity|constructor]|]. destruct G as [_ G]. destruct (proj1 (G g) (or_introl eq_refl)).
  - destruct l as [|x l]; [discriminate|]. destruct (asc_lt _ _ Asc) as [Asc' B]. destruct G as [I G]. destruct ids as [|g ids]; [destruct (proj2 (G h) (or_introl eq_refl))|].
    destruct (inc_lt _ _ I) as [I' Bi].
    assert (g = h). { destruct (proj1 (G g) (or_introl eq_refl)) as [X|X]; [auto|]. destruct (proj2 (G h) (or_introl eq_refl)) as [Y|Y]; [auto|]. specialize (Bi _ Y). specialize (B _ X). lia. } subst h.
    inversion F as [|? r ? rs' P F']; subst. inversion P as [|? ? r' ? P'|? ? ? ? ? N]; subst; [|congruence]. cbn [concat app numbered length repeat].
    assert (F'' : Forall2 (fun g0 r => picks g0 gi l r) ids rs'). { assert (NI : forall y, In y ids -> g <> y) by (intros y Y; specialize (Bi _ Y); lia). clear - F' NI. induction F' as [|y r ids rs P F IH]; constructor; [|apply IH; intros z Z; apply NI; right; exact Z]. inversion P; subst; [exfalso; apply (NI g); [left; reflexivity|reflexivity]|assumption]. }
    destruct (in_dec Nat.eq_dec g gi) as [In_|Out].
    + specialize (IH Asc' (g :: ids) l (r' :: rs')). cbn [concat numbered] in IH. destruct IH as [IH1 IH2]; [|cbn in L; lia|constructor; assumption|].
      * split; [exact I|]. intro y. rewrite (G y). split; [intros [->|Y]; assumption|right; assumption].
      * split; [rewrite IH1; reflexivity|]. intro i. constructor; [exists 0; split; [lia|reflexivity]|apply IH2].
    + assert (r' = []). { apply (picks_fun g gi l); [exact P'|]. apply picks_none; [cbn in L; lia|exact Out]. } subst r'. cbn [app length repeat]. destruct (IH Asc' ids l rs') as [IH1 IH2]; [|cbn in L; lia|exact F''|].
      * split; [exact I'|]. intro y. split.
        -- intro Y. destruct (proj1 (G y) (or_intror Y)) as [E|Z]; [|exact Z]. specialize (Bi _ Y). lia.
        -- intro Y. destruct (proj2 (G y) (or_intror Y)) as [E|Z]; [|exact Z]. subst. contradiction.
      * split; [rewrite IH1; reflexivity|]. intro i. constructor; [exists 0; split; [lia|reflexivity]|]. specialize (IH2 (S i)). clear - IH2. induction IH2 as [|y k ? ? (j & -> & J) F2 IH]; constructor; [|exact IH]. exists (S j). split; [lia|exact J].
Qed.
(** ** getQuadrilaterals *)
Lemma make_point_some v p : make_point (Some v) = Ok p <-> p = v /\ on_earth v.
Proof. destruct v as [[lon lat] dep]. cbn [make_point]. rewrite new_point_ok. split; intros [-> H]; auto. Qed.
Definition quad_of (c : patch) : quad := mkquad (p_tl c) (p_tr c) (p_br c) (p_bl c).
Lemma patches_nth top bot ps : patches top bot ps -> forall j c, nth_error ps j = Some c ->
  nth_error top j = Some (p_tl c) /\ nth_error top (j + 1) = Some (p_tr c) /\ nth_error bot (j + 1) = Some (p_br c) /\ nth_error bot j = Some (p_bl c).
Proof.
  induction 1 as [|t t' ts b b' bs ps H IH]; intros j c E; [destruct j; discriminate|]. destruct j as [|j]; cbn in E.
  - injection E as <-. cbn. auto.
  - apply IH in E. exact E.
Qed.
Lemma patches_exist top : forall bot, length bot = length top -> top <> [] -> exists ps, patches top bot ps.
Proof.
  induction top as [|t top IH]; intros bot L N; [congruence|]. destruct bot as [|b bot]; [discriminate|]. destruct top as [|t' top]; [destruct bot; [|discriminate]; exists []; constructor|].
  destruct bot as [|b' bot]; [discriminate|]. destruct (IH (b' :: bot) ltac:(cbn in *; lia) ltac:(discriminate)) as (ps & P). exists (mkpatch t t' b' b :: ps). constructor. exact P.
Qed.
Lemma patches_fun top bot ps qs : patches top bot ps -> patches top bot qs -> ps = qs.
Proof. intro H. revert qs. induction H as [|t t' ts b b' bs ps H IH]; intros qs K; inversion K; subst; [reflexivity|]. f_equal. apply IH. assumption. Qed.
Lemma edge_quads_ok e ps : patches (e_top e) (e_bot e) ps -> (Forall on_earth (e_top e) /\ Forall on_earth (e_bot e)) -> forall n k, k + n <= length ps ->
  edge_quads e (seq k n) = Ok (map quad_of (firstn n (skipn k ps))).
Proof.
  intros P [Ft Fb]. rewrite Forall_forall in Ft, Fb. induction n as [|n IH]; intros k L; [reflexivity|]. cbn [seq edge_quads]. destruct (skipn_cons ps k ltac:(lia)) as (c & Ec & Es & _). destruct (patches_nth _ _ _ P _ _ Ec) as (E1 & E2 & E3 & E4). rewrite E1, E2, E3, E4.
  assert (M : forall v, on_earth v -> make_point (Some v) = Ok v) by (intros v V; apply make_point_some; auto).
  rewrite (M (p_tl c)) by (apply Ft; eapply nth_error_In; exact E1). rewrite (M (p_tr c)) by (apply Ft; eapply nth_error_In; exact E2). rewrite (M (p_br c)) by (apply Fb; eapply nth_error_In; exact E3). rewrite (M (p_bl c)) by (apply Fb; eapply nth_error_In; exact E4).
  cbn [bind]. rewrite (IH (S k)) by lia. cbn [bind]. rewrite Es. reflexivity.
Qed.
Lemma where_length g gi : length (where_group g gi) = count_occ Nat.eq_dec gi g.
Proof.
  unfold where_group. fold (where_from 0 g gi). generalize 0 as k. induction gi as [|h gi IH]; intro k; [reflexivity|]. rewrite where_cons. cbn [count_occ]. destruct (Nat.eq_dec h g) as [->|N].
  - rewrite Nat.eqb_refl. cbn [length]. rewrite IH. reflexivity.
  - apply Nat.eqb_neq in N. rewrite N. apply IH.
Qed.
