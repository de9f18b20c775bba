(** Properties C52 (quadrilaterals of an edge rupture) and C53 (edge ruptures from arrays). *)
From Coq Require Import ZArith Reals String Ascii Bool List Lia Lra.
From Verif Require Import PyBase PyStr VecModel VecProofs GeoModel GeoTrig RuptModel PolyModel PolySpec PolyProofs QuadProofs QuadProps EdgeProofs.
Import ListNotations.
Open Scope nat_scope.

(** ** C53 *)
(** Reading polygons gives their edges one after the other, numbered from 0. *)
Theorem C53_read : forall es polys, Forall2 (fun e p => outline_of_edges (fst e) (snd e) p) es polys ->
  edge_init polys = mkedges (concat (map fst es)) (concat (map snd es)) (numbered 0 (map fst es)).
Proof. intros es polys F. exact (edges_from_outlines es polys F 0). Qed.
Print Assumptions C53_read.
(** From arrays and a group index: one closed polygon for each group that occurs, in increasing
    order, from the members of the group in their order. *)
Theorem C53_build : forall top bot gi ids, length top = length gi -> length bot = length gi -> groups_of gi ids ->
  exists es polys, from_arrays_polygons top bot (Some gi) = Ok polys /\ Forall2 (fun e p => outline_of_edges (fst e) (snd e) p) es polys /\
  Forall2 (fun g e => picks g gi top (fst e) /\ picks g gi bot (snd e)) ids es /\
  from_arrays top bot (Some gi) = Ok (mkedges (concat (map fst es)) (concat (map snd es)) (numbered 0 (map fst es))).
Proof.
  intros top bot gi ids Lt Lb G. assert (ids = unique gi) by (apply (groups_of_fun gi); [exact G|apply unique_groups]). subst ids. destruct (group_polygons_ok top bot gi (unique gi) (fun g X => proj1 (proj2 G g) X) Lt Lb) as (es & polys & E & F1 & F2).
  exists es, polys. unfold from_arrays, from_arrays_polygons. rewrite E. cbn [bind]. split; [reflexivity|]. split; [exact F2|]. split; [exact F1|]. rewrite (C53_read _ _ F2). reflexivity.
Qed.
Print Assumptions C53_build.
(** When the index never decreases the arrays come back as they were, and every entry of the new
    index is the rank of its group. *)
Theorem C53_arrays : forall top bot gi ids, ascending gi -> groups_of gi ids -> length top = length gi -> length bot = length gi ->
  exists gi', from_arrays top bot (Some gi) = Ok (mkedges top bot gi') /\ Forall2 (fun g k => nth_error ids k = Some g) gi gi'.
Proof.
  intros top bot gi ids A G Lt Lb. destruct (C53_build top bot gi ids Lt Lb G) as (es & polys & _ & _ & F & E). exists (numbered 0 (map fst es)). rewrite E.
  destruct (picks_concat gi A ids top (map fst es) G Lt) as [T N]. { clear - F. induction F as [|g e ids es [P Q] F IH]; constructor; auto. }
  destruct (picks_concat gi A ids bot (map snd es) G Lb) as [B _]. { clear - F. induction F as [|g e ids es [P Q] F IH]; constructor; auto. }
  rewrite T, B. split; [reflexivity|]. specialize (N 0). clear - N. induction N as [|g k ? ? (j & -> & J) F IH]; constructor; [exact J|exact IH].
Qed.
Print Assumptions C53_arrays.
(** Without an index there is one group. *)
Theorem C53_single : forall top bot, top <> [] -> length bot = length top -> from_arrays top bot None = Ok (mkedges top bot (repeat 0 (length top))).
Proof.
  intros top bot N L. assert (A : ascending (repeat 0 (length top))). { generalize (length top). induction n as [|n IH]; [constructor|]. cbn [repeat]. destruct n; constructor; [lia|exact IH]. }
  assert (G : groups_of (repeat 0 (length top)) [0]). { split; [constructor|]. intro g. split; [intros [<-|[]]; destruct top; [congruence|left; reflexivity]|]. intro X. apply repeat_spec in X. left. auto. }
  destruct (C53_arrays top bot _ [0] A G) as (gi' & E & F); [rewrite repeat_length; reflexivity|rewrite repeat_length; exact L|]. assert (gi' = repeat 0 (length top)). { clear - F. revert F. generalize (length top) as n. intro n. revert gi'. induction n as [|n IH]; intros gi' F; inversion F as [|g k ? ? H F']; subst; [reflexivity|]. cbn [repeat]. f_equal; [|apply IH; exact F']. destruct k as [|[|k]]; [reflexivity|discriminate|discriminate]. }
  subst gi'. exact E.
Qed.
Print Assumptions C53_single.
(** What was built can be built again from what it shows: the same rupture. *)
Theorem C53_again : forall top bot gi e, length top = length gi -> length bot = length gi -> from_arrays top bot (Some gi) = Ok e ->
  from_arrays (e_top e) (e_bot e) (Some (e_group e)) = Ok e.
Proof.
  intros top bot gi e Lt Lb H. destruct (C53_build top bot gi (unique gi) Lt Lb (unique_groups gi)) as (es & polys & _ & O & F & E). rewrite E in H. injection H as <-. cbn [e_top e_bot e_group].
  assert (NE : Forall (fun l => l <> []) (map fst es)). { clear - O. induction O as [|[t b] p es polys H O IH]; constructor; [|exact IH]. destruct H as (f & r & X & _). cbn [fst] in *. congruence. }
  assert (SH : Forall2 (fun l m => length l = length m) (map fst es) (map snd es)). { clear - O. induction O as [|[t b] p es polys H O IH]; constructor; [|exact IH]. destruct H as (f & r & _ & X & _). cbn [fst snd] in *. auto. }
  set (ts := map fst es) in *. set (bs := map snd es) in *. assert (G : groups_of (numbered 0 ts) (seq 0 (length ts))) by (apply numbered_groups; exact NE).
  destruct (C53_build (concat ts) (concat bs) (numbered 0 ts) _ ltac:(symmetry; apply numbered_length) ltac:(rewrite (numbered_shape _ _ SH); symmetry; apply numbered_length) G) as (es' & polys' & _ & _ & F' & E'). rewrite E'.
  assert (X : map fst es' = ts /\ map snd es' = bs). { assert (LE : length ts = length bs) by (unfold ts, bs; rewrite !map_length; reflexivity). 
    assert (P1 : Forall2 (fun g t => picks g (numbered 0 ts) (concat ts) t) (seq 0 (length ts)) (map fst es')) by (clear - F'; induction F' as [|g e ? ? [P Q] F IH]; constructor; assumption).
    assert (P2 : Forall2 (fun g t => picks g (numbered 0 ts) (concat bs) t) (seq 0 (length ts)) (map snd es')) by (clear - F'; induction F' as [|g e ? ? [P Q] F IH]; constructor; assumption).
    assert (U : forall (ls rs : list (list point)) n, n = numbered 0 ls -> Forall2 (fun g t => picks g n (concat ls) t) (seq 0 (length ls)) rs -> rs = ls).
    { intros ls rs n Hn HF. apply nth_ext with (d := []) (d' := []); [apply Forall2_len in HF; rewrite seq_length in HF; auto|]. intros k K. apply Forall2_len in HF as HL. rewrite seq_length in HL. destruct (nth_error rs k) as [r|] eqn:Er; [|apply nth_error_None in Er; lia]. destruct (nth_error ls k) as [l|] eqn:El; [|apply nth_error_None in El; lia]. rewrite (nth_error_nth _ _ _ Er), (nth_error_nth _ _ _ El).
      assert (PK : picks k n (concat ls) r). { clear - HF Er K HL. assert (Q : forall i rs ls', Forall2 (fun g t => picks g n (concat ls) t) (seq i ls') rs -> forall k r, nth_error rs k = Some r -> picks (i + k) n (concat ls) r). { intros i rs0 m. revert i rs0. induction m as [|m IH]; intros i rs0 H k0 r0 E; inversion H; subst; [destruct k0; discriminate|]. destruct k0 as [|k0]; cbn in E; [injection E as <-; rewrite Nat.add_0_r; assumption|]. replace (i + S k0) with (S i + k0) by lia. eapply IH; eassumption. } apply (Q 0 rs (length ls) HF). exact Er. }
      apply (picks_fun k n (concat ls)); [exact PK|]. rewrite Hn. exact (picks_block ls 0 k l El). }
    split; [apply (U ts _ (numbered 0 ts)); [reflexivity|exact P1]|apply (U bs _ (numbered 0 ts)); [apply numbered_shape; exact SH|rewrite <- LE; exact P2]]. }
  destruct X as [-> ->]. reflexivity.
Qed.
Print Assumptions C53_again.
(** Two groups given in turn: they are sorted out. *)
Example C53_ex : let a := (0, 0, 0)%R in let b := (1, 0, 0)%R in let c := (2, 0, 0)%R in let d := (3, 0, 0)%R in let A := (0, 0, 9)%R in let B := (1, 0, 9)%R in let C := (2, 0, 9)%R in let D := (3, 0, 9)%R in
  groups_of [7; 2; 7; 2] [2; 7] /\ from_arrays_polygons [a; b; c; d] [A; B; C; D] (Some [7; 2; 7; 2]) = Ok [[b; d; D; B; b]; [a; c; C; A; a]] /\
  from_arrays [a; b; c; d] [A; B; C; D] (Some [7; 2; 7; 2]) = Ok (mkedges [b; d; a; c] [B; D; A; C] [0; 0; 1; 1]) /\
  ascending [2; 2; 7; 7] /\ from_arrays [a; b; c; d] [A; B; C; D] (Some [2; 2; 7; 7]) = Ok (mkedges [a; b; c; d] [A; B; C; D] [0; 0; 1; 1]) /\
  outline_of_edges [b; d] [B; D] [b; d; D; B; b].
Proof.
  intros. split; [exact (unique_groups [7; 2; 7; 2])|]. split; [reflexivity|]. split; [reflexivity|]. split; [repeat constructor|]. split; [reflexivity|]. exists b, [d]. repeat split.
Qed.

(** ** C52 *)
Definition shaped (ts bs : list (list point)) : Prop := Forall2 (fun t b => t <> [] /\ length b = length t) ts bs.
Definition built (ts bs : list (list point)) : edges := mkedges (concat ts) (concat bs) (numbered 0 ts).
Lemma shaped_len ts bs : shaped ts bs -> length (concat bs) = length (concat ts) /\ Forall (fun l => l <> []) ts.
Proof. induction 1 as [|t b ts bs [N L] F [IH1 IH2]]; [split; [reflexivity|constructor]|]. cbn [concat]. rewrite !app_length. split; [lia|constructor; assumption]. Qed.
Lemma block_count (ls : list (list point)) : forall k l, nth_error ls k = Some l -> count_occ Nat.eq_dec (numbered 0 ls) k = length l.
Proof. intros k l H. destruct (picks_length _ _ _ _ (picks_block ls 0 k l H)) as [_ E]. auto. Qed.
Lemma block_le (ls : list (list point)) l : In l ls -> length l <= length (concat ls).
Proof. induction ls as [|x ls IH]; [intros []|]. cbn [concat]. rewrite app_length. intros [->|X]; [lia|]. specialize (IH X). lia. Qed.
(** What is returned: for every group as many quadrilaterals as it has, but always those at the
    beginning of the arrays, which are the first group's. *)
Theorem C52_actual : forall ts bs ps, shaped ts bs -> patches (concat ts) (concat bs) ps -> Forall on_earth (concat ts) -> Forall on_earth (concat bs) ->
  edge_get_quadrilaterals (built ts bs) = Ok (concat (map (fun t => map quad_of (firstn (length t - 1) ps)) ts)).
Proof.
  intros ts bs ps SH P Et Eb. destruct (shaped_len _ _ SH) as [L NE]. unfold edge_get_quadrilaterals. cbn [built e_group]. rewrite (unique_numbered _ NE).
  assert (Q : forall ls i, (forall k l, nth_error ls k = Some l -> nth_error ts (i + k) = Some l) -> edge_quads_groups (built ts bs) (seq i (length ls)) = Ok (concat (map (fun t => map quad_of (firstn (length t - 1) ps)) ls))).
  { induction ls as [|l ls IH]; intros i H; [reflexivity|]. cbn [length seq edge_quads_groups built e_group]. rewrite where_length. pose proof (H 0 l eq_refl) as H0. rewrite Nat.add_0_r in H0. rewrite (block_count _ _ _ H0). destruct (patches_count _ _ _ P) as [C _]. pose proof (block_le _ _ (nth_error_In _ _ H0)) as B.
    fold (built ts bs). rewrite (edge_quads_ok (built ts bs) ps) by (cbn [built e_top e_bot]; auto; lia). cbn [bind skipn]. rewrite (IH (S i)); [reflexivity|]. intros k l' K. replace (S i + k) with (i + S k) by lia. apply H. exact K. }
  apply (Q ts 0). intros k l H. exact H.
Qed.
Print Assumptions C52_actual.
(** The number of quadrilaterals is right. *)
Theorem C52_count : forall ts bs, shaped ts bs -> ts <> [] -> Forall on_earth (concat ts) -> Forall on_earth (concat bs) ->
  exists qs, edge_get_quadrilaterals (built ts bs) = Ok qs /\ length qs = fold_right (fun t n => length t - 1 + n) 0 ts.
Proof.
  intros ts bs SH N Et Eb. destruct (shaped_len _ _ SH) as [L NE]. destruct (patches_exist (concat ts) (concat bs) L) as (ps & P). { destruct ts as [|[|x t] ts]; [congruence|inversion NE; congruence|discriminate]. }
  rewrite (C52_actual _ _ _ SH P Et Eb). eexists. split; [reflexivity|]. destruct (patches_count _ _ _ P) as [C _]. assert (B : forall l, In l ts -> length l - 1 <= length ps) by (intros l H; apply block_le in H; lia). clear - B. induction ts as [|t ts IH]; [reflexivity|]. cbn [map concat fold_right]. rewrite app_length, map_length, firstn_length_le by (apply B; left; reflexivity). rewrite IH; [reflexivity|]. intros l H. apply B. right. exact H.
Qed.
Print Assumptions C52_count.
Lemma patches_prefix t b ps t' b' qs : patches t b ps -> patches (t ++ t') (b ++ b') qs -> firstn (length t - 1) qs = ps.
Proof.
  intro P. revert qs. induction P as [x y|x x' ts y y' bs ps P IH]; intros qs Q; [reflexivity|]. cbn [app] in Q. inversion Q; subst. specialize (IH _ H6). cbn [length Nat.sub firstn] in *. rewrite Nat.sub_0_r in IH. rewrite IH. reflexivity.
Qed.
(** The first group's are right: so is a rupture with one group. *)
Theorem C52_first : forall t b ts bs ps, shaped (t :: ts) (b :: bs) -> Forall on_earth (concat (t :: ts)) -> Forall on_earth (concat (b :: bs)) -> patches t b ps ->
  exists qs, edge_get_quadrilaterals (built (t :: ts) (b :: bs)) = Ok (map quad_of ps ++ qs) /\ (ts = [] -> qs = []).
Proof.
  intros t b ts bs ps SH Et Eb P. destruct (shaped_len _ _ SH) as [L NE]. destruct (patches_exist (concat (t :: ts)) (concat (b :: bs)) L) as (qs & Q). { cbn [concat]. inversion NE; subst. destruct t; [congruence|discriminate]. }
  rewrite (C52_actual _ _ _ SH Q Et Eb). cbn [map concat] in *. rewrite (patches_prefix _ _ _ _ _ _ P Q). eexists. split; [reflexivity|]. intros ->. reflexivity.
Qed.
Print Assumptions C52_first.
(** But it is not so that the quadrilaterals of all groups are returned. *)
Theorem C52_later_refuted : exists t1 b1 t2 b2 p1 p2, patches t1 b1 p1 /\ patches t2 b2 p2 /\ Forall on_earth (t1 ++ t2 ++ b1 ++ b2) /\
  exists qs, edge_get_quadrilaterals (built [t1; t2] [b1; b2]) = Ok qs /\ qs <> map quad_of (p1 ++ p2) /\ qs = map quad_of (p1 ++ p1).
Proof.
  set (a := (0, 0, 0)%R). set (b := (1, 0, 0)%R). set (c := (2, 0, 0)%R). set (d := (3, 0, 0)%R). set (A := (0, 0, 9)%R). set (B := (1, 0, 9)%R). set (C := (2, 0, 9)%R). set (D := (3, 0, 9)%R).
  exists [a; b], [A; B], [c; d], [C; D], [mkpatch a b B A], [mkpatch c d D C]. split; [repeat constructor|]. split; [repeat constructor|].
  assert (E : forall v, In v [a; b; c; d; A; B; C; D] -> on_earth v) by (intros v; cbn [In]; intros [<-|[<-|[<-|[<-|[<-|[<-|[<-|[<-|[]]]]]]]]]; unfold a, b, c, d, A, B, C, D, on_earth; lra).
  split; [apply Forall_forall; intros v V; apply E; cbn in *; tauto|]. exists (map quad_of [mkpatch a b B A; mkpatch a b B A]). split; [|split; [|reflexivity]].
  - rewrite (C52_actual [[a; b]; [c; d]] [[A; B]; [C; D]] [mkpatch a b B A; mkpatch b c C B; mkpatch c d D C]).
    + reflexivity.
    + constructor; [split; [discriminate|reflexivity]|]. constructor; [split; [discriminate|reflexivity]|constructor].
    + cbn [concat app]. repeat constructor.
    + apply Forall_forall. intros v V. apply E. cbn in *. tauto.
    + apply Forall_forall. intros v V. apply E. cbn in *. tauto.
  - cbn [map app quad_of p_tl p_tr p_br p_bl]. intro H. injection H. intros. unfold a, c in *. lra.
Qed.
Print Assumptions C52_later_refuted.
(** Off the earth the failure is ValueError. *)
Theorem C52_errors : forall ts bs e, shaped ts bs -> edge_get_quadrilaterals (built ts bs) = Err e -> e = ValueError.
Proof.
  intros ts bs e SH. destruct (shaped_len _ _ SH) as [L NE]. unfold edge_get_quadrilaterals. cbn [built e_group]. rewrite (unique_numbered _ NE).
  assert (M : forall (l : list point) j e', j < length l -> make_point (nth_error l j) = Err e' -> e' = ValueError). { intros l j e' J. destruct (nth_error l j) as [[[lon lat] dep]|] eqn:X; [|apply nth_error_None in X; lia]. cbn [make_point]. destruct (new_point_cases lon lat dep) as [[_ Y]|[_ Y]]; rewrite Y; congruence. }
  assert (Q : forall js e', (forall j, In j js -> j + 1 < length (concat ts)) -> edge_quads (built ts bs) js = Err e' -> e' = ValueError).
  { induction js as [|j js IH]; intros e' J; cbn [edge_quads]; [discriminate|]. cbn [built e_top e_bot]. fold (built ts bs). pose proof (J j (or_introl eq_refl)) as Jj.
    destruct (make_point (nth_error (concat ts) j)) eqn:A1; cbn [bind]; [|intro H; injection H as <-; apply (M (concat ts) j); [lia|exact A1]]. destruct (make_point (nth_error (concat ts) (j + 1))) eqn:A2; cbn [bind]; [|intro H; injection H as <-; apply (M (concat ts) (j + 1)); [lia|exact A2]].
    destruct (make_point (nth_error (concat bs) (j + 1))) eqn:A3; cbn [bind]; [|intro H; injection H as <-; apply (M (concat bs) (j + 1)); [lia|exact A3]]. destruct (make_point (nth_error (concat bs) j)) eqn:A4; cbn [bind]; [|intro H; injection H as <-; apply (M (concat bs) j); [lia|exact A4]].
    destruct (edge_quads (built ts bs) js) eqn:A5; cbn [bind]; [discriminate|]. intro H. injection H as <-. apply IH; [intros k K; apply J; right; exact K|reflexivity]. }
  assert (G : forall gs, (forall g, In g gs -> In g (seq 0 (length ts))) -> edge_quads_groups (built ts bs) gs = Err e -> e = ValueError).
  { induction gs as [|g gs IH]; intro H; cbn [edge_quads_groups]; [discriminate|]. cbn [built e_group]. fold (built ts bs). rewrite where_length. pose proof (H g (or_introl eq_refl)) as Hg. apply in_seq in Hg. destruct (nth_error ts g) as [l|] eqn:El; [|apply nth_error_None in El; lia]. rewrite (block_count _ _ _ El). pose proof (block_le _ _ (nth_error_In _ _ El)) as B.
    destruct (edge_quads (built ts bs) (seq 0 (length l - 1))) as [r|e'] eqn:A1; cbn [bind].
    - destruct (edge_quads_groups (built ts bs) gs) as [r'|e'] eqn:A2; cbn [bind]; [discriminate|]. intro X. apply IH; [intros k K; apply H; right; exact K|congruence].
    - intro X. injection X as <-. apply (Q (seq 0 (length l - 1)) e'); [|exact A1]. intros j J. apply in_seq in J. lia. }
  apply G. auto.
Qed.
Print Assumptions C52_errors.
Example C52_ex : let a := (0, 0, 0)%R in let b := (1, 0, 0)%R in let A := (0, 0, 9)%R in let B := (1, 0, 9)%R in
  shaped [[a; b]] [[A; B]] /\ patches [a; b] [A; B] [mkpatch a b B A] /\ Forall on_earth [a; b] /\ Forall on_earth [A; B] /\ edge_get_quadrilaterals (built [[a; b]] [[A; B]]) = Ok [mkquad a b B A].
Proof.
  intros. assert (SH : shaped [[a; b]] [[A; B]]) by (constructor; [split; [discriminate|reflexivity]|constructor]). assert (P : patches [a; b] [A; B] [mkpatch a b B A]) by repeat constructor.
  assert (E1 : Forall on_earth [a; b]) by (unfold a, b, on_earth; constructor; [lra|constructor; [lra|constructor]]). assert (E2 : Forall on_earth [A; B]) by (unfold A, B, on_earth; constructor; [lra|constructor; [lra|constructor]]).
  repeat (split; [assumption|]). rewrite (C52_actual [[a; b]] [[A; B]] [mkpatch a b B A] SH P E1 E2). reflexivity.
Qed.
