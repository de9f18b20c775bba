(** Lemmas about the splitting of polygons into quadrilaterals. *)
From Coq Require Import ZArith Reals String Ascii Bool List Lia Lra.
From Verif Require Import PyBase PyStr VecModel VecProofs GeoModel GeoTrig RuptModel PolyModel PolySpec PolyProofs.
Import ListNotations.
Open Scope nat_scope.

Lemma new_point_ok lon lat dep p : new_point lon lat dep = Ok p <-> p = (lon, lat, dep) /\ on_earth p.
Proof.
  unfold new_point, on_earth, EARTH_RADIUS. split.
  - destruct (rltb dep 6371) eqn:E1; [|discriminate]. destruct (rltb (-8.848) dep) eqn:E2; [|discriminate]. destruct (rleb (-180) lon && rleb lon 180) eqn:E3; [|discriminate]. destruct (rleb (-90) lat && rleb lat 90) eqn:E4; [|discriminate]. cbn [negb]. intro H. injection H as <-.
    apply rltb_iff in E1, E2. apply andb_true_iff in E3, E4. rewrite !rleb_iff in *. split; [reflexivity|]. lra.
  - intros (-> & H). assert (X1 : rltb dep 6371 = true) by (apply rltb_iff; lra). assert (X2 : rltb (-8.848) dep = true) by (apply rltb_iff; lra). assert (X3 : rleb (-180) lon && rleb lon 180 = true) by (rewrite andb_true_iff, !rleb_iff; lra). assert (X4 : rleb (-90) lat && rleb lat 90 = true) by (rewrite andb_true_iff, !rleb_iff; lra).
    rewrite X1, X2, X3, X4. reflexivity.
Qed.
Lemma new_point_cases lon lat dep : (on_earth (lon, lat, dep) /\ new_point lon lat dep = Ok (lon, lat, dep)) \/ (~ on_earth (lon, lat, dep) /\ new_point lon lat dep = Err ValueError).
Proof.
  destruct (new_point lon lat dep) as [p|e] eqn:E.
  - left. apply new_point_ok in E. destruct E as [-> H]. auto.
  - right. split; [intro H; assert (X : new_point lon lat dep = Ok (lon, lat, dep)) by (apply new_point_ok; auto); congruence|]. unfold new_point in E. destruct (negb _) in E; [congruence|]. destruct (negb _) in E; [congruence|]. destruct (negb _) in E; [congruence|]. destruct (negb _) in E; congruence.
Qed.
Lemma the_point_some v p : the_point (Some (Some v)) = Ok p <-> p = v /\ on_earth v.
Proof. destruct v as [[lon lat] dep]. cbn [the_point]. rewrite new_point_ok. split; intros [-> H]; auto. Qed.

Definition nan_from (k : nat) (a : list (option point)) : list nat :=
  map fst (filter (fun iv => match snd iv with None => true | Some _ => false end) (combine (seq k (length a)) a)).
Lemma nan_from_some k b rest : nan_from k (map Some b ++ None :: rest) = (k + length b) :: nan_from (S (k + length b)) rest.
Proof.
  revert k. induction b as [|v b IH]; intro k; unfold nan_from; cbn [map app length seq combine filter snd fst].
  - rewrite Nat.add_0_r. reflexivity.
  - unfold nan_from in IH. rewrite app_length, map_length in *. cbn [length] in *. rewrite (IH (S k)). replace (k + S (length b)) with (S k + length b) by lia. reflexivity.
Qed.
Lemma slice_mid {A} (pre b post : list A) : slice (length pre) (length pre + length b) (pre ++ b ++ post) = b.
Proof. unfold slice. rewrite skipn_app, Nat.sub_diag, skipn_all. cbn [skipn app]. replace (length pre + length b - length pre) with (length b) by lia. rewrite firstn_app, Nat.sub_diag, firstn_all. cbn [firstn]. apply app_nil_r. Qed.
Fixpoint by_polygon (polys : list (list point)) (g : nat) : res (list quad * list nat) :=
  match polys with
  | [] => Ok ([], [])
  | p :: rest =>
      let seg := map Some (removelast p) in
      let nquads := quad_count (length seg) in
      bind (group_quads seg (seq 0 nquads)) (fun qs =>
      bind (by_polygon rest (g + 1)) (fun r => Ok (qs ++ fst r, repeat g nquads ++ snd r)))
  end.
Lemma all_groups_eq polys : forall pre g, all_groups (pre ++ arrays polys) (length pre) (nan_from (length pre) (arrays polys)) g = by_polygon polys g.
Proof.
  induction polys as [|p polys IH]; intros pre g; [reflexivity|]. cbn [arrays flat_map]. fold (arrays polys). set (b := removelast p). rewrite <- app_assoc. cbn [app]. rewrite nan_from_some. cbn [all_groups by_polygon]. fold b.
  assert (E : slice (length pre) (length pre + length b) (pre ++ map Some b ++ None :: arrays polys) = map Some b) by (rewrite <- (map_length (@Some point) b); apply slice_mid). rewrite E.
  specialize (IH (pre ++ map Some b ++ [None]) (g + 1)). rewrite !app_length, map_length in IH. cbn [length] in IH. rewrite <- !app_assoc in IH. cbn [app] in IH.
  replace (length pre + length b + 1) with (length pre + (length b + 1)) by lia. replace (S (length pre + length b)) with (length pre + (length b + 1)) by lia. rewrite IH. reflexivity.
Qed.
Lemma set_quads_eq polys : set_quadrilaterals polys = by_polygon polys 0.
Proof. exact (all_groups_eq polys [] 0). Qed.
Lemma quad_count_even m : quad_count (m + m) = m - 1.
Proof.
  unfold quad_count. destruct m as [|[|m]]; [reflexivity|reflexivity|]. replace (Z.of_nat (S (S m) + S (S m)) - 4)%Z with (Z.of_nat m * 2)%Z by lia. rewrite Z.quot_mul by lia. lia.
Qed.
(** What becomes of one patch. *)
Definition becomes (c : patch) (q : quad) : Prop :=
  on_earth (p_tl c) /\ on_earth (p_tr c) /\ on_earth (p_br c) /\ on_earth (p_bl c) /\
  exists t, plane_quad (mkquad (p_tl c) (p_tr c) (p_br c) (p_bl c)) = Ok t /\ q = fix_strike_direction (snd t).
Lemma nth_error_rev_app {A} (a b : list A) j : nth_error (rev (a ++ rev b)) j = nth_error (b ++ rev a) j.
Proof. rewrite rev_app_distr, rev_involutive. reflexivity. Qed.
Lemma group_quads_rec top bot : length bot = length top -> forall js qs, (forall j, In j js -> j + 1 < length top) -> group_quads (map Some (top ++ rev bot)) js = Ok qs ->
  exists ps, Forall2 becomes ps qs /\ Forall2 (fun j c => nth_error top j = Some (p_tl c) /\ nth_error top (j + 1) = Some (p_tr c) /\ nth_error bot (j + 1) = Some (p_br c) /\ nth_error bot j = Some (p_bl c)) js ps.
Proof.
  intro L. induction js as [|j js IH]; intros qs Hj; cbn [group_quads].
  - intro H. injection H as <-. exists []. split; constructor.
  - pose proof (Hj j (or_introl eq_refl)) as J. unfold nth_end. replace (j + 2 - 1) with (j + 1) by lia. replace (j + 1 - 1) with j by lia. rewrite !nth_error_map, <- !map_rev, !nth_error_map, !nth_error_rev_app.
    destruct (nth_error top j) as [a|] eqn:E1; [|apply nth_error_None in E1; lia]. destruct (nth_error top (j + 1)) as [b|] eqn:E2; [|apply nth_error_None in E2; lia].
    destruct (nth_error bot (j + 1)) as [c|] eqn:E3; [|apply nth_error_None in E3; lia]. destruct (nth_error bot j) as [d|] eqn:E4; [|apply nth_error_None in E4; lia].
    rewrite !nth_error_first by lia. rewrite E1, E2, E3, E4. cbn [option_map].
    destruct (the_point (Some (Some a))) as [P0|] eqn:T0; [|discriminate]. destruct (the_point (Some (Some b))) as [P1|] eqn:T1; [|discriminate]. destruct (the_point (Some (Some c))) as [P2|] eqn:T2; [|discriminate]. destruct (the_point (Some (Some d))) as [P3|] eqn:T3; [|discriminate]. cbn [bind].
    apply the_point_some in T0, T1, T2, T3. destruct T0 as [-> O0], T1 as [-> O1], T2 as [-> O2], T3 as [-> O3].
    destruct (plane_quad (mkquad a b c d)) as [t|] eqn:Ep; [|discriminate]. cbn [bind]. destruct (group_quads (map Some (top ++ rev bot)) js) as [rest|] eqn:Er; [|discriminate]. cbn [bind]. intro H. injection H as <-.
    destruct (IH rest (fun k K => Hj k (or_intror K)) eq_refl) as (ps & F1 & F2). exists (mkpatch a b c d :: ps). split; constructor; try assumption; [|auto]. split; [exact O0|]. split; [exact O1|]. split; [exact O2|]. split; [exact O3|]. exists t. auto.
Qed.
Lemma patches_of top : forall bot ps, length bot = length top -> 0 < length top ->
  Forall2 (fun j c => nth_error top j = Some (p_tl c) /\ nth_error top (j + 1) = Some (p_tr c) /\ nth_error bot (j + 1) = Some (p_br c) /\ nth_error bot j = Some (p_bl c)) (seq 0 (length top - 1)) ps -> patches top bot ps.
Proof.
  induction top as [|t top IH]; intros bot ps L P; [cbn in P; lia|]. destruct bot as [|b bot]; [discriminate|]. destruct top as [|t' top].
  - destruct bot; [|discriminate]. cbn. intro H. inversion H. constructor.
  - destruct bot as [|b' bot]; [discriminate|]. cbn [length Nat.sub seq]. intro H. inversion H as [|? c ? ps' (E1 & E2 & E3 & E4) F]; subst. cbn in E1, E2, E3, E4. destruct c as [c1 c2 c3 c4]. cbn in *. injection E1 as ->. injection E2 as ->. injection E3 as ->. injection E4 as ->.
    apply patches_next. apply IH; [cbn in L |- *; lia|cbn; lia|]. cbn [length Nat.sub]. rewrite Nat.sub_0_r. rewrite <- seq_shift in F. clear - F. revert F. generalize (seq 0 (length top)). intros js. revert ps'. induction js as [|j js IH]; intros ps F; inversion F as [|? c ? ps'' H F']; subst; constructor; [exact H|]. apply IH. exact F'.
Qed.
Lemma patches_count top bot ps : patches top bot ps -> length top = S (length ps) /\ length bot = S (length ps).
Proof. induction 1 as [|t t' ts b b' bs ps H [IH1 IH2]]; cbn in *; lia. Qed.
