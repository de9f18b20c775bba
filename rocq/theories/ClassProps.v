(** Property C67 (which ruptures are represented by quadrilaterals). *)
From Coq Require Import ZArith Reals String Ascii Bool List Lia Lra.
From Verif Require Import PyBase PyStr VecModel VecProofs GeoModel GeoTrig RuptModel RuptProps PolyModel PolySpec PolyProofs QuadProofs QuadProps EdgeProofs EquatorProofs.
Import ListNotations.
Open Scope nat_scope.

(** Both edges of the patch are horizontal, to fifty metres. *)
Definition level_edges (c : patch) : Prop := (Rabs (snd (p_tl c) - snd (p_tr c)) <= 0.05 /\ Rabs (snd (p_bl c) - snd (p_br c)) <= 0.05)%R.
Definition known (c : patch) : Prop := on_earth (p_tl c) /\ on_earth (p_tr c) /\ on_earth (p_br c) /\ on_earth (p_bl c).
Lemma level_iff a b : level a b = true <-> (Rabs (snd a - snd b) <= 0.05)%R.
Proof. unfold level, depth_of, DEPTH_TOL. apply rleb_iff. Qed.
Lemma level_self a : level a a = true.
Proof. apply level_iff. replace (snd a - snd a)%R with 0%R by ring. rewrite Rabs_R0. lra. Qed.
Lemma class_loop top bot f rest ps : top = f :: rest -> length bot = length top -> patches top bot ps -> forall n k b, k + n <= length ps ->
  quad_class_loop (top ++ rev bot ++ [f]) (seq k n) = Ok b -> (b = true <-> Forall level_edges (firstn n (skipn k ps))) /\ (b = true -> Forall known (firstn n (skipn k ps))).
Proof.
  intros Et Lb P. destruct (patches_count _ _ _ P) as [C1 C2]. induction n as [|n IH]; intros k b K; cbn [seq quad_class_loop].
  - intro H. injection H as <-. cbn. split; [split; [constructor|reflexivity]|constructor].
  - destruct (skipn_cons ps k ltac:(lia)) as (c & Ec & Es & _). rewrite Es. cbn [firstn]. destruct (patches_nth _ _ _ P _ _ Ec) as (E1 & E2 & E3 & E4).
    assert (N1 : nth_error (top ++ rev bot ++ [f]) k = Some (p_tl c)) by (rewrite nth_error_first by lia; exact E1). assert (N2 : nth_error (top ++ rev bot ++ [f]) (k + 1) = Some (p_tr c)) by (rewrite nth_error_first by lia; exact E2).
    assert (Er : rev (top ++ rev bot ++ [f]) = f :: bot ++ rev top) by (rewrite !rev_app_distr, rev_involutive; cbn [rev app]; reflexivity).
    assert (N3 : nth_end (top ++ rev bot ++ [f]) (k + 3) = Some (p_br c)). { unfold nth_end. rewrite Er. replace (k + 3 - 1) with (S (k + 1)) by lia. cbn [nth_error]. rewrite nth_error_first by lia. exact E3. }
    assert (N4 : nth_end (top ++ rev bot ++ [f]) (k + 2) = Some (p_bl c)). { unfold nth_end. rewrite Er. replace (k + 2 - 1) with (S k) by lia. cbn [nth_error]. rewrite nth_error_first by lia. exact E4. }
    rewrite N1, N2, N3, N4. destruct (make_point (Some (p_tl c))) as [a|] eqn:A1; [|discriminate]. destruct (make_point (Some (p_tr c))) as [a2|] eqn:A2; [|discriminate]. destruct (make_point (Some (p_br c))) as [a3|] eqn:A3; [|discriminate]. destruct (make_point (Some (p_bl c))) as [a4|] eqn:A4; [|discriminate]. apply make_point_some in A1, A2, A3, A4. destruct A1 as [-> O1], A2 as [-> O2], A3 as [-> O3], A4 as [-> O4]. cbn [bind].
    destruct (plane_quad _) as [[on q]|] eqn:Q; [|discriminate]. cbn [bind fst]. assert (on = true). { unfold plane_quad in Q. cbn [q0 q1 q2 q3] in Q. pose proof (C49_accepts_all (ecef (p_tl c)) (ecef (p_tr c)) (ecef (p_br c)) (ecef (p_bl c))) as X. destruct (is_quad _ _ _ _) as [o w]. cbn [fst] in X. subst o. destruct (as_point (Some (ecef (p_tl c)))); [|discriminate]. destruct (as_point (Some (ecef (p_tr c)))); [|discriminate]. cbn [bind] in Q. destruct (as_point w); [|discriminate]. destruct (as_point (Some (ecef (p_bl c)))); [|discriminate]. cbn [bind] in Q. congruence. } subst on. cbn [negb]. rewrite !level_self. cbn [andb].
    assert (X : level_edges c <-> level (p_tl c) (p_tr c) = true /\ level (p_br c) (p_bl c) = true). { unfold level_edges. rewrite !level_iff. rewrite (Rabs_minus_sym (snd (p_br c))). reflexivity. }
    destruct (level (p_tl c) (p_tr c)) eqn:L1; cbn [negb].
    + destruct (level (p_br c) (p_bl c)) eqn:L2; cbn [negb].
      * intro H. destruct (IH (S k) b ltac:(lia) H) as [I1 I2]. split.
        -- rewrite I1. split; intro F; [constructor; [apply X; auto|exact F]|inversion F; assumption].
        -- intro B. constructor; [unfold known; auto|apply I2; exact B].
      * intro H. injection H as <-. split; [|discriminate]. split; [discriminate|]. intro F. inversion F as [|? ? Y _]; subst. apply X in Y. destruct Y. discriminate.
    + intro H. injection H as <-. split; [|discriminate]. split; [discriminate|]. intro F. inversion F as [|? ? Y _]; subst. apply X in Y. destruct Y. discriminate.
Qed.
(** The answer is yes iff both edges of every patch are horizontal: whether its corners are in a
    plane makes no difference. *)
Theorem C67_class : forall edges polys pss b, Forall2 (fun e p => outline_of_edges (fst e) (snd e) p) edges polys ->
  Forall2 (fun e ps => patches (fst e) (snd e) ps) edges pss -> is_quadrupture_class polys = Ok b ->
  (b = true <-> Forall level_edges (concat pss)) /\ (b = true -> Forall known (concat pss)).
Proof.
  intros edges polys pss b O. revert pss b. induction O as [|[top bot] p edges polys O F IH]; intros pss b P; inversion P as [|? ps ? pss' H P']; subst; cbn [is_quadrupture_class].
  - intro H. injection H as <-. cbn. split; [split; [constructor|reflexivity]|constructor].
  - cbn [fst snd] in *. destruct (outline_length _ _ _ O) as [Lp L0]. destruct O as (f & rest & Et & Lb & Ep). destruct (patches_count _ _ _ H) as [C1 C2]. rewrite Lp, Nat.add_sub, div2_double. replace (length top - 1) with (length ps) by lia. rewrite Ep.
    destruct (quad_class_loop _ _) as [b'|] eqn:Q; [|discriminate]. cbn [bind]. destruct (class_loop top bot f rest ps Et Lb H (length ps) 0 b' ltac:(lia) Q) as [I1 I2]. cbn [skipn] in *. rewrite firstn_all in *. cbn [concat]. rewrite !Forall_app. destruct b'.
    + intro X. destruct (IH _ _ P' X) as [J1 J2]. rewrite J1. assert (T : Forall level_edges ps) by (apply I1; reflexivity). split; [tauto|]. intro B. split; [apply I2; reflexivity|apply J2; apply J1; exact B].
    + intro X. injection X as <-. split; [|discriminate]. split; [discriminate|]. intros [Y _]. apply I1 in Y. discriminate.
Qed.
Print Assumptions C67_class.
(** The only failure is ValueError, for a vertex that is not on the earth, or a top edge without a length. *)
Theorem C67_errors : forall edges polys e, Forall2 (fun e p => outline_of_edges (fst e) (snd e) p) edges polys -> is_quadrupture_class polys = Err e -> e = ValueError.
Proof.
  intros edges polys e O. induction O as [|[top bot] p edges polys O F IH]; cbn [is_quadrupture_class]; [discriminate|]. cbn [fst snd] in *. destruct (outline_length _ _ _ O) as [Lp L0]. destruct O as (f & rest & Et & Lb & Ep). rewrite Lp, Nat.add_sub, div2_double.
  assert (G : forall js e', (forall j, In j js -> j + 1 < length top) -> quad_class_loop p js = Err e' -> e' = ValueError).
  { assert (Er : rev p = f :: bot ++ rev top) by (rewrite Ep, !rev_app_distr, rev_involutive; cbn [rev app]; reflexivity).
    assert (M : forall o e', o <> None -> make_point o = Err e' -> e' = ValueError). { intros [[[lon lat] dep]|] e' N; [|congruence]. cbn [make_point]. destruct (new_point_cases lon lat dep) as [[_ Y]|[_ Y]]; rewrite Y; congruence. }
    induction js as [|j js IHj]; intros e' J; cbn [quad_class_loop]; [discriminate|]. pose proof (J j (or_introl eq_refl)) as Jj.
    assert (B1 : nth_error p j <> None) by (apply nth_error_Some; lia). assert (B2 : nth_error p (j + 1) <> None) by (apply nth_error_Some; lia). assert (B3 : nth_end p (j + 3) <> None) by (unfold nth_end; apply nth_error_Some; rewrite rev_length; lia). assert (B4 : nth_end p (j + 2) <> None) by (unfold nth_end; apply nth_error_Some; rewrite rev_length; lia).
    destruct (make_point (nth_error p j)) as [P0|] eqn:A1; cbn [bind]; [|intro H; injection H as <-; exact (M _ _ B1 A1)]. destruct (make_point (nth_error p (j + 1))) as [P1|] eqn:A2; cbn [bind]; [|intro H; injection H as <-; exact (M _ _ B2 A2)]. destruct (make_point (nth_end p (j + 3))) as [P2|] eqn:A3; cbn [bind]; [|intro H; injection H as <-; exact (M _ _ B3 A3)]. destruct (make_point (nth_end p (j + 2))) as [P3|] eqn:A4; cbn [bind]; [|intro H; injection H as <-; exact (M _ _ B4 A4)].
    destruct (plane_quad (mkquad P0 P1 P2 P3)) as [t|] eqn:Ep'; cbn [bind].
    - destruct (negb (fst t)); [discriminate|]. destruct (negb _); [discriminate|]. destruct (negb _); [discriminate|]. apply IHj. intros k K. apply J. right. exact K.
    - intro H. injection H as <-. unfold plane_quad in Ep'. cbn [q0 q1 q2 q3] in Ep'. destruct (is_quad _ _ _ _) as [on new]. destruct (as_point (Some (ecef P0))) eqn:X0; cbn [bind] in Ep'; [|injection Ep' as <-; apply (as_point_err _ _ X0)]. destruct (as_point (Some (ecef P1))) eqn:X1; cbn [bind] in Ep'; [|injection Ep' as <-; apply (as_point_err _ _ X1)].
      destruct (as_point new) eqn:X2; cbn [bind] in Ep'; [|injection Ep' as <-; apply (as_point_err _ _ X2)]. destruct (as_point (Some (ecef P3))) eqn:X3; cbn [bind] in Ep'; [discriminate|injection Ep' as <-; apply (as_point_err _ _ X3)]. }
  destruct (quad_class_loop p (seq 0 (length top - 1))) as [[|]|e'] eqn:Q; cbn [bind]; [exact IH|discriminate|]. intro H. injection H as <-. apply (G (seq 0 (length top - 1)) e'); [|exact Q]. intros j J. apply in_seq in J. lia.
Qed.
Print Assumptions C67_errors.
(** Yes for the patch along the equator. *)
Example C67_ex : is_quadrupture_class [ex_poly] = Ok true /\ Forall level_edges [mkpatch (0, 0, 0) (-1, 0, 0) (-1, 0, 10) (0, 0, 10)]%R.
Proof.
  split; [|constructor; [|constructor]; unfold level_edges; cbn; replace (0 - 0)%R with 0%R by ring; replace (10 - 10)%R with 0%R by ring; rewrite Rabs_R0; lra].
  unfold ex_poly. cbn [is_quadrupture_class length Nat.sub Nat.div2 seq quad_class_loop nth_error Nat.add nth_end rev app].
  assert (P : forall lon dep, (-180 < lon <= 180 -> -8 < dep <= 1000 -> make_point (Some (lon, 0, dep)) = Ok (lon, 0, dep))%R) by (intros lon dep H1 H2; apply make_point_some; split; [reflexivity|unfold on_earth; lra]).
  rewrite !P by lra. cbn [bind]. fold (wall (-1) 10). destruct (wall_plane (-1) 10 ltac:(lra) ltac:(lra)) as (on & E). pose proof (C49_accepts_all (ecef (0, 0, 0)%R) (ecef (-1, 0, 0)%R) (ecef (-1, 0, 10)%R) (ecef (0, 0, 10)%R)) as Y.
  assert (on = true). { revert E. unfold plane_quad. cbn [wall q0 q1 q2 q3]. destruct (is_quad _ _ _ _) as [o w]. cbn [fst] in Y. subst o. rewrite !inside_point by lra. cbn [bind]. destruct (as_point w); [|discriminate]. cbn [bind]. congruence. } subst on.
  rewrite E. cbn [bind fst negb]. assert (L : forall a b d, level (a, 0, d)%R (b, 0, d)%R = true) by (intros a b d; apply level_iff; cbn [snd]; replace (d - d)%R with 0%R by ring; rewrite Rabs_R0; lra). rewrite !L. reflexivity.
Qed.
