(** Proofs about the sizes of edges. *)
From Coq Require Import ZArith Reals String Ascii Bool List Lia Lra.
From Verif Require Import PyBase PyStr VecModel GeoModel RuptModel PolyModel SizeModel RuptSpec GeoSpec PolySpec SizeSpec VecProofs GeoTrig GeoProofs RuptProofs EdgeProofs EdgeProps SphereProps SizeProofs.
Import ListNotations.
Open Scope R_scope.

(** Positions of the segments of blocks, the first beginning at [o]. *)
Fixpoint starts {A} (o : nat) (ts : list (list A)) : list nat :=
  match ts with [] => [] | t :: r => seq o (length t - 1) ++ starts (o + length t) r end.
Lemma where_repeat o i n rest : where_from o i (repeat i n ++ rest) = seq o n ++ where_from (o + n) i rest.
Proof.
  revert o. induction n as [|n IH]; intro o; cbn [repeat app seq]; [rewrite Nat.add_0_r; reflexivity|]. rewrite where_cons, Nat.eqb_refl, IH. cbn [app]. f_equal. f_equal. f_equal. lia.
Qed.
Lemma where_other o g i n rest : g <> i -> where_from o g (repeat i n ++ rest) = where_from (o + n) g rest.
Proof.
  intro N. revert o. induction n as [|n IH]; intro o; cbn [repeat app]; [rewrite Nat.add_0_r; reflexivity|]. rewrite where_cons. destruct (Nat.eqb_spec i g); [congruence|]. rewrite IH. f_equal. lia.
Qed.
Lemma where_nothing {A} (ts : list (list A)) : forall o g i, (g < i)%nat -> where_from o g (numbered i ts) = [].
Proof.
  induction ts as [|t ts IH]; intros o g i L; cbn [numbered]; [reflexivity|]. rewrite where_other by lia. apply IH. lia.
Qed.
Lemma removelast_seq n : forall o, removelast (seq o n) = seq o (n - 1).
Proof.
  destruct n as [|n]; intro o; [reflexivity|]. replace (S n - 1)%nat with n by lia. rewrite seq_S, removelast_last. reflexivity.
Qed.
Lemma pairs_seq n : forall o, pairs (seq o n) = map (fun i => (i, i + 1)%nat) (seq o (n - 1)).
Proof.
  induction n as [|n IH]; intro o; [reflexivity|]. destruct n as [|n]; [reflexivity|]. replace (S (S n) - 1)%nat with (S n) by lia. change (pairs (seq o (S (S n)))) with ((o, S o) :: pairs (seq (S o) (S n))). rewrite IH. replace (S n - 1)%nat with n by lia. change (seq o (S n)) with (o :: seq (S o) n). cbn [map]. f_equal. f_equal. lia.
Qed.
Lemma blocks_at {A B} (F : list nat -> list B) (G : nat -> list (list A) -> list B) : (forall o, G o [] = []) -> (forall o t r, G o (t :: r) = F (seq o (length t)) ++ G (o + length t)%nat r) ->
  forall ts o i, flat_map (fun g => F (where_from o g (numbered i ts))) (seq i (length ts)) = G o ts.
Proof.
  intros G0 G1. induction ts as [|t ts IH]; intros o i; [rewrite G0; reflexivity|]. cbn [length seq flat_map numbered]. rewrite G1, where_repeat, where_nothing by lia. rewrite app_nil_r. f_equal. rewrite <- (IH _ (S i)).
  rewrite !flat_map_concat_map. f_equal. apply map_ext_in. intros g I. apply in_seq in I. rewrite where_other by lia. reflexivity.
Qed.
Lemma segments_built ts bs : shaped ts bs -> segments (built ts bs) = starts 0 ts.
Proof.
  intro S. unfold segments, built. cbn [e_group]. rewrite unique_numbered by (apply shaped_len in S; tauto). apply (blocks_at (@removelast nat) (@starts point)); [reflexivity|]. intros o t r. cbn [starts]. rewrite removelast_seq. reflexivity.
Qed.
Lemma pairs_built ts bs : shaped ts bs -> flat_map (fun g => pairs (where_group g (e_group (built ts bs)))) (unique (e_group (built ts bs))) = map (fun i => (i, i + 1)%nat) (starts 0 ts).
Proof.
  intro S. unfold built. cbn [e_group]. rewrite unique_numbered by (apply shaped_len in S; tauto). apply (blocks_at (@pairs nat) (fun o ts => map (fun i => (i, i + 1)%nat) (@starts point o ts))); [reflexivity|]. intros o t r. cbn [starts]. rewrite map_app, pairs_seq. reflexivity.
Qed.
Definition corners (c : patch) : point * point * point * point := (p_tl c, p_tr c, p_br c, p_bl c).
Lemma patches_len t b ps : patches t b ps -> length ps = (length t - 1)%nat /\ length b = length t.
Proof. induction 1 as [|t t' ts b b' bs ps _ [IH1 IH2]]; cbn [length] in *; [lia|]. lia. Qed.
Lemma get_app {A} (p l : list A) i x : nth_error l i = Some x -> get (p ++ l) (length p + i) = Ok x.
Proof. intro H. unfold get. rewrite nth_error_app2 by lia. replace (length p + i - length p)%nat with i by lia. rewrite H. reflexivity. Qed.
Lemma patches_at t b ps : patches t b ps -> forall (pt pb rt rb : list point) gs, length pb = length pt ->
  Forall2 (fun i c => corners_at (mkedges (pt ++ t ++ rt) (pb ++ b ++ rb) gs) i (i + 1) = Ok (corners c)) (seq (length pt) (length t - 1)) ps.
Proof.
  induction 1 as [v w|t t' ts b b' bs ps H IH]; intros pt pb rt rb gs L; [constructor|]. cbn [length]. replace (S (S (length ts)) - 1)%nat with (S (length ts)) by lia. cbn [seq]. constructor.
  - unfold corners_at. cbn [e_top e_bot]. pose proof (get_app pt ((t :: t' :: ts) ++ rt) 0 t eq_refl) as A0. pose proof (get_app pt ((t :: t' :: ts) ++ rt) 1 t' eq_refl) as A1. pose proof (get_app pb ((b :: b' :: bs) ++ rb) 0 b eq_refl) as B0. pose proof (get_app pb ((b :: b' :: bs) ++ rb) 1 b' eq_refl) as B1.
    rewrite L in B0, B1. rewrite Nat.add_0_r in A0, B0. rewrite A0, A1, B1, B0. reflexivity.
  - specialize (IH (pt ++ [t]) (pb ++ [b]) rt rb gs). rewrite !app_length, <- !app_assoc in IH. cbn [length app] in IH. replace (length pt + 1)%nat with (S (length pt)) in IH by lia. replace (S (length ts) - 1)%nat with (length ts) in IH by lia. apply IH. lia.
Qed.
Lemma all_at ts bs ps : all_patches ts bs ps -> forall (pt pb : list point) gs, length pb = length pt ->
  Forall2 (fun i c => corners_at (mkedges (pt ++ concat ts) (pb ++ concat bs) gs) i (i + 1) = Ok (corners c)) (starts (length pt) ts) ps.
Proof.
  induction 1 as [|t ts b bs ps qs P _ IH]; intros pt pb gs L; [constructor|]. cbn [starts concat]. apply Forall2_app; [apply patches_at; assumption|].
  destruct (patches_len _ _ _ P) as [_ Lb]. specialize (IH (pt ++ t) (pb ++ b) gs). rewrite !app_length, <- !app_assoc in IH. apply IH. lia.
Qed.
Lemma all_shaped ts bs ps : all_patches ts bs ps -> shaped ts bs.
Proof. induction 1 as [|t ts b bs ps qs P _ IH]; constructor; [|exact IH]. split; [inversion P; discriminate|apply patches_len in P; tauto]. Qed.
Lemma built_at ts bs ps : all_patches ts bs ps -> Forall2 (fun i c => corners_at (built ts bs) i (i + 1) = Ok (corners c)) (segments (built ts bs)) ps.
Proof. intro H. rewrite segments_built by (eapply all_shaped; exact H). apply (all_at _ _ _ H [] [] _ eq_refl). Qed.
Lemma all_exists ts bs : shaped ts bs -> exists ps, all_patches ts bs ps.
Proof.
  induction 1 as [|t b ts bs [N L] _ (ps & IH)]; [exists []; constructor|]. destruct (patches_exist t b L N) as (qs & Q). exists (qs ++ ps). constructor; assumption.
Qed.
Lemma rsum_ok {C} (f : nat -> res R) (g : C -> R) is cs : Forall2 (fun i c => f i = Ok (g c)) is cs -> forall acc, rsum_res f is acc = Ok (acc + total (map g cs)).
Proof. induction 1 as [|i c is cs E _ IH]; intro acc; cbn [rsum_res map total]; [f_equal; ring|]. rewrite E. cbn [bind]. rewrite IH. f_equal. ring. Qed.
Lemma corners_inv e i c : corners_at e i (i + 1) = Ok (corners c) -> get (e_top e) i = Ok (p_tl c) /\ get (e_top e) (i + 1) = Ok (p_tr c) /\ get (e_bot e) (i + 1) = Ok (p_br c) /\ get (e_bot e) i = Ok (p_bl c).
Proof.
  unfold corners_at, corners. destruct (get (e_top e) i); [|discriminate]. destruct (get (e_top e) (i + 1)); [|discriminate]. destruct (get (e_bot e) (i + 1)); [|discriminate]. destruct (get (e_bot e) i); [|discriminate]. cbn [bind]. intro H. injection H. intros -> -> -> ->. auto.
Qed.
(** Heron's formula. *)
Lemma heron_tri a b c : heron (mag (vsub b a)) (mag (vsub c a)) (mag (vsub c b)) = tri_area a b c.
Proof.
  pose proof (C62_area (vsub b a) (vsub c b) (vsub a c)) as H. destruct H as [H _]; [unfold vadd, vsub; apply vec_ext; cbn [vx vy vz]; ring|].
  unfold triangle_area in H. cbv zeta in H. rewrite <- !mag_dot in H. rewrite (mag_opp a c) in H. unfold tri_area, heron.
  replace (vcross (vsub b a) (vsub c a)) with (vcross (vsub b a) (vsub c b)) by (unfold vcross, vsub; apply vec_ext; cbn [vx vy vz]; ring). rewrite <- H. f_equal. set (x := mag (vsub b a)). set (y := mag (vsub c b)). set (z := mag (vsub c a)). replace ((x + z + y) / 2) with ((x + y + z) / 2) by field. ring.
Qed.
Lemma heron_perm a b c : heron a b c = heron a c b /\ heron a b c = heron b a c.
Proof. unfold heron. split; f_equal; [replace ((a + c + b) / 2) with ((a + b + c) / 2) by field|replace ((b + a + c) / 2) with ((a + b + c) / 2) by field]; ring. Qed.
Lemma heron_second p0 p2 p3 : heron (mag (vsub p0 p3)) (mag (vsub p2 p3)) (mag (vsub p0 p2)) = tri_area p0 p2 p3.
Proof.
  rewrite (mag_opp p0 p3), (mag_opp p2 p3), (mag_opp p0 p2), <- heron_tri. rewrite (proj1 (heron_perm _ _ _)). rewrite (proj2 (heron_perm _ _ _)). reflexivity.
Qed.
Definition patch_area (c : patch) : R := two_triangles (ecef (p_tl c)) (ecef (p_tr c)) (ecef (p_br c)) (ecef (p_bl c)).
Lemma area_step e i c : corners_at e i (i + 1) = Ok (corners c) -> e_patch_area e i = Ok (patch_area c / 1000000).
Proof.
  intro H. unfold e_patch_area. rewrite H. cbn [bind corners]. f_equal. rewrite heron_tri, heron_second. unfold patch_area, two_triangles. field.
Qed.
(** For a proper quadrilateral it is half the product of the diagonals. *)
Lemma diagonals p0 p1 p2 p3 : proper p0 p1 p2 p3 -> two_triangles p0 p1 p2 p3 = mag (vcross (vsub p2 p0) (vsub p3 p1)) / 2.
Proof.
  intro P. destruct (fourth p0 p1 p2 p3 v0 P) as (a & b & A & B & AB & E). unfold two_triangles, tri_area.
  assert (E3 : vsub p3 p0 = vadd (vscale a (vsub p1 p0)) (vscale b (vsub p2 p0))) by (rewrite E; unfold in_frame, v0, vsub, vadd, vscale; apply vec_ext; cbn [vx vy vz]; ring).
  assert (E4 : vsub p3 p1 = vadd (vscale (a - 1) (vsub p1 p0)) (vscale b (vsub p2 p0))). { transitivity (vsub (vsub p3 p0) (vsub p1 p0)); [unfold vsub; apply vec_ext; cbn [vx vy vz]; ring|]. rewrite E3. unfold vsub, vadd, vscale; apply vec_ext; cbn [vx vy vz]; ring. }
  rewrite E3, E4. generalize (vsub p1 p0) (vsub p2 p0). intros u w.
  replace (vcross w (vadd (vscale a u) (vscale b w))) with (vscale (- a) (vcross u w)) by (unfold vcross, vadd, vscale; apply vec_ext; cbn [vx vy vz]; ring).
  replace (vcross w (vadd (vscale (a - 1) u) (vscale b w))) with (vscale (1 - a) (vcross u w)) by (unfold vcross, vadd, vscale; apply vec_ext; cbn [vx vy vz]; ring).
  rewrite !mag_scale, !Rabs_right by lra. field.
Qed.
