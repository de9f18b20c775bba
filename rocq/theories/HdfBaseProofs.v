(** Proofs about HDFContainerBase: a map from paths to leaves and groups. *)
From Coq Require Import ZArith FinFun String Ascii Bool List Lia.
From Verif Require Import PyBase HdfModel HdfSpec HdfProofs.
Import ListNotations.
Open Scope Z_scope.

Lemma need_group_spec : forall t p,
  need_group p t = (match view t p with Some EGroup => Ok p | _ => Err Generic end, t).
Proof. intros t p. unfold need_group, view. destruct (lookup t p) as [[v a|cs]|]; reflexivity. Qed.

Lemma prefix_group : forall t p r q, view t (p ++ r) = Some EGroup -> is_prefix q (p ++ r) = true -> view t q = Some EGroup.
Proof.
  intros t p r q H Hp. apply is_prefix_true in Hp as (r' & Hr). rewrite Hr in H.
  destruct r' as [|s r']; [rewrite app_nil_r in H; assumption|]. eapply view_below; eassumption.
Qed.

Lemma blocked_empty_below : forall r d (E : fs), (forall v a, E d <> Some (ELeaf v a)) ->
  (forall s q, E (d ++ s :: q) = None) -> blocked d r E = false.
Proof.
  induction r as [|s r IH]; intros d E H1 H2; cbn [blocked].
  - destruct (E d) as [[v a|]|] eqn:Ed; try reflexivity. exfalso. eapply H1. reflexivity.
  - assert (B : blocked (d ++ [s]) r E = false).
    { apply IH.
      - intros v a. rewrite H2. discriminate.
      - intros s' q. rewrite <- app_assoc. apply H2. }
    destruct (E d) as [[v a|]|] eqn:Ed; try exact B. exfalso. eapply H1. reflexivity.
Qed.

Lemma blocked_ext : forall r d (E E' : fs), (forall q, E q = E' q) -> blocked d r E = blocked d r E'.
Proof.
  induction r as [|s r IH]; intros d E E' H; cbn [blocked]; rewrite H; destruct (E' d) as [[v a|]|]; auto.
Qed.

Lemma status_ext : forall r d (E E' : fs), (forall q, E q = E' q) -> group_status d r E = group_status d r E'.
Proof.
  induction r as [|s r IH]; intros d E E' H; cbn [group_status]; rewrite H; destruct (E' d) as [[v a|]|]; auto.
Qed.

(** One more group below an existing one. *)
Lemma new_group : forall t g s, good_name s -> wf t -> view t g = Some EGroup -> view t (g ++ [s]) = None ->
  exists t', h_create g s (Group []) t = (Ok (g ++ [s]), t') /\ wf t' /\
    (forall q, view t' q = if is_prefix q (g ++ [s]) then Some EGroup else view t q).
Proof.
  intros t g s Hs Hw Hg Hn. destruct (h_create_new t g s (Group []) Hs Hg Hn) as (t' & E & W & V).
  exists t'. split; [exact E|]. split; [apply W; [assumption|repeat constructor]|].
  intro q. rewrite V. destruct (strip (g ++ [s]) q) as [r|] eqn:Es.
  - apply strip_Some in Es. subst q. destruct r as [|x r].
    + rewrite app_nil_r, is_prefix_refl. reflexivity.
    + destruct (is_prefix ((g ++ [s]) ++ x :: r) (g ++ [s])) eqn:Ep.
      * apply is_prefix_true in Ep as (r' & Hr). apply (f_equal (@List.length str)) in Hr. rewrite !app_length in Hr. simpl in Hr. lia.
      * symmetry. apply view_below_none. assumption.
  - destruct (is_prefix q (g ++ [s])) eqn:Ep; [|reflexivity].
    apply is_prefix_true in Ep as (r & Hr).
    destruct r as [|x r] using rev_ind.
    + rewrite app_nil_r in Hr. subst q. rewrite <- (app_nil_r (g ++ [s])) in Es at 2. rewrite strip_app in Es. discriminate.
    + rewrite app_assoc in Hr. apply app_inj_tail in Hr as [Hr _]. apply (prefix_group t g []); rewrite app_nil_r; [assumption|].
      apply is_prefix_true. exists r. assumption.
Qed.

Lemma prefix_trans_if : forall (t t1 : node) g s r,
  (forall q, view t1 q = if is_prefix q (g ++ [s]) then Some EGroup else view t q) ->
  forall q, (if is_prefix q ((g ++ [s]) ++ r) then Some EGroup else view t1 q)
          = (if is_prefix q (g ++ s :: r) then Some EGroup else view t q).
Proof.
  intros t t1 g s r V q. rewrite <- app_assoc. cbn [app].
  destruct (is_prefix q (g ++ s :: r)) eqn:E; [reflexivity|]. rewrite V.
  destruct (is_prefix q (g ++ [s])) eqn:E2; [|reflexivity]. exfalso.
  apply is_prefix_true in E2 as (r' & Hr). assert (is_prefix q (g ++ s :: r) = true); [|congruence].
  apply is_prefix_true. exists (r' ++ r). rewrite app_assoc, <- Hr, <- app_assoc. reflexivity.
Qed.

Lemma make_groups_spec : forall groups g t, wf t -> Forall good_name groups -> view t g <> None ->
  if blocked g groups (view t) then make_groups g groups t = (Err Generic, t)
  else exists t', make_groups g groups t = (Ok (g ++ groups), t') /\ wf t' /\
         forall q, view t' q = if is_prefix q (g ++ groups) then Some EGroup else view t q.
Proof.
  induction groups as [|s r IH]; intros g t Hw Hgood Hg.
  - cbn [blocked make_groups]. rewrite need_group_spec.
    destruct (view t g) as [[v a|]|] eqn:Ev; [reflexivity| |congruence].
    exists t. rewrite app_nil_r. split; [reflexivity|]. split; [assumption|]. intro q.
    destruct (is_prefix q g) eqn:Ep; [|reflexivity].
    apply (prefix_group t g []); rewrite app_nil_r; assumption.
  - inversion Hgood as [|? ? Hs Hr]; subst. cbn [blocked].
    destruct (view t g) as [[v a|]|] eqn:Ev; [|clear Hg|congruence].
    { cbn [make_groups]. unfold bnd at 1. rewrite need_group_spec, Ev. reflexivity. }
    assert (Eq : make_groups g (s :: r) t =
      (g' <- (if negb (match view t (g ++ [s]) with Some _ => true | None => false end) then h_create g s (Group []) else h_get g s) ;; make_groups g' r) t).
    { cbn [make_groups]. unfold bnd at 1. rewrite need_group_spec, Ev. unfold bnd at 1. rewrite h_in_spec by assumption. reflexivity. }
    rewrite Eq. clear Eq.
    destruct (view t (g ++ [s])) as [e|] eqn:Es; cbn [negb].
    + assert (Eq : (g' <- h_get g s ;; make_groups g' r) t = make_groups (g ++ [s]) r t).
      { unfold bnd. rewrite (h_get_some t g s e) by assumption. reflexivity. }
      rewrite Eq. specialize (IH (g ++ [s]) t Hw Hr). rewrite Es in IH. specialize (IH ltac:(discriminate)).
      rewrite <- app_assoc in IH. cbn [app] in IH. exact IH.
    + destruct (new_group t g s Hs Hw Ev Es) as (t1 & E1 & W1 & V1).
      assert (Eq : (g' <- h_create g s (Group []) ;; make_groups g' r) t = make_groups (g ++ [s]) r t1).
      { unfold bnd. rewrite E1. reflexivity. }
      rewrite Eq. rewrite blocked_empty_below.
      * specialize (IH (g ++ [s]) t1 W1 Hr).
        assert (Hgs : view t1 (g ++ [s]) = Some EGroup) by (rewrite V1, is_prefix_refl; reflexivity).
        rewrite Hgs in IH. specialize (IH ltac:(discriminate)).
        rewrite blocked_empty_below in IH.
        -- destruct IH as (t2 & E2 & W2 & V2). exists t2. split.
           ++ rewrite E2, <- app_assoc. reflexivity.
           ++ split; [assumption|]. intro q. rewrite V2. apply prefix_trans_if. assumption.
        -- intros v a. rewrite Hgs. discriminate.
        -- intros s' q. rewrite V1. destruct (is_prefix ((g ++ [s]) ++ s' :: q) (g ++ [s])) eqn:Ep.
           ++ apply is_prefix_true in Ep as (r' & Hr'). apply (f_equal (@List.length str)) in Hr'. rewrite !app_length in Hr'. simpl in Hr'. lia.
           ++ apply view_below_none. assumption.
      * intros v a. rewrite Es. discriminate.
      * intros s' q. apply view_below_none. assumption.
Qed.

Lemma make_group_spec : forall k groups t, wf t -> view t [] = Some EGroup -> Forall good_name groups ->
  if blocked [] (gname k :: groups) (view t) then make_group (gname k) groups t = (Err Generic, t)
  else exists t', make_group (gname k) groups t = (Ok (gname k :: groups), t') /\ wf t' /\
         forall q, view t' q = if is_prefix q (gname k :: groups) then Some EGroup else view t q.
Proof.
  intros k groups t Hw Hroot Hgood.
  pose proof (make_groups_spec (gname k :: groups) [] t Hw (Forall_cons _ (gname_good k) Hgood)) as H.
  rewrite Hroot in H. specialize (H ltac:(discriminate)).
  assert (E : make_groups [] (gname k :: groups) t = make_group (gname k) groups t).
  { cbn [make_groups]. unfold make_group, bnd. rewrite need_group_spec, Hroot. reflexivity. }
  rewrite E in H. exact H.
Qed.

Lemma walk_groups_spec : forall groups g t, Forall good_name groups -> view t g <> None ->
  walk_groups g groups t = (match group_status g groups (view t) with Ok _ => Ok (g ++ groups) | Err e => Err e end, t).
Proof.
  induction groups as [|s r IH]; intros g t Hgood Hg; cbn [walk_groups group_status].
  - rewrite need_group_spec. destruct (view t g) as [[v a|]|]; [reflexivity| |congruence]. rewrite app_nil_r. reflexivity.
  - inversion Hgood as [|? ? Hs Hr]; subst. unfold bnd at 1. rewrite need_group_spec.
    destruct (view t g) as [[v a|]|] eqn:Ev; [reflexivity| |congruence].
    unfold bnd at 1. rewrite h_in_spec by assumption.
    destruct (view t (g ++ [s])) as [e|] eqn:Es; cbn [negb].
    + unfold bnd. rewrite (h_get_some t g s e) by assumption.
      rewrite IH by (try assumption; congruence). rewrite <- app_assoc. reflexivity.
    + unfold raise. destruct r; cbn [group_status]; rewrite Es; reflexivity.
Qed.

Lemma get_group_spec : forall k groups t, view t [] = Some EGroup -> Forall good_name groups ->
  get_group (gname k) groups t =
  (match group_status [] (gname k :: groups) (view t) with Ok _ => Ok (gname k :: groups) | Err e => Err e end, t).
Proof.
  intros k groups t Hroot Hgood.
  pose proof (walk_groups_spec (gname k :: groups) [] t (Forall_cons _ (gname_good k) Hgood)) as H.
  rewrite Hroot in H. specialize (H ltac:(discriminate)). etransitivity; [|exact H].
  cbn [walk_groups]. unfold get_group, bnd. rewrite need_group_spec, Hroot. reflexivity.
Qed.

(** ** Listing *)
Fixpoint gpaths (n : node) : list (list str) :=
  match n with
  | Data _ _ => []
  | Group cs =>
      flat_map (fun kc => match kc with (kk, c) =>
        match gpaths c with
        | [] => [[kk]]
        | paths => map (fun path => kk :: path) paths
        end end) cs
  end.

Lemma gpaths_nonempty : forall n p, In p (gpaths n) -> p <> [].
Proof.
  intros [v a|cs] p H; [destruct H|]. cbn [gpaths] in H. apply in_flat_map in H as ([kk c] & _ & H).
  destruct (gpaths c) as [|x l]; [destruct H as [<-|[]]; discriminate|].
  apply in_map_iff in H as (q & <- & _). discriminate.
Qed.

Lemma join_path_cons : forall s p, p <> [] -> join_path (s :: p) = s ++ slash :: join_path p.
Proof. intros s [|x p] H; [congruence|]. reflexivity. Qed.

Lemma group_paths_join : forall n, group_paths n = map join_path (gpaths n).
Proof.
  induction n as [v a|cs IH] using node_ind2; [reflexivity|].
  cbn [group_paths gpaths]. induction cs as [|[kk c] cs IHc]; [reflexivity|].
  inversion IH as [|? ? Hc Hcs]; subst. cbn [flat_map snd] in *. rewrite map_app. f_equal; [|apply IHc; assumption].
  rewrite Hc. pose proof (gpaths_nonempty c) as Hne. destruct (gpaths c) as [|x l]; [reflexivity|].
  cbn [map]. cbn [map] in Hne. f_equal.
  - symmetry. apply join_path_cons. apply Hne. left. reflexivity.
  - rewrite !map_map. apply map_ext_in. intros q Hq. symmetry. apply join_path_cons. apply Hne. right. assumption.
Qed.

(** A listed path: a dataset, or a group without members. *)
Definition terminal (n : node) (p : list str) : Prop :=
  (exists v a, view n p = Some (ELeaf v a)) \/ (view n p = Some EGroup /\ forall s, view n (p ++ [s]) = None).

Lemma gpaths_empty : forall n, wf n -> gpaths n = [] <-> terminal n [].
Proof.
  intros [v a|cs] Hw.
  - split; [|reflexivity]. intros _. left. exists v, a. reflexivity.
  - split.
    + intro H. right. split; [reflexivity|]. intro s. cbn [app]. rewrite view_cons.
      destruct (child s cs) as [c|] eqn:E; [|reflexivity]. exfalso. apply child_Some_In in E.
      cbn [gpaths] in H. assert (Hin : exists p, In p (match gpaths c with [] => [[s]] | paths => map (fun path => s :: path) paths end)).
      { destruct (gpaths c); eexists; left; reflexivity. }
      destruct Hin as (p & Hp).
      assert (In p []); [|contradiction]. rewrite <- H. apply in_flat_map. exists (s, c). auto.
    + intros [(v & a & H)|[_ H]]; [discriminate|]. destruct cs as [|[kk c] cs]; [reflexivity|].
      specialize (H kk). cbn [app] in H. rewrite view_cons in H. cbn [child] in H. rewrite str_eqb_refl in H.
      destruct c; discriminate H.
Qed.

Lemma gpaths_spec : forall n, wf n -> NoDup (gpaths n) /\ forall p, In p (gpaths n) <-> p <> [] /\ terminal n p.
Proof.
  induction n as [v a|cs IH] using node_ind2; intro Hw.
  - split; [constructor|]. intro p. simpl. split; [tauto|]. intros [Hp [(v' & a' & H)|[H _]]];
      destruct p; try congruence; discriminate.
  - inversion Hw as [|cs' N F E]; subst.
    assert (IHc : forall kk c, In (kk, c) cs -> NoDup (gpaths c) /\ forall p, In p (gpaths c) <-> p <> [] /\ terminal c p).
    { intros kk c Hin. rewrite Forall_forall in IH, F. apply (IH _ Hin). apply (F _ Hin). }
    assert (Hone : forall kk c, In (kk, c) cs -> forall p,
        In p (match gpaths c with [] => [[kk]] | paths => map (fun path => kk :: path) paths end) <->
        exists q, p = kk :: q /\ terminal c q).
    { intros kk c Hin p. destruct (IHc kk c Hin) as [_ Hs].
      assert (Hwc : wf c) by (rewrite Forall_forall in F; apply (F _ Hin)).
      pose proof (gpaths_empty c Hwc) as He.
      destruct (gpaths c) as [|x l] eqn:Eg.
      - split.
        + intros [<-|[]]. exists []. split; [reflexivity|]. apply He. reflexivity.
        + intros (q & -> & Ht). destruct q as [|y q]; [left; reflexivity|].
          destruct (proj2 (Hs (y :: q))). split; [discriminate|assumption].
      - rewrite in_map_iff. split.
        + intros (q & <- & Hq). exists q. split; [reflexivity|]. apply Hs. assumption.
        + intros (q & -> & Ht). exists q. split; [reflexivity|]. destruct q as [|y q].
          * apply He in Ht. discriminate.
          * apply Hs. split; [discriminate|assumption]. }
    split.
    + cbn [gpaths]. clear Hw IH. revert N IHc Hone. induction cs as [|[kk c] cs IH2]; intros N IHc Hone; [constructor|].
      cbn [flat_map]. simpl in N. inversion N as [|? ? Hk N']; subst. inversion F; subst.
      assert (Nhere : NoDup (match gpaths c with [] => [[kk]] | paths => map (fun path => kk :: path) paths end)).
      { destruct (IHc kk c (or_introl eq_refl)) as [Nc _]. destruct (gpaths c) as [|x l]; [repeat constructor; intros []|].
        apply Injective_map_NoDup; [|assumption]. intros a b Hab. congruence. }
      assert (Nrest : NoDup (flat_map (fun kc => match kc with (kk, c) =>
        match gpaths c with [] => [[kk]] | paths => map (fun path => kk :: path) paths end end) cs)).
      { apply IH2; auto.
        - intros; apply (IHc kk0); right; assumption.
        - intros; apply Hone; right; assumption. }
      clear IH2. revert Nhere. generalize (Hone kk c (or_introl eq_refl)).
      set (l1 := match gpaths c with [] => [[kk]] | paths => map (fun path => kk :: path) paths end).
      intros Hl1 Nhere. assert (Hdis : forall p, In p l1 -> ~ In p (flat_map (fun kc => match kc with (kk, c) =>
        match gpaths c with [] => [[kk]] | paths => map (fun path => kk :: path) paths end end) cs)).
      { intros p Hp Hq. apply Hl1 in Hp as (q & -> & _). apply in_flat_map in Hq as ([k2 c2] & Hin & Hq).
        apply (Hone k2 c2 (or_intror Hin)) in Hq as (q2 & Eq & _). inversion Eq; subst.
        apply Hk. apply in_map_iff. exists (k2, c2). auto. }
      clear Hl1. induction l1 as [|x l1 IHl]; [assumption|].
      inversion Nhere; subst. cbn [app]. constructor.
      * rewrite in_app_iff. intros [Hx|Hx]; [contradiction|]. apply (Hdis x); [left; reflexivity|assumption].
      * apply IHl; [assumption|]. intros p Hp. apply Hdis. right. assumption.
    + intro p. cbn [gpaths]. rewrite in_flat_map. split.
      * intros ([kk c] & Hin & Hp). pose proof (child_In cs kk c N Hin) as Hch.
        apply (Hone kk c Hin) in Hp as (q & -> & Ht). split; [discriminate|].
        destruct Ht as [(v & a & Hv)|[Hv He]]; [left; exists v, a|right; split].
        -- rewrite view_cons, Hch. assumption.
        -- rewrite view_cons, Hch. assumption.
        -- intro s. cbn [app]. rewrite view_cons, Hch. apply He.
      * intros [Hp Ht]. destruct p as [|kk q]; [congruence|].
        assert (Hc : exists c, child kk cs = Some c).
        { destruct Ht as [(v & a & Hv)|[Hv _]]; rewrite view_cons in Hv; destruct (child kk cs); eauto; discriminate. }
        destruct Hc as (c & Hc). exists (kk, c). split; [apply child_Some_In; assumption|].
        apply (Hone kk c (child_Some_In _ _ _ Hc)). exists q. split; [reflexivity|].
        destruct Ht as [(v & a & Hv)|[Hv He]]; rewrite view_cons, Hc in Hv; [left; eauto|right; split; [assumption|]].
        intro s. specialize (He s). cbn [app] in He. rewrite view_cons, Hc in He. assumption.
Qed.

Lemma view_sub : forall t p n q, lookup t p = Some n -> view t (p ++ q) = view n q.
Proof. intros t p n q H. unfold view. rewrite lookup_app, H. reflexivity. Qed.

Lemma wf_lookup : forall p t n, wf t -> lookup t p = Some n -> wf n.
Proof.
  induction p as [|s p IH]; intros t n Hw H.
  - simpl in H. congruence.
  - destruct t as [v a|cs]; [discriminate|]. simpl in H. destruct (child s cs) as [c|] eqn:E; [|discriminate].
    apply (IH c n); [eapply wf_child; eassumption|assumption].
Qed.

(** ** Invariant of the files written by HDFContainerBase *)
Record Good (t : node) : Prop := {
  good_wf : wf t;
  good_root : view t [] = Some EGroup;
  good_typed : forall k p v a, view t (gname k :: p) = Some (ELeaf v a) ->
    p <> [] /\ decode k v = Ok v /\ (k <> KArray -> a = [])
}.

Lemma good_empty : Good empty.
Proof. constructor; [repeat constructor|reflexivity|]. intros k p v a. unfold view. simpl. discriminate. Qed.

Definition pw (t : node) (E : fs) : Prop := forall q, view t q = E q.

Lemma good_groups : forall t t' p, Good t -> wf t' ->
  (forall q, view t' q = if is_prefix q p then Some EGroup else view t q) -> Good t'.
Proof.
  intros t t' p G W V. destruct G. constructor; [assumption|rewrite V; destruct (is_prefix [] p); assumption || reflexivity|].
  intros k q v a. rewrite V. destruct (is_prefix (gname k :: q) p); [discriminate|]. apply good_typed0.
Qed.

Lemma good_leaf : forall t t' k g n v a, Good t -> wf t' -> decode k v = Ok v -> (k <> KArray -> a = []) ->
  (forall q, view t' q = if is_prefix (gname k :: g ++ [n]) q && is_prefix q (gname k :: g ++ [n]) then Some (ELeaf v a) else view t q) ->
  Good t'.
Proof.
  intros t t' k g n v a G W Hd Ha V. destruct G. constructor; [assumption| |].
  - rewrite V. destruct (is_prefix (gname k :: g ++ [n]) []) eqn:E; [|assumption].
    apply is_prefix_true in E as (r & Hr). discriminate.
  - intros k' q v' a'. rewrite V. destruct (_ && _) eqn:E; [|apply good_typed0].
    apply prefix_both in E. intro Eq. injection Eq as <- <-.
    assert (Hk : gname k = gname k') by congruence. apply gname_inj in Hk. subst k'.
    assert (q = g ++ [n]) by congruence. subst q. split; [destruct g; discriminate|auto].
Qed.

Lemma create_leaf_base : forall t g n p, good_name n -> wf t -> view t g = Some EGroup -> view t (g ++ [n]) = None ->
  exists t', h_create g n (Data p []) t = (Ok (g ++ [n]), t') /\ wf t' /\
    forall q, view t' q = if is_prefix (g ++ [n]) q && is_prefix q (g ++ [n]) then Some (ELeaf p []) else view t q.
Proof.
  intros t g n p Hn Hw Hg Hv. destruct (h_create_new t g n (Data p []) Hn Hg Hv) as (t' & E & W & V).
  exists t'. split; [exact E|]. split; [apply W; [assumption|constructor]|]. intro q. rewrite V.
  destruct (strip (g ++ [n]) q) as [r|] eqn:Es.
  - apply strip_Some in Es. subst q. destruct r as [|x r].
    + rewrite app_nil_r, is_prefix_refl. reflexivity.
    + destruct (is_prefix ((g ++ [n]) ++ x :: r) (g ++ [n])) eqn:Ep.
      * apply is_prefix_true in Ep as (r' & Hr). apply (f_equal (@List.length str)) in Hr. rewrite !app_length in Hr. simpl in Hr. lia.
      * rewrite andb_false_r. symmetry. apply view_below_none. assumption.
  - assert (E2 : is_prefix (g ++ [n]) q = false) by (unfold is_prefix; rewrite Es; reflexivity).
    rewrite E2. reflexivity.
Qed.

Lemma enc_decode_json : forall v p, enc_json v = Ok p -> decode KDict p = Ok p.
Proof. intros. eapply enc_json_ok; eauto. Qed.

(** Common part of the three set methods. *)
Lemma set_refines : forall t E k g n enc meta dup,
  Good t -> pw t E -> Forall good_name (n :: g) -> (forall p, enc = Ok p -> decode k p = Ok p) ->
  (k <> KArray -> meta = []) ->
  exists r t', (d <- make_group (gname k) g ;;
     (match dup with LookupError =>
        (b <- h_in d n ;; if (b : bool) then raise LookupError else
         p <- lift enc ;; x <- h_create d n (Data p []) ;; h_attrs x meta)
      | _ => (p <- lift enc ;; x <- h_create d n (Data p []) ;; h_attrs x meta)
      end) ;;; ret RUnit) t = (r, t') /\
    (dup = LookupError \/ dup = ValueError ->
     bagree r (fst (bset dup (gname k :: g) n enc meta E)) k (snd (bset dup (gname k :: g) n enc meta E)) /\
     Good t' /\ pw t' (snd (bset dup (gname k :: g) n enc meta E))).
Proof.
  intros t E k g n enc meta dup G P Hn Hd Hm. inversion Hn as [|? ? Hname Hgroups]; subst.
  pose proof (make_group_spec k g t (good_wf _ G) (good_root _ G) Hgroups) as H.
  unfold bset. rewrite <- (blocked_ext _ _ _ _ P).
  destruct (blocked [] (gname k :: g) (view t)) eqn:B.
  { unfold bnd. rewrite H. exists (Err Generic), t. split; [reflexivity|]. intros _. split; [reflexivity|]. split; assumption. }
  destruct H as (t1 & E1 & W1 & V1).
  assert (G1 : Good t1) by (eapply good_groups; eassumption).
  assert (P1 : pw t1 (with_groups (gname k :: g) E)).
  { intro q. rewrite V1. unfold with_groups. destruct (is_prefix q (gname k :: g)); [reflexivity|apply P]. }
  pose proof (P1 ((gname k :: g) ++ [n])) as Pn.
  assert (Hgr : view t1 (gname k :: g) = Some EGroup) by (rewrite V1, is_prefix_refl; reflexivity).
  assert (Go : forall p, enc = Ok p -> view t1 ((gname k :: g) ++ [n]) = None ->
     exists r t', (x <- h_create (gname k :: g) n (Data p []) ;; h_attrs x meta) t1 = (r, t') /\
       r = (if snd (meta_written meta []) then Ok tt else Err TypeError) /\
       Good t' /\ pw t' (with_leaf ((gname k :: g) ++ [n]) p (fst (meta_written meta [])) (with_groups (gname k :: g) E))).
  { intros p Hp Hnone. destruct (create_leaf_base t1 (gname k :: g) n p Hname W1 Hgr Hnone) as (t2 & E2 & W2 & V2).
    assert (Hl : view t2 ((gname k :: g) ++ [n]) = Some (ELeaf p [])) by (rewrite V2, is_prefix_refl; reflexivity).
    destruct (h_attrs_spec meta t2 _ p [] W2 Hl) as (t3 & E3 & W3 & V3).
    exists (if snd (meta_written meta []) then Ok tt else Err TypeError), t3.
    unfold bnd. rewrite E2, E3. split; [reflexivity|]. split; [reflexivity|].
    assert (V : forall q, view t3 q = if is_prefix ((gname k :: g) ++ [n]) q && is_prefix q ((gname k :: g) ++ [n])
               then Some (ELeaf p (fst (meta_written meta []))) else view t1 q).
    { intro q. rewrite V3, V2. destruct (_ && _); reflexivity. }
    split.
    - eapply (good_leaf t1 t3 k g n); try eassumption; auto. intro Hk. rewrite (Hm Hk). reflexivity.
    - intro q. rewrite V. unfold with_leaf. destruct (_ && _); [reflexivity|apply P1]. }
  unfold bnd at 1. unfold bnd at 1. rewrite E1.
  rewrite <- Pn.
  assert (Dup : forall p e, view t1 ((gname k :: g) ++ [n]) = Some e ->
     (x <- h_create (gname k :: g) n (Data p []) ;; h_attrs x meta) t1 = (Err ValueError, t1)).
  { intros p e He. unfold bnd. rewrite (h_create_dup t1 _ n _ e) by assumption. reflexivity. }
  assert (Plain : exists r t', (p <- lift enc ;; x <- h_create (gname k :: g) n (Data p []) ;; h_attrs x meta) t1 = (r, t') /\
     match enc, view t1 ((gname k :: g) ++ [n]) with
     | Ok v, None => r = (if snd (meta_written meta []) then Ok tt else Err TypeError) /\ Good t' /\
          pw t' (with_leaf ((gname k :: g) ++ [n]) v (fst (meta_written meta [])) (with_groups (gname k :: g) E))
     | Err e, _ => r = Err e /\ t' = t1
     | Ok _, Some _ => r = Err ValueError /\ t' = t1
     end).
  { unfold lift. destruct enc as [v|e].
    - unfold bnd at 1. destruct (view t1 ((gname k :: g) ++ [n])) as [e|] eqn:Ev.
      + exists (Err ValueError), t1. split; [apply (Dup v e); reflexivity|auto].
      + destruct (Go v eq_refl eq_refl) as (r & t' & Er & Hr & G' & P'). exists r, t'. auto.
    - exists (Err e), t1. split; [reflexivity|]. split; reflexivity. }
  destruct dup; try (destruct Plain as (r & t' & Er & _); unfold bnd in *; rewrite Er;
    exists (match r with Ok _ => Ok RUnit | Err e => Err e end), t'; split;
    [destruct r; reflexivity|intros [?|?]; discriminate]).
  - (* ValueError *)
    destruct Plain as (r & t' & Er & Hr). unfold bnd in *. rewrite Er.
    exists (match r with Ok _ => Ok RUnit | Err e => Err e end), t'. split; [destruct r; reflexivity|]. intros _.
    destruct enc as [v|e].
    + destruct (view t1 ((gname k :: g) ++ [n])) as [e|] eqn:Ev.
      * destruct Hr as [-> ->]. split; [reflexivity|]. split; assumption.
      * destruct Hr as (-> & G' & P'). destruct (meta_written meta []) as [w c]. cbn [fst snd] in *.
        split; [destruct c; reflexivity|]. split; assumption.
    + destruct Hr as [-> ->]. destruct (view t1 ((gname k :: g) ++ [n])); (split; [reflexivity|]; split; assumption).
  - (* LookupError *)
    unfold bnd at 1. rewrite h_in_spec by assumption. destruct (view t1 ((gname k :: g) ++ [n])) as [e|] eqn:Ev.
    + exists (Err LookupError), t1. split; [reflexivity|]. intros _. destruct enc; (split; [reflexivity|]; split; assumption).
    + destruct Plain as (r & t' & Er & Hr). unfold bnd in *. rewrite Er.
      exists (match r with Ok _ => Ok RUnit | Err e => Err e end), t'. split; [destruct r; reflexivity|]. intros _.
      destruct enc as [v|e].
      * destruct Hr as (-> & G' & P'). destruct (meta_written meta []) as [w c]. cbn [fst snd] in *.
        split; [destruct c; reflexivity|]. split; assumption.
      * destruct Hr as [-> ->]. split; [reflexivity|]. split; assumption.
Qed.

Lemma bstep_refines : forall o t E, Good t -> pw t E -> good_bop o ->
  exists r t', bstep o t = (r, t') /\ bagree r (fst (bspec o E)) (bop_kind o) (snd (bspec o E)) /\
    Good t' /\ pw t' (snd (bspec o E)).
Proof.
  intros o t E G P Hg. destruct o as [g n v|g n s|g n a meta c|k g n|k g n|k]; unfold good_bop in Hg; cbn [bop_names bop_kind bspec bstep] in *.
  - destruct (set_refines t E KDict g n (enc_json v) [] ValueError G P Hg) as (r & t' & Er & H);
      [apply enc_decode_json|reflexivity|]. destruct (H (or_intror eq_refl)) as (A & G' & P').
    exists r, t'. split; [|auto]. rewrite <- Er. unfold hb_set, bnd, lift.
    destruct (make_group (gname KDict) g t) as [[d|e] t1]; [|reflexivity].
    destruct (enc_json v); [|reflexivity]. destruct (h_create d n (Data a []) t1) as [[x|e] t2]; reflexivity.
  - destruct (set_refines t E KString g n (enc_text s) [] ValueError G P Hg) as (r & t' & Er & H);
      [apply enc_text_ok|reflexivity|]. destruct (H (or_intror eq_refl)) as (A & G' & P').
    exists r, t'. split; [|auto]. rewrite <- Er. unfold hb_set, bnd, lift.
    destruct (make_group (gname KString) g t) as [[d|e] t1]; [|reflexivity].
    destruct (enc_text s); [|reflexivity]. destruct (h_create d n (Data a []) t1) as [[x|e] t2]; reflexivity.
  - destruct (set_refines t E KArray g n (enc_arr a c) meta LookupError G P Hg) as (r & t' & Er & H);
      [reflexivity|congruence|]. destruct (H (or_introl eq_refl)) as (A & G' & P').
    exists r, t'. split; [|auto]. rewrite <- Er. unfold hb_set_array, bnd, lift.
    destruct (make_group (gname KArray) g t) as [[d|e] t1]; reflexivity.
  - inversion Hg as [|? ? Hn Hgr]; subst. unfold hb_get, bnd.
    rewrite get_group_spec by (try assumption; apply G). rewrite (status_ext _ _ _ _ P).
    destruct (group_status [] (gname k :: g) E) as [u|e].
    2:{ exists (Err e), t. split; [reflexivity|]. split; [reflexivity|auto]. }
    rewrite h_in_spec by assumption. pose proof (P ((gname k :: g) ++ [n])) as Pn.
    change ((gname k :: g) ++ [n]) with (gname k :: g ++ [n]) in *. rewrite <- Pn.
    destruct (view t (gname k :: g ++ [n])) as [e|] eqn:Ev; cbn [negb].
    + rewrite (h_get_some t (gname k :: g) n e) by assumption.
      change ((gname k :: g) ++ [n]) with (gname k :: g ++ [n]). rewrite h_read_spec, Ev.
      destruct e as [v a|].
      * destruct (good_typed _ G k (g ++ [n]) v a Ev) as (_ & Hd & Ha). unfold lift. cbn [fst snd]. rewrite Hd.
        exists (Ok (RVal v (match k with KArray => a | _ => [] end))), t. split; [destruct k; reflexivity|].
        split; [|auto]. simpl. split; [reflexivity|]. destruct k; try reflexivity; symmetry; apply Ha; discriminate.
      * exists (Err TypeError), t. split; [reflexivity|]. split; [reflexivity|auto].
    + exists (Err LookupError), t. split; [reflexivity|]. split; [reflexivity|auto].
  - inversion Hg as [|? ? Hn Hgr]; subst. unfold hb_drop, bnd.
    rewrite get_group_spec by (try assumption; apply G). rewrite (status_ext _ _ _ _ P).
    destruct (group_status [] (gname k :: g) E) as [u|e].
    2:{ exists (Err e), t. split; [reflexivity|]. split; [reflexivity|auto]. }
    pose proof (P ((gname k :: g) ++ [n])) as Pn.
    change ((gname k :: g) ++ [n]) with (gname k :: g ++ [n]) in *. rewrite <- Pn.
    destruct (view t (gname k :: g ++ [n])) as [e|] eqn:Ev.
    + destruct (h_del_some t (gname k :: g) n e Hn Ev) as (t' & Ed & W & V).
      assert (Hres : (match k with
         | KArray => h_del (gname k :: g) n t
         | _ => match h_in (gname k :: g) n t with
                | (Ok a, t') => (if negb a then raise LookupError else h_del (gname k :: g) n) t'
                | (Err e0, t') => (Err e0, t') end end) = (Ok tt, t')).
      { rewrite h_in_spec by assumption. change ((gname k :: g) ++ [n]) with (gname k :: g ++ [n]). rewrite Ev. cbn [negb].
        rewrite Ed. destruct k; reflexivity. }
      exists (Ok RUnit), t'. split.
      { destruct k; cbn [gname] in Hres |- *; rewrite Hres; reflexivity. }
      split; [exact I|]. cbn [snd]. change ((gname k :: g) ++ [n]) with (gname k :: g ++ [n]) in V.
      assert (P' : pw t' (without (gname k :: g ++ [n]) E)).
      { intro q. rewrite V. unfold without. destruct (is_prefix _ q); [reflexivity|apply P]. }
      split; [|exact P']. destruct G. constructor; auto.
      * rewrite V. destruct (is_prefix _ []) eqn:Ep; [|assumption]. apply is_prefix_true in Ep as (r & Hr). discriminate.
      * intros k' p v a. rewrite V. destruct (is_prefix _ _); [discriminate|apply good_typed0].
    + exists (Err (match k with KArray => KeyError | _ => LookupError end)), t. split; [|split; [reflexivity|auto]].
      pose proof (h_in_spec t (gname k :: g) n Hn) as Hin. pose proof (h_del_none t (gname k :: g) n Hn Ev) as Hdel.
      change ((gname k :: g) ++ [n]) with (gname k :: g ++ [n]) in Hin. rewrite Ev in Hin.
      destruct k; cbn [gname] in Hin, Hdel |- *; try rewrite Hin; cbn [negb]; try rewrite Hdel; reflexivity.
  - unfold hb_names, bnd. destruct (lookup t [gname k]) as [nd|] eqn:El.
    + exists (Ok (RNames (group_paths nd))), t. split; [reflexivity|]. split; [|auto]. cbn [fst snd bagree].
      rewrite group_paths_join. destruct (gpaths_spec nd (wf_lookup _ _ _ (good_wf _ G) El)) as [N H].
      exists (gpaths nd). split; [reflexivity|]. split; [exact N|]. intro p. rewrite H. unfold terminal.
      assert (Hv : forall q, E (gname k :: q) = view nd q).
      { intro q. rewrite <- P. change (gname k :: q) with ([gname k] ++ q). apply view_sub. assumption. }
      rewrite Hv. setoid_rewrite Hv. split.
      * intros [Hp [(v & a & Hl)|[Hgp He]]].
        -- left. destruct p; [congruence|]. rewrite Hv, Hl. reflexivity.
        -- right. auto.
      * intros [Hf|(Hp & Hgp & He)].
        -- destruct p as [|x p]; [discriminate|]. split; [discriminate|]. left. rewrite Hv in Hf.
           destruct (view nd (x :: p)) as [[v a|]|]; try discriminate. eauto.
        -- split; [assumption|]. right. auto.
    + exists (Ok (RNames [])), t. split; [reflexivity|]. split; [|auto]. cbn [fst snd bagree].
      exists []. split; [reflexivity|]. split; [constructor|]. intro p.
      assert (Hv : E (gname k :: p) = None).
      { rewrite <- P. change (gname k :: p) with ([gname k] ++ p). apply view_below_none. apply view_none. assumption. }
      split; [intros []|]. intros [Hf|(_ & Hf & _)]; [destruct p; [discriminate|]; rewrite Hv in Hf; discriminate|congruence].
Qed.

Lemma brun_refines : forall ops t E, Good t -> pw t E -> Forall good_bop ops ->
  bagree_run ops (fst (run bstep ops t)) E /\ Good (snd (run bstep ops t)) /\ pw (snd (run bstep ops t)) (snd (brun ops E)).
Proof.
  induction ops as [|o ops IH]; intros t E G P Hg; [simpl; auto|].
  inversion Hg; subst. destruct (bstep_refines o t E G P) as (r & t' & Er & A & G' & P'); [assumption|].
  cbn [run brun]. rewrite Er. destruct (bspec o E) as [ar E'] eqn:Es. cbn [fst snd] in *.
  destruct (IH t' E' G' P' H2) as (F & G'' & P''). destruct (run bstep ops t') as [rs t'']. destruct (brun ops E') as [ars E''].
  cbn [fst snd] in *. cbn [bagree_run]. rewrite Es. cbn [fst snd]. auto.
Qed.

Lemma base_refines : forall ops, Forall good_bop ops -> bagree_run ops (fst (run bstep ops empty)) no_files.
Proof.
  intros ops Hg. apply brun_refines; [apply good_empty| |assumption]. intros [|s q]; reflexivity.
Qed.

(** ** Set, then get *)
Lemma group_status_ok : forall t p done s, view t (done ++ p ++ [s]) <> None -> group_status done p (view t) = Ok tt.
Proof.
  induction p as [|x p IH]; intros done s H; cbn [group_status app] in *.
  - destruct (view t (done ++ [s])) as [e|] eqn:E; [|congruence]. rewrite (view_below _ _ _ _ _ E). reflexivity.
  - destruct (view t (done ++ x :: p ++ [s])) as [e|] eqn:E; [|congruence]. rewrite (view_below _ _ _ _ _ E).
    apply (IH (done ++ [x]) s). rewrite <- app_assoc. cbn [app]. congruence.
Qed.

Lemma get_leaf : forall t k g n v a, Good t -> good_bop (BGet k g n) ->
  (fst (bstep (BGet k g n) t) = Ok (RVal v a) <-> view t (gname k :: g ++ [n]) = Some (ELeaf v a)).
Proof.
  intros t k g n v a G Hg. destruct (bstep_refines (BGet k g n) t (view t) G (fun q => eq_refl) Hg) as (r & t' & E & A & _).
  rewrite E. cbn [fst bspec bop_kind] in *.
  assert (Hs : view t (gname k :: g ++ [n]) <> None -> group_status [] (gname k :: g) (view t) = Ok tt).
  { intro H. apply group_status_ok with (s := n). exact H. }
  destruct (view t (gname k :: g ++ [n])) as [[v' a'|]|] eqn:Ev.
  - rewrite Hs in A by discriminate. cbn [fst] in A. destruct r as [[]|]; simpl in A; try contradiction. destruct A as [-> ->]. split; congruence.
  - rewrite Hs in A by discriminate. cbn [fst] in A. split; [|discriminate]. intros ->. contradiction.
  - split; [|discriminate]. intros ->. destruct (group_status _ _ _); contradiction.
Qed.

Lemma breached_good : forall t, breached t -> Good t.
Proof.
  intros t (ops & G & ->). apply (brun_refines ops empty no_files); [apply good_empty| |assumption]. intros [|s q]; reflexivity.
Qed.

Lemma bset_keeps : forall t dup p n enc meta q v a, view t q = Some (ELeaf v a) -> blocked [] p (view t) = false -> ~ is_prefix q p = true ->
  snd (bset dup p n enc meta (view t)) q = Some (ELeaf v a).
Proof.
  intros t dup p n enc meta q v a Hq Hb Hp. unfold bset. rewrite Hb.
  assert (H1 : with_groups p (view t) q = Some (ELeaf v a)).
  { unfold with_groups. destruct (is_prefix q p); [congruence|assumption]. }
  destruct enc as [w|e]; destruct (with_groups p (view t) (p ++ [n])) eqn:E; try exact H1.
  destruct (meta_written meta []). cbn [snd]. unfold with_leaf. destruct (is_prefix (p ++ [n]) q && is_prefix q (p ++ [n])) eqn:Ep; [|exact H1].
  apply andb_true_iff in Ep as [E1 E2]. apply is_prefix_true in E1 as (r & ->). apply is_prefix_true in E2 as (r' & E2).
  assert (E3 : (p ++ [n]) ++ (r ++ r') = (p ++ [n]) ++ []) by (rewrite app_nil_r, app_assoc; symmetry; exact E2).
  apply app_inv_head in E3. clear E2. rename E3 into E2. apply app_eq_nil in E2 as [-> _]. rewrite app_nil_r in H1. congruence.
Qed.

Lemma blocked_prefix : forall t p q v a, view t q = Some (ELeaf v a) -> is_prefix q p = true -> blocked [] p (view t) = true.
Proof.
  intros t p q v a Hq Hp. apply is_prefix_true in Hp as (r & ->).
  assert (G : forall q done, view t (done ++ q) = Some (ELeaf v a) -> blocked done (q ++ r) (view t) = true).
  { clear q Hq. induction q as [|x q IH]; intros done H; cbn [app].
    - rewrite app_nil_r in H. destruct r; cbn [blocked]; rewrite H; reflexivity.
    - cbn [blocked]. pose proof (view_below _ _ _ _ _ H) as Hb. rewrite Hb. apply IH. rewrite <- app_assoc. exact H. }
  apply (G q []). exact Hq.
Qed.

Lemma grouped_set : forall t o k g n c, breached t -> good_bop o -> bcontent o = Some (k, g, n, c) ->
  let t1 := snd (bstep o t) in
  (fst (bstep o t) = Ok RUnit -> exists v a, c = Ok (v, a) /\ fst (bstep (BGet k g n) t1) = Ok (RVal v a)) /\
  (forall k' g' n' v a, good_bop (BGet k' g' n') -> fst (bstep (BGet k' g' n') t) = Ok (RVal v a) ->
     fst (bstep (BGet k' g' n') t1) = Ok (RVal v a)).
Proof.
  intros t o k g n c Hr Hg Hc t1. pose proof (breached_good t Hr) as G.
  destruct (bstep_refines o t (view t) G (fun q => eq_refl) Hg) as (r & t' & E & A & G' & P).
  unfold t1. rewrite E. cbn [fst snd]. clear t1.
  assert (Hsame : good_bop (BGet k g n)) by (destruct o; inversion Hc; subst; exact Hg).
  assert (Hset : exists dup enc meta, bspec o (view t) = bset dup (gname k :: g) n enc meta (view t) /\
      c = bind enc (fun p => let (w, complete) := meta_written meta [] in if complete then Ok (p, w) else Err TypeError)).
  { destruct o as [g0 n0 x|g0 n0 x|g0 n0 x meta z| | |]; inversion Hc; subst.
    - exists ValueError, (enc_json x), []. split; [reflexivity|]. destruct (enc_json x); reflexivity.
    - exists ValueError, (enc_text x), []. split; [reflexivity|]. destruct (enc_text x); reflexivity.
    - exists LookupError, (enc_arr x z), meta. auto. }
  destruct Hset as (dup & enc & meta & Es & Ec). split.
  - intros ->. rewrite Es in A. unfold bset in A. unfold pw in P. 
    destruct (blocked [] (gname k :: g) (view t)) eqn:Eb; [destruct A|].
    destruct enc as [w|e]; destruct (with_groups (gname k :: g) (view t) ((gname k :: g) ++ [n])) eqn:Ew; try (destruct A; fail).
    destruct (meta_written meta []) as [wr ok] eqn:Em. destruct ok; [|destruct A]. exists w, wr. split; [rewrite Ec; reflexivity|].
    apply get_leaf; [assumption|assumption|]. rewrite P, Es. unfold bset. rewrite Eb, Ew, Em. cbn [snd]. unfold with_leaf.
    change (gname k :: g ++ [n]) with ((gname k :: g) ++ [n]). rewrite is_prefix_refl. reflexivity.
  - intros k' g' n' v a Hg' H. apply get_leaf in H; [|assumption|assumption]. apply get_leaf; [assumption|assumption|].
    rewrite P, Es. destruct (blocked [] (gname k :: g) (view t)) eqn:Eb.
    + unfold bset. rewrite Eb. exact H.
    + apply bset_keeps; [assumption|assumption|]. intro Hp. rewrite (blocked_prefix t _ _ v a H Hp) in Eb. discriminate.
Qed.
