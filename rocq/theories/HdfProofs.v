(** Proofs about the HDF tree and the two container classes. *)
From Coq Require Import ZArith String Ascii Bool List Lia.
From Verif Require Import PyBase HdfModel HdfSpec.
Import ListNotations.
Open Scope Z_scope.

(** ** Names *)
Lemma split_no_slash : forall s cur, ~ In slash s -> split_slash cur s = [rev cur ++ s].
Proof.
  induction s as [|c s IH]; intros cur H; simpl.
  - rewrite app_nil_r. reflexivity.
  - destruct (Ascii.eqb_spec c slash) as [->|Hc]; [exfalso; apply H; left; reflexivity|].
    rewrite IH by (intro; apply H; right; assumption). simpl. rewrite <- app_assoc. reflexivity.
Qed.

Lemma comps_good : forall s, good_name s -> comps s = [s].
Proof.
  intros s (H1 & H2 & H3). unfold comps. rewrite split_no_slash by assumption. cbn [rev app filter].
  rewrite (proj2 (str_eqb_neq s [])) by assumption.
  rewrite (proj2 (str_eqb_neq s (str_of "."))) by assumption. reflexivity.
Qed.

Lemma at_path_good : forall b s, good_name s -> at_path b s = b ++ [s].
Proof.
  intros b s H. pose proof (comps_good s H) as Hc. destruct s as [|c s]; [destruct H; congruence|].
  unfold at_path. rewrite Hc. destruct (Ascii.eqb_spec c slash) as [->|_]; [|reflexivity].
  destruct H as (_ & _ & H). exfalso. apply H. left. reflexivity.
Qed.

Lemma gname_good : forall k, good_name (gname k).
Proof.
  intro k. repeat split; try (destruct k; discriminate).
  destruct k; unfold gname, str_of, slash, chr; simpl; intuition discriminate.
Qed.

Lemma gname_inj : forall k k', gname k = gname k' -> k = k'.
Proof. intros [] [] H; try reflexivity; discriminate H. Qed.

Lemma kind_eqb_spec : forall a b, Bool.reflect (a = b) (kind_eqb a b).
Proof. intros [] []; simpl; constructor; congruence. Qed.

(** ** Association lists *)
Section Assoc.
  Context {A : Type}.
  Implicit Types (cs : list (str * A)) (s : str).

  Lemma child_put_same : forall cs s v, child s (dict_put s v cs) = Some v.
  Proof.
    induction cs as [|[k w] cs IH]; intros s v; simpl.
    - rewrite str_eqb_refl. reflexivity.
    - destruct (str_eqb s k) eqn:E; simpl; rewrite E; auto.
  Qed.

  Lemma child_put_other : forall cs s s' v, s <> s' -> child s' (dict_put s v cs) = child s' cs.
  Proof.
    induction cs as [|[k w] cs IH]; intros s s' v H; simpl.
    - rewrite (proj2 (str_eqb_neq s' s)) by congruence. reflexivity.
    - destruct (str_eqb_spec s k) as [->|Hk]; simpl.
      + rewrite (proj2 (str_eqb_neq s' k)) by congruence. reflexivity.
      + destruct (str_eqb s' k); auto.
  Qed.

  Lemma child_del_same : forall cs s, child s (del_child s cs) = None.
  Proof.
    induction cs as [|[k w] cs IH]; intro s; simpl; [reflexivity|].
    destruct (str_eqb s k) eqn:E; simpl; [apply IH|]. rewrite E. apply IH.
  Qed.

  Lemma child_del_other : forall cs s s', s <> s' -> child s' (del_child s cs) = child s' cs.
  Proof.
    induction cs as [|[k w] cs IH]; intros s s' H; simpl; [reflexivity|].
    destruct (str_eqb_spec s k) as [->|Hk]; simpl.
    - rewrite (proj2 (str_eqb_neq s' k)) by congruence. apply IH. assumption.
    - destruct (str_eqb s' k); auto.
  Qed.

  Lemma child_None : forall cs s, child s cs = None <-> ~ In s (map fst cs).
  Proof.
    induction cs as [|[k w] cs IH]; intro s; simpl; [tauto|].
    destruct (str_eqb_spec s k) as [->|H].
    - split; [discriminate|]. intro H. exfalso. apply H. left. reflexivity.
    - rewrite IH. split; [intros H1 [E|E]; [congruence|tauto]|tauto].
  Qed.

  Lemma child_Some_In : forall cs s v, child s cs = Some v -> In (s, v) cs.
  Proof.
    induction cs as [|[k w] cs IH]; intros s v; simpl; [discriminate|].
    destruct (str_eqb_spec s k) as [->|H]; [intro E; inversion E; left; reflexivity|right; auto].
  Qed.

  Lemma child_In : forall cs s v, NoDup (map fst cs) -> In (s, v) cs -> child s cs = Some v.
  Proof.
    induction cs as [|[k w] cs IH]; intros s v N H; simpl; [destruct H|].
    simpl in N. inversion N as [|? ? Hk N']; subst. destruct H as [E|H].
    - inversion E; subst. rewrite str_eqb_refl. reflexivity.
    - destruct (str_eqb_spec s k) as [->|_]; [|auto].
      exfalso. apply Hk. apply in_map_iff. exists (k, v). auto.
  Qed.

  Lemma keys_put : forall cs s v s', In s' (map fst (dict_put s v cs)) <-> s' = s \/ In s' (map fst cs).
  Proof.
    induction cs as [|[k w] cs IH]; intros s v s'; simpl.
    - intuition.
    - destruct (str_eqb_spec s k) as [->|H]; simpl; [intuition|]. rewrite IH. intuition.
  Qed.

  Lemma nodup_put : forall cs s v, NoDup (map fst cs) -> NoDup (map fst (dict_put s v cs)).
  Proof.
    induction cs as [|[k w] cs IH]; intros s v N; simpl.
    - constructor; [intros []|constructor].
    - simpl in N. inversion N; subst. destruct (str_eqb_spec s k) as [->|H]; simpl; constructor; auto.
      rewrite keys_put. intros [->|H']; [congruence|contradiction].
  Qed.

  Lemma nodup_del : forall cs s, NoDup (map fst cs) -> NoDup (map fst (del_child s cs)).
  Proof.
    induction cs as [|[k w] cs IH]; intros s N; simpl; [constructor|].
    simpl in N. inversion N; subst. destruct (negb (str_eqb s k)); simpl; [|auto].
    constructor; [|auto]. intro H'. apply in_map_iff in H' as ((k', w') & E & Hi). simpl in E. subst.
    apply filter_In in Hi as [Hi _]. apply H1. apply in_map_iff. exists (k, w'). auto.
  Qed.

  Lemma forall_put : forall (P : str * A -> Prop) cs s v, Forall P cs -> (forall s', P (s', v)) ->
    Forall P (dict_put s v cs).
  Proof.
    intros P. induction cs as [|[k w] cs IH]; intros s v F Hv; simpl.
    - constructor; auto.
    - inversion F; subst. destruct (str_eqb s k); constructor; auto.
  Qed.
End Assoc.

(** ** Well-formed trees: names are unique in each group *)
Inductive wf : node -> Prop :=
| wf_data : forall v a, wf (Data v a)
| wf_group : forall cs, NoDup (map fst cs) -> Forall (fun kc => wf (snd kc)) cs -> wf (Group cs).

Fixpoint node_ind2 (P : node -> Prop) (Hd : forall v a, P (Data v a))
         (Hg : forall cs, Forall (fun kc => P (snd kc)) cs -> P (Group cs)) (n : node) : P n :=
  match n with
  | Data v a => Hd v a
  | Group cs => Hg cs ((fix go (l : list (str * node)) : Forall (fun kc => P (snd kc)) l :=
      match l with [] => Forall_nil _ | (k, c) :: l' => Forall_cons (k, c) (node_ind2 P Hd Hg c) (go l') end) cs)
  end.

Lemma wf_child : forall cs s c, wf (Group cs) -> child s cs = Some c -> wf c.
Proof.
  intros cs s c H Hc. inversion H as [|cs' N F E]; subst. apply child_Some_In in Hc.
  rewrite Forall_forall in F. apply (F _ Hc).
Qed.

Lemma wf_put : forall cs s c, wf (Group cs) -> wf c -> wf (Group (put_child s c cs)).
Proof.
  intros cs s c H Hc. inversion H as [|cs' N F E]; subst. constructor.
  - apply nodup_put. assumption.
  - apply forall_put; auto.
Qed.

Lemma wf_del : forall cs s, wf (Group cs) -> wf (Group (del_child s cs)).
Proof.
  intros cs s H. inversion H as [|cs' N F E]; subst. constructor.
  - apply nodup_del. assumption.
  - rewrite Forall_forall in *. intros x Hx. apply F. apply filter_In in Hx. tauto.
Qed.

(** ** Lookup *)
Lemma lookup_app : forall p q n, lookup n (p ++ q) = match lookup n p with Some c => lookup c q | None => None end.
Proof.
  induction p as [|s p IH]; intros q n; [reflexivity|].
  destruct n as [v a|cs]; [reflexivity|]. simpl. destruct (child s cs); [apply IH|reflexivity].
Qed.

Lemma view_cons : forall cs s q, view (Group cs) (s :: q) = match child s cs with Some c => view c q | None => None end.
Proof. intros. unfold view. simpl. destruct (child s cs); reflexivity. Qed.

Lemma view_nil_group : forall cs, view (Group cs) [] = Some EGroup.
Proof. reflexivity. Qed.

Lemma view_group : forall t p, view t p = Some EGroup <-> exists cs, lookup t p = Some (Group cs).
Proof.
  intros t p. unfold view. destruct (lookup t p) as [[v a|cs]|]; split; try discriminate; eauto;
    intros (cs' & E); discriminate.
Qed.

Lemma view_leaf : forall t p v a, view t p = Some (ELeaf v a) <-> lookup t p = Some (Data v a).
Proof.
  intros t p v a. unfold view. destruct (lookup t p) as [[v' a'|cs]|]; split; intro E; inversion E; reflexivity.
Qed.

Lemma view_none : forall t p, view t p = None <-> lookup t p = None.
Proof. intros t p. unfold view. destruct (lookup t p) as [[v a|cs]|]; split; intro E; congruence. Qed.

Lemma view_below : forall t p s q e, view t (p ++ s :: q) = Some e -> view t p = Some EGroup.
Proof.
  intros t p s q e H. unfold view in *. rewrite lookup_app in H.
  destruct (lookup t p) as [[v a|cs]|]; [discriminate H|reflexivity|discriminate H].
Qed.

Lemma view_below_none : forall t p q, view t p = None -> view t (p ++ q) = None.
Proof.
  intros t p q H. apply view_none in H. apply view_none. rewrite lookup_app, H. reflexivity.
Qed.

Lemma view_leaf_below : forall t p s q v a, view t p = Some (ELeaf v a) -> view t (p ++ s :: q) = None.
Proof.
  intros t p s q v a H. apply view_leaf in H. apply view_none. rewrite lookup_app, H. reflexivity.
Qed.

Lemma strip_app : forall p q, strip p (p ++ q) = Some q.
Proof. induction p as [|s p IH]; intro q; simpl; [reflexivity|]. rewrite str_eqb_refl. apply IH. Qed.

Lemma strip_Some : forall p q r, strip p q = Some r <-> q = p ++ r.
Proof.
  induction p as [|s p IH]; intros q r; simpl.
  - split; congruence.
  - destruct q as [|y q]; [split; discriminate|]. destruct (str_eqb_spec s y) as [->|H].
    + rewrite IH. split; intro E; [congruence|inversion E; reflexivity].
    + split; [discriminate|]. intro E. inversion E. congruence.
Qed.

Lemma is_prefix_true : forall p q, is_prefix p q = true <-> exists r, q = p ++ r.
Proof.
  intros p q. unfold is_prefix. destruct (strip p q) as [r|] eqn:E.
  - apply strip_Some in E. split; eauto.
  - split; [discriminate|]. intros (r & Hr). apply strip_Some in Hr. congruence.
Qed.

Lemma is_prefix_refl : forall p, is_prefix p p = true.
Proof. intro p. apply is_prefix_true. exists []. rewrite app_nil_r. reflexivity. Qed.

(** ** Effect of insertion below an existing group, deletion and attributes *)
Lemma insert_spec : forall g n s leaf, view n g = Some EGroup -> view n (g ++ [s]) = None ->
  exists n', insert n (g ++ [s]) leaf = Some n' /\ (wf n -> wf leaf -> wf n') /\
    forall q, view n' q = match strip (g ++ [s]) q with Some r => view leaf r | None => view n q end.
Proof.
  induction g as [|x g IH]; intros n s leaf Hg Hn.
  - destruct n as [v a|cs]; [discriminate Hg|]. simpl app in *. simpl. rewrite view_cons in Hn.
    destruct (child s cs) as [c|] eqn:Ec.
    { destruct c; discriminate Hn. }
    eexists. split; [reflexivity|]. split; [intros; apply wf_put; assumption|].
    intros [|y q]; [reflexivity|]. simpl strip. rewrite view_cons.
    destruct (str_eqb_spec s y) as [->|Hy].
    + unfold put_child. rewrite child_put_same. reflexivity.
    + unfold put_child. rewrite child_put_other by assumption. rewrite view_cons. reflexivity.
  - destruct n as [v a|cs]; [discriminate Hg|]. simpl app in *. rewrite view_cons in Hg, Hn. simpl insert.
    destruct (child x cs) as [c|] eqn:Ec; [|discriminate Hg].
    destruct (IH c s leaf Hg Hn) as (c' & E & W & V). rewrite E. eexists. split; [reflexivity|]. split.
    + intros Hw Hl. apply wf_put; [assumption|]. apply W; [|assumption]. eapply wf_child; eassumption.
    + intros [|y q]; [reflexivity|]. simpl strip. rewrite view_cons. unfold put_child.
      destruct (str_eqb_spec x y) as [->|Hy].
      * rewrite child_put_same, V. rewrite view_cons, Ec. reflexivity.
      * rewrite child_put_other by assumption. rewrite view_cons. reflexivity.
Qed.

Lemma insert_dup : forall p n leaf e, view n p = Some e -> insert n p leaf = None.
Proof.
  induction p as [|s p IH]; intros n leaf e H; [reflexivity|].
  destruct n as [v a|cs]; [reflexivity|]. rewrite view_cons in H. simpl.
  destruct (child s cs) as [c|]; [|discriminate]. rewrite (IH _ _ _ H). reflexivity.
Qed.

Lemma delete_spec : forall g n s e, view n (g ++ [s]) = Some e ->
  exists n', delete n (g ++ [s]) = Some n' /\ (wf n -> wf n') /\
    forall q, view n' q = if is_prefix (g ++ [s]) q then None else view n q.
Proof.
  induction g as [|x g IH]; intros n s e Hn.
  - destruct n as [v a|cs]; [discriminate Hn|]. simpl app in *. rewrite view_cons in Hn. simpl.
    destruct (child s cs) as [c|] eqn:Ec; [|discriminate Hn].
    eexists. split; [reflexivity|]. split; [apply wf_del|].
    intros [|y q]; [reflexivity|]. rewrite !view_cons. unfold is_prefix. simpl.
    destruct (str_eqb_spec s y) as [->|Hy].
    + rewrite child_del_same. reflexivity.
    + rewrite child_del_other by assumption. reflexivity.
  - destruct n as [v a|cs]; [discriminate Hn|]. simpl app in *. rewrite view_cons in Hn. simpl delete.
    destruct (child x cs) as [c|] eqn:Ec; [|discriminate Hn].
    destruct (IH c s e Hn) as (c' & E & W & V).
    destruct (g ++ [s]) as [|y0 g0] eqn:Eg; [destruct g; discriminate Eg|].
    rewrite E. eexists. split; [reflexivity|]. split.
    + intro Hw. apply wf_put; [assumption|]. apply W. eapply wf_child; eassumption.
    + intros [|y q]; [reflexivity|]. rewrite !view_cons. unfold put_child.
      replace (is_prefix (x :: y0 :: g0) (y :: q)) with (str_eqb x y && is_prefix (y0 :: g0) q)
        by (unfold is_prefix; simpl; destruct (str_eqb x y); reflexivity).
      destruct (str_eqb_spec x y) as [->|Hy].
      * rewrite child_put_same, V. cbn [andb]. rewrite Ec. reflexivity.
      * rewrite child_put_other by assumption. reflexivity.
Qed.

Lemma delete_none : forall p n, view n p = None -> delete n p = None.
Proof.
  induction p as [|s p IH]; intros n H; [reflexivity|].
  destruct n as [v a|cs]; [reflexivity|]. rewrite view_cons in H. simpl.
  destruct (child s cs) as [c|]; [|reflexivity].
  destruct p as [|s' p]; [destruct c; discriminate H|]. rewrite (IH c H). reflexivity.
Qed.

Lemma set_attr_spec : forall p n k z v a, view n p = Some (ELeaf v a) ->
  exists n', set_attr n p k z = Some n' /\ (wf n -> wf n') /\
    forall q, view n' q = if is_prefix p q && is_prefix q p then Some (ELeaf v (dict_put k z a)) else view n q.
Proof.
  induction p as [|s p IH]; intros n k z v a H.
  - destruct n as [v' a'|cs]; [|discriminate H]. inversion H; subst. simpl. eexists. split; [reflexivity|].
    split; [intros; constructor|]. intros [|y q]; reflexivity.
  - destruct n as [v' a'|cs]; [discriminate H|]. rewrite view_cons in H. simpl set_attr.
    destruct (child s cs) as [c|] eqn:Ec; [|discriminate H].
    destruct (IH c k z v a H) as (c' & E & W & V). rewrite E. eexists. split; [reflexivity|]. split.
    + intro Hw. apply wf_put; [assumption|]. apply W. eapply wf_child; eassumption.
    + intros [|y q]; [reflexivity|]. rewrite !view_cons. unfold put_child.
      replace (is_prefix (s :: p) (y :: q) && is_prefix (y :: q) (s :: p))
        with (str_eqb s y && (is_prefix p q && is_prefix q p)).
      2:{ unfold is_prefix; simpl. destruct (str_eqb_spec s y) as [->|Hy]; [rewrite str_eqb_refl; reflexivity|reflexivity]. }
      destruct (str_eqb_spec s y) as [->|Hy].
      * rewrite child_put_same, V. cbn [andb]. rewrite Ec. reflexivity.
      * rewrite child_put_other by assumption. reflexivity.
Qed.

Lemma prefix_both : forall p q, is_prefix p q && is_prefix q p = true <-> p = q.
Proof.
  intros p q. rewrite andb_true_iff, !is_prefix_true. split.
  - intros ((r & Hr) & (r' & Hr')). rewrite Hr in Hr'. rewrite <- app_assoc in Hr'.
    rewrite <- (app_nil_r p) in Hr' at 1. apply app_inv_head in Hr'. symmetry in Hr'.
    apply app_eq_nil in Hr' as [-> _]. rewrite app_nil_r in Hr. congruence.
  - intros ->. split; exists []; rewrite app_nil_r; reflexivity.
Qed.

(** ** The primitives, in terms of views *)
Lemma lookup_view_some : forall t p e, view t p = Some e -> exists n, lookup t p = Some n.
Proof. intros t p e H. unfold view in H. destruct (lookup t p); [eauto|discriminate]. Qed.

Lemma h_in_spec : forall t b s, good_name s ->
  h_in b s t = (Ok (match view t (b ++ [s]) with Some _ => true | None => false end), t).
Proof.
  intros t b s H. unfold h_in, view. rewrite at_path_good by assumption.
  destruct (lookup t (b ++ [s])) as [[v a|cs]|]; reflexivity.
Qed.

Lemma h_get_some : forall t b s e, good_name s -> view t (b ++ [s]) = Some e -> h_get b s t = (Ok (b ++ [s]), t).
Proof.
  intros t b s e H Hv. unfold h_get. rewrite at_path_good by assumption.
  apply lookup_view_some in Hv as (n & ->). reflexivity.
Qed.

Lemma h_get_none : forall t b s, good_name s -> view t (b ++ [s]) = None -> h_get b s t = (Err KeyError, t).
Proof.
  intros t b s H Hv. unfold h_get. rewrite at_path_good by assumption.
  apply view_none in Hv. rewrite Hv. reflexivity.
Qed.

Lemma h_create_new : forall t b s leaf, good_name s -> view t b = Some EGroup -> view t (b ++ [s]) = None ->
  exists t', h_create b s leaf t = (Ok (b ++ [s]), t') /\ (wf t -> wf leaf -> wf t') /\
    forall q, view t' q = match strip (b ++ [s]) q with Some r => view leaf r | None => view t q end.
Proof.
  intros t b s leaf H Hb Hn. unfold h_create. rewrite at_path_good by assumption.
  destruct (insert_spec b t s leaf Hb Hn) as (t' & -> & W & V). exists t'. auto.
Qed.

Lemma h_create_dup : forall t b s leaf e, good_name s -> view t (b ++ [s]) = Some e ->
  h_create b s leaf t = (Err ValueError, t).
Proof.
  intros t b s leaf e H Hv. unfold h_create. rewrite at_path_good by assumption.
  rewrite (insert_dup _ _ _ _ Hv). reflexivity.
Qed.

Lemma h_del_some : forall t b s e, good_name s -> view t (b ++ [s]) = Some e ->
  exists t', h_del b s t = (Ok tt, t') /\ (wf t -> wf t') /\
    forall q, view t' q = if is_prefix (b ++ [s]) q then None else view t q.
Proof.
  intros t b s e H Hv. unfold h_del. rewrite at_path_good by assumption.
  destruct (delete_spec b t s e Hv) as (t' & -> & W & V). exists t'. auto.
Qed.

Lemma h_del_none : forall t b s, good_name s -> view t (b ++ [s]) = None -> h_del b s t = (Err KeyError, t).
Proof.
  intros t b s H Hv. unfold h_del. rewrite at_path_good by assumption. rewrite delete_none by assumption. reflexivity.
Qed.

Lemma h_read_spec : forall t p, h_read p t = (match view t p with
  | Some (ELeaf v a) => Ok (v, a) | Some EGroup => Err TypeError | None => Err KeyError end, t).
Proof. intros t p. unfold h_read, view. destruct (lookup t p) as [[v a|cs]|]; reflexivity. Qed.

Lemma h_keys_spec : forall t p, wf t -> view t p = Some EGroup ->
  exists l, h_keys p t = (Ok l, t) /\ NoDup l /\ forall s, In s l <-> view t (p ++ [s]) <> None.
Proof.
  intros t p Hw Hv. apply view_group in Hv as (cs & Hc). unfold h_keys. rewrite Hc.
  exists (map fst cs). split; [reflexivity|].
  assert (Hwc : wf (Group cs)).
  { revert t Hw Hc. induction p as [|x p IH]; intros t Hw Hc.
    - simpl in Hc. inversion Hc; subst. assumption.
    - destruct t as [v a|cs0]; [discriminate Hc|]. simpl in Hc. destruct (child x cs0) as [c|] eqn:E; [|discriminate].
      apply (IH c); [eapply wf_child; eassumption|assumption]. }
  inversion Hwc as [|cs' N F E]; subst. split; [assumption|]. intro s.
  unfold view. rewrite lookup_app, Hc. simpl. destruct (child s cs) as [c|] eqn:Ec.
  - split; [intros _; destruct c; discriminate|]. intros _. apply child_Some_In in Ec.
    apply in_map_iff. exists (s, c). auto.
  - apply child_None in Ec. split; [contradiction|congruence].
Qed.

Lemma h_attrs_spec : forall meta t p v a, wf t -> view t p = Some (ELeaf v a) ->
  exists t', h_attrs p meta t = ((if snd (meta_written meta a) then Ok tt else Err TypeError), t') /\ wf t' /\
    forall q, view t' q = if is_prefix p q && is_prefix q p then Some (ELeaf v (fst (meta_written meta a))) else view t q.
Proof.
  induction meta as [|[k x] meta IH]; intros t p v a Hw Hv.
  - exists t. simpl. split; [reflexivity|]. split; [assumption|]. intro q.
    destruct (is_prefix p q && is_prefix q p) eqn:E; [|reflexivity]. apply prefix_both in E. subst. assumption.
  - destruct x as [z|].
    + destruct (set_attr_spec p t k z v a Hv) as (t1 & E1 & W1 & V1).
      assert (Hv1 : view t1 p = Some (ELeaf v (dict_put k z a))) by (rewrite V1, is_prefix_refl; reflexivity).
      destruct (IH t1 p v (dict_put k z a) (W1 Hw) Hv1) as (t2 & E2 & W2 & V2).
      exists t2. simpl. unfold bnd, h_attr. rewrite E1, E2. split; [reflexivity|]. split; [assumption|].
      intro q. rewrite V2. destruct (is_prefix p q && is_prefix q p) eqn:E; [reflexivity|].
      rewrite V1, E. reflexivity.
    + exists t. simpl. unfold bnd, h_attr. split; [reflexivity|]. split; [assumption|]. intro q.
      destruct (is_prefix p q && is_prefix q p) eqn:E; [|reflexivity]. apply prefix_both in E. subst. assumption.
Qed.

(** ** HDFContainer refines five maps *)
Definition leaf_of (e : option (payload * attrs)) : option entry := option_map (fun va => ELeaf (fst va) (snd va)) e.

Record Rel (t : node) (m : maps) : Prop := {
  rel_wf : wf t;
  rel_root : view t [] = Some EGroup;
  rel_used : forall k, view t [gname k] = if used m k then Some EGroup else None;
  rel_map : forall k n, view t [gname k; n] = leaf_of (amap m k n);
  rel_typed : forall k n v a, amap m k n = Some (v, a) -> decode k v = Ok v /\ (k <> KArray -> a = [])
}.

Lemma rel_empty : Rel empty no_maps.
Proof. constructor; try reflexivity; [repeat constructor|]. discriminate. Qed.

Lemma ensure_group_spec : forall t m k, Rel t m ->
  exists t', ensure_group (gname k) t = (Ok [gname k], t') /\ Rel t' (touch k m).
Proof.
  intros t m k R. unfold ensure_group, bnd. rewrite (h_in_spec t [] (gname k)) by apply gname_good.
  change ([] ++ [gname k]) with [gname k].
  pose proof (rel_used _ _ R k) as Hu. rewrite Hu. destruct (used m k) eqn:U.
  - rewrite (h_get_some t [] (gname k) EGroup) by (try apply gname_good; exact Hu).
    exists t. split; [reflexivity|]. destruct R. constructor; auto.
    intro k'. cbn [touch used]. destruct (kind_eqb_spec k k') as [<-|]; cbn [orb]; [|apply rel_used0].
    rewrite Hu. reflexivity.
  - destruct (h_create_new t [] (gname k) (Group [])) as (t' & E & W & V); try apply gname_good.
    { apply R. } { exact Hu. }
    exists t'. change ([] ++ [gname k]) with [gname k] in *. split; [exact E|].
    destruct R. constructor.
    + apply W; [assumption|]. repeat constructor.
    + rewrite V. simpl. assumption.
    + intro k'. rewrite V. simpl. destruct (str_eqb_spec (gname k) (gname k')) as [Eq|Ne].
      * apply gname_inj in Eq. subst. destruct (kind_eqb_spec k' k'); [reflexivity|congruence].
      * rewrite rel_used0. destruct (kind_eqb_spec k k') as [->|]; [congruence|reflexivity].
    + intros k' n. rewrite V. simpl. destruct (str_eqb_spec (gname k) (gname k')) as [Eq|Ne].
      * apply gname_inj in Eq. subst k'. rewrite <- rel_map0. symmetry.
        apply (view_below_none t [gname k] [n]). exact Hu.
      * apply rel_map0.
    + exact rel_typed0.
Qed.

Lemma two_path : forall k k' n n', match strip [gname k; n] [gname k'; n'] with Some _ => true | None => false end
  = kind_eqb k k' && str_eqb n n'.
Proof.
  intros. simpl. destruct (str_eqb_spec (gname k) (gname k')) as [E|E].
  - apply gname_inj in E. subst. destruct (kind_eqb_spec k' k'); [|congruence]. simpl. destruct (str_eqb n n'); reflexivity.
  - destruct (kind_eqb_spec k k') as [->|]; [congruence|reflexivity].
Qed.

(** Creating a dataset in the group of a kind. *)
Lemma create_leaf : forall t m k n p a, Rel t m -> used m k = true -> good_name n -> amap m k n = None ->
  decode k p = Ok p -> (k <> KArray -> a = []) ->
  exists t', h_create [gname k] n (Data p a) t = (Ok [gname k; n], t') /\ Rel t' (update k n (Some (p, a)) m).
Proof.
  intros t m k n p a R U Hn Ha Hd Hat.
  destruct (h_create_new t [gname k] n (Data p a)) as (t' & E & W & V); try assumption.
  { rewrite (rel_used _ _ R), U. reflexivity. }
  { change ([gname k] ++ [n]) with [gname k; n]. rewrite (rel_map _ _ R), Ha. reflexivity. }
  change ([gname k] ++ [n]) with [gname k; n] in *. exists t'. split; [exact E|]. destruct R. constructor.
  - apply W; [assumption|constructor].
  - rewrite V. simpl. assumption.
  - intro k'. rewrite V. simpl. rewrite <- rel_used0. destruct (str_eqb (gname k) (gname k')); reflexivity.
  - intros k' n'. rewrite V. cbn [update amap]. rewrite <- two_path.
    destruct (strip [gname k; n] [gname k'; n']) as [r|] eqn:Es; [|apply rel_map0].
    apply strip_Some in Es. injection Es as _ _ <-. reflexivity.
  - intros k' n' v' a'. cbn [update amap]. destruct (kind_eqb_spec k k') as [<-|]; cbn [andb].
    + destruct (str_eqb n n').
      * intro Eq. inversion Eq; subst. split; assumption.
      * apply rel_typed0.
    + apply rel_typed0.
Qed.

Lemma agree_set : forall t m k n enc, Rel t m -> good_name n -> (forall p, enc = Ok p -> decode k p = Ok p) ->
  exists r t', (hc_set k n enc ;;; ret RUnit) t = (r, t') /\
    agree r (fst (aset k n enc [] m)) /\ Rel t' (snd (aset k n enc [] m)).
Proof.
  intros t m k n enc R Hn Hd. unfold hc_set, bnd.
  destruct (ensure_group_spec t m k R) as (t1 & E1 & R1). rewrite E1.
  unfold aset. destruct enc as [p|e]; unfold lift.
  2:{ exists (Err e), t1. split; [reflexivity|]. split; [reflexivity|exact R1]. }
  destruct (amap m k n) as [va|] eqn:Ea.
  - rewrite (h_create_dup t1 [gname k] n (Data p []) (ELeaf (fst va) (snd va))); [|assumption|].
    + exists (Err ValueError), t1. split; [reflexivity|]. split; [reflexivity|exact R1].
    + change ([gname k] ++ [n]) with [gname k; n]. rewrite (rel_map _ _ R1). cbn [touch amap]. rewrite Ea. reflexivity.
  - destruct (create_leaf t1 (touch k m) k n p [] R1) as (t2 & E2 & R2); auto.
    { cbn [touch used]. destruct (kind_eqb_spec k k); [reflexivity|congruence]. }
    rewrite E2. cbn [meta_written]. exists (Ok RUnit), t2. split; [reflexivity|]. split; [exact I|exact R2].
Qed.

Lemma agree_set_array : forall t m n a meta c, Rel t m -> good_name n ->
  exists r t', (hc_set_array n a meta c ;;; ret RUnit) t = (r, t') /\
    agree r (fst (aset KArray n (enc_arr a c) meta m)) /\ Rel t' (snd (aset KArray n (enc_arr a c) meta m)).
Proof.
  intros t m n a meta c R Hn. unfold hc_set_array, bnd.
  destruct (ensure_group_spec t m KArray R) as (t1 & E1 & R1). rewrite E1.
  unfold aset. destruct (enc_arr a c) as [p|e] eqn:Ee; unfold lift.
  2:{ exists (Err e), t1. split; [reflexivity|]. split; [reflexivity|exact R1]. }
  destruct (amap m KArray n) as [va|] eqn:Ea.
  - rewrite (h_create_dup t1 [gname KArray] n (Data p []) (ELeaf (fst va) (snd va))); [|assumption|].
    + exists (Err ValueError), t1. split; [reflexivity|]. split; [reflexivity|exact R1].
    + change ([gname KArray] ++ [n]) with [gname KArray; n]. rewrite (rel_map _ _ R1). cbn [touch amap]. rewrite Ea. reflexivity.
  - destruct (create_leaf t1 (touch KArray m) KArray n p [] R1) as (t2 & E2 & R2); auto.
    rewrite E2.
    assert (Hv : view t2 [gname KArray; n] = Some (ELeaf p [])).
    { rewrite (rel_map _ _ R2). cbn [update amap]. rewrite str_eqb_refl. reflexivity. }
    destruct (h_attrs_spec meta t2 [gname KArray; n] p [] (rel_wf _ _ R2) Hv) as (t3 & E3 & W3 & V3).
    rewrite E3. destruct (meta_written meta []) as [written complete]. cbn [fst snd] in *.
    exists (if complete then Ok RUnit else Err TypeError), t3. split; [destruct complete; reflexivity|].
    split; [destruct complete; simpl; auto|].
    destruct R2. constructor.
    + assumption.
    + rewrite V3. simpl. assumption.
    + intro k. rewrite V3, rel_used0. cbn [update used].
      destruct (is_prefix [gname KArray; n] [gname k]) eqn:Ep; [|reflexivity].
      apply is_prefix_true in Ep as (r & Hr). discriminate Hr.
    + intros k n'. rewrite V3.
      destruct (is_prefix [gname KArray; n] [gname k; n'] && is_prefix [gname k; n'] [gname KArray; n]) eqn:Ep.
      * apply prefix_both in Ep. assert (Hk : gname KArray = gname k) by congruence. assert (n = n') by congruence. apply gname_inj in Hk. subst.
        cbn [update amap kind_eqb andb]. rewrite str_eqb_refl. reflexivity.
      * rewrite rel_map0. cbn [update amap]. destruct (kind_eqb KArray k && str_eqb n n') eqn:Ek; [|reflexivity].
        exfalso. apply andb_true_iff in Ek as [Ek En]. destruct (kind_eqb_spec KArray k) as [<-|]; [|discriminate].
        apply str_eqb_eq in En. subst. rewrite !is_prefix_refl in Ep. discriminate.
    + intros k n' v a'. cbn [update amap]. destruct (kind_eqb KArray k && str_eqb n n') eqn:Ek.
      * apply andb_true_iff in Ek as [Ek En]. destruct (kind_eqb_spec KArray k) as [<-|]; [|discriminate].
        intro Eq. inversion Eq; subst. split; [reflexivity|congruence].
      * specialize (rel_typed0 k n'). cbn [update amap] in rel_typed0. rewrite Ek in rel_typed0. apply rel_typed0.
Qed.

Lemma agree_get : forall t m k n, Rel t m -> good_name n ->
  exists r, (va <- hc_get k n ;; ret (RVal (fst va) (snd va))) t = (r, t) /\ agree r (fst (astep (Get k n) m)).
Proof.
  intros t m k n R Hn. unfold hc_get, bnd. cbn [astep].
  pose proof (rel_used _ _ R k) as Hu. destruct (used m k) eqn:U.
  - rewrite (h_get_some t [] (gname k) EGroup) by (try apply gname_good; exact Hu).
    rewrite h_in_spec by assumption. change (([] ++ [gname k]) ++ [n]) with [gname k; n].
    change ([] ++ [gname k]) with [gname k].
    pose proof (rel_map _ _ R k n) as Hm. rewrite Hm. destruct (amap m k n) as [[v a]|] eqn:Ea.
    + cbn [leaf_of option_map negb]. rewrite (h_get_some t [gname k] n (ELeaf v a)) by (try assumption; exact Hm).
      change ([gname k] ++ [n]) with [gname k; n]. rewrite h_read_spec, Hm. cbn [leaf_of option_map fst snd].
      destruct (rel_typed _ _ R k n v a Ea) as [Hd Hat]. unfold lift. rewrite Hd.
      exists (Ok (RVal v (match k with KArray => a | _ => [] end))). split; [destruct k; reflexivity|].
      simpl. split; [reflexivity|]. destruct k; try reflexivity; symmetry; apply Hat; discriminate.
    + exists (Err LookupError). split; reflexivity.
  - rewrite h_get_none by (try apply gname_good; exact Hu).
    assert (Ea : amap m k n = None).
    { pose proof (view_below_none t [gname k] [n] Hu) as H. change ([gname k] ++ [n]) with [gname k; n] in H.
      rewrite (rel_map _ _ R) in H. destruct (amap m k n); [discriminate|reflexivity]. }
    rewrite Ea. exists (Err KeyError). split; reflexivity.
Qed.

Lemma agree_drop : forall t m k n, Rel t m -> good_name n ->
  exists r t', (hc_drop k n ;;; ret RUnit) t = (r, t') /\ agree r (fst (astep (Drop k n) m)) /\ Rel t' (snd (astep (Drop k n) m)).
Proof.
  intros t m k n R Hn. unfold hc_drop, bnd. cbn [astep].
  pose proof (rel_used _ _ R k) as Hu. destruct (used m k) eqn:U.
  - rewrite (h_get_some t [] (gname k) EGroup) by (try apply gname_good; exact Hu).
    rewrite h_in_spec by assumption. change (([] ++ [gname k]) ++ [n]) with [gname k; n].
    change ([] ++ [gname k]) with [gname k].
    pose proof (rel_map _ _ R k n) as Hm. rewrite Hm. destruct (amap m k n) as [[v a]|] eqn:Ea.
    + cbn [leaf_of option_map negb].
      destruct (h_del_some t [gname k] n (ELeaf v a)) as (t' & E & W & V); try assumption.
      rewrite E. exists (Ok RUnit), t'. split; [reflexivity|]. split; [exact I|]. cbn [snd].
      change ([gname k] ++ [n]) with [gname k; n] in *. destruct R. constructor.
      * auto.
      * rewrite V. unfold is_prefix. simpl. assumption.
      * intro k'. rewrite V. unfold is_prefix. simpl. rewrite <- rel_used0.
        destruct (str_eqb (gname k) (gname k')); reflexivity.
      * intros k' n'. rewrite V. unfold is_prefix. rewrite two_path. cbn [update amap].
        destruct (kind_eqb k k' && str_eqb n n'); [reflexivity|apply rel_map0].
      * intros k' n' v' a'. cbn [update amap]. destruct (kind_eqb k k' && str_eqb n n'); [discriminate|apply rel_typed0].
    + exists (Err LookupError), t. split; [reflexivity|]. split; [reflexivity|assumption].
  - rewrite h_get_none by (try apply gname_good; exact Hu).
    assert (Ea : amap m k n = None).
    { pose proof (view_below_none t [gname k] [n] Hu) as H. change ([gname k] ++ [n]) with [gname k; n] in H.
      rewrite (rel_map _ _ R) in H. destruct (amap m k n); [discriminate|reflexivity]. }
    rewrite Ea. exists (Err KeyError), t. split; [reflexivity|]. split; [reflexivity|assumption].
Qed.

Lemma agree_names : forall t m k, Rel t m ->
  exists r, (l <- hc_names k ;; ret (RNames l)) t = (r, t) /\ agree r (fst (astep (Names k) m)).
Proof.
  intros t m k R. unfold hc_names, bnd. cbn [astep fst]. rewrite h_in_spec by apply gname_good.
  change ([] ++ [gname k]) with [gname k]. pose proof (rel_used _ _ R k) as Hu. rewrite Hu. destruct (used m k) eqn:U.
  - cbn [negb]. rewrite (h_get_some t [] (gname k) EGroup) by (try apply gname_good; exact Hu).
    change ([] ++ [gname k]) with [gname k]. destruct (h_keys_spec t [gname k] (rel_wf _ _ R) Hu) as (l & E & N & H).
    rewrite E. exists (Ok (RNames l)). split; [reflexivity|]. split; [assumption|]. intro n. rewrite H.
    change ([gname k] ++ [n]) with [gname k; n]. rewrite (rel_map _ _ R). destruct (amap m k n); simpl; split; congruence.
  - exists (Ok (RNames [])). split; [reflexivity|]. split; [constructor|]. intro n.
    assert (Ea : amap m k n = None).
    { pose proof (view_below_none t [gname k] [n] Hu) as H. change ([gname k] ++ [n]) with [gname k; n] in H.
      rewrite (rel_map _ _ R) in H. destruct (amap m k n); [discriminate|reflexivity]. }
    rewrite Ea. simpl. split; [tauto|discriminate].
Qed.

Lemma enc_json_ok : forall k v p, k = KDict \/ k = KList -> enc_json v = Ok p -> decode k p = Ok p.
Proof.
  intros k v p Hk. unfold enc_json. destruct (json_norm v); [|discriminate]. intro E. inversion E; subst.
  destruct Hk as [-> | ->]; reflexivity.
Qed.

Lemma enc_text_ok : forall s p, enc_text s = Ok p -> decode KString p = Ok p.
Proof. intros s p. unfold enc_text. destruct (existsb _ s); [discriminate|]. intro E. inversion E; reflexivity. Qed.

Lemma step_refines : forall o t m, Rel t m -> good_op o ->
  exists r t', step o t = (r, t') /\ agree r (fst (astep o m)) /\ Rel t' (snd (astep o m)).
Proof.
  intros o t m R G. destruct o as [n v|n v|n s|n a meta c|n f|k n|k n|k]; unfold good_op in G; cbn [op_name] in G; unfold step.
  - apply agree_set; auto. intros. eapply enc_json_ok; eauto.
  - apply agree_set; auto. intros. eapply enc_json_ok; eauto.
  - apply agree_set; auto. apply enc_text_ok.
  - apply agree_set_array; auto.
  - apply agree_set; auto. intros p E. inversion E; reflexivity.
  - destruct (agree_get t m k n R G) as (r & E & A). exists r, t. split; [exact E|]. split; [exact A|].
    cbn [astep]. destruct (amap m k n) as [[v a]|]; assumption.
  - apply agree_drop; auto.
  - destruct (agree_names t m k R) as (r & E & A). exists r, t. split; [exact E|]. split; [exact A|assumption].
Qed.

Lemma run_refines : forall ops t m, Rel t m -> Forall good_op ops ->
  Forall2 agree (fst (run step ops t)) (fst (arun ops m)) /\ Rel (snd (run step ops t)) (snd (arun ops m)).
Proof.
  induction ops as [|o ops IH]; intros t m R G.
  - simpl. split; [constructor|assumption].
  - inversion G; subst. destruct (step_refines o t m R) as (r & t' & E & A & R'); [assumption|].
    cbn [run arun]. rewrite E. destruct (astep o m) as [ar m'] eqn:Ea. cbn [fst snd] in *.
    destruct (IH t' m' R' H2) as [F R'']. destruct (run step ops t') as [rs t'']. destruct (arun ops m') as [ars m''].
    cbn [fst snd] in *. split; [constructor; assumption|assumption].
Qed.

Lemma container_refines : forall ops, Forall good_op ops ->
  Forall2 agree (fst (run step ops empty)) (fst (arun ops no_maps)).
Proof. intros ops G. exact (proj1 (run_refines ops empty no_maps rel_empty G)). Qed.

Lemma reached_rel : forall t, reached t -> exists m, Rel t m.
Proof.
  intros t (ops & G & ->). exists (snd (arun ops no_maps)). apply (run_refines ops empty no_maps rel_empty G).
Qed.

(** The abstract entry is changed only by writes to it. *)
Lemma astep_frame : forall o m k n, writes k n o = false -> amap (snd (astep o m)) k n = amap m k n.
Proof.
  assert (S : forall k' n' enc meta m k n, kind_eqb k k' && str_eqb n n' = false ->
            amap (snd (aset k' n' enc meta m)) k n = amap m k n).
  { intros k' n' enc meta m k n H. unfold aset. destruct enc; [|reflexivity]. destruct (amap m k' n') as [va|]; [reflexivity|].
    destruct (meta_written meta []). cbn [snd update amap touch].
    destruct (kind_eqb_spec k' k) as [->|]; [|reflexivity]. destruct (str_eqb_spec n' n) as [->|]; [|reflexivity].
    destruct (kind_eqb_spec k k); [|congruence]. rewrite str_eqb_refl in H. discriminate. }
  intros o m k n H. destruct o as [n' v|n' v|n' s|n' a meta c|n' f|k' n'|k' n'|k']; cbn [writes astep] in *; auto.
  - destruct (amap m k' n') as [[]|]; reflexivity.
  - destruct (amap m k' n') as [va|] eqn:E; [|reflexivity]. cbn [snd update amap].
    destruct (kind_eqb_spec k' k) as [->|]; [|reflexivity]. destruct (str_eqb_spec n' n) as [->|]; [|reflexivity].
    destruct (kind_eqb_spec k k); [|congruence]. rewrite str_eqb_refl in H. discriminate.
Qed.

Lemma arun_frame : forall ops m k n, forallb (fun o => negb (writes k n o)) ops = true ->
  amap (snd (arun ops m)) k n = amap m k n.
Proof.
  induction ops as [|o ops IH]; intros m k n H; [reflexivity|].
  cbn [forallb] in H. apply andb_true_iff in H as [H1 H2]. cbn [arun].
  pose proof (astep_frame o m k n) as F. destruct (astep o m) as [r m'].
  specialize (IH m' k n H2). destruct (arun ops m') as [rs m'']. cbn [snd] in *.
  rewrite IH. apply F. destruct (writes k n o); [discriminate|reflexivity].
Qed.

Lemma set_effect : forall o t m k n v a, Rel t m -> good_op o -> set_op k n v a o -> fst (step o t) = Ok RUnit ->
  amap (snd (astep o m)) k n = Some (v, a).
Proof.
  intros o t m k n v a R G S H.
  destruct (step_refines o t m R G) as (r & t' & E & A & _). rewrite E in H. cbn [fst] in H. subst r.
  assert (Gen : forall enc meta, enc = Ok v -> fst (meta_written meta []) = a ->
      agree (Ok RUnit) (fst (aset k n enc meta m)) -> amap (snd (aset k n enc meta m)) k n = Some (v, a)).
  { intros enc meta -> Hm. unfold aset. destruct (amap m k n) as [va|]; [intros []|].
    destruct (meta_written meta []) as [w c]. cbn [fst snd update amap touch] in *. subst w. intros _.
    destruct (kind_eqb_spec k k); [|congruence]. rewrite str_eqb_refl. reflexivity. }
  destruct o as [n' x|n' x|n' s|n' x meta c|n' f|k' n'|k' n'|k']; cbn [set_op] in S; try contradiction;
    destruct S as (-> & -> & Hv & ->); cbn [astep] in *.
  - apply Gen; auto.
  - apply Gen; auto.
  - apply Gen; auto. subst v. unfold enc_text in *. destruct (existsb _ s); [destruct A|reflexivity].
  - apply Gen; auto. subst v. unfold enc_arr in *. destruct (storable x); cbn [negb] in *; [|destruct A].
    destruct (shape x); [destruct c; [destruct A|]|]; reflexivity.
  - apply Gen; auto. subst v. reflexivity.
Qed.

Lemma last_set_wins : forall h1 o h2 k n v a, Forall good_op h1 -> good_op o -> Forall good_op h2 ->
  set_op k n v a o ->
  forallb (fun o' => negb (writes k n o')) h2 = true ->
  let t1 := snd (run step h1 empty) in
  fst (step o t1) = Ok RUnit ->
  fst (step (Get k n) (snd (run step h2 (snd (step o t1))))) = Ok (RVal v a).
Proof.
  intros h1 o h2 k n v a G1 Go G2 S W t1 H.
  destruct (run_refines h1 empty no_maps rel_empty G1) as [_ R1]. fold t1 in R1.
  set (m1 := snd (arun h1 no_maps)) in *.
  pose proof (set_effect o t1 m1 k n v a R1 Go S H) as Ea.
  destruct (step_refines o t1 m1 R1 Go) as (r & t2 & E & _ & R2). rewrite E. cbn [snd].
  destruct (run_refines h2 t2 (snd (astep o m1)) R2 G2) as [_ R3].
  set (m3 := snd (arun h2 (snd (astep o m1)))) in *.
  assert (E3 : amap m3 k n = Some (v, a)) by (unfold m3; rewrite arun_frame by assumption; exact Ea).
  assert (Gn : good_name n) by (destruct o; cbn [set_op] in S; try contradiction; destruct S as (-> & -> & _); exact Go).
  destruct (step_refines (Get k n) _ _ R3) as (r4 & t4 & E4 & A4 & _); [exact Gn|].
  rewrite E4. cbn [fst]. cbn [astep] in A4. rewrite E3 in A4. cbn [fst] in A4.
  destruct r4 as [[|v' a'|]|]; simpl in A4; try contradiction. destruct A4 as [-> ->]. reflexivity.
Qed.

(** Failed calls leave every stored value alone. *)
Lemma failed_get_same : forall t m k n, Rel t m -> good_name n ->
  fst (step (Get k n) t) = match amap m k n with
    | Some (v, a) => Ok (RVal v a) | None => Err (if used m k then LookupError else KeyError) end.
Proof.
  intros t m k n R G. destruct (step_refines (Get k n) t m R G) as (r & t' & E & A & _). rewrite E. cbn [fst].
  cbn [astep] in A. destruct (amap m k n) as [[v a]|]; cbn [fst] in A.
  - destruct r as [[|v' a'|]|]; simpl in A; try contradiction. destruct A as [-> ->]. reflexivity.
  - destruct r as [o|e]; simpl in A; [destruct o; contradiction|]. congruence.
Qed.
