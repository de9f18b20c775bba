(** Lemmas about the file-system model. *)
From Coq Require Import ZArith FinFun String Ascii Bool List Lia.
From Verif Require Import PyBase PyStr FsModel FsSpec.
Import ListNotations.

(** ** Association lists *)
Lemma aget_aset : forall {A} k (v : A) l k', aget k' (aset k v l) = if str_eqb k k' then Some v else aget k' l.
Proof.
  induction l as [|[x y] l IH]; intro k'; cbn [aset aget].
  - rewrite str_eqb_sym. destruct (str_eqb k k'); reflexivity.
  - destruct (str_eqb_spec k x) as [->|Hn]; cbn [aget].
    + rewrite (str_eqb_sym k' x). destruct (str_eqb x k'); reflexivity.
    + rewrite IH. destruct (str_eqb_spec k' x) as [->|Hn']; [|reflexivity].
      destruct (str_eqb_spec k x); [congruence|reflexivity].
Qed.
Lemma aget_adel : forall {A} k (l : list (str * A)) k', aget k' (adel k l) = if str_eqb k k' then None else aget k' l.
Proof.
  induction l as [|[x y] l IH]; intro k'; cbn [adel filter aget fst].
  - destruct (str_eqb k k'); reflexivity.
  - fold (adel k l). destruct (str_eqb_spec k x) as [->|Hn]; cbn [negb aget].
    + rewrite IH. destruct (str_eqb_spec x k') as [->|]; [reflexivity|]. destruct (str_eqb_spec k' x); [congruence|reflexivity].
    + rewrite IH. destruct (str_eqb_spec k' x) as [->|]; [|reflexivity]. destruct (str_eqb_spec k x); [congruence|reflexivity].
Qed.
Lemma aset_keys : forall {A} k (v : A) l x, In x (map fst (aset k v l)) <-> x = k \/ In x (map fst l).
Proof.
  induction l as [|[k' v'] l IH]; intro x; cbn [aset map fst In]; [intuition|].
  destruct (str_eqb_spec k k') as [->|Hne]; cbn [map fst In]; [intuition|]. rewrite IH. intuition.
Qed.
Lemma aset_nodup : forall {A} k (v : A) l, NoDup (map fst l) -> NoDup (map fst (aset k v l)).
Proof.
  induction l as [|[k' v'] l IH]; intro H; cbn [aset map fst]; [constructor; [intros []|constructor]|].
  inversion H; subst. destruct (str_eqb_spec k k') as [->|Hne]; cbn [map fst]; constructor; auto.
  rewrite aset_keys. intros [E|E]; congruence.
Qed.
Lemma adel_sub : forall {A} k (l : list (str * A)) x, In x (map fst (adel k l)) -> In x (map fst l).
Proof.
  intros A k l x H. apply in_map_iff in H as (y & <- & H). apply filter_In in H as [H _]. apply in_map. assumption.
Qed.
Lemma adel_nodup : forall {A} k (l : list (str * A)), NoDup (map fst l) -> NoDup (map fst (adel k l)).
Proof.
  induction l as [|[k' v'] l IH]; intro H; cbn [adel filter fst]; [constructor|]. inversion H; subst.
  destruct (negb (str_eqb k k')); [|apply IH; assumption]. cbn [map fst]. constructor; [|apply IH; assumption].
  intro Hx. apply adel_sub in Hx. contradiction.
Qed.
Lemma aget_In : forall {A} k (v : A) l, aget k l = Some v -> In (k, v) l.
Proof.
  induction l as [|[x y] l IH]; intro H; cbn [aget] in H; [discriminate|].
  destruct (str_eqb_spec k x) as [->|]; [injection H as ->; left; reflexivity|right; auto].
Qed.
Lemma aget_nodup : forall {A} k (v : A) l, NoDup (map fst l) -> In (k, v) l -> aget k l = Some v.
Proof.
  induction l as [|[x y] l IH]; intros N H; [destruct H|]. inversion N; subst. cbn [aget]. destruct H as [H|H].
  - injection H as -> ->. rewrite str_eqb_refl. reflexivity.
  - destruct (str_eqb_spec k x) as [->|]; [|auto]. exfalso. apply H2. apply in_map_iff. exists (x, v). auto.
Qed.

(** ** Prefixes *)
Fixpoint cut (p q : path) : option path :=
  match p, q with
  | [], _ => Some q
  | x :: p', y :: q' => if str_eqb x y then cut p' q' else None
  | _, _ => None
  end.
Lemma cut_Some : forall p q r, cut p q = Some r <-> q = p ++ r.
Proof.
  induction p as [|x p IH]; intros q r; cbn [cut app]; [split; congruence|]. destruct q as [|y q]; [split; discriminate|].
  destruct (str_eqb_spec x y) as [->|]; [rewrite IH; split; congruence|split; congruence].
Qed.
Lemma cut_None : forall p q, cut p q = None <-> ~ below p q.
Proof.
  intros p q. destruct (cut p q) as [r|] eqn:E.
  - apply cut_Some in E. split; [discriminate|]. intro H. exfalso. apply H. exists r. assumption.
  - split; [|reflexivity]. intros _ (r & H). apply cut_Some in H. congruence.
Qed.
Lemma cut_app : forall p r, cut p (p ++ r) = Some r. Proof. intros. apply cut_Some. reflexivity. Qed.
Lemma cut_self : forall p, cut p p = Some []. Proof. intro p. apply cut_Some. symmetry. apply app_nil_r. Qed.
Lemma below_app : forall p r, below p (p ++ r). Proof. intros. exists r. reflexivity. Qed.
Lemma below_refl : forall p, below p p. Proof. intro p. exists []. symmetry. apply app_nil_r. Qed.
Lemma below_trans : forall p q r, below p q -> below q r -> below p r.
Proof. intros p q r (a & ->) (b & ->). exists (a ++ b). rewrite app_assoc. reflexivity. Qed.
Lemma below_dec : forall p q, {below p q} + {~ below p q}.
Proof. intros p q. destruct (cut p q) as [r|] eqn:E; [left; exists r; apply cut_Some; assumption|right; apply cut_None; assumption]. Qed.
Lemma below_anti : forall p q, below p q -> below q p -> p = q.
Proof.
  intros p q (r & ->) (r' & H). rewrite <- app_assoc in H. rewrite <- (app_nil_r p) in H at 1. apply app_inv_head in H.
  symmetry in H. apply app_eq_nil in H as [-> _]. rewrite app_nil_r. reflexivity.
Qed.
Lemma below_linear : forall p q r, below p r -> below q r -> below p q \/ below q p.
Proof.
  intros p q r (a & ->) (b & E). revert q b E. induction p as [|x p IH]; intros q b E; [left; exists q; reflexivity|].
  destruct q as [|y q]; [right; exists (x :: p); reflexivity|]. cbn [app] in E. injection E as -> E.
  destruct (IH q b E) as [(z & ->)|(z & ->)]; [left; exists z; reflexivity|right; exists z; reflexivity].
Qed.
Lemma removelast_snoc : forall {A} (l : list A) x, removelast (l ++ [x]) = l.
Proof. intros. apply removelast_last. Qed.
Lemma below_parent : forall p q, p <> q -> below p q -> q <> [] /\ below p (removelast q).
Proof.
  intros p q Hn (r & ->). destruct r as [|x r]; [exfalso; apply Hn; rewrite app_nil_r; reflexivity|].
  split; [destruct p; discriminate|]. exists (removelast (x :: r)). apply removelast_app. discriminate.
Qed.
Lemma snoc_cases : forall {A} (l : list A), l <> [] -> exists r x, l = r ++ [x].
Proof. intros A l H. destruct (exists_last H) as (r & x & ->). eauto. Qed.

(** ** Trees *)
Lemma find_app : forall p q t, find t (p ++ q) = match find t p with Some n => find n q | None => None end.
Proof.
  induction p as [|s p IH]; intros q t; cbn [find app]; [reflexivity|]. destruct t as [c|es]; [reflexivity|].
  destruct (aget s es); [apply IH|reflexivity].
Qed.

Lemma at_above : forall t p s q e, at_ t (p ++ s :: q) = Some e -> at_ t p = Some EDir.
Proof.
  intros t p s q e H. unfold at_ in *. rewrite find_app in H. destruct (find t p) as [[c|es]|]; cbn [find] in H; [discriminate|reflexivity|discriminate].
Qed.
Lemma at_under_file : forall t p c q, at_ t p = Some (EFile c) -> q <> [] -> at_ t (p ++ q) = None.
Proof.
  intros t p c q H Hq. destruct (at_ t (p ++ q)) eqn:E; [|reflexivity]. destruct q as [|s q]; [congruence|].
  apply at_above in E. congruence.
Qed.
Lemma at_under_none : forall t p q, at_ t p = None -> at_ t (p ++ q) = None.
Proof.
  intros t p q H. destruct q as [|s q]; [rewrite app_nil_r; assumption|]. destruct (at_ t (p ++ s :: q)) eqn:E; [|reflexivity].
  apply at_above in E. congruence.
Qed.
Lemma find_file : forall t p c, find t p = Some (File c) <-> at_ t p = Some (EFile c).
Proof. intros. unfold at_. destruct (find t p) as [[]|]; split; congruence. Qed.
Lemma find_dir : forall t p, (exists es, find t p = Some (Dir es)) <-> at_ t p = Some EDir.
Proof. intros. unfold at_. destruct (find t p) as [[]|]; split; intro H; try discriminate; try (destruct H; discriminate); eauto. Qed.
Lemma find_none : forall t p, find t p = None <-> at_ t p = None.
Proof. intros. unfold at_. destruct (find t p) as [[]|]; split; congruence. Qed.

Lemma at_place : forall p t n t', place t p n = Some t' -> forall q,
  at_ t' q = match cut p q with Some r => at_ n r | None => at_ t q end.
Proof.
  assert (F : forall p t n t', place t p n = Some t' -> forall q,
    match cut p q with
    | Some r => find t' q = find n r
    | None => at_ t' q = at_ t q
    end).
  { induction p as [|s p IH]; intros t n t' H q; cbn [place] in H; [discriminate|].
    destruct t as [c|es]; [discriminate|]. destruct p as [|s' p].
    - injection H as <-. destruct q as [|y q]; [reflexivity|]. cbn [cut]. destruct (str_eqb_spec s y) as [<-|Hn].
      + cbn [find]. rewrite aget_aset, str_eqb_refl. reflexivity.
      + unfold at_. cbn [find]. rewrite aget_aset. destruct (str_eqb_spec s y); [congruence|reflexivity].
    - destruct (aget s es) as [c|] eqn:Ec; [|discriminate]. destruct (place c (s' :: p) n) as [c'|] eqn:Ep; [|discriminate].
      injection H as <-. specialize (IH c n c' Ep). destruct q as [|y q]; [reflexivity|]. cbn [cut].
      destruct (str_eqb_spec s y) as [<-|Hn].
      + specialize (IH q). destruct (cut (s' :: p) q) as [r|] eqn:Er.
        * cbn [cut] in Er. destruct q as [|z q]; [discriminate|]. cbn [cut]. rewrite Er. cbn [find]. rewrite aget_aset, str_eqb_refl. exact IH.
        * replace (match q with [] => None | y :: q' => if str_eqb s' y then cut p q' else None end) with (cut (s' :: p) q) by reflexivity.
          rewrite Er. unfold at_ in *. cbn [find]. rewrite aget_aset, str_eqb_refl, Ec. exact IH.
      + unfold at_. cbn [find]. rewrite aget_aset. destruct (str_eqb_spec s y); [congruence|reflexivity]. }
  intros p t n t' H q. specialize (F p t n t' H q). destruct (cut p q) as [r|]; [|assumption]. unfold at_. rewrite F. reflexivity.
Qed.

Lemma at_unlink : forall p t t', unlink t p = Some t' -> forall q,
  at_ t' q = match cut p q with Some r => None | None => at_ t q end.
Proof.
  induction p as [|s p IH]; intros t t' H q; cbn [unlink] in H; [discriminate|].
  destruct t as [c|es]; [discriminate|]. destruct (aget s es) as [c|] eqn:Ec; [|discriminate]. destruct p as [|s' p].
  - injection H as <-. destruct q as [|y q]; [reflexivity|]. cbn [cut]. unfold at_. cbn [find]. rewrite aget_adel.
    destruct (str_eqb s y); reflexivity.
  - destruct (unlink c (s' :: p)) as [c'|] eqn:Ep; [|discriminate]. injection H as <-. specialize (IH c c' Ep).
    destruct q as [|y q]; [reflexivity|]. cbn [cut]. unfold at_ in *. cbn [find]. rewrite aget_aset.
    destruct (str_eqb_spec s y) as [<-|Hn]; [|reflexivity]. rewrite Ec. specialize (IH q). exact IH.
Qed.

Lemma place_parent : forall p t n t', place t p n = Some t' -> p <> [] /\ at_ t (removelast p) = Some EDir.
Proof.
  induction p as [|s p IH]; intros t n t' H; cbn [place] in H; [discriminate|]. split; [discriminate|].
  destruct t as [c|es]; [discriminate|]. destruct p as [|s' p]; [reflexivity|].
  destruct (aget s es) as [c|] eqn:Ec; [|discriminate]. destruct (place c (s' :: p) n) as [c'|] eqn:Ep; [|discriminate].
  apply IH in Ep as [_ Ep]. change (removelast (s :: s' :: p)) with (s :: removelast (s' :: p)). unfold at_ in *. cbn [find]. rewrite Ec. exact Ep.
Qed.
Lemma place_ok : forall p t n, p <> [] -> at_ t (removelast p) = Some EDir -> exists t', place t p n = Some t'.
Proof.
  induction p as [|s p IH]; intros t n Hp H; [congruence|]. cbn [place]. destruct p as [|s' p].
  - destruct t as [c|es]; [discriminate|eexists; reflexivity].
  - change (removelast (s :: s' :: p)) with (s :: removelast (s' :: p)) in H. unfold at_ in H. cbn [find] in H.
    destruct t as [c|es]; [discriminate|]. destruct (aget s es) as [c|] eqn:Ec; [|discriminate].
    destruct (IH c n) as (c' & E); [discriminate|exact H|]. cbn [place] in E |- *. rewrite E. eexists; reflexivity.
Qed.
Lemma unlink_ok : forall p t, p <> [] -> at_ t p <> None -> exists t', unlink t p = Some t'.
Proof.
  induction p as [|s p IH]; intros t Hp H; [congruence|]. cbn [unlink]. unfold at_ in H. cbn [find] in H.
  destruct t as [c|es]; [congruence|]. destruct (aget s es) as [c|] eqn:Ec; [|congruence]. destruct p as [|s' p]; [eauto|].
  destruct (IH c) as (c' & E); [discriminate|exact H|]. cbn [unlink] in E |- *. rewrite E. eexists; reflexivity.
Qed.
Lemma unlink_nonroot : forall p t t', unlink t p = Some t' -> p <> [].
Proof. intros [|s p] t t' H; [discriminate|discriminate]. Qed.

Lemma wf_aset : forall es s c, fold_right (fun kn P => wf (snd kn) /\ P) True es -> wf c -> fold_right (fun kn P => wf (snd kn) /\ P) True (aset s c es).
Proof.
  induction es as [|[k n] es IH]; intros s c H Hc; cbn [aset fold_right snd] in *; [auto|]. destruct H as [H1 H2].
  destruct (str_eqb s k); cbn [fold_right snd]; auto.
Qed.
Lemma wf_aget : forall es s c, fold_right (fun kn P => wf (snd kn) /\ P) True es -> aget s es = Some c -> wf c.
Proof.
  induction es as [|[k n] es IH]; intros s c H Hc; cbn [aget fold_right snd] in *; [discriminate|]. destruct H as [H1 H2].
  destruct (str_eqb s k); [injection Hc as <-; assumption|eauto].
Qed.
Lemma wf_adel : forall es s, fold_right (fun kn P => wf (snd kn) /\ P) True es -> fold_right (fun kn P => wf (snd kn) /\ P) True (adel s es).
Proof.
  induction es as [|[k n] es IH]; intros s H; cbn [adel filter fold_right snd fst] in *; [auto|]. destruct H as [H1 H2].
  fold (adel s es). destruct (negb (str_eqb s k)); cbn [fold_right snd]; auto.
Qed.

Lemma wf_dir_aset : forall es s c, wf (Dir es) -> fname_ok s -> wf c -> wf (Dir (aset s c es)).
Proof.
  intros es s c (N & G & W) Hs Hc. repeat split.
  - apply aset_nodup. assumption.
  - rewrite Forall_forall in *. intros x Hx. apply aset_keys in Hx as [->|Hx]; auto.
  - apply wf_aset; assumption.
Qed.
Lemma aget_ok : forall es s c, wf (Dir es) -> aget s es = Some c -> fname_ok s.
Proof.
  intros es s c (N & G & W) H. apply aget_In in H. rewrite Forall_forall in G. apply G. apply in_map_iff. exists (s, c). auto.
Qed.

Lemma wf_place : forall p t n t', place t p n = Some t' -> wf t -> wf n -> fname_ok (last p []) -> wf t'.
Proof.
  induction p as [|s p IH]; intros t n t' H W Wn G; cbn [place] in H; [discriminate|].
  destruct t as [c|es]; [discriminate|]. destruct p as [|s' p].
  - injection H as <-. apply wf_dir_aset; assumption.
  - destruct (aget s es) as [c|] eqn:Ec; [|discriminate]. destruct (place c (s' :: p) n) as [c'|] eqn:Ep; [|discriminate].
    injection H as <-. apply wf_dir_aset; [assumption|eapply aget_ok; eassumption|].
    eapply IH; [eassumption| |assumption|exact G]. destruct W as (_ & _ & W). eapply wf_aget; eassumption.
Qed.
Lemma wf_unlink : forall p t t', unlink t p = Some t' -> wf t -> wf t'.
Proof.
  induction p as [|s p IH]; intros t t' H W; cbn [unlink] in H; [discriminate|].
  destruct t as [c|es]; [discriminate|]. destruct (aget s es) as [c|] eqn:Ec; [|discriminate]. destruct p as [|s' p].
  - injection H as <-. destruct W as (N & G & W). repeat split.
    + apply adel_nodup. assumption.
    + rewrite Forall_forall in *. intros x Hx. apply G. eapply adel_sub. eassumption.
    + apply wf_adel. assumption.
  - destruct (unlink c (s' :: p)) as [c'|] eqn:Ep; [|discriminate]. injection H as <-.
    apply wf_dir_aset; [assumption|eapply aget_ok; eassumption|]. eapply IH; [eassumption|].
    destruct W as (_ & _ & W). eapply wf_aget; eassumption.
Qed.

Lemma wf_names : forall p t, wf t -> at_ t p <> None -> Forall fname_ok p.
Proof.
  induction p as [|s p IH]; intros t W H; [constructor|]. unfold at_ in H. cbn [find] in H. destruct t as [c|es]; [congruence|].
  destruct (aget s es) as [c|] eqn:Ec; [|congruence]. constructor; [eapply aget_ok; eassumption|].
  apply (IH c); [destruct W as (_ & _ & W); eapply wf_aget; eassumption|]. exact H.
Qed.
Lemma wf_find : forall p t n, wf t -> find t p = Some n -> wf n.
Proof.
  induction p as [|s p IH]; intros t n W H; cbn [find] in H; [injection H as <-; assumption|].
  destruct t as [c|es]; [discriminate|]. destruct (aget s es) as [c|] eqn:Ec; [|discriminate].
  apply (IH c); [destruct W as (_ & _ & W); eapply wf_aget; eassumption|assumption].
Qed.

(** ** Walking *)
Fixpoint walk_rel (t : fsn) : list path :=
  match t with
  | File _ => []
  | Dir es =>
      flat_map (fun kn => match kn with (n, File _) => [[n]] | _ => [] end) es ++
      flat_map (fun kn => match kn with (n, c) => map (cons n) (walk_rel c) end) es
  end.
Definition join_rel (root : str) (rel : path) : str := fold_left os_join rel root.

Fixpoint fsn_ind2 (P : fsn -> Prop) (Hf : forall c, P (File c)) (Hd : forall es, Forall (fun kn => P (snd kn)) es -> P (Dir es)) (t : fsn) : P t :=
  match t with
  | File c => Hf c
  | Dir es => Hd es ((fix go l : Forall (fun kn => P (snd kn)) l := match l with [] => Forall_nil _ | x :: r => Forall_cons x (fsn_ind2 P Hf Hd (snd x)) (go r) end) es)
  end.

Lemma walk_files_rel : forall t root, walk_files root t = map (join_rel root) (walk_rel t).
Proof.
  induction t as [c|es IH] using fsn_ind2; intro root; cbn [walk_files walk_rel]; [reflexivity|].
  rewrite map_app. f_equal.
  - clear IH. induction es as [|[n [c|es']] es IHl]; cbn [flat_map]; [reflexivity| |assumption]. cbn [app map]. rewrite IHl. reflexivity.
  - induction IH as [|[n c] es Hc Hes IHl]; cbn [flat_map]; [reflexivity|]. cbn [snd] in Hc. rewrite map_app, IHl, Hc, map_map. reflexivity.
Qed.

Lemma at_dir : forall es s p, at_ (Dir es) (s :: p) = match aget s es with Some c => at_ c p | None => None end.
Proof. intros. unfold at_. cbn [find]. destruct (aget s es); reflexivity. Qed.

Lemma walk_rel_spec : forall t, wf t -> (forall rel, In rel (walk_rel t) <-> rel <> [] /\ exists c, at_ t rel = Some (EFile c)) /\ NoDup (walk_rel t).
Proof.
  induction t as [c|es IH] using fsn_ind2; intro W.
  - split; [|constructor]. intro rel. cbn [walk_rel In]. split; [tauto|]. intros [H (c' & E)]. destruct rel; [congruence|discriminate].
  - destruct W as (N & G & W).
    assert (Hw : forall n c, In (n, c) es -> wf c /\ aget n es = Some c).
    { intros n c H. pose proof (aget_nodup n c es N H) as E. split; [eapply wf_aget; eassumption|assumption]. }
    rewrite Forall_forall in IH.
    assert (A : forall rel, In rel (flat_map (fun kn : str * fsn => match kn with (n, File _) => [[n]] | _ => [] end) es) <-> exists n c, rel = [n] /\ In (n, File c) es).
    { intro rel. rewrite in_flat_map. split.
      - intros ([n [c|e]] & H & Hr); [|destruct Hr]. destruct Hr as [<-|[]]. eauto.
      - intros (n & c & -> & H). exists (n, File c). split; [assumption|left; reflexivity]. }
    assert (B : forall rel, In rel (flat_map (fun kn : str * fsn => match kn with (n, c) => map (cons n) (walk_rel c) end) es) <->
       exists n c r, rel = n :: r /\ In (n, c) es /\ In r (walk_rel c)).
    { intro rel. rewrite in_flat_map. split.
      - intros ([n c] & H & Hr). apply in_map_iff in Hr as (r & <- & Hr). eauto 6.
      - intros (n & c & r & -> & H & Hr). exists (n, c). split; [assumption|]. apply in_map. assumption. }
    split.
    + intro rel. cbn [walk_rel]. rewrite in_app_iff, A, B. split.
      * intros [(n & c & -> & H)|(n & c & r & -> & H & Hr)].
        -- split; [discriminate|]. exists c. rewrite at_dir. rewrite (proj2 (Hw _ _ H)). reflexivity.
        -- split; [discriminate|]. destruct (Hw _ _ H) as [Wc Ec]. apply (IH (n, c) H) in Hr; [|assumption]. destruct Hr as (Hr & c' & E).
           exists c'. rewrite at_dir, Ec. exact E.
      * intros [Hne (c & E)]. destruct rel as [|n r]; [congruence|]. rewrite at_dir in E. destruct (aget n es) as [m|] eqn:En; [|discriminate].
        pose proof (aget_In _ _ _ En) as Hin. destruct r as [|s r].
        -- left. destruct m as [c'|]; [|discriminate]. eauto.
        -- right. exists n, m, (s :: r). repeat split; auto. apply (IH (n, m) Hin); [apply (Hw _ _ Hin)|]. split; [discriminate|eauto].
    + cbn [walk_rel].
      assert (NA : NoDup (flat_map (fun kn : str * fsn => match kn with (n, File _) => [[n]] | _ => [] end) es)).
      { clear - N. induction es as [|[n m] es IHl]; [constructor|]. cbn [flat_map map fst] in *. inversion N; subst. specialize (IHl H2).
        destruct m as [c|e]; [|exact IHl]. cbn [app]. constructor; [|assumption]. intro H. apply in_flat_map in H as ([n' [c'|e]] & H & Hr); [|destruct Hr].
        destruct Hr as [E|[]]. injection E as ->. apply H1. apply in_map_iff. exists (n, File c'). auto. }
      assert (NB : NoDup (flat_map (fun kn : str * fsn => match kn with (n, c) => map (cons n) (walk_rel c) end) es)).
      { assert (Hall : forall n c, In (n, c) es -> NoDup (walk_rel c)) by (intros n c H; apply (IH (n, c) H); apply (Hw _ _ H)).
        clear - N Hall. induction es as [|[n m] es IHl]; [constructor|]. cbn [flat_map map fst] in *. inversion N; subst.
        assert (H0 : NoDup (map (cons n) (walk_rel m))).
        { apply Injective_map_NoDup; [intros x y E; injection E; auto|]. apply (Hall n m). left. reflexivity. }
        specialize (IHl H2 (fun n' c H => Hall n' c (or_intror H))).
        assert (D : forall x, In x (map (cons n) (walk_rel m)) -> ~ In x (flat_map (fun kn : str * fsn => match kn with (n, c) => map (cons n) (walk_rel c) end) es)).
        { intros x Hx Hy. apply in_map_iff in Hx as (r & <- & _). apply in_flat_map in Hy as ([n' c'] & Hc & Hy). apply in_map_iff in Hy as (r' & E & _).
          injection E as -> _. apply H1. apply in_map_iff. exists (n, c'). auto. }
        revert H0 IHl D. generalize (map (cons n) (walk_rel m)) as l1. generalize (flat_map (fun kn : str * fsn => match kn with (n, c) => map (cons n) (walk_rel c) end) es) as l2.
        clear. induction l1 as [|x l1 IH]; intros H0 Hl2 D; [assumption|]. cbn [app]. inversion H0; subst. constructor.
        - rewrite in_app_iff. intros [H|H]; [contradiction|]. apply (D x); [left; reflexivity|assumption].
        - apply IH; auto. intros y Hy. apply D. right. assumption. }
      revert NA NB. assert (D : forall x, In x (flat_map (fun kn : str * fsn => match kn with (n, File _) => [[n]] | _ => [] end) es) ->
         ~ In x (flat_map (fun kn : str * fsn => match kn with (n, c) => map (cons n) (walk_rel c) end) es)).
      { intros x Hx Hy. apply A in Hx as (n & c & -> & H). apply B in Hy as (n' & c' & r & E & H' & Hr). injection E as <- <-.
        destruct (Hw _ _ H) as [_ E1]. destruct (Hw _ _ H') as [_ E2]. rewrite E1 in E2. injection E2 as <-. destruct Hr. }
      revert D. generalize (flat_map (fun kn : str * fsn => match kn with (n, File _) => [[n]] | _ => [] end) es) as l1.
      generalize (flat_map (fun kn : str * fsn => match kn with (n, c) => map (cons n) (walk_rel c) end) es) as l2. clear.
      intros l2 l1. induction l1 as [|x l1 IH]; intros D NA NB; [assumption|]. cbn [app]. inversion NA; subst. constructor.
      * rewrite in_app_iff. intros [H|H]; [contradiction|]. apply (D x); [left; reflexivity|assumption].
      * apply IH; auto. intros y Hy. apply D. right. assumption.
Qed.
