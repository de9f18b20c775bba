(** Proofs about sending by copy. *)
From Coq Require Import ZArith String Ascii Bool List Lia.
From Verif Require Import PyBase PyStr FsModel FsSpec FsProofs PathProofs CopyModel CopySpec.
Import ListNotations.

(** ** The same on resolved paths *)
Definition tmpP (D : path) (st : str) : path := removelast D ++ [last D [] ++ str_of ".tmp_" ++ st].
Definition ensure (p : path) : act unit := d <- asks (is_dir p) ;; if (d : bool) then aret tt else makedirs [] p.
Definition publish (ch : str -> list str) (st : str) (src D : path) (mk : bool) : act unit :=
  (if mk then ensure (removelast D) else aret tt) ;;; (copyfile ch src (tmpP D st) ;;; os_rename (tmpP D st) D).

Lemma tmp_name_ok : forall n st, fname_ok n -> ~ In sl st -> fname_ok (n ++ str_of ".tmp_" ++ st).
Proof.
  intros n st (h1 & h2 & h3 & h4) Hs. repeat split.
  - destruct n; [congruence|discriminate].
  - intro E. apply (f_equal (@List.length _)) in E. rewrite !app_length in E. cbn in E. lia.
  - intro E. apply (f_equal (@List.length _)) in E. rewrite !app_length in E. cbn in E. lia.
  - rewrite !in_app_iff. intros [H|[H|H]]; [auto| |auto]. cbn in H. unfold sl, chr in H. cbn in H. intuition discriminate.
Qed.
Lemma tmpP_snoc : forall p n st, tmpP (p ++ [n]) st = p ++ [n ++ str_of ".tmp_" ++ st].
Proof. intros. unfold tmpP. rewrite removelast_last, last_last. reflexivity. Qed.
Lemma tmpP_neq : forall D st, D <> [] -> tmpP D st <> D.
Proof.
  intros D st H E. destruct (snoc_cases D H) as (p & n & ->). rewrite tmpP_snoc in E. apply app_inj_tail in E as [_ E].
  apply (f_equal (@List.length _)) in E. rewrite !app_length in E. cbn in E. lia.
Qed.

(** Where a joined name leads. *)
Lemma copy_is_publish : forall e i f rd lf a n,
  remote_name f rd lf = os_join a n -> fname_ok n -> ~ In sl (stamp e i) ->
  copy_file_with_path e i f rd lf =
  publish (chunk e i) (stamp e i) (resolve (cwd e) f) (resolve (cwd e) a ++ [n]) (match lf with Some _ => true | None => false end).
Proof.
  intros e i f rd lf a n E G Hs. unfold copy_file_with_path, publish, ensure, tmp_name. rewrite E, removelast_last, tmpP_snoc.
  pose proof G as (h1 & h2 & h3 & h4). rewrite (join_append a n) by assumption.
  rewrite !resolve_join_good by (try assumption; apply tmp_name_ok; assumption).
  destruct (split_join (cwd e) a n h4) as [_ ->]. destruct lf; reflexivity.
Qed.

Lemma slashed_join : forall l, slashed l = slash_join l.
Proof. induction l as [|x l IH]; [reflexivity|]. destruct l; [reflexivity|]. cbn [slashed slash_join] in *. rewrite IH. reflexivity. Qed.

Lemma remote_name_dir : forall cwd rd ld (rel : path), ld <> [] -> rel <> [] -> Forall fname_ok rel -> starts_sl rd = true ->
  ~ occurs ld (sl :: slash_join rel) ->
  exists a, remote_name (join_rel ld rel) rd (Some ld) = os_join a (last rel []) /\ resolve cwd a = resolve cwd rd ++ removelast rel.
Proof.
  intros cwd rd ld rel Hl Hr G Ha Hocc. unfold remote_name. rewrite (join_rel_string rel ld Hr G).
  assert (E : strip_sl (py_replace (dirpart ld ++ slash_join rel) ld []) = slash_join rel).
  { unfold dirpart. destruct ld as [|c ld]; [congruence|]. destruct (ends_sl (c :: ld)).
    - rewrite replace_prefix; [apply (strip_rel rel Hr G)|discriminate|]. intros (u & v & E). apply Hocc. exists (sl :: u), v. rewrite E. reflexivity.
    - rewrite <- app_assoc. rewrite replace_prefix; [apply (strip_rel rel Hr G)|discriminate|assumption]. }
  assert (Gs : Forall (fun x => ~ In sl x) rel) by (eapply Forall_impl; [|exact G]; intros x (_ & _ & _ & Hx); exact Hx).
  rewrite E, (slash_join_split rel Hr Gs).
  destruct (snoc_cases rel Hr) as (r & n & ->). rewrite last_last, removelast_last.
  exists (os_join_all (str_of "/") (split_sl (strip_sl rd) ++ r)). split.
  - rewrite app_assoc. unfold os_join_all. rewrite (fold_left_app _ _ [n]). reflexivity.
  - apply Forall_app in G as [G _]. rewrite resolve_join_all.
    + rewrite walk_parts_app. replace (resolve cwd (str_of "/")) with (@nil str) by reflexivity. rewrite walk_strip.
      rewrite walk_parts_good by assumption. unfold resolve. rewrite Ha. reflexivity.
    + apply Forall_app. split; [apply Forall_forall; intros x Hx; eapply split_sl_parts; eassumption|].
      eapply Forall_impl; [|exact G]. intros x (_ & _ & _ & Hx). exact Hx.
Qed.

Lemma split_base : forall f n, base_of f n -> snd (os_split f) = n.
Proof.
  intros f n (Hn & [->|(h & ->)]).
  - destruct (split_join [] [] n Hn) as [H _]. unfold os_join in H. rewrite plain_starts in H by assumption. exact H.
  - assert (E : h ++ sl :: n = os_join (h ++ [sl]) n).
    { rewrite os_join_dir by (apply plain_starts; assumption). unfold dirpart. assert (E : ends_sl (h ++ [sl]) = true) by (apply ends_sl_snoc; eauto).
      rewrite E. destruct (h ++ [sl]) eqn:Eh; [destruct h; discriminate|]. rewrite <- Eh, <- app_assoc. reflexivity. }
    rewrite E. apply (split_join [] _ n Hn).
Qed.
Lemma base_exists : forall f, base_of f (snd (os_split f)).
Proof.
  intro f. unfold os_split, base_of. cbn [snd].
  assert (G : forall s, ~ In sl (tail_part s) /\ s = tail_part s ++ head_part s /\ (head_part s = [] \/ exists r, head_part s = sl :: r)).
  { induction s as [|c s (a & b & d)]; [cbn; auto|]. cbn [tail_part head_part]. destruct (Ascii.eqb_spec c sl) as [->|Hc].
    - repeat split; [intros []|]. right. eauto.
    - repeat split; [intros [H|H]; auto|cbn [app]; congruence|assumption]. }
  destruct (G (rev f)) as (a & b & d). split; [rewrite <- in_rev; assumption|]. apply (f_equal (@rev _)) in b. rewrite rev_involutive, rev_app_distr in b.
  destruct d as [d|(r & d)]; rewrite d in b; [left; exact b|]. right. exists (rev r). rewrite b at 1. cbn [rev]. rewrite <- app_assoc. reflexivity.
Qed.
Lemma remote_name_list : forall f rd n, base_of f n -> remote_name f rd None = os_join rd n.
Proof. intros f rd n H. unfold remote_name. rewrite (split_base f n H). reflexivity. Qed.

(** ** Effects *)
Definition one {A} (m : list fsn * res A * fsn) (s : fsn) : Prop := In s (trace m) \/ s = final m.

Lemma bind_states : forall {A B} (m : act A) (f : A -> act B) t s, one ((x <- m ;; f x) t) s ->
  one (m t) s \/ exists a, result (m t) = Ok a /\ one (f a (final (m t))) s.
Proof.
  intros A B m f t s H. unfold one, trace, result, final, abind in *. destruct (m t) as [[tr [a|e]] t1]; cbn [fst snd] in *.
  - destruct (f a t1) as [[tr' r] t2] eqn:E; cbn [fst snd] in *. destruct H as [H| ->].
    + apply in_app_or in H as [H|H]; [auto|]. right. exists a. rewrite E. cbn [fst snd]. auto.
    + right. exists a. rewrite E. auto.
  - auto.
Qed.
Lemma bind_ok : forall {A B} (m : act A) (f : A -> act B) t b, result ((x <- m ;; f x) t) = Ok b ->
  exists a, result (m t) = Ok a /\ result (f a (final (m t))) = Ok b /\ final ((x <- m ;; f x) t) = final (f a (final (m t))).
Proof.
  intros A B m f t b H. unfold result, final, abind in *. destruct (m t) as [[tr [a|e]] t1]; cbn [fst snd] in *; [|discriminate].
  destruct (f a t1) as [[tr' r] t2] eqn:E; cbn [fst snd] in *. subst r. exists a. rewrite E. auto.
Qed.
Lemma bind_ok_run : forall {A B} (m : act A) (f : A -> act B) t a, result (m t) = Ok a ->
  result ((x <- m ;; f x) t) = result (f a (final (m t))) /\ final ((x <- m ;; f x) t) = final (f a (final (m t))).
Proof.
  intros A B m f t a H. unfold result, final, abind in *. destruct (m t) as [[tr [a'|e]] t1]; cbn [fst snd] in *; [|discriminate].
  injection H as ->. destruct (f a t1) as [[tr' r] t2]; auto.
Qed.
Lemma bind_err : forall {A B} (m : act A) (f : A -> act B) t e, result (m t) = Err e ->
  result ((x <- m ;; f x) t) = Err e /\ final ((x <- m ;; f x) t) = final (m t).
Proof.
  intros A B m f t e H. unfold result, final, abind in *. destruct (m t) as [[tr [a|e']] t1]; cbn [fst snd] in *; [discriminate|]. injection H as ->. auto.
Qed.
Lemma one_ret : forall {A} (a : A) t s, one (aret a t) s -> s = t.
Proof. intros A a t s [[]|H]. exact H. Qed.

(** *** Making directories *)
Definition grown (p : path) (t s : fsn) : Prop :=
  forall q, at_ s q = at_ t q \/ (at_ t q = None /\ at_ s q = Some EDir /\ below q p).
Lemma grown_refl : forall p t, grown p t t. Proof. intros p t q. auto. Qed.
Lemma grown_trans : forall p t1 t2 t3, grown p t1 t2 -> grown p t2 t3 -> grown p t1 t3.
Proof.
  intros p t1 t2 t3 H1 H2 q. destruct (H2 q) as [E2|(a & b & c)], (H1 q) as [E1|(a' & b' & c')].
  - left. congruence.
  - right. repeat split; congruence.
  - right. repeat split; congruence.
  - congruence.
Qed.
Lemma grown_weak : forall p p' t s, below p p' -> grown p t s -> grown p' t s.
Proof. intros p p' t s B H q. destruct (H q) as [E|(a & b & c)]; [auto|]. right. repeat split; auto. eapply below_trans; eassumption. Qed.

Lemma place_dir_grown : forall t p t', place t p (Dir []) = Some t' -> at_ t p = None -> grown p t t' /\ at_ t' p = Some EDir.
Proof.
  intros t p t' H N. pose proof (at_place _ _ _ _ H) as A. split.
  - intro q. rewrite A. destruct (cut p q) as [r|] eqn:E; [|auto]. apply cut_Some in E as ->. destruct r as [|x r].
    + right. rewrite app_nil_r. repeat split; auto. apply below_refl.
    + left. rewrite at_under_none by assumption. reflexivity.
  - rewrite A, cut_self. reflexivity.
Qed.

Lemma makedirs_eff : forall rest done t, at_ t done = Some EDir -> Forall fname_ok rest ->
  (forall s, one (makedirs done rest t) s -> grown (done ++ rest) t s /\ (wf t -> wf s)) /\
  (forall x, result (makedirs done rest t) = Ok x -> at_ (final (makedirs done rest t)) (done ++ rest) = Some EDir).
Proof.
  induction rest as [|n rest IH]; intros done t Hd G; cbn [makedirs].
  - split; [|intros; rewrite app_nil_r; exact Hd]. intros s H. apply one_ret in H as ->. split; [apply grown_refl|auto].
  - inversion G as [|? ? G1 G2]; subst. replace (done ++ n :: rest) with ((done ++ [n]) ++ rest) by (rewrite <- app_assoc; reflexivity).
    destruct (find t (done ++ [n])) as [[c|es]|] eqn:E.
    + split; [|intros x H; discriminate]. intros s [[]| ->]. split; [apply grown_refl|auto].
    + apply IH; [|assumption]. apply find_dir. eauto.
    + apply find_none in E. destruct (place_ok (done ++ [n]) t (Dir [])) as (t1 & P); [destruct done; discriminate|rewrite removelast_last; assumption|].
      destruct (place_dir_grown _ _ _ P E) as [Gr A1].
      assert (W1 : wf t -> wf t1).
      { intro W. eapply wf_place; [exact P|exact W| |rewrite last_last; assumption]. cbn. repeat split; constructor. }
      destruct (IH (done ++ [n]) t1 A1 G2) as [I1 I2].
      assert (C : result (change (fun t => place t (done ++ [n]) (Dir [])) IOErr t) = Ok tt /\ final (change (fun t => place t (done ++ [n]) (Dir [])) IOErr t) = t1 /\
                  trace (change (fun t => place t (done ++ [n]) (Dir [])) IOErr t) = [t1]) by (unfold change; rewrite P; auto).
      destruct C as (C1 & C2 & C3). split.
      * intros s H. apply bind_states in H as [[H|H]|(a & Ha & H)].
        -- rewrite C3 in H. destruct H as [<-|[]]. split; [eapply grown_weak; [apply below_app|exact Gr]|exact W1].
        -- rewrite C2 in H. subst s. split; [eapply grown_weak; [apply below_app|exact Gr]|exact W1].
        -- rewrite C2 in H. destruct (I1 s H) as [g w]. split; [|auto]. eapply grown_trans; [eapply grown_weak; [apply below_app|exact Gr]|exact g].
      * intros x H. apply bind_ok in H as (a & _ & H & ->). rewrite C2 in *. eapply I2. exact H.
Qed.

Lemma ensure_eff : forall p t, at_ t [] = Some EDir -> Forall fname_ok p ->
  (forall s, one (ensure p t) s -> grown p t s /\ (wf t -> wf s)) /\
  (forall x, result (ensure p t) = Ok x -> at_ (final (ensure p t)) p = Some EDir).
Proof.
  intros p t R G. unfold ensure. destruct (is_dir p t) eqn:E.
  - assert (H : forall B (f : bool -> act B), (d <- asks (is_dir p) ;; f d) t = f true t).
    { intros B f. unfold abind, asks. rewrite E. destruct (f true t) as [[tr r] t2]. reflexivity. }
    rewrite H. split; [intros s Hs; apply one_ret in Hs as ->; split; [apply grown_refl|auto]|].
    intros _ _. change (at_ t p = Some EDir). unfold is_dir in E. apply find_dir. destruct (find t p) as [[c|es]|]; try discriminate. eauto.
  - assert (H : forall B (f : bool -> act B), (d <- asks (is_dir p) ;; f d) t = f false t).
    { intros B f. unfold abind, asks. rewrite E. destruct (f false t) as [[tr r] t2]. reflexivity. }
    rewrite H. apply (makedirs_eff p [] t R G).
Qed.

(** *** Copying and renaming *)
Definition same_but (p : path) (t s : fsn) : Prop := forall q, q <> p -> at_ s q = at_ t q.
Lemma same_but_refl : forall p t, same_but p t t. Proof. intros p t q H. reflexivity. Qed.
Lemma same_but_trans : forall p a b c, same_but p a b -> same_but p b c -> same_but p a c.
Proof. intros p a b c H1 H2 q H. rewrite H2, H1; auto. Qed.

Lemma place_file : forall t p c t', place t p (File c) = Some t' -> at_ t p <> Some EDir ->
  same_but p t t' /\ at_ t' p = Some (EFile c).
Proof.
  intros t p c t' H N. pose proof (at_place _ _ _ _ H) as A. split.
  - intros q Hq. rewrite A. destruct (cut p q) as [r|] eqn:E; [|reflexivity]. apply cut_Some in E as ->. destruct r as [|x r]; [exfalso; apply Hq; rewrite app_nil_r; reflexivity|].
    destruct (at_ t (p ++ x :: r)) eqn:Ea; [|reflexivity]. apply at_above in Ea. congruence.
  - rewrite A, cut_self. reflexivity.
Qed.

Lemma open_write_eff : forall p t, let m := open_write p t in
  (result m = Ok tt -> same_but p t (final m) /\ at_ (final m) p = Some (EFile []) /\ at_ t p <> Some EDir /\ at_ t (removelast p) = Some EDir /\ p <> []) /\
  (forall e, result m = Err e -> final m = t) /\
  (forall s, one m s -> same_but p t s) /\
  (fname_ok (last p []) -> forall s, one m s -> wf t -> wf s).
Proof.
  intros p t m. subst m. unfold open_write, change, one.
  assert (K : match find t p with Some (Dir _) => None | _ => place t p (File []) end = None \/
     exists t', match find t p with Some (Dir _) => None | _ => place t p (File []) end = Some t' /\ place t p (File []) = Some t' /\ at_ t p <> Some EDir).
  { destruct (find t p) as [[c|es]|] eqn:E; [| auto |].
    - destruct (place t p (File [])) as [t'|]; [right; exists t'|auto]. repeat split. intro H. apply find_dir in H as (es & H). congruence.
    - destruct (place t p (File [])) as [t'|]; [right; exists t'|auto]. repeat split. intro H. apply find_dir in H as (es & H). congruence. }
  destruct K as [->|(t' & -> & P & N)].
  - cbn. repeat split; try discriminate; auto; intros; destruct H; subst; try contradiction; auto using same_but_refl.
    destruct H0 as [[]| ->]. assumption.
  - destruct (place_file _ _ _ _ P N) as [SB A]. destruct (place_parent _ _ _ _ P) as [Np Pa]. cbn. repeat split; try discriminate; auto.
    + intros s [[<-|[]]| ->]; assumption.
    + intros G s [[<-|[]]| ->] W; eapply wf_place; eauto; exact I.
Qed.

Lemma append_eff : forall p x t c, p <> [] -> at_ t p = Some (EFile c) -> let m := append_file p x t in
  result m = Ok tt /\ same_but p t (final m) /\ at_ (final m) p = Some (EFile (c ++ x)) /\
  (forall s, one m s -> same_but p t s) /\ (wf t -> fname_ok (last p []) -> forall s, one m s -> wf s).
Proof.
  intros p x t c Hp A m. subst m. unfold append_file, change, one. pose proof A as F. apply find_file in F. rewrite F.
  assert (Pa : at_ t (removelast p) = Some EDir).
  { destruct (snoc_cases p Hp) as (r & y & E). rewrite E in A |- *. rewrite removelast_last. apply at_above in A. assumption. }
  destruct (place_ok p t (File (c ++ x))) as (t' & P); [assumption|assumption|]. rewrite P. cbn.
  destruct (place_file _ _ _ _ P) as [SB A']; [congruence|]. repeat split; auto.
  - intros s [[<-|[]]| ->]; assumption.
  - intros W G s [[<-|[]]| ->]; eapply wf_place; eauto; exact I.
Qed.
