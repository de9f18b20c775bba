(** Sending and cancelling by FTP. *)
From Coq Require Import ZArith String Ascii Bool List Lia.
From Verif Require Import PyBase PyStr FsModel FsSpec FsProofs PathProofs CopyModel CopySpec CopyProofs CopyStepProofs CopySendProofs FtpModel FtpSpec FtpProofs.
Import ListNotations.

Lemma join_slash : forall l, join (str_of "/") l = slash_join l.
Proof. induction l as [|x l IH]; [reflexivity|]. destruct l as [|y l]; [reflexivity|]. rewrite slash_join_cons, <- IH. reflexivity. Qed.
Lemma slash_join_app : forall a b, a <> [] -> b <> [] -> slash_join (a ++ b) = slash_join a ++ sl :: slash_join b.
Proof.
  induction a as [|x a IH]; intros b Ha Hb; [congruence|]. destruct a as [|y a].
  - cbn [app]. destruct b as [|z b]; [congruence|]. reflexivity.
  - cbn [app]. rewrite slash_join_cons. change (y :: a ++ b) with ((y :: a) ++ b). rewrite IH by (discriminate || assumption). rewrite slash_join_cons, <- app_assoc. reflexivity.
Qed.
Lemma join_split : forall u, slash_join (split_sl u) = u.
Proof.
  induction u as [|c u IH]; [reflexivity|]. cbn [split_sl]. destruct (Ascii.eqb_spec c sl) as [->|N].
  - destruct (split_sl u) as [|x r] eqn:Es; [exfalso; eapply split_sl_nonempty; exact Es|]. rewrite slash_join_cons, IH. reflexivity.
  - destruct (split_sl u) as [|x r] eqn:Es; [exfalso; eapply split_sl_nonempty; exact Es|]. destruct r as [|y r]; [cbn in *; congruence|].
    rewrite slash_join_cons in *. cbn [app]. congruence.
Qed.
Lemma strip_start : forall u c r, strip_sl u = c :: r -> c <> sl.
Proof.
  intros u c r H ->. unfold strip_sl in H. destruct (rstrip_repeat (lstrip_sl u)) as (n & E0). rewrite H in E0.
  assert (K : forall v, starts_sl (lstrip_sl v) = false).
  { induction v as [|x v IH]; [reflexivity|]. cbn [lstrip_sl]. destruct (Ascii.eqb x sl) eqn:Ex; [assumption|]. cbn [starts_sl]. assumption. }
  specialize (K u). rewrite E0 in K. cbn [app starts_sl] in K. rewrite Ascii.eqb_refl in K. discriminate.
Qed.

(** The remote directory of a file of the local directory. *)
Lemma remfolder : forall rd ld (rel : path), ld <> [] -> rel <> [] -> Forall fname_ok rel -> ~ inside ld (sl :: slashed rel) ->
  ~ In (str_of "..") (split_sl rd) ->
  let rf := str_of "/" ++ join (str_of "/") (ftp_split rd ++ ftp_split (py_replace (join_rel ld rel) ld [])) in
  (forall w, resolve w (fst (path_split rf)) = resolve [] rd ++ removelast rel) /\ ~ In (str_of "..") (split_sl (fst (path_split rf))).
Proof.
  intros rd ld rel Hl Hr G Hocc Hu rf. rewrite slashed_join in Hocc.
  assert (Gs : Forall (fun x => ~ In sl x) rel) by (eapply Forall_impl; [|exact G]; intros x (_ & _ & _ & Hx); exact Hx).
  assert (Er : ftp_split (py_replace (join_rel ld rel) ld []) = rel).
  { unfold ftp_split. rewrite (join_rel_string rel ld Hr G).
    assert (E0 : strip_sl (py_replace (dirpart ld ++ slash_join rel) ld []) = slash_join rel).
    { unfold dirpart. destruct ld as [|c ld]; [congruence|]. destruct (ends_sl (c :: ld)).
      - rewrite replace_prefix; [apply (strip_rel rel Hr G)|discriminate|]. intros (u & v & Ev). apply Hocc. exists (sl :: u), v. rewrite Ev. reflexivity.
      - rewrite <- app_assoc. rewrite replace_prefix; [apply (strip_rel rel Hr G)|discriminate|assumption]. }
    rewrite E0. apply slash_join_split; assumption. }
  assert (P : exists pre, ftp_split rf = pre ++ rel /\ walk_parts [] pre = resolve [] rd /\ Forall (fun x => ~ In sl x /\ x <> str_of "..") pre).
  { subst rf. rewrite Er, join_slash. change (str_of "/") with [sl]. unfold ftp_split at 1.
    destruct (strip_sl rd) as [|c u] eqn:Es.
    - exists []. split; [|split; [|constructor]].
      + unfold ftp_split. rewrite Es. cbn [split_sl app]. destruct rel as [|x rel]; [congruence|]. rewrite slash_join_cons. cbn [app].
        assert (E2 : strip_sl (sl :: sl :: slash_join (x :: rel)) = slash_join (x :: rel)).
        { unfold strip_sl. rewrite lstrip_sl_cons. apply (strip_rel (x :: rel) Hr G). }
        rewrite E2. apply slash_join_split; assumption.
      + unfold resolve. rewrite <- walk_strip, Es. destruct (starts_sl rd); reflexivity.
    - exists (ftp_split rd). split; [|split; [|apply split_ok; assumption]].
      + unfold ftp_split. rewrite Es. rewrite slash_join_app by (try assumption; apply split_sl_nonempty). rewrite join_split.
        pose proof (strip_start _ _ _ Es) as Hc. destruct (snoc_cases rel Hr) as (r & x & Ex).
        assert (E2 : strip_sl ([sl] ++ (c :: u) ++ sl :: slash_join rel) = (c :: u) ++ sl :: slash_join rel).
        { unfold strip_sl. cbn [app]. rewrite lstrip_sl_cons. cbn [lstrip_sl]. destruct (Ascii.eqb_spec c sl) as [->|_]; [contradiction|].
          rewrite Ex in *. destruct (slash_join_snoc r x) as (v & ->). apply Forall_app in G as [_ G]. inversion G as [|? ? (g1 & _ & _ & g4) _]; subst.
          replace (c :: u ++ sl :: v ++ x) with ((c :: u ++ sl :: v) ++ x) by (cbn [app]; rewrite <- app_assoc; reflexivity).
          rewrite rstrip_plain by assumption. reflexivity. }
        rewrite E2, split_sl_app. rewrite (slash_join_split rel Hr Gs). reflexivity.
      + unfold ftp_split. rewrite walk_strip. unfold resolve. destruct (starts_sl rd); reflexivity. }
  destruct P as (pre & P1 & P2 & P3). unfold path_split. rewrite P1. cbn [fst]. rewrite removelast_app by assumption. rewrite join_slash. change (str_of "/") with [sl].
  assert (G' : Forall fname_ok (removelast rel)).
  { destruct (snoc_cases rel Hr) as (r & x & ->). rewrite removelast_last. apply Forall_app in G. apply G. }
  assert (All : Forall (fun x => ~ In sl x /\ x <> str_of "..") (pre ++ removelast rel)).
  { apply Forall_app. split; [assumption|]. eapply Forall_impl; [|exact G']. intros x (_ & _ & a & b). auto. }
  assert (Sp : exists l, split_sl ([sl] ++ slash_join (pre ++ removelast rel)) = [] :: l /\ (l = pre ++ removelast rel \/ (l = [[]] /\ pre ++ removelast rel = []))).
  { cbn [app split_sl]. rewrite Ascii.eqb_refl. eexists. split; [reflexivity|]. destruct (pre ++ removelast rel) as [|x r] eqn:Ep; [right; auto|left].
    apply slash_join_split; [discriminate|]. eapply Forall_impl; [|exact All]. intros y [a _]. exact a. }
  destruct Sp as (l & Sp & Cases). split.
  - intro w. unfold resolve at 1. cbn [app starts_sl]. rewrite Ascii.eqb_refl. change (sl :: slash_join (pre ++ removelast rel)) with ([sl] ++ slash_join (pre ++ removelast rel)). rewrite Sp.
    change ([] :: l) with ([[]] ++ l). rewrite walk_parts_app, walk_parts_empty.
    assert (W : walk_parts [] l = walk_parts [] (pre ++ removelast rel)) by (destruct Cases as [->|[-> ->]]; reflexivity).
    rewrite W, walk_parts_app, P2. apply walk_parts_good. assumption.
  - rewrite Sp. intros [H|H]; [discriminate|]. destruct Cases as [->|[-> _]]; [|destruct H as [H|[]]; discriminate].
    rewrite Forall_forall in All. destruct (All _ H) as [_ K]. congruence.
Qed.

Section Send.
Variables (E : fenv) (s : sender) (loc t : fsn).
Hypothesis OK : ftp_ok E s loc t.
Let rd := remote_directory s.
Let src := meant (lcwd E) s loc.
Let R := remote s.

Lemma src_form : forall c D, src c D -> exists r, r <> [] /\ D = R ++ r.
Proof. intros c D H. inversion H; subst; [exists rel; auto|exists [n]; split; [discriminate|reflexivity]]. Qed.
Let cut_ok := fo_pieces _ _ _ _ OK.
Local Notation tri' := (tri src R).
Local Notation ready' := (ready E src R).
Local Notation stage' := (stage src R).
Local Notation placed' := (placed src).
Local Notation clean' := (clean src).

(** *** One file of the directory *)
Lemma copy_tri : forall ld rel w c, local_directory s = Some ld -> ld <> [] -> rel <> [] ->
  at_ loc (resolve (lcwd E) ld ++ rel) = Some (EFile w) -> at_ (tree c) [] = Some EDir ->
  tri' (ftp_copy E loc (join_rel ld rel) rd (Some ld)) c (ready' (tree c) /\ starts_sl rd = true)
    (fun _ c' => at_ (tree c') (R ++ rel) = Some (EFile w) /\ clean' (tree c) (tree c')).
Proof.
  intros ld rel w c Hld Nld Nrel A Hr.
  assert (Src : src w (R ++ rel)) by (eapply of_directory; eassumption).
  assert (G : Forall fname_ok rel).
  { assert (G0 : Forall fname_ok (resolve (lcwd E) ld ++ rel)) by (eapply wf_names; [apply (fo_local _ _ _ _ OK)|congruence]). apply Forall_app in G0. apply G0. }
  destruct (remfolder rd ld rel Nld Nrel G (fo_once _ _ _ _ OK ld rel w Hld Nld A) (fo_up _ _ _ _ OK)) as [F1 F2].
  unfold ftp_copy. set (rf := fst (path_split _)) in *. change (resolve [] rd) with R in F1.
  destruct (snoc_cases rel Nrel) as (r & n & Ern).
  assert (Er : removelast rel = r) by (rewrite Ern; apply removelast_last). rewrite Er in F1.
  assert (ED : R ++ rel = (R ++ r) ++ [n]) by (rewrite Ern, app_assoc; reflexivity).
  assert (Gn : fname_ok n) by (rewrite Ern in G; apply Forall_app in G as [_ G]; inversion G; assumption).
  assert (HD : Dirs src R (R ++ r)).
  { right. exists (R ++ rel). split; [exists w; assumption|]. rewrite ED, removelast_last. apply below_refl. }
  eapply tri_bind with (pre := ready' (tree c)) (Q := fun _ c' => here c' = R ++ r /\ at_ (tree c') (R ++ r) = Some EDir /\ clean' (tree c) (tree c')); [|tauto|].
  - apply cwd_or.
    + intro Rd. apply (rd_fine _ _ _ _ Rd).
    + rewrite F1. intros c' e1 e2 e3. rewrite e1. split; [assumption|]. split; [assumption|apply clean_refl].
    + intros c' e1 e2 _. rewrite <- e1 in *. rewrite <- (F1 []). apply create_tri; [assumption|assumption|]. rewrite F1. assumption.
  - cbn beta. intros _ c1 St1 (h1 & h2 & h3).
    assert (Base : snd (os_split (join_rel ld rel)) = n).
    { rewrite Ern. unfold join_rel. rewrite fold_left_app. cbn [fold_left]. apply (split_join []). apply Gn. }
    assert (Res : find loc (resolve (lcwd E) (join_rel ld rel)) = Some (File w)).
    { rewrite join_rel_resolve by assumption. apply find_file. assumption. }
    unfold sendfile. rewrite Res, Base.
    eapply tri_bind; [apply (put_tri E src R cut_ok (R ++ r) n w c1 Gn)|..].
    + rewrite <- ED. assumption.
    + assumption.
    + intros [Rd _]. split; [eapply ready_stage; eassumption|assumption].
    + cbn beta. intros _ c2 St2 (k1 & k2 & k3).
      eapply tri_weak; [apply (cwd_tri E src R rd c2 (ready' (tree c) /\ starts_sl rd = true))|auto|].
      * intros [Rd Ab]. split; [apply (rd_fine _ _ _ _ Rd)|]. unfold resolve. rewrite Ab. change (walk_parts [] (split_sl rd)) with (walk_parts [] (split_sl (remote_directory s))).
        assert (ER : walk_parts [] (split_sl (remote_directory s)) = R) by (unfold R, remote, resolve; destruct (starts_sl (remote_directory s)); reflexivity).
        rewrite ER. apply (st_dirs _ _ _ _ St2). destruct r as [|x r]; [rewrite app_nil_r in h2; assumption|]. eapply at_above. exact h2.
      * cbn beta. intros _ c3 _ (g1 & _). rewrite g1, ED. split; [assumption|]. eapply clean_trans; eassumption.
Qed.

(** *** The files of the directory *)
Lemma tree_tri : forall ld rels c n, local_directory s = Some ld -> ld <> [] -> NoDup rels ->
  (forall rel, In rel rels -> rel <> [] /\ exists w, at_ loc (resolve (lcwd E) ld ++ rel) = Some (EFile w)) ->
  at_ (tree c) [] = Some EDir ->
  tri' (send_tree E loc (map (join_rel ld) rels) rd ld n) c True
    (fun m c' => exists sent, NoDup sent /\ incl sent rels /\ m = (n + Z.of_nat (List.length sent))%Z /\
       (forall rel, In rel sent -> ~ tmp src (R ++ rel) -> placed' (tree c') (R ++ rel)) /\
       (List.length sent = List.length rels -> clean' (tree c) (tree c')) /\
       (ready' (tree c) -> starts_sl rd = true -> sent = rels)).
Proof.
  intros ld rels. induction rels as [|rel rels IH]; intros c n Hld Nld Nd Hrels Hr; cbn [map send_tree].
  - apply tri_ret. exists []. repeat split; auto; try apply NoDup_nil; try apply incl_refl.
    + cbn. lia.
    + intros rel [].
    + intros _. apply clean_refl.
  - destruct (Hrels rel (or_introl eq_refl)) as (Nrel & w & A). inversion Nd as [|? ? Nin Nd']; subst.
    eapply tri_bind with (pre := True)
      (Q := fun k c' => (k = 1%Z /\ placed' (tree c') (R ++ rel) /\ clean' (tree c) (tree c')) \/ (k = 0%Z /\ ~ (ready' (tree c) /\ starts_sl rd = true))); [|auto|].
    + eapply tri_any.
      * eapply tri_bind; [apply (copy_tri ld rel w c Hld Nld Nrel A Hr)|intro P; exact P|]. cbn beta. intros _ c1 _ (h1 & h2). apply tri_ret.
        left. split; [reflexivity|]. split; [|assumption]. exists w. split; [|assumption]. eapply of_directory; eassumption.
      * intros c1 _ N. apply tri_ret. right. auto.
    + cbn beta. intros k c1 St1 Hk. eapply tri_weak; [apply (IH c1 (n + k)%Z Hld Nld Nd')|auto|].
      * intros rel' Hin. apply Hrels. right. assumption.
      * eapply root_stage; eassumption.
      * cbn beta. intros m c2 St2 (sent & g1 & g2 & g3 & g4 & g5 & g6).
        assert (T : tgt src (R ++ rel)) by (exists w; eapply of_directory; eassumption).
        destruct Hk as [(-> & k2 & k3)|(-> & k2)].
        -- exists (rel :: sent). repeat split.
           ++ constructor; [intro Hin; apply Nin; apply g2; assumption|assumption].
           ++ intros x [<-|Hx]; [left; reflexivity|right; apply g2; assumption].
           ++ rewrite g3. cbn [List.length]. lia.
           ++ intros x [<-|Hx] Nt; [|apply g4; assumption]. eapply placed_stage; [exact Nt|exact St2|assumption].
           ++ cbn [List.length]. intro Hlen. eapply clean_trans; [exact k3|apply g5; lia].
           ++ intros Rd Ab. rewrite g6; auto. eapply ready_stage; eassumption.
        -- exists sent. repeat split; auto.
           ++ intros x Hx. right. apply g2. assumption.
           ++ rewrite g3. lia.
           ++ cbn [List.length]. intro Hlen. exfalso. pose proof (NoDup_incl_length g1 g2). lia.
           ++ intros Rd Ab. exfalso. auto.
Qed.

(** *** Listed files *)
Lemma listed_tri : forall fs c, (forall f, In f fs -> In f (local_files s)) -> here c = R ->
  tri' (send_listed E loc fs) c (ready' (tree c) /\ at_ (tree c) R = Some EDir /\ forall f, In f fs -> exists w, at_ loc (resolve (lcwd E) f) = Some (EFile w))
    (fun _ c' => here c' = R /\ clean' (tree c) (tree c') /\ forall f n, In f fs -> base_of f n -> tgt src (R ++ [n]) /\ (~ tmp src (R ++ [n]) -> placed' (tree c') (R ++ [n]))).
Proof.
  induction fs as [|f fs IH]; intros c Hin Hh; cbn [send_listed].
  - apply tri_ret. split; [assumption|]. split; [apply clean_refl|]. intros f n [].
  - set (n := snd (os_split f)). pose proof (base_exists f) as Hb. fold n in Hb. assert (Hf : In f (local_files s)) by (apply Hin; left; reflexivity).
    pose proof (fo_listed _ _ _ _ OK f n Hf Hb) as Gn.
    eapply tri_bind with (pre := ready' (tree c) /\ at_ (tree c) R = Some EDir /\ exists w, at_ loc (resolve (lcwd E) f) = Some (EFile w))
      (Q := fun _ c' => here c' = R /\ clean' (tree c) (tree c') /\ placed' (tree c') (R ++ [n])).
    + unfold sendfile. fold n. destruct (find loc (resolve (lcwd E) f)) as [[w|es]|] eqn:Fd.
      * assert (Src : src w (R ++ [n])) by (eapply of_list; [exact Hf|exact Hb|apply find_file; assumption]).
        eapply tri_weak; [apply (put_tri E src R cut_ok R n w c Gn Src Hh)|tauto|]. cbn beta. intros _ c' _ (k1 & k2 & k3). split; [assumption|]. split; [assumption|]. exists w. auto.
      * apply tri_raise. intros (_ & _ & w & H). apply find_file in H. congruence.
      * apply tri_raise. intros (_ & _ & w & H). apply find_file in H. congruence.
    + intros (Rd & HR & Hl). split; [assumption|]. split; [assumption|]. apply Hl. left. reflexivity.
    + cbn beta. intros _ c1 St1 (k1 & k2 & k3). eapply tri_weak; [apply (IH c1)|..].
      * intros g Hg. apply Hin. right. assumption.
      * assumption.
      * intros (Rd & HR & Hl). split; [eapply ready_stage; eassumption|]. split; [apply (st_dirs _ _ _ _ St1); assumption|]. intros g Hg. apply Hl. right. assumption.
      * cbn beta. intros _ c2 St2 (g1 & g2 & g3). split; [assumption|]. split; [eapply clean_trans; eassumption|].
        intros g m [<-|Hg] Hm; [|eauto]. assert (m = n) by (rewrite <- (split_base f m Hm); reflexivity). subst m.
        split; [destruct k3 as (w & Hw & _); exists w; assumption|]. intro Nt. eapply placed_stage; [exact Nt|exact St2|exact k3].
Qed.

(** *** All of it *)
Definition frels : list path := match local_directory s with
  | Some ((_ :: _) as ld) => match find loc (resolve (lcwd E) ld) with Some n => walk_rel n | None => [] end
  | _ => [] end.
Lemma frels_spec : NoDup frels /\ forall rel, In rel frels <-> exists ld w, local_directory s = Some ld /\ ld <> [] /\ rel <> [] /\ at_ loc (resolve (lcwd E) ld ++ rel) = Some (EFile w).
Proof.
  unfold frels. destruct (local_directory s) as [[|x ld]|].
  - split; [constructor|]. intro rel. split; [intros []|]. intros (ld & w & E0 & N & _). injection E0 as <-. congruence.
  - destruct (find loc (resolve (lcwd E) (x :: ld))) as [n|] eqn:Fd.
    + assert (Wn : wf n) by (eapply wf_find; [apply (fo_local _ _ _ _ OK)|exact Fd]). destruct (walk_rel_spec n Wn) as [Q1 Q2]. split; [assumption|].
      intro rel. rewrite Q1. assert (E1 : at_ n rel = at_ loc (resolve (lcwd E) (x :: ld) ++ rel)) by (unfold at_; rewrite find_app, Fd; reflexivity). rewrite E1. split.
      * intros [h1 (w & h2)]. exists (x :: ld), w. split; [reflexivity|split; [discriminate|auto]].
      * intros (ld' & w & E0 & _ & h1 & h2). injection E0 as <-. eauto.
    + split; [constructor|]. intro rel. split; [intros []|]. intros (ld' & w & E0 & _ & _ & h2). injection E0 as <-. apply find_none in Fd. rewrite (at_under_none _ _ rel Fd) in h2. discriminate.
  - split; [constructor|]. intro rel. split; [intros []|]. intros (ld & w & E0 & _). discriminate.
Qed.

Lemma send_tri :
  tri' (ftp_send E s loc) (connect t)
    (ready' t /\ forall f, In f (local_files s) -> exists w, at_ loc (resolve (lcwd E) f) = Some (EFile w))
    (fun m c' => exists sent, NoDup sent /\ incl sent frels /\ m = Z.of_nat (List.length (local_files s) + List.length sent) /\
       (forall rel, In rel sent -> ~ tmp src (R ++ rel) -> placed' (tree c') (R ++ rel)) /\
       (List.length sent = List.length frels -> clean' t (tree c')) /\
       (forall f n, In f (local_files s) -> base_of f n -> tgt src (R ++ [n]) /\ (~ tmp src (R ++ [n]) -> placed' (tree c') (R ++ [n]))) /\
       (ready' t -> starts_sl rd = true -> sent = frels)).
Proof.
  unfold ftp_send. eapply tri_any; [|intros c' _ N; apply tri_raise; exact N].
  eapply tri_bind; [apply (setup_tri E src R (remote_directory s) (connect t))|..].
  - apply (fo_root _ _ _ _ OK).
  - apply (fo_up _ _ _ _ OK).
  - reflexivity.
  - intros [Rd _]. exact Rd.
  - cbn beta. intros _ c1 St1 (h1 & h2 & h3). cbn [tree connect] in *. eapply tri_bind; [apply (listed_tri (local_files s) c1)|..].
    + auto.
    + assumption.
    + intros [Rd Hl]. split; [eapply ready_stage; eassumption|]. auto.
    + cbn beta. intros _ c2 St2 (k1 & k2 & k3).
      assert (Hr2 : at_ (tree c2) [] = Some EDir) by (eapply root_stage; [exact St2|]; eapply root_stage; [exact St1|apply (fo_root _ _ _ _ OK)]).
      assert (St02 : stage' t (tree c2)) by (eapply stage_trans; eassumption).
      eapply tri_bind with (pre := True) (Q := fun m c' => exists sent, NoDup sent /\ incl sent frels /\ m = (Z.of_nat (List.length (local_files s)) + Z.of_nat (List.length sent))%Z /\
       (forall rel, In rel sent -> ~ tmp src (R ++ rel) -> placed' (tree c') (R ++ rel)) /\
       (List.length sent = List.length frels -> clean' (tree c2) (tree c')) /\
       (ready' (tree c2) -> starts_sl rd = true -> sent = frels)); [|auto|].
      * assert (Nil : frels = [] -> tri' (fret (Z.of_nat (List.length (local_files s)))) c2 True (fun m c' => exists sent, NoDup sent /\ incl sent frels /\ m = (Z.of_nat (List.length (local_files s)) + Z.of_nat (List.length sent))%Z /\
       (forall rel, In rel sent -> ~ tmp src (R ++ rel) -> placed' (tree c') (R ++ rel)) /\
       (List.length sent = List.length frels -> clean' (tree c2) (tree c')) /\
       (ready' (tree c2) -> starts_sl rd = true -> sent = frels))).
        { intros ->. apply tri_ret. exists []. split; [constructor|]. split; [apply incl_refl|]. split; [cbn; lia|]. split; [intros rel []|]. split; [intros _; apply clean_refl|auto]. }
        pose proof frels_spec as (FN & FS). unfold frels in *. destruct (local_directory s) as [[|x ld]|] eqn:El.
        -- cbn [ftp_local_files send_tree]. apply Nil. reflexivity.
        -- unfold ftp_local_files. destruct (find loc (resolve (lcwd E) (x :: ld))) as [nd|] eqn:Fd.
           ++ rewrite walk_files_rel. apply tree_tri; auto; [discriminate|]. intros rel Hin. apply FS in Hin as (ld' & w & E0 & _ & e1 & e2). injection E0 as <-. eauto.
           ++ cbn [send_tree]. apply Nil. reflexivity.
        -- apply Nil. reflexivity.
      * cbn beta. intros m c3 St3 (sent & g1 & g2 & g3 & g4 & g5 & g6). eapply tri_bind with (Q := fun _ c' => tree c' = tree c3 /\ here c' = here c3); [apply noop_tri with (pre := ready' t)| |].
        -- intro Rd. apply (rd_fine _ _ _ _ Rd).
        -- tauto.
        -- intros _ c4 _ (e1 & _). apply tri_ret. rewrite e1. exists sent. split; [assumption|]. split; [assumption|]. split; [lia|]. split; [assumption|]. split; [|split].
           ++ intro Hlen. eapply clean_trans; [exact h3|]. eapply clean_trans; [exact k2|auto].
           ++ intros f n Hf Hn. destruct (k3 f n Hf Hn) as [K1 K2]. split; [assumption|]. intro Nt. eapply placed_stage; [exact Nt|exact St3|auto].
           ++ intros Rd Ab. apply g6; [eapply ready_stage; eassumption|assumption].
Qed.
End Send.

(** *** Cancelling *)
Section Cancel.
Variables (E : fenv) (s : sender) (loc t : fsn).
Hypothesis OK : ftp_ok E s loc t.
Let R := remote s.
Definition mark (c : str) (q : path) : Prop := c = [] /\ q = remote s ++ [cancelfile s].

Lemma cancel_tri : starts_sl (remote_directory s) = true -> tri mark R (ftp_cancel E s) (connect t) (ready E mark R t)
  (fun _ c' => at_ (tree c') (R ++ [cancelfile s]) = Some (EFile []) /\ clean mark t (tree c')).
Proof.
  intro Ab.
  assert (ER : forall w, resolve w (remote_directory s) = R) by (intro w; unfold R, remote, resolve; rewrite Ab; reflexivity).
  unfold ftp_cancel. eapply tri_bind; [apply (setup_tri E mark R (remote_directory s) (connect t))|..].
  - apply (fo_root _ _ _ _ OK).
  - apply (fo_up _ _ _ _ OK).
  - reflexivity.
  - auto.
  - cbn beta. intros _ c1 St1 (h1 & h2 & h3). cbn [tree connect] in *. eapply tri_any; [|intros c' _ N; apply tri_raise; exact N].
    eapply tri_bind; [apply (cwd_tri E mark R (remote_directory s) c1 (ready E mark R t))|auto|].
    + intro Rd. split; [apply (rd_fine _ _ _ _ Rd)|]. rewrite ER. assumption.
    + cbn beta. rewrite ER. intros _ c2 _ (k1 & k2 & _). rewrite <- k1 in *.
      eapply tri_weak; [apply (put_tri E mark R (fo_pieces _ _ _ _ OK) R (cancelfile s) [] c2 (fo_cancelfile _ _ _ _ OK))|..].
      * split; reflexivity.
      * assumption.
      * intro Rd. split; [eapply ready_stage; eassumption|assumption].
      * cbn beta. intros _ c3 _ (_ & g2 & g3). split; [assumption|]. eapply clean_trans; eassumption.
Qed.
End Cancel.
