(** Sending and cancelling by SSH as a whole. *)
From Coq Require Import ZArith String Ascii Bool List Lia.
From Verif Require Import PyBase PyStr FsModel FsSpec FsProofs PathProofs CopyModel CopySpec CopyProofs CopyStepProofs FtpSpec SecureModel SecureSpec ShellProofs SecureProofs.
Import ListNotations.

(** *** Texts and paths *)
Lemma harmless_in : forall w x, harmless x -> (forall c, In c w -> In c x) -> harmless w.
Proof. intros w x H K c Hc. auto. Qed.
Lemma harmless_sl : harmless [sl].
Proof. intros c [<-|[]]. vm_compute. auto 100. Qed.
Lemma harmless_join : forall a b, harmless a -> harmless b -> harmless (os_join a b).
Proof.
  intros a b Ha Hb. unfold os_join. destruct (starts_sl b); [assumption|]. destruct a as [|x a]; [assumption|]. destruct (ends_sl (x :: a)); [apply harmless_app; assumption|].
  change ((x :: a) ++ sl :: b) with ((x :: a) ++ [sl] ++ b). apply harmless_app; [assumption|]. apply harmless_app; [apply harmless_sl|assumption].
Qed.
Lemma harmless_join_all : forall l a, harmless a -> Forall harmless l -> harmless (os_join_all a l).
Proof. induction l as [|x l IH]; intros a Ha F; [assumption|]. inversion F; subst. cbn. apply IH; [|assumption]. apply harmless_join; assumption. Qed.
Lemma join_starts : forall a b, starts_sl a = true -> starts_sl (os_join a b) = true.
Proof. intros [|x a] b H; [discriminate|]. unfold os_join. destruct (starts_sl b) eqn:Sb; [assumption|]. destruct (ends_sl (x :: a)); exact H. Qed.
Lemma join_all_starts : forall l a, starts_sl a = true -> starts_sl (os_join_all a l) = true.
Proof. induction l as [|x l IH]; intros a H; [assumption|]. cbn. apply IH. apply join_starts. assumption. Qed.
Lemma starts_wordy : forall w, starts_sl w = true -> harmless w -> wordy w.
Proof. intros [|c w] H K; [discriminate|]. split; [discriminate|assumption]. Qed.
Lemma resolve_abs : forall w v s, starts_sl s = true -> resolve w s = resolve v s.
Proof. intros w v s H. unfold resolve. rewrite H. reflexivity. Qed.
Lemma in_strip_sl : forall s c, In c (strip_sl s) -> In c s.
Proof.
  intros s c H. unfold strip_sl in H. destruct (rstrip_repeat (lstrip_sl s)) as (n & e). destruct (lstrip_repeat s) as (m & e'). rewrite e', e. apply in_app_iff. right. apply in_app_iff. left. assumption.
Qed.
Lemma in_split_sl : forall s x c, In x (split_sl s) -> In c x -> In c s.
Proof.
  induction s as [|d s IH]; intros x c H K; cbn [split_sl] in H; [destruct H as [<-|[]]; destruct K|]. destruct (Ascii.eqb d sl).
  - destruct H as [<-|H]; [destruct K|]. right. eapply IH; eassumption.
  - destruct (split_sl s) as [|y r] eqn:Es; [destruct H as [<-|[]]; cbn in K; destruct K as [<-|[]]; left; reflexivity|]. destruct H as [<-|H].
    + destruct K as [<-|K]; [left; reflexivity|]. right. eapply IH; [left; reflexivity|assumption].
    + right. eapply IH; [right; exact H|assumption].
Qed.
Lemma head_prefix : forall s, exists x, s = x ++ head_part s /\ ~ In sl x.
Proof.
  induction s as [|c s (x & e & N)]; [exists []; auto|]. cbn [head_part]. destruct (Ascii.eqb_spec c sl) as [->|Hc]; [exists []; auto|].
  exists (c :: x). split; [cbn; congruence|]. intros [H|H]; auto.
Qed.
Lemma root_chars : forall p, starts_sl p = true -> starts_sl (fst (os_split p)) = true /\ forall c, In c (fst (os_split p)) -> In c p.
Proof.
  intros p H. unfold os_split. cbn [fst]. set (h := rev (head_part (rev p))).
  assert (Ph : exists x, p = h ++ x /\ ~ In sl x).
  { destruct (head_prefix (rev p)) as (x & e & N). exists (rev x). split; [|rewrite <- in_rev; assumption]. unfold h. rewrite <- rev_app_distr, <- e, rev_involutive. reflexivity. }
  destruct Ph as (x & e & N).
  assert (Sh : starts_sl h = true).
  { destruct h as [|c h']; [|rewrite e in H; exact H]. cbn [app] in e. subst x. destruct p as [|c p']; [discriminate|]. cbn in H. apply Ascii.eqb_eq in H. exfalso. apply N. left. auto. }
  destruct (forallb (Ascii.eqb sl) h) eqn:A.
  - split; [assumption|]. intros c Hc. rewrite e. apply in_app_iff. auto.
  - destruct (rstrip_repeat h) as (k & ek). split.
    + destruct (rstrip_sl h) as [|c r] eqn:Er; [|rewrite ek in Sh; exact Sh]. exfalso. cbn [app] in ek. rewrite ek in A.
      assert (T : forallb (Ascii.eqb sl) (repeat sl k) = true) by (clear; induction k; [reflexivity|cbn [repeat forallb]; rewrite Ascii.eqb_refl; assumption]). congruence.
    + intros c Hc. rewrite e, ek. apply in_app_iff. left. apply in_app_iff. auto.
Qed.
Lemma walk_ok : forall l base, Forall fname_ok base -> Forall (fun x => ~ In sl x) l -> Forall fname_ok (walk_parts base l).
Proof.
  induction l as [|x l IH]; intros base B F; [assumption|]. inversion F as [|? ? F1 F2]; subst. cbn [walk_parts].
  destruct (str_eqb_spec x []) as [_|N1]; [apply IH; assumption|]. cbn [orb]. destruct (str_eqb_spec x (str_of ".")) as [_|N2]; [apply IH; assumption|].
  destruct (str_eqb_spec x (str_of "..")) as [_|N3]; apply IH; auto.
  - clear - B. induction B as [|y b Hy B IHb]; [constructor|]. cbn [removelast]. destruct b; [constructor|]. constructor; assumption.
  - apply Forall_app. split; [assumption|]. constructor; [repeat split; assumption|constructor].
Qed.
Lemma resolve_ok : forall s, starts_sl s = true -> Forall fname_ok (resolve [] s).
Proof. intros s H. unfold resolve. rewrite H. apply walk_ok; [constructor|]. apply Forall_forall. intros x Hx. eapply split_sl_parts; eassumption. Qed.
Lemma last_underscore : forall (z : ascii) a b x y, a ++ z :: x = b ++ z :: y -> ~ In z x -> ~ In z y -> a = b.
Proof.
  intros z a. induction a as [|c a IH]; intros [|d b] x y H Nx Ny; cbn in H.
  - reflexivity.
  - exfalso. injection H as -> H. apply Nx. rewrite H. apply in_app_iff. right. left. reflexivity.
  - exfalso. injection H as -> H. apply Ny. rewrite <- H. apply in_app_iff. right. left. reflexivity.
  - injection H as -> H. f_equal. eapply IH; eassumption.
Qed.

Section Send.
Variables (E : senv) (s : sender) (loc t : fsn).
Hypothesis OK : secure_ok E s loc t.
Hypothesis Each : one_each E s loc.
Hypothesis Way : clear_way E s loc t.
Let src := meant (slocal E) s loc.
Let R := remote s.
Let rd := remote_directory s.

Lemma stamp_chars : forall i, harmless (stamps E i) /\ ~ In sl (stamps E i) /\ ~ In (chr 95) (stamps E i).
Proof.
  intro i. pose proof (so_stamps _ _ _ _ OK i) as H. split; [|split].
  - intros c Hc. specialize (H c Hc). cbn in H. vm_compute. tauto.
  - intro I. specialize (H _ I). vm_compute in H. intuition discriminate.
  - intro I. specialize (H _ I). vm_compute in H. intuition discriminate.
Qed.
Lemma Hroot : resolve (home E) rd = R.
Proof. apply resolve_abs. apply (so_absolute _ _ _ _ OK). Qed.
Lemma R_ok : Forall fname_ok R.
Proof. apply resolve_ok. apply (so_absolute _ _ _ _ OK). Qed.
Lemma local_names : forall p e, at_ loc p = Some e -> Forall fname_ok p.
Proof. intros p e H. apply (wf_names p loc (so_local _ _ _ _ OK)). congruence. Qed.
Lemma src_form : forall c D, src c D -> exists r, r <> [] /\ D = R ++ r /\ Forall fname_ok r.
Proof.
  intros c D [ld rel w H1 H2 H3 H4|f n w H1 H2 H3].
  - exists rel. split; [assumption|]. split; [reflexivity|]. apply local_names in H4. apply Forall_app in H4. apply H4.
  - exists [n]. split; [discriminate|]. split; [reflexivity|]. constructor; [|constructor]. apply (so_listed _ _ _ _ OK f n H1 H2).
Qed.
Lemma tgt_ok : forall D, tgt src D -> D <> [] /\ Forall fname_ok D.
Proof.
  intros D (c & H). destruct (src_form c D H) as (r & Hr & -> & Hf). split; [destruct R; [assumption|discriminate]|]. apply Forall_app. split; [apply R_ok|assumption].
Qed.
Lemma tmp_inj : forall D D' T, stemp E D T -> stemp E D' T -> D = D'.
Proof.
  intros D D' T (p & n & i & -> & e) (p' & n' & i' & -> & e'). rewrite e in e'. apply app_inj_tail in e' as (-> & e').
  assert (n ++ str_of ".tmp" = n' ++ str_of ".tmp").
  { apply (last_underscore (chr 95) _ _ (stamps E i) (stamps E i')); [|apply stamp_chars|apply stamp_chars].
    rewrite <- !app_assoc. exact e'. }
  apply app_inv_tail in H. congruence.
Qed.
Lemma file_iff : forall q, Files E src q -> file_path E s loc q.
Proof. intros q [(c & H)|(D & (c & H) & T)]; [exists c, q; auto|exists c, D; auto]. Qed.
Lemma dir_iff : forall q, Dirs src R q -> directory_path E s loc q.
Proof. intros q [H|(D & (c & H) & B)]; [left; assumption|right; exists c, D; auto]. Qed.
Lemma h_apart : forall q, Files E src q -> ~ Dirs src R q.
Proof. intros q H K. apply (cw_apart _ _ _ _ Way q); [apply file_iff|apply dir_iff]; assumption. Qed.
Lemma h_files : forall q, Files E src q -> at_ t q <> Some EDir.
Proof. intros q H. apply (cw_files _ _ _ _ Way). apply file_iff. assumption. Qed.
Lemma h_dirs : forall q c, Dirs src R q -> at_ t q <> Some (EFile c).
Proof. intros q c H. apply (cw_dirs _ _ _ _ Way). apply dir_iff. assumption. Qed.
Lemma h_tmp : forall D, tgt src D -> ~ tmp E src D.
Proof. intros D (c & H) (D' & (c' & H') & T). apply (cw_temps _ _ _ _ Way c D c' D' H H' T). Qed.

Lemma names_join : forall a n D, starts_sl a = true -> harmless a -> fname_ok n -> harmless n -> D = resolve (home E) a ++ [n] -> names E (os_join a n) D.
Proof.
  intros a n D Sa Ha Gn Hn ->. pose proof Gn as (g1 & g2 & g3 & g4).
  assert (Sj : starts_sl (os_join a n) = true) by (apply join_starts; assumption).
  assert (Hj : harmless (os_join a n)) by (apply harmless_join; assumption).
  constructor.
  - apply starts_wordy; assumption.
  - assumption.
  - apply resolve_join_good. assumption.
  - intro i. destruct (stamp_chars i) as (k1 & k2 & k3). unfold tmp_name. rewrite (join_append a n) by assumption.
    assert (Hx : harmless (n ++ str_of ".tmp_" ++ stamps E i)).
    { apply harmless_app; [assumption|]. apply harmless_app; [|assumption]. intros c Hc. cbn in Hc. vm_compute. tauto. }
    assert (Sx : starts_sl (os_join a (n ++ str_of ".tmp_" ++ stamps E i)) = true) by (apply join_starts; assumption).
    split; [apply starts_wordy; [assumption|apply harmless_join; assumption]|]. split; [assumption|].
    rewrite resolve_join_good by (apply tmp_name_ok; assumption). exists (resolve (home E) a), n, i. auto.
  - destruct (root_chars (os_join a n) Sj) as (r1 & r2). split; [|split; [assumption|]].
    + apply starts_wordy; [assumption|]. eapply harmless_in; [exact Hj|exact r2].
    + rewrite removelast_last. apply (split_join (home E) a n g4).
Qed.
Lemma names_listed : forall f n, In f (local_files s) -> base_of f n -> names E (remote_name f rd None) (R ++ [n]).
Proof.
  intros f n H B. rewrite (remote_name_list f rd n B). destruct (so_listed _ _ _ _ OK f n H B) as (G & Hn).
  apply names_join; auto; [apply (so_absolute _ _ _ _ OK)|apply (so_directory _ _ _ _ OK)|rewrite Hroot; reflexivity].
Qed.
Lemma names_rel : forall ld rel c, local_directory s = Some ld -> ld <> [] -> rel <> [] -> at_ loc (resolve (slocal E) ld ++ rel) = Some (EFile c) ->
  names E (remote_name (join_rel ld rel) rd (Some ld)) (R ++ rel).
Proof.
  intros ld rel c El Nl Nr A. pose proof (local_names _ _ A) as G. apply Forall_app in G as (_ & G).
  pose proof (so_once _ _ _ _ OK ld rel c El Nl A) as On. rewrite slashed_join in On.
  assert (Er : remote_name (join_rel ld rel) rd (Some ld) = os_join_all (str_of "/") (split_sl (strip_sl rd) ++ rel)).
  { unfold remote_name. rewrite (join_rel_string rel ld Nr G).
    assert (e : strip_sl (py_replace (dirpart ld ++ slash_join rel) ld []) = slash_join rel).
    { unfold dirpart. destruct ld as [|x ld]; [congruence|]. destruct (ends_sl (x :: ld)).
      - rewrite replace_prefix; [apply (strip_rel rel Nr G)|discriminate|]. intros (u & v & e). apply On. exists (sl :: u), v. rewrite e. reflexivity.
      - rewrite <- app_assoc. rewrite replace_prefix; [apply (strip_rel rel Nr G)|discriminate|exact On]. }
    assert (Gs : Forall (fun x => ~ In sl x) rel) by (eapply Forall_impl; [|exact G]; intros x (_ & _ & _ & Hx); exact Hx).
    rewrite e, (slash_join_split rel Nr Gs). reflexivity. }
  rewrite Er. destruct (snoc_cases rel Nr) as (r & n & ->). apply Forall_app in G as (G1 & G2). inversion G2 as [|? ? Gn _]; subst.
  assert (Hr : forall x, In x (r ++ [n]) -> harmless x) by (intros x Hx; apply (so_names _ _ _ _ OK ld (r ++ [n]) c x El Nl A Hx)).
  assert (Hp : Forall harmless (split_sl (strip_sl rd))).
  { apply Forall_forall. intros x Hx. eapply harmless_in; [apply (so_directory _ _ _ _ OK)|]. intros d Hd. apply in_strip_sl. eapply in_split_sl; eassumption. }
  assert (Ej : os_join_all (str_of "/") (split_sl (strip_sl rd) ++ r ++ [n]) = os_join (os_join_all (str_of "/") (split_sl (strip_sl rd) ++ r)) n).
  { rewrite app_assoc. unfold os_join_all. rewrite (fold_left_app _ _ [n]). reflexivity. }
  rewrite Ej. apply names_join.
  - apply join_all_starts. reflexivity.
  - apply harmless_join_all; [apply harmless_sl|]. apply Forall_app. split; [assumption|]. apply Forall_forall. intros x Hx. apply Hr. apply in_app_iff. auto.
  - assumption.
  - apply Hr. apply in_app_iff. right. left. reflexivity.
  - rewrite resolve_join_all.
    + rewrite walk_parts_app. replace (resolve (home E) (str_of "/")) with (@nil str) by reflexivity. rewrite walk_strip, walk_parts_good by assumption.
      rewrite <- app_assoc. unfold R, remote, resolve. fold rd. rewrite (so_absolute _ _ _ _ OK : starts_sl rd = true). reflexivity.
    + apply Forall_app. split; [apply Forall_forall; intros x Hx; eapply split_sl_parts; eassumption|].
      eapply Forall_impl; [|exact G1]. intros x (_ & _ & _ & Hx). exact Hx.
Qed.

Definition srels : list path := match local_directory s with
  | Some ((_ :: _) as ld) => match find loc (resolve (slocal E) ld) with Some n => walk_rel n | None => [] end
  | _ => [] end.
Lemma srels_spec : NoDup srels /\ forall rel, In rel srels <-> exists ld w, local_directory s = Some ld /\ ld <> [] /\ rel <> [] /\ at_ loc (resolve (slocal E) ld ++ rel) = Some (EFile w).
Proof.
  unfold srels. destruct (local_directory s) as [[|x ld]|].
  - split; [constructor|]. intro rel. split; [intros []|]. intros (ld & w & E0 & N & _). injection E0 as <-. congruence.
  - destruct (find loc (resolve (slocal E) (x :: ld))) as [n|] eqn:Fd.
    + assert (Wn : wf n) by (eapply wf_find; [apply (so_local _ _ _ _ OK)|exact Fd]). destruct (walk_rel_spec n Wn) as [Q1 Q2]. split; [assumption|].
      intro rel. rewrite Q1. assert (E1 : at_ n rel = at_ loc (resolve (slocal E) (x :: ld) ++ rel)) by (unfold at_; rewrite find_app, Fd; reflexivity). rewrite E1. split.
      * intros [h1 (w & h2)]. exists (x :: ld), w. split; [reflexivity|split; [discriminate|auto]].
      * intros (ld' & w & E0 & _ & h1 & h2). injection E0 as <-. eauto.
    + split; [constructor|]. intro rel. split; [intros []|]. intros (ld' & w & E0 & _ & _ & h2). injection E0 as <-. apply find_none in Fd. rewrite (at_under_none _ _ rel Fd) in h2. discriminate.
  - split; [constructor|]. intro rel. split; [intros []|]. intros (ld & w & E0 & _). discriminate.
Qed.
Definition listed_at : list path := map (fun f => R ++ [snd (os_split f)]) (local_files s).
Definition below_at : list path := map (fun rel => R ++ rel) srels.
Lemma listed_nodup : NoDup listed_at.
Proof.
  unfold listed_at. apply NoDup_nth_error. intros i j Hi H. rewrite map_length in Hi. rewrite !nth_error_map in H.
  destruct (nth_error (local_files s) i) as [f|] eqn:Ei; [|apply nth_error_None in Ei; lia]. cbn [option_map] in H. destruct (nth_error (local_files s) j) as [g|] eqn:Ej; [|discriminate].
  cbn [option_map] in H. assert (e : snd (os_split f) = snd (os_split g)).
  { assert (K : R ++ [snd (os_split f)] = R ++ [snd (os_split g)]) by congruence. apply app_inv_head in K. congruence. }
  destruct Each as (A & _). apply (A i j f g (snd (os_split f)) Ei Ej); [apply base_exists|]. rewrite e. apply base_exists.
Qed.
Lemma below_nodup : NoDup below_at.
Proof. unfold below_at. apply FinFun.Injective_map_NoDup; [|apply srels_spec]. intros a b H. apply app_inv_head in H. assumption. Qed.
Lemma lists_apart : forall D, In D below_at -> ~ In D listed_at.
Proof.
  intros D H K. unfold below_at, listed_at in *. apply in_map_iff in H as (rel & <- & H). apply in_map_iff in K as (f & e & K). apply app_inv_head in e. subst rel.
  apply srels_spec in H as (ld & w & a & b & _ & c). destruct Each as (_ & A). apply (A f (snd (os_split f)) ld w K (base_exists f) a b c).
Qed.

Local Notation tri' := (tri E src R t).
Local Notation Inv' := (Inv E src R t).
Lemma open_inv : Inv' [] None None (open_session t).
Proof.
  exists []. split; [constructor|]. constructor; auto.
  - apply good_start; apply h_files.
  - constructor.
  - intros T D c [].
  - intros p [].
  - intros D [].
Qed.
Lemma connect_tri : tri' (secure_connect E) (open_session t) (prompt E /\ few (open_session t)) (fun _ s' => Inv' [] None None s' /\ (prompt E -> few s')).
Proof.
  unfold secure_connect. apply tri_wrapped. assert (F0 : few (open_session t)) by (unfold few; cbn; lia).
  eapply step_tri; [apply (so_root _ _ _ _ OK)|apply h_apart|apply h_files|apply h_dirs|apply h_tmp|intros; eapply tmp_inj; eassumption|apply R_ok|apply tgt_ok|apply open_inv|auto|].
  intros l js x n F I M C. unfold trace, final, result. cbn. split; [intros y []|]. split; [apply mono_refl|]. split; [exists [], None, None; assumption|].
  split; [exists l; auto|]. intro P. unfold few. cbn [jobs]. rewrite (C P F0). cbn. lia.
Qed.

Definition all_there : Prop := forall f, In f (local_files s) -> exists c, at_ loc (resolve (slocal E) f) = Some (EFile c).
Lemma meant_fun : forall c c' D, src c D -> src c' D -> c = c'.
Proof.
  intros c c' D H H'. destruct Each as (A & B). destruct H as [ld rel w H1 H2 H3 H4|f n w H1 H2 H3].
  - remember (remote s ++ rel) as D eqn:e. destruct H' as [ld' rel' w' K1 K2 K3 K4|f n w' K1 K2 K3]; apply app_inv_head in e; subst.
    + congruence.
    + exfalso. apply (B f n ld w K1 K2 H1 H2 H4).
  - remember (remote s ++ [n]) as D eqn:e. destruct H' as [ld' rel' w' K1 K2 K3 K4|g n' w' K1 K2 K3]; apply app_inv_head in e; subst.
    + exfalso. apply (B f n ld' w' H1 H2 K1 K2 K4).
    + injection e as ->. destruct (In_nth_error _ _ H1) as (i & Hi). destruct (In_nth_error _ _ K1) as (j & Hj).
      rewrite (A i j f g n Hi Hj H2 K2) in Hi. congruence.
Qed.
Lemma meant_listed : forall c D, src c D -> In D listed_at \/ In D below_at.
Proof.
  intros c D [ld rel w H1 H2 H3 H4|f n w H1 H2 H3].
  - right. unfold below_at. apply in_map_iff. exists rel. split; [reflexivity|]. apply srels_spec. exists ld, w. auto.
  - left. unfold listed_at. apply in_map_iff. exists f. split; [|assumption]. rewrite (split_base f n H2). reflexivity.
Qed.
Lemma listed_spec : Forall2 (fun f D => names E (remote_name f rd None) D /\ (forall c, find loc (resolve (slocal E) f) = Some (File c) -> src c D) /\ (@None str <> None -> tgt src D)) (local_files s) listed_at.
Proof.
  unfold listed_at. assert (H : forall f, In f (local_files s) -> In f (local_files s)) by auto. revert H. generalize (local_files s) at 1 3 4 as l.
  induction l as [|f l IH]; intro H; cbn [map]; constructor.
  - split; [apply names_listed; [apply H; left; reflexivity|apply base_exists]|]. split; [|congruence].
    intros c Fd. eapply of_list with (f := f); [apply H; left; reflexivity|apply base_exists|]. apply find_file. assumption.
  - apply IH. intros g Hg. apply H. right. assumption.
Qed.
Lemma below_spec : forall ld, local_directory s = Some ld ->
  files_below E loc ld = map (join_rel ld) srels /\
  Forall2 (fun f D => names E (remote_name f rd (Some ld)) D /\ (forall c, find loc (resolve (slocal E) f) = Some (File c) -> src c D) /\ (Some ld <> None -> tgt src D)) (map (join_rel ld) srels) below_at /\
  forall f, In f (map (join_rel ld) srels) -> exists c, find loc (resolve (slocal E) f) = Some (File c).
Proof.
  intros ld El.
  assert (X : forall rel, In rel srels -> exists c, ld <> [] /\ rel <> [] /\ at_ loc (resolve (slocal E) ld ++ rel) = Some (EFile c) /\ resolve (slocal E) (join_rel ld rel) = resolve (slocal E) ld ++ rel).
  { intros rel H. apply srels_spec in H as (ld' & w & e & N1 & N2 & A). assert (ld' = ld) by congruence. subst ld'. exists w. split; [assumption|]. split; [assumption|]. split; [assumption|].
    apply join_rel_resolve. pose proof (local_names _ _ A) as G. apply Forall_app in G. apply G. }
  split; [|split].
  - unfold files_below, srels. rewrite El. destruct ld as [|x ld]; [reflexivity|]. destruct (find loc (resolve (slocal E) (x :: ld))) as [n|]; [|reflexivity]. apply walk_files_rel.
  - unfold below_at. revert X. generalize srels as l. induction l as [|rel l IH]; intro X; cbn [map]; constructor.
    + destruct (X rel (or_introl eq_refl)) as (c & N1 & N2 & A & e). split; [eapply names_rel; eassumption|].
      assert (Sc : src c (R ++ rel)) by (eapply of_directory; eassumption).
      split; [|intros _; exists c; assumption]. intros c' Fd. rewrite e in Fd. apply find_file in Fd. congruence.
    + apply IH. intros r H. apply X. right. assumption.
  - intros f H. apply in_map_iff in H as (rel & <- & H). destruct (X rel H) as (c & N1 & N2 & A & e). exists c. rewrite e. apply find_file. assumption.
Qed.

Lemma send_tri : tri' (secure_send E s loc) (open_session t) (prompt E /\ all_there)
  (fun z s' => (exists u', Inv' u' None None s' /\ forall D, In D listed_at \/ In D below_at -> In D u') /\
               z = Z.of_nat (List.length (local_files s) + List.length srels) /\ (prompt E -> few s')).
Proof.
  assert (F0 : few (open_session t)) by (unfold few; cbn; lia).
  unfold secure_send. eapply tri_bind; [apply connect_tri|tauto|].
  cbn beta. intros _ s1 M1 (I1 & P1).
  assert (DR : Dirs src R (resolve (home E) rd)) by (rewrite Hroot; left; exists []; rewrite app_nil_r; reflexivity).
  eapply tri_bind; [eapply make_tri; [apply (so_root _ _ _ _ OK)|apply h_apart|apply h_files|apply h_dirs|apply h_tmp|intros; eapply tmp_inj; eassumption|apply R_ok|apply tgt_ok| | |exact DR|exact I1]| |].
  - apply starts_wordy; [apply (so_absolute _ _ _ _ OK)|apply (so_directory _ _ _ _ OK)].
  - apply (so_absolute _ _ _ _ OK).
  - intros (P & _). auto.
  - cbn beta. intros ok s2 M2 (I2 & D2 & P2). destruct ok; cbn [negb].
    2:{ eapply tri_raise; [exact I2|]. intros (P & _). destruct (P2 P (P1 P)). discriminate. }
    specialize (D2 eq_refl). fold rd in D2. rewrite Hroot in D2.
    eapply tri_bind with (pre := prompt E /\ all_there)
      (Q := fun _ s' => (exists u', Inv' u' None None s' /\ forall D, In D listed_at \/ In D below_at -> In D u') /\ (prompt E -> few s')); [|auto|].
    + apply tri_wrapped. eapply tri_bind.
      * eapply (each_tri E src R t (so_root _ _ _ _ OK) h_apart h_files h_dirs h_tmp); [intros; eapply tmp_inj; eassumption|apply R_ok|apply tgt_ok|apply (so_pieces _ _ _ _ OK)|apply listed_spec|apply listed_nodup| |exact I2].
        intros D _ [].
      * intros (P & A). split; [assumption|]. split; [apply P2; auto|]. split.
        -- intros _ D H. unfold listed_at in H. apply in_map_iff in H as (f & <- & _). rewrite removelast_last. assumption.
        -- intros f H. destruct (A f H) as (c & Hc). exists c. apply find_file. assumption.
      * cbn beta. intros _ s3 M3 ((u3 & I3 & U3) & _ & P3). destruct (local_directory s) as [ld|] eqn:El.
        -- destruct (below_spec ld El) as (B1 & B2 & B3). rewrite B1.
           eapply tri_weak; [eapply (each_tri E src R t (so_root _ _ _ _ OK) h_apart h_files h_dirs h_tmp); [intros; eapply tmp_inj; eassumption|apply R_ok|apply tgt_ok|apply (so_pieces _ _ _ _ OK)|exact B2|apply below_nodup| |exact I3]|..].
           ++ intros D H K. apply U3 in K as [K|[]]. apply (lists_apart D H K).
           ++ intros (P & A). split; [assumption|]. split; [apply P3; [assumption|apply P2; auto]|]. split; [discriminate|exact B3].
           ++ cbn beta. intros _ s4 M4 ((u4 & I4 & U4) & _ & P4). split.
              ** exists u4. split; [assumption|]. intros D [H|H]; apply U4; [right; apply U3; left|left]; assumption.
              ** intro P. apply (P4 P). apply (P3 P). apply P2; auto.
        -- eapply tri_ret; [exact I3|]. split.
           ++ exists u3. split; [assumption|]. intros D [H|H]; [apply U3; left; assumption|]. unfold below_at, srels in H. rewrite El in H. destruct H.
           ++ intro P. apply (P3 P). apply P2; auto.
    + cbn beta. intros _ s3 M3 ((u3 & I3 & U3) & P3). eapply tri_ret; [exact I3|]. split; [exists u3; auto|]. split; [|assumption]. f_equal. f_equal.
      destruct (local_directory s) as [ld|] eqn:El; [destruct (below_spec ld El) as (B1 & _); rewrite B1; apply map_length|]. unfold srels. rewrite El. reflexivity.
Qed.
End Send.
