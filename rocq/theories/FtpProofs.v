(** Effects of FTP commands and of their combinations. *)
From Coq Require Import ZArith String Ascii Bool List Lia.
From Verif Require Import PyBase PyStr FsModel FsSpec FsProofs PathProofs CopyModel CopySpec CopyProofs CopyStepProofs FtpModel FtpSpec.
Import ListNotations.

Lemma tmp_ok : forall n, fname_ok n -> fname_ok (n ++ str_of ".tmp").
Proof.
  intros n (h1 & h2 & h3 & h4). repeat split.
  - destruct n; [congruence|discriminate].
  - destruct n as [|a [|b n]]; [congruence| |]; intro E; cbn in E; discriminate.
  - destruct n as [|a [|b n]]; [congruence| |]; intro E; cbn in E; [discriminate|]. destruct n; discriminate.
  - rewrite in_app_iff. cbn. unfold sl, chr. cbn. intuition discriminate.
Qed.
Lemma tmp_neq : forall n : str, n ++ str_of ".tmp" <> n.
Proof. intros n E. apply (f_equal (@List.length _)) in E. rewrite app_length in E. cbn in E. lia. Qed.
Lemma resolve_name : forall w n, fname_ok n -> resolve w n = w ++ [n].
Proof.
  intros w n H. pose proof H as (h1 & h2 & h3 & h4). unfold resolve. rewrite plain_starts, split_sl_plain by assumption. apply walk_parts_good. auto.
Qed.

Section Proofs.
Variable E : fenv.
Variable src : str -> path -> Prop.       (* content meant for a path *)
Variable R : path.                        (* the directory asked for *)
Hypothesis src_form : forall c D, src c D -> exists r, r <> [] /\ D = R ++ r.
Hypothesis cut_ok : forall i c, concat (pieces E i c) = c.

Definition tgt D := exists c, src c D.
Definition tmp T := exists D, tgt D /\ ftp_temp D T.
Definition Dirs q := below q R \/ exists D, tgt D /\ below q (removelast D).
Definition Files q := tgt q \/ tmp q.

(** What may happen to the server's files. *)
Record stage (t s : fsn) : Prop := {
  st_other : forall q, ~ tmp q ->
    at_ s q = at_ t q \/ (at_ t q = None /\ at_ s q = Some EDir /\ Dirs q) \/ (exists c, src c q /\ at_ s q = Some (EFile c));
  st_dir : forall q, at_ s q = Some EDir -> at_ t q = Some EDir \/ Dirs q;
  st_file : forall q c, at_ s q = Some (EFile c) -> at_ t q = Some (EFile c) \/ Files q;
  st_dirs : forall q, at_ t q = Some EDir -> at_ s q = Some EDir
}.
Lemma stage_refl : forall t, stage t t.
Proof. intro t. constructor; auto. Qed.
Lemma stage_trans : forall a b c, stage a b -> stage b c -> stage a c.
Proof.
  intros a b c [o1 d1 f1 k1] [o2 d2 f2 k2]. constructor.
  - intros q N. destruct (o2 q N) as [e2|[(x2 & y2 & z2)|e2]]; [| |auto].
    + rewrite e2. auto.
    + destruct (o1 q N) as [e1|[(x1 & y1 & z1)|(w & e1 & e1')]]; [|congruence|congruence]. right. left. rewrite <- e1. auto.
  - intros q H. destruct (d2 q H) as [H'|]; auto.
  - intros q w H. destruct (f2 q w H) as [H'|]; auto.
  - auto.
Qed.

(** Nothing prevents the sending. *)
Record ready (t : fsn) : Prop := {
  rd_fine : forall i, fates E i = Fine;
  rd_sep : forall q, Files q -> ~ Dirs q;
  rd_files : forall q, Files q -> at_ t q <> Some EDir;
  rd_dirs : forall q c, Dirs q -> at_ t q <> Some (EFile c)
}.
Lemma ready_stage : forall t s, stage t s -> ready t -> ready s.
Proof.
  intros t s [o d f k] [r1 r2 r3 r4]. constructor; auto.
  - intros q F H. destruct (d q H) as [H'|H']; [apply (r3 q F H')|apply (r2 q F H')].
  - intros q c D H. destruct (f q c H) as [H'|H']; [apply (r4 q c D H')|apply (r2 q H' D)].
Qed.

(** All states seen are within [stage]; the outcome satisfies [Q], or [pre] fails. *)
Definition tri {A} (m : fact A) (c : conn) (pre : Prop) (Q : A -> conn -> Prop) : Prop :=
  (forall s, In s (ftrace (m c)) -> stage (tree c) s) /\ stage (tree c) (ffinal (m c)) /\
  match fresult (m c) with FOk a => Q a (snd (m c)) | FErr _ => ~ pre end.

Lemma tri_ret : forall {A} (a : A) c pre (Q : A -> conn -> Prop), Q a c -> tri (fret a) c pre Q.
Proof. intros A a c pre Q H. split; [intros s []|split; [apply stage_refl|exact H]]. Qed.
Lemma tri_raise : forall {A} e c (pre : Prop) (Q : A -> conn -> Prop), ~ pre -> tri (fraise e) c pre Q.
Proof. intros A e c pre Q H. split; [intros s []|split; [apply stage_refl|exact H]]. Qed.
Lemma tri_weak : forall {A} (m : fact A) c (pre pre' : Prop) (Q Q' : A -> conn -> Prop),
  tri m c pre Q -> (pre' -> pre) -> (forall a c', stage (tree c) (tree c') -> Q a c' -> Q' a c') -> tri m c pre' Q'.
Proof.
  intros A m c pre pre' Q Q' (h1 & h2 & h3) Hp Hq. split; [assumption|split; [assumption|]].
  unfold fresult, ffinal in *. destruct (m c) as [[tr [a|e]] c']; cbn [fst snd] in *; auto.
Qed.
Lemma tri_bind : forall {A B} (m : fact A) (f : A -> fact B) c (pre pre' : Prop) (Q : A -> conn -> Prop) (Q' : B -> conn -> Prop),
  tri m c pre Q -> (pre' -> pre) ->
  (forall a c', stage (tree c) (tree c') -> Q a c' -> tri (f a) c' pre' Q') -> tri (fbind m f) c pre' Q'.
Proof.
  intros A B m f c pre pre' Q Q' (h1 & h2 & h3) Hp Hf. unfold tri, ftrace, fresult, ffinal, fbind in *.
  destruct (m c) as [[tr [a|e]] c1]; cbn [fst snd] in *.
  - destruct (Hf a c1 h2 h3) as (g1 & g2 & g3). destruct (f a c1) as [[tr' r] c2]; cbn [fst snd] in *. split; [|split].
    + intros s H. apply in_app_iff in H as [H|H]; [auto|]. eapply stage_trans; [exact h2|apply g1; assumption].
    + eapply stage_trans; eassumption.
    + exact g3.
  - split; [assumption|split; [assumption|]]. tauto.
Qed.
(** A handler for every error. *)
Lemma tri_any : forall {A} (m h : fact A) c (pre pre' : Prop) (Q : A -> conn -> Prop),
  tri m c pre Q -> (forall c', stage (tree c) (tree c') -> ~ pre -> tri h c' pre' Q) -> tri (on_any m h) c pre' Q.
Proof.
  intros A m h c pre pre' Q (h1 & h2 & h3) Hh. unfold tri, ftrace, fresult, ffinal, on_any in *.
  destruct (m c) as [[tr [a|e]] c1]; cbn [fst snd] in *.
  - auto.
  - destruct (Hh c1 h2 h3) as (g1 & g2 & g3). destruct (h c1) as [[tr' r] c2]; cbn [fst snd] in *. split; [|split; [|exact g3]].
    + intros s H. apply in_app_iff in H as [H|H]; [auto|]. eapply stage_trans; [exact h2|apply g1; assumption].
    + eapply stage_trans; eassumption.
Qed.
(** A handler for error_perm that raises again. *)
Lemma tri_perm_raise : forall {A} (m : fact A) e c (pre : Prop) (Q : A -> conn -> Prop), tri m c pre Q -> tri (on_perm m (fraise e)) c pre Q.
Proof.
  intros A m e c pre Q (h1 & h2 & h3). unfold tri, ftrace, fresult, ffinal, on_perm, fraise in *.
  destruct (m c) as [[tr [a|[|x]]] c1]; cbn [fst snd] in *; rewrite ?app_nil_r; auto.
Qed.

(** No file is left that is not a target. *)
Definition clean (t s : fsn) : Prop := forall q w, at_ s q = Some (EFile w) -> tgt q \/ at_ t q = Some (EFile w).
Lemma clean_refl : forall t, clean t t. Proof. intros t q w H. auto. Qed.
Lemma clean_trans : forall a b c, clean a b -> clean b c -> clean a c.
Proof. intros a b c H1 H2 q w H. destruct (H2 q w H) as [|H']; auto. Qed.

(** *** Commands *)
Lemma command_tri : forall f c (pre : Prop) (Q : conn -> Prop),
  (forall s, In s (trace (f (here c) (tree c))) -> stage (tree c) s) ->
  stage (tree c) (final (f (here c) (tree c))) ->
  (forall w, result (f (here c) (tree c)) = Ok w -> forall n, Q {| tree := final (f (here c) (tree c)); here := w; clock := n |}) ->
  (pre -> fates E (clock c) = Fine /\ exists w, result (f (here c) (tree c)) = Ok w) ->
  tri (command E f) c pre (fun _ => Q).
Proof.
  intros f c pre Q h1 h2 h3 h4. unfold tri, ftrace, fresult, ffinal, command, trace, result, final in *.
  destruct (fates E (clock c)) as [|e|x] eqn:F.
  - destruct (f (here c) (tree c)) as [[tr [w|e]] t]; cbn [fst snd tree] in *; split; auto. split; [assumption|]. intro P. destruct (h4 P) as (_ & w & e'). discriminate.
  - cbn [fst snd tree] in *. split; [intros s []|split; [apply stage_refl|]]. intro P. destruct (h4 P) as (e' & _). congruence.
  - destruct (f (here c) (tree c)) as [[tr [w|e]] t]; cbn [fst snd tree] in *; (split; [assumption|split; [assumption|]]); intro P; destruct (h4 P) as (e' & _); congruence.
Qed.

Lemma noop_tri : forall c (pre : Prop), (pre -> fates E (clock c) = Fine) -> tri (noop E) c pre (fun _ c' => tree c' = tree c /\ here c' = here c).
Proof.
  intros c pre H. apply command_tri.
  - intros s [].
  - apply stage_refl.
  - intros w Hw n. cbn in *. injection Hw as <-. auto.
  - intro P. split; [auto|]. eexists. reflexivity.
Qed.

(** Changing directory: no change of files; after a refusal the directory is as before. *)
Lemma cwd_cases : forall d c, let r := ftp_cwd E d c in
  ftrace r = [] /\ ffinal r = tree c /\
  (fresult r = FOk tt /\ here (snd r) = resolve (here c) d /\ at_ (tree c) (resolve (here c) d) = Some EDir \/
   fresult r = FErr Perm /\ here (snd r) = here c /\ (fates E (clock c) = Fine -> at_ (tree c) (resolve (here c) d) <> Some EDir) \/
   exists x, fresult r = FErr (Other x) /\ fates E (clock c) <> Fine).
Proof.
  intros d c r. subst r. unfold ftp_cwd, command, asks, abind, aret, araise, ftrace, ffinal, fresult. unfold is_dir.
  destruct (fates E (clock c)) as [|[|x]|x] eqn:F.
  - destruct (find (tree c) (resolve (here c) d)) as [[y|es]|] eqn:G; cbn; (split; [reflexivity|split; [reflexivity|]]).
    + right. left. split; [reflexivity|split; [reflexivity|]]. intros _ H. apply find_dir in H as (es & H). congruence.
    + left. split; [reflexivity|split; [reflexivity|]]. apply find_dir. eauto.
    + right. left. split; [reflexivity|split; [reflexivity|]]. intros _ H. apply find_dir in H as (es & H). congruence.
  - cbn. split; [reflexivity|split; [reflexivity|]]. right. left. split; [reflexivity|split; [reflexivity|]]. discriminate.
  - cbn. split; [reflexivity|split; [reflexivity|]]. right. right. exists x. split; [reflexivity|discriminate].
  - destruct (find (tree c) (resolve (here c) d)) as [[y|es]|] eqn:G; cbn; (split; [reflexivity|split; [reflexivity|]]); right; right; exists x; (split; [reflexivity|discriminate]).
Qed.
Lemma cwd_tri : forall d c (pre : Prop), (pre -> fates E (clock c) = Fine /\ at_ (tree c) (resolve (here c) d) = Some EDir) ->
  tri (ftp_cwd E d) c pre (fun _ c' => tree c' = tree c /\ here c' = resolve (here c) d /\ at_ (tree c) (resolve (here c) d) = Some EDir).
Proof.
  intros d c pre H. destruct (cwd_cases d c) as (h1 & h2 & h3). unfold tri. rewrite h1, h2. split; [intros s []|split; [apply stage_refl|]].
  destruct h3 as [(-> & h4 & h5)|[(-> & _ & h4)|(x & -> & h4)]].
  - repeat split; assumption.
  - intro P. destruct (H P) as [a b]. exact (h4 a b).
  - intro P. destruct (H P) as [a b]. exact (h4 a).
Qed.
(** Changing directory with a way out after a refusal. *)
Lemma cwd_or : forall d h c (pre : Prop) (Q : unit -> conn -> Prop), (pre -> fates E (clock c) = Fine) ->
  (forall c', tree c' = tree c -> here c' = resolve (here c) d -> at_ (tree c) (resolve (here c) d) = Some EDir -> Q tt c') ->
  (forall c', tree c' = tree c -> here c' = here c -> (fates E (clock c) = Fine -> at_ (tree c) (resolve (here c) d) <> Some EDir) -> tri h c' pre Q) ->
  tri (on_perm (ftp_cwd E d) h) c pre Q.
Proof.
  intros d h c pre Q Hf HQ Hh. destruct (cwd_cases d c) as (h1 & h2 & h3). unfold tri, ftrace, fresult, ffinal, on_perm in *.
  destruct (ftp_cwd E d c) as [[tr r] c1]; cbn [fst snd] in *. subst tr.
  destruct h3 as [(-> & h4 & h5)|[(-> & h4 & h5)|(x & -> & h4)]]; cbn [fst snd].
  - rewrite h2. split; [intros s []|split; [apply stage_refl|]]. apply HQ; assumption.
  - destruct (Hh c1 h2 h4 h5) as (g1 & g2 & g3). rewrite h2 in *. destruct (h c1) as [[tr' r] c2]; cbn [fst snd app] in *. auto.
  - rewrite h2. split; [intros s []|split; [apply stage_refl|]]. intro P. apply h4. auto.
Qed.

(** A new directory on the way. *)
Lemma made_stage : forall t t' p, place t p (Dir []) = Some t' -> at_ t p = None -> Dirs p -> stage t t'.
Proof.
  intros t t' p P N D. destruct (place_dir_grown t p t' P N) as [G _].
  assert (K : forall q, at_ t' q = at_ t q \/ (q = p /\ at_ t' q = Some EDir)).
  { intro q. rewrite (at_place _ _ _ _ P q). destruct (cut p q) as [r|] eqn:Ec; [|auto]. apply cut_Some in Ec as ->. destruct r as [|x r].
    - right. rewrite app_nil_r. auto.
    - left. rewrite (at_under_none t p (x :: r) N). reflexivity. }
  constructor.
  - intros q _. destruct (K q) as [e|(-> & e)]; [auto|]. right. left. auto.
  - intros q H. destruct (K q) as [e|(-> & e)]; [left; congruence|auto].
  - intros q w H. destruct (K q) as [e|(-> & e)]; [left; congruence|congruence].
  - intros q H. destruct (K q) as [e|(-> & e)]; congruence.
Qed.
Lemma mkd_tri : forall d c, fname_ok d -> Dirs (here c ++ [d]) -> at_ (tree c) (here c) = Some EDir ->
  tri (ftp_mkd E d) c (fates E (clock c) = Fine /\ at_ (tree c) (here c ++ [d]) = None)
    (fun _ c' => here c' = here c /\ at_ (tree c') (here c ++ [d]) = Some EDir /\ clean (tree c) (tree c')).
Proof.
  intros d c G D Hd. unfold ftp_mkd.
  set (f := fun w => n <- asks (fun t => find t (resolve w d)) ;; match n with None => change (fun t => place t (resolve w d) (Dir [])) IOErr ;;; aret w | Some _ => araise IOErr end).
  assert (F : f (here c) (tree c) = match find (tree c) (here c ++ [d]) with
      | None => match place (tree c) (here c ++ [d]) (Dir []) with Some t' => ([t'], Ok (here c), t') | None => ([], Err IOErr, tree c) end
      | Some _ => ([], Err IOErr, tree c) end).
  { unfold f, asks, abind, change, aret, araise. rewrite (resolve_name (here c) d G).
    destruct (find (tree c) (here c ++ [d])); [reflexivity|]. destruct (place (tree c) (here c ++ [d]) (Dir [])); reflexivity. }
  destruct (find (tree c) (here c ++ [d])) as [n|] eqn:Fd.
  - apply command_tri; rewrite F; cbn.
    + intros s [].
    + apply stage_refl.
    + intros w Hw. discriminate.
    + intros [_ H]. apply find_none in H. congruence.
  - apply find_none in Fd. destruct (place_ok (here c ++ [d]) (tree c) (Dir [])) as (t' & P).
    { destruct (here c); discriminate. }
    { rewrite removelast_last. assumption. }
    rewrite P in F. pose proof (made_stage _ _ _ P Fd D) as St. destruct (place_dir_grown _ _ _ P Fd) as [_ A].
    apply command_tri; rewrite F; cbn.
    + intros s [<-|[]]. assumption.
    + assumption.
    + intros w Hw n. injection Hw as <-. split; [reflexivity|]. split; [assumption|]. cbn [tree]. intros q v Hq. right.
      rewrite (at_place _ _ _ _ P q) in Hq. destruct (cut (here c ++ [d]) q) as [r|] eqn:Ec; [|assumption]. destruct r; discriminate.
    + intros [H _]. split; [assumption|eauto].
Qed.

(** *** Storing a file *)
Definition sane (p : path) (n : str) := fname_ok n /\ exists c, src c (p ++ [n]).
Lemma sane_tmp : forall p n, sane p n -> tmp (p ++ [n ++ str_of ".tmp"]).
Proof. intros p n (_ & c & H). exists (p ++ [n]). split; [exists c; assumption|]. exists p, n. auto. Qed.

(** A change at a temporary path only, which does not remove or make a directory. *)
Lemma tmp_stage : forall t s T, tmp T -> same_but T t s -> at_ t T <> Some EDir -> (exists x, at_ s T = Some (EFile x)) -> stage t s.
Proof.
  intros t s T HT Sb N (x & A).
  assert (K : forall q, q <> T \/ q = T) by (intro q; destruct (list_eq_dec (list_eq_dec ascii_dec) q T); auto). constructor.
  - intros q Hq. destruct (K q) as [k|k]; [left; apply Sb; assumption|]. subst q. contradiction.
  - intros q H. destruct (K q) as [k|k]; [left; rewrite <- (Sb q k); assumption|]. subst q. congruence.
  - intros q w H. destruct (K q) as [k|k]; [left; rewrite <- (Sb q k); assumption|]. subst q. right. right. assumption.
  - intros q H. destruct (K q) as [k|k]; [rewrite (Sb q k); assumption|]. subst q. contradiction.
Qed.
Lemma pieces_tri : forall l p n c x, sane p n -> here c = p -> at_ (tree c) (p ++ [n ++ str_of ".tmp"]) = Some (EFile x) ->
  tri (ftp_pieces E (n ++ str_of ".tmp") l) c (forall i, fates E i = Fine)
    (fun _ c' => here c' = p /\ same_but (p ++ [n ++ str_of ".tmp"]) (tree c) (tree c') /\ at_ (tree c') (p ++ [n ++ str_of ".tmp"]) = Some (EFile (x ++ concat l))).
Proof.
  induction l as [|y l IH]; intros p n c x Sn Hp A; cbn [ftp_pieces].
  - apply tri_ret. cbn [concat]. rewrite app_nil_r. auto using same_but_refl.
  - set (T := p ++ [n ++ str_of ".tmp"]) in *.
    assert (ET : resolve (here c) (n ++ str_of ".tmp") = T) by (rewrite Hp; apply resolve_name; apply tmp_ok; apply Sn).
    assert (NT : T <> []) by (unfold T; destruct p; discriminate).
    eapply tri_bind with (pre := forall i, fates E i = Fine) (Q := fun _ c' => here c' = p /\ same_but T (tree c) (tree c') /\ at_ (tree c') T = Some (EFile (x ++ y))); [|auto|].
    + destruct (append_eff T y (tree c) x NT A) as (a1 & a2 & a3 & a4 & _).
      assert (F : forall w : path, (append_file (resolve (here c) (n ++ str_of ".tmp")) y ;;; aret w) (tree c) =
        (trace (append_file T y (tree c)), Ok w, final (append_file T y (tree c)))).
      { intro w. rewrite ET. unfold abind. unfold result, trace, final in *. destruct (append_file T y (tree c)) as [[tr [u|er]] t']; cbn [fst snd] in *; [|discriminate]. cbn. rewrite app_nil_r. reflexivity. }
      assert (St : stage (tree c) (final (append_file T y (tree c)))).
      { eapply tmp_stage with (T := T); [apply (sane_tmp p n Sn)|assumption|congruence|eauto]. }
      apply command_tri with (f := fun w => append_file (resolve w (n ++ str_of ".tmp")) y ;;; aret w); rewrite F; cbn [trace final result fst snd].
      * intros s Hs. assert (s = final (append_file T y (tree c))); [|subst; assumption].
        unfold trace, final, append_file, change in *. clear - Hs. destruct (match find (tree c) T with Some (File c0) => place (tree c) T (File (c0 ++ y)) | _ => None end); cbn in *; [destruct Hs as [<-|[]]; reflexivity|destruct Hs].
      * assumption.
      * intros w Hw k. injection Hw as <-. cbn [here tree]. auto.
      * intro P. split; [apply P|eauto].
    + intros _ c' _ (h1 & h2 & h3). eapply tri_weak; [apply (IH p n c' (x ++ y) Sn h1 h3)|auto|]. cbn beta. intros _ c2 _ (g1 & g2 & g3). split; [assumption|]. split.
      * eapply same_but_trans; eassumption.
      * unfold T. rewrite g3. cbn [concat]. rewrite app_assoc. reflexivity.
Qed.
Lemma stor_tri : forall p n w c, sane p n -> here c = p ->
  tri (ftp_stor E (n ++ str_of ".tmp") w) c (ready (tree c) /\ at_ (tree c) p = Some EDir)
    (fun _ c' => here c' = p /\ same_but (p ++ [n ++ str_of ".tmp"]) (tree c) (tree c') /\ at_ (tree c') (p ++ [n ++ str_of ".tmp"]) = Some (EFile w)).
Proof.
  intros p n w c Sn Hp. unfold ftp_stor. set (T := p ++ [n ++ str_of ".tmp"]).
  assert (Go : fname_ok (n ++ str_of ".tmp")) by (apply tmp_ok; apply Sn).
  assert (ET : resolve (here c) (n ++ str_of ".tmp") = T) by (rewrite Hp; apply resolve_name; assumption).
  pose proof (sane_tmp p n Sn) as HT. fold T in HT.
  match goal with |- tri (fun c => ?m c) c ?pre ?Q => change (tri (command E (fun w0 => open_write (resolve w0 (n ++ str_of ".tmp")) ;;; aret w0) ;~ ftp_pieces E (n ++ str_of ".tmp") (pieces E (clock c) w)) c pre Q) end.
  eapply tri_bind with (Q := fun _ c' => here c' = p /\ same_but T (tree c) (tree c') /\ at_ (tree c') T = Some (EFile []));
    [apply command_tri with (pre := ready (tree c) /\ at_ (tree c) p = Some EDir)|auto|].
  - rewrite ET. destruct (open_write_eff T (tree c)) as (o1 & o2 & o3 & _). unfold abind, result, trace, final in *. unfold open_write, change in *.
    intros s Hs. destruct (match find (tree c) T with Some (Dir _) => None | _ => place (tree c) T (File []) end) as [t'|] eqn:P; cbn in *; [|destruct Hs].
    destruct Hs as [<-|[]]. destruct (o1 eq_refl) as (a & b & d & _). eapply tmp_stage; eauto.
  - rewrite ET. destruct (open_write_eff T (tree c)) as (o1 & o2 & o3 & _). unfold abind, result, trace, final in *. unfold open_write, change in *.
    destruct (match find (tree c) T with Some (Dir _) => None | _ => place (tree c) T (File []) end) as [t'|] eqn:P; cbn in *; [|apply stage_refl].
    destruct (o1 eq_refl) as (a & b & d & _). eapply tmp_stage; eauto.
  - rewrite ET. destruct (open_write_eff T (tree c)) as (o1 & o2 & o3 & _). unfold abind, result, trace, final in *. unfold open_write, change in *.
    intros w0. destruct (match find (tree c) T with Some (Dir _) => None | _ => place (tree c) T (File []) end) as [t'|] eqn:P; cbn in *; [|discriminate].
    intros Hw k. injection Hw as <-. cbn [here tree]. destruct (o1 eq_refl) as (a & b & _). auto.
  - intros [Rd Hd]. split; [apply (rd_fine _ Rd)|]. exists (here c). rewrite ET. unfold open_write, change, abind, result.
    destruct (place_ok T (tree c) (File [])) as (t' & P); [unfold T; destruct p; discriminate|unfold T; rewrite removelast_last; assumption|].
    destruct (find (tree c) T) as [[y|es]|] eqn:Fd; rewrite ?P; try reflexivity.
    exfalso. apply (rd_files _ Rd T); [right; assumption|]. apply find_dir. eauto.
  - intros _ c' _ (h1 & h2 & h3). eapply tri_weak; [apply (pieces_tri (pieces E (clock c) w) p n c' [] Sn h1 h3)| |].
    + intros [Rd _]. apply (rd_fine _ Rd).
    + cbn beta. intros _ c2 _ (g1 & g2 & g3). split; [assumption|]. split; [eapply same_but_trans; eassumption|]. unfold T. rewrite g3, cut_ok. reflexivity.
Qed.

Lemma put_tri : forall p n w c, fname_ok n -> src w (p ++ [n]) -> here c = p ->
  tri (put E n w) c (ready (tree c) /\ at_ (tree c) p = Some EDir)
    (fun _ c' => here c' = p /\ at_ (tree c') (p ++ [n]) = Some (EFile w) /\ clean (tree c) (tree c')).
Proof.
  intros p n w c Gn Hs Hp. assert (Sn : sane p n) by (split; eauto). set (T := p ++ [n ++ str_of ".tmp"]). set (D := p ++ [n]).
  pose proof (sane_tmp p n Sn) as HT. fold T in HT.
  unfold put. eapply tri_bind; [apply (stor_tri p n w c Sn Hp)|auto|]. cbn beta. fold T. intros _ c1 St (h1 & h2 & h3).
  assert (ET : resolve (here c1) (n ++ str_of ".tmp") = T) by (rewrite h1; apply resolve_name; apply tmp_ok; assumption).
  assert (ED : resolve (here c1) n = D) by (rewrite h1; apply resolve_name; assumption).
  destruct (rename_eff p (n ++ str_of ".tmp") n T D (tree c1) eq_refl eq_refl (tmp_neq n) Gn) as (r1 & r2 & _ & r4).
  assert (St2 : result (os_rename T D (tree c1)) = Ok tt -> stage (tree c1) (final (os_rename T D (tree c1))) /\
      at_ (final (os_rename T D (tree c1))) D = Some (EFile w) /\ clean (tree c) (final (os_rename T D (tree c1)))).
  { intro H. destruct (r2 H) as (w' & a1 & a2 & a3 & a4 & _). assert (w' = w) by congruence. subst w'.
    assert (NDir : at_ (tree c1) D <> Some EDir).
    { intro Hd. clear - H Hd. apply find_dir in Hd as (es & Hd). unfold os_rename, change, result in H. rewrite Hd in H. destruct (find (tree c1) T) as [[]|]; discriminate. }
    assert (K : forall q, q = T \/ q = D \/ (q <> T /\ q <> D)).
    { intro q. destruct (list_eq_dec (list_eq_dec ascii_dec) q T); [auto|]. destruct (list_eq_dec (list_eq_dec ascii_dec) q D); auto. }
    split; [|split; [assumption|]].
    - constructor.
      + intros q Hq. destruct (K q) as [k|[k|[k1 k2]]].
        * subst q. contradiction.
        * right. right. exists w. rewrite k. auto.
        * left. apply a4; assumption.
      + intros q Hq. destruct (K q) as [k|[k|[k1 k2]]]; [subst q; congruence|rewrite k in Hq; congruence|]. left. rewrite <- (a4 q k1 k2). assumption.
      + intros q v Hq. destruct (K q) as [k|[k|[k1 k2]]]; [subst q; congruence| |].
        * right. left. exists w. rewrite k. assumption.
        * left. rewrite <- (a4 q k1 k2). assumption.
      + intros q Hq. destruct (K q) as [k|[k|[k1 k2]]]; [subst q; congruence|rewrite k in Hq; congruence|]. rewrite (a4 q k1 k2). assumption.
    - intros q v Hq. destruct (K q) as [k|[k|[k1 k2]]]; [subst q; congruence| |].
      + left. exists w. rewrite k. assumption.
      + right. rewrite <- (h2 q k1), <- (a4 q k1 k2). assumption. }
  unfold ftp_rename. apply command_tri.
  - rewrite ET, ED. intros s Hin. unfold abind, result, trace, final in *. destruct (os_rename T D (tree c1)) as [[tr [u|er]] t'] eqn:Er; cbn [fst snd] in *.
    + destruct u. destruct (r2 eq_refl) as (w' & _ & _ & _ & _ & Et). cbn in Hin. rewrite app_nil_r in Hin. subst tr. destruct Hin as [<-|[]]. apply St2. reflexivity.
    + destruct r1 as (_ & e2); [eauto|]. subst tr. destruct Hin.
  - rewrite ET, ED. unfold abind, result, final in *. destruct (os_rename T D (tree c1)) as [[tr [u|er]] t'] eqn:Er; cbn [fst snd] in *.
    + destruct u. apply St2. reflexivity.
    + destruct r1 as (e1 & _); [eauto|]. subst t'. apply stage_refl.
  - rewrite ET, ED. intros v Hv k. unfold abind, result, final in *. destruct (os_rename T D (tree c1)) as [[tr [u|er]] t'] eqn:Er; cbn [fst snd] in *; [|discriminate].
    cbn in Hv. injection Hv as <-. destruct u. cbn [here tree aret snd]. split; [assumption|]. apply St2. reflexivity.
  - intros [Rd Hd]. pose proof (ready_stage _ _ St Rd) as Rd'. split; [apply (rd_fine _ Rd)|]. exists (here c1). rewrite ET, ED.
    assert (Ok1 : result (os_rename T D (tree c1)) = Ok tt).
    { apply (r4 w h3). apply (rd_files _ Rd'). left. exists w. assumption. }
    unfold abind, result in *. destruct (os_rename T D (tree c1)) as [[tr r] t']; cbn [fst snd] in *. subst r. reflexivity.
Qed.

(** *** Making the remote directory *)
Lemma walk_one : forall w x, ~ In sl x -> resolve w x = walk_parts w [x].
Proof. intros w x H. unfold resolve. rewrite plain_starts, split_sl_plain by assumption. reflexivity. Qed.
Lemma part_cases : forall x, ~ In sl x -> x <> str_of ".." -> (forall w, walk_parts w [x] = w) \/ (fname_ok x /\ forall w, walk_parts w [x] = w ++ [x]).
Proof.
  intros x Hs Hu. destruct (str_eqb_spec x []) as [->|N1]; [left; intro; apply walk_parts_empty|].
  destruct (str_eqb_spec x (str_of ".")) as [->|N2]; [left; intro; reflexivity|].
  right. assert (G : fname_ok x) by (repeat split; assumption). split; [assumption|]. intro w. apply walk_parts_good. auto.
Qed.
Lemma walk_grows : forall l w, Forall (fun x => ~ In sl x /\ x <> str_of "..") l -> below w (walk_parts w l).
Proof.
  induction l as [|x l IH]; intros w H; [apply below_refl|]. inversion H as [|? ? [h1 h2] h3]; subst.
  change (x :: l) with ([x] ++ l). rewrite walk_parts_app. destruct (part_cases x h1 h2) as [e|[_ e]]; rewrite e; [auto|].
  eapply below_trans; [apply (below_app w [x])|apply IH; assumption].
Qed.
Lemma below_Dirs : forall W q, Dirs W -> below q W -> Dirs q.
Proof. intros W q [H|(D & HD & H)] B; [left|right; exists D; split; [assumption|]]; eapply below_trans; eassumption. Qed.

Lemma cd_tri : forall l c, Forall (fun x => ~ In sl x /\ x <> str_of "..") l -> at_ (tree c) (here c) = Some EDir -> Dirs (walk_parts (here c) l) ->
  tri (cd_or_make E l) c (ready (tree c)) (fun _ c' => here c' = walk_parts (here c) l /\ at_ (tree c') (walk_parts (here c) l) = Some EDir /\ clean (tree c) (tree c')).
Proof.
  induction l as [|x l IH]; intros c H Hd HD; cbn [cd_or_make].
  - apply tri_ret. split; [reflexivity|]. split; [assumption|apply clean_refl].
  - inversion H as [|? ? [h1 h2] h3]; subst. change (x :: l) with ([x] ++ l) in *. rewrite walk_parts_app in *.
    assert (D1 : Dirs (walk_parts (here c) [x])) by (eapply below_Dirs; [exact HD|apply walk_grows; assumption]).
    eapply tri_bind with (pre := ready (tree c)) (Q := fun _ c' => here c' = walk_parts (here c) [x] /\ at_ (tree c') (walk_parts (here c) [x]) = Some EDir /\ clean (tree c) (tree c')); [|auto|].
    + apply cwd_or.
      * intro Rd. apply (rd_fine _ Rd).
      * rewrite walk_one by assumption. intros c' e1 e2 e3. rewrite e1. split; [assumption|]. split; [assumption|apply clean_refl].
      * intros c' e1 e2 e3. rewrite walk_one in e3 by assumption. apply tri_perm_raise.
        destruct (part_cases x h1 h2) as [e|[G e]].
        { (* an empty part: only a refusal leads here *)
          rewrite e in *. unfold ftp_mkd.
          assert (F : forall w : path, (n <- asks (fun t => find t (resolve w x)) ;; match n with None => change (fun t => place t (resolve w x) (Dir [])) IOErr ;;; aret w | Some _ => araise IOErr end) (tree c') =
             match find (tree c') w with None => (change (fun t => place t w (Dir [])) IOErr ;;; aret w) (tree c') | Some _ => ([], Err IOErr, tree c') end).
          { intro w. unfold asks at 1, abind at 1. rewrite walk_one, e by assumption. destruct (find (tree c') w); [reflexivity|].
            destruct ((change (fun t => place t w (Dir [])) IOErr ;;; aret w) (tree c')) as [[tr r] t']. reflexivity. }
          eapply tri_bind with (Q := fun _ _ => False); [apply command_tri with (pre := ready (tree c)) (Q := fun _ => False)|auto|intros a c2 _ []].
          - rewrite F, e1, e2. apply find_dir in Hd as (es & Hd). rewrite Hd. intros s [].
          - rewrite F, e1, e2. apply find_dir in Hd as (es & Hd). rewrite Hd. apply stage_refl.
          - rewrite F, e1, e2. apply find_dir in Hd as (es & Hd). rewrite Hd. discriminate.
          - intro Rd. exfalso. apply e3; [apply (rd_fine _ Rd)|assumption]. }
        rewrite e in *.
        eapply tri_bind with (pre := ready (tree c)); [eapply tri_weak; [apply (mkd_tri x c' G)| |intros a c2 _ Hq; exact Hq]|auto|].
        { rewrite e2. assumption. }
        { rewrite e1, e2. assumption. }
        { intro Rd. split; [apply (rd_fine _ Rd)|]. rewrite e1, e2. specialize (e3 (rd_fine _ Rd _)).
          destruct (at_ (tree c) (here c ++ [x])) as [[w|]|] eqn:A; [exfalso; exact (rd_dirs _ Rd _ w D1 A)|contradiction|exact A]. }
        { cbn beta. intros _ c2 St (g1 & g2 & g3). rewrite e2 in *.
          eapply tri_weak; [apply (cwd_tri x c2 (ready (tree c)))|auto|].
          - intro Rd. split; [apply (rd_fine _ Rd)|]. rewrite walk_one, e, g1 by assumption. assumption.
          - cbn beta. intros _ c3 _ (k1 & k2 & k3). rewrite k1. rewrite walk_one, e, g1 in k2 by assumption. split; [assumption|]. split; [assumption|].
            rewrite <- e1. assumption. }
    + cbn beta. intros _ c' St (k1 & k2 & k3). rewrite <- k1 in k2. eapply tri_weak; [apply (IH c' h3 k2)|intro Rd; eapply ready_stage; eassumption|].
      { rewrite k1. assumption. }
      cbn beta. intros _ c2 _ (g1 & g2 & g3). rewrite k1 in g1, g2. split; [assumption|]. split; [assumption|]. eapply clean_trans; eassumption.
Qed.

Lemma lstrip_parts : forall s x, In x (split_sl (lstrip_sl s)) -> In x (split_sl s).
Proof.
  induction s as [|c s IH]; intros x H; [assumption|]. cbn [lstrip_sl] in H. destruct (Ascii.eqb_spec c sl) as [->|N]; [|assumption].
  cbn [split_sl]. rewrite Ascii.eqb_refl. right. apply IH. assumption.
Qed.
Lemma strip_parts : forall s x, In x (split_sl (strip_sl s)) -> In x (split_sl s).
Proof.
  intros s x H. apply lstrip_parts. unfold strip_sl in H. destruct (rstrip_repeat (lstrip_sl s)) as (n & E0). rewrite E0.
  destruct n as [|n]; [cbn [repeat]; rewrite app_nil_r; assumption|]. cbn [repeat]. rewrite split_sl_app. apply in_or_app. auto.
Qed.
Lemma split_ok : forall d, ~ In (str_of "..") (split_sl d) -> Forall (fun x => ~ In sl x /\ x <> str_of "..") (ftp_split d).
Proof.
  intros d H. apply Forall_forall. intros x Hx. split; [eapply split_sl_parts; exact Hx|]. intros ->. apply H. apply strip_parts. assumption.
Qed.
Lemma root_cwd : forall w, resolve w (str_of "/") = []. Proof. reflexivity. Qed.

Lemma create_tri : forall d c, at_ (tree c) [] = Some EDir -> ~ In (str_of "..") (split_sl d) -> Dirs (resolve [] d) ->
  tri (create_remote_directory E d) c (ready (tree c))
    (fun _ c' => here c' = resolve [] d /\ at_ (tree c') (resolve [] d) = Some EDir /\ clean (tree c) (tree c')).
Proof.
  intros d c Hr Hu HD. unfold create_remote_directory. eapply tri_bind; [apply (cwd_tri (str_of "/") c (ready (tree c)))|auto|].
  - intro Rd. split; [apply (rd_fine _ Rd)|]. rewrite root_cwd. assumption.
  - cbn beta. intros _ c1 _ (e1 & e2 & _). rewrite root_cwd in e2. rewrite <- e1 in *. apply cwd_or.
    + intro Rd. apply (rd_fine _ Rd).
    + rewrite e2. intros c2 k1 k2 k3. rewrite k1. split; [assumption|]. split; [assumption|apply clean_refl].
    + intros c2 k1 k2 _. rewrite e2 in k2. rewrite <- k1 in *.
      assert (W : walk_parts (here c2) (ftp_split d) = resolve [] d).
      { rewrite k2. unfold ftp_split. rewrite walk_strip. unfold resolve. destruct (starts_sl d); reflexivity. }
      rewrite <- W. apply cd_tri; [apply split_ok; assumption|rewrite k2; assumption|rewrite W; assumption].
Qed.
Lemma setup_tri : forall d c, at_ (tree c) [] = Some EDir -> ~ In (str_of "..") (split_sl d) -> resolve [] d = R ->
  tri (setup E d) c (ready (tree c)) (fun _ c' => here c' = R /\ at_ (tree c') R = Some EDir /\ clean (tree c) (tree c')).
Proof.
  intros d c Hr Hu HR. unfold setup. eapply tri_bind with (pre := ready (tree c)) (Q := fun _ c' => tree c' = tree c); [|auto|].
  - apply tri_perm_raise. eapply tri_bind; [apply (noop_tri c (ready (tree c)))|auto|].
    + intro Rd. apply (rd_fine _ Rd).
    + cbn beta. intros _ c1 _ (e1 & _). eapply tri_weak; [apply (noop_tri c1 (ready (tree c)))|auto|].
      * intro Rd. apply (rd_fine _ Rd).
      * cbn beta. intros _ c2 _ (e2 & _). congruence.
  - intros _ c1 _ e1. rewrite <- e1 in *. eapply tri_any.
    + rewrite <- HR. apply create_tri; [assumption|assumption|]. left. rewrite HR. apply below_refl.
    + intros c2 _ N. eapply tri_bind with (pre := False); [apply (noop_tri c2 False); intros []|tauto|].
      intros _ c3 _ _. apply tri_raise. assumption.
Qed.

(** *** What has been placed stays *)
Definition placed (t : fsn) (D : path) : Prop := exists c, src c D /\ at_ t D = Some (EFile c).
Lemma placed_stage : forall t s D, ~ tmp D -> stage t s -> placed t D -> placed s D.
Proof.
  intros t s D N St (c & h1 & h2). destruct (st_other _ _ St D N) as [e|[(e & _)|(c' & e1 & e2)]]; [exists c; split; congruence|congruence|exists c'; auto].
Qed.
Lemma root_stage : forall t s, stage t s -> at_ t [] = Some EDir -> at_ s [] = Some EDir.
Proof. intros t s St H. apply (st_dirs _ _ St). assumption. Qed.
End Proofs.
