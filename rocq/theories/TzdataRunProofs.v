(** The actions of C115 to C117. *)
From Coq Require Import ZArith String Ascii Bool List Lia.
From Verif Require Import PyBase PyStr FsModel FsSpec FsProofs PathProofs CopyProofs TzdataModel TzdataSpec TzdataProofs.
Import ListNotations.

Lemma is_dir_at : forall p t, is_dir p t = true <-> at_ t p = Some EDir.
Proof. intros p t. unfold is_dir, at_. destruct (find t p) as [[c|es]|]; split; congruence. Qed.
Lemma is_dir_no : forall p t, is_dir p t = false <-> at_ t p <> Some EDir.
Proof. intros p t. rewrite <- is_dir_at. destruct (is_dir p t); split; congruence. Qed.
Lemma at_nonempty : forall t p e, at_ t p = Some e -> p <> [] -> at_ t [] = Some EDir.
Proof. intros t [|x p] e H N; [congruence|]. apply (at_above t [] x p e). exact H. Qed.

(** ** Staying inside a folder *)
Section Inside.
Variable cwd : path.
Variable outdir : str.
Let O := resolve cwd outdir.
Definition in_ (q : path) : Prop := exists x r, q = O ++ x :: r.
Definition J (t s : fsn) : Prop := at_ s O = Some EDir /\ forall q, ~ in_ q -> at_ s q = at_ t q.
Lemma J_place : forall t s p n s', J t s -> in_ p -> place s p n = Some s' -> J t s'.
Proof.
  intros t s p n s' [D F] (x & r & ->) P. pose proof (at_place _ _ _ _ P) as A. split.
  - rewrite A. destruct (cut (O ++ x :: r) O) as [z|] eqn:E; [|exact D]. apply cut_Some in E. rewrite <- app_assoc in E. rewrite <- (app_nil_r O) in E at 1. apply app_inv_head in E. discriminate.
  - intros q Hq. rewrite A. destruct (cut (O ++ x :: r) q) as [z|] eqn:E; [|apply F; exact Hq]. exfalso. apply Hq. apply cut_Some in E. rewrite <- app_assoc in E. cbn [app] in E. exists x, (r ++ z). exact E.
Qed.
Lemma J_unlink : forall t s p s', J t s -> in_ p -> unlink s p = Some s' -> J t s'.
Proof.
  intros t s p s' [D F] (x & r & ->) P. pose proof (at_unlink _ _ _ P) as A. split.
  - rewrite A. destruct (cut (O ++ x :: r) O) as [z|] eqn:E; [|exact D]. apply cut_Some in E. rewrite <- app_assoc in E. rewrite <- (app_nil_r O) in E at 1. apply app_inv_head in E. discriminate.
  - intros q Hq. rewrite A. destruct (cut (O ++ x :: r) q) as [z|] eqn:E; [|apply F; exact Hq]. exfalso. apply Hq. apply cut_Some in E. rewrite <- app_assoc in E. cbn [app] in E. exists x, (r ++ z). exact E.
Qed.

Variable t0 : fsn.
Definition keeps {A} (m : act A) : Prop := forall s, J t0 s -> J t0 (final (m s)).
Lemma keeps_ret : forall {A} (a : A), keeps (aret a). Proof. intros A a s H. exact H. Qed.
Lemma keeps_raise : forall {A} e, keeps (@araise A e). Proof. intros A e s H. exact H. Qed.
Lemma keeps_lift : forall {A} (r : res A), keeps (lift r). Proof. intros A [a|e] s H; exact H. Qed.
Lemma keeps_bind : forall {A B} (m : act A) (f : A -> act B), keeps m -> (forall a, keeps (f a)) -> keeps (abind m f).
Proof.
  intros A B m f Hm Hf s H. specialize (Hm s H). unfold abind, final in *. destruct (m s) as [[tr [a|e]] s1]; cbn [snd] in *; [|exact Hm].
  specialize (Hf a s1 Hm). unfold final in Hf. destruct (f a s1) as [[tr' r] s2]. exact Hf.
Qed.
Lemma keeps_change : forall f e, (forall s s', J t0 s -> f s = Some s' -> J t0 s') -> keeps (change f e).
Proof. intros f e H s Hs. unfold change. destruct (f s) as [s'|] eqn:E; [apply (H s s' Hs E)|exact Hs]. Qed.
Lemma keeps_open : forall p, in_ p -> keeps (open_write p).
Proof.
  intros p Hp. apply keeps_change. intros s s' Hs E. destruct (find s p) as [[c|es]|]; [|discriminate|]; eapply J_place; eassumption.
Qed.
Lemma keeps_append : forall p x, in_ p -> keeps (append_file p x).
Proof. intros p x Hp. apply keeps_change. intros s s' Hs E. destruct (find s p) as [[c|es]|]; [|discriminate|discriminate]. eapply J_place; eassumption. Qed.
Lemma keeps_makedirs : forall rel, Forall fname_ok O -> Forall fname_ok rel -> keeps (makedirs [] (O ++ rel)).
Proof.
  intros rel HO Hr s [D F]. destruct (makedirs_eff (O ++ rel) [] s) as [G _].
  - destruct O as [|x O'] eqn:EO; [exact D|]. eapply at_nonempty; [exact D|discriminate].
  - apply Forall_app. auto.
  - destruct (G (final (makedirs [] (O ++ rel) s))) as [g _]; [right; reflexivity|]. cbn [app] in g.
    assert (K : forall q, ~ in_ q -> at_ (final (makedirs [] (O ++ rel) s)) q = at_ s q).
    { intros q Hq. destruct (g q) as [e|(a & b & c)]; [exact e|]. exfalso. destruct (below_linear q O (O ++ rel) c (below_app O rel)) as [(z & Ez)|(z & Ez)].
      - destruct z as [|y z]; [rewrite app_nil_r in Ez; rewrite <- Ez, D in a; discriminate|]. rewrite Ez in D. apply at_above in D. rewrite D in a. discriminate.
      - destruct z as [|y z]; [rewrite app_nil_r in Ez; rewrite Ez, D in a; discriminate|]. apply Hq. exists y, z. exact Ez. }
    split; [rewrite K; [exact D|intros (y & z & E); rewrite <- (app_nil_r O) in E at 1; apply app_inv_head in E; discriminate]|].
    intros q Hq. rewrite K by exact Hq. apply F. exact Hq.
Qed.
Lemma keeps_rename : forall p q, in_ p -> in_ q -> keeps (rename_any p q).
Proof.
  intros p q Hp Hq. apply keeps_change. intros s s' Hs E. destruct (find s p) as [[c|es]|]; [| |discriminate].
  - destruct (find s q) as [[c'|es']|]; [|discriminate|]; (destruct (unlink s p) as [s1|] eqn:U; [|discriminate]); (eapply J_place; [eapply J_unlink; [exact Hs|exact Hp|exact U]|exact Hq|exact E]).
  - destruct (find s q) as [[c'|es']|]; [discriminate|discriminate|]. destruct (unlink s p) as [s1|] eqn:U; [|discriminate]. eapply J_place; [eapply J_unlink; [exact Hs|exact Hp|exact U]|exact Hq|exact E].
Qed.

Hypothesis HO : Forall fname_ok O.
Lemma in_parts : forall f, parts f <> [] -> in_ (O ++ parts f).
Proof. intros f H. destruct (parts f) as [|x l]; [congruence|]. exists x, l. reflexivity. Qed.
Lemma keeps_extract : forall f c, parts f <> [] -> keeps (extract cwd outdir f c).
Proof.
  intros f c Hp. unfold extract. rewrite !resolve_target. fold O. destruct (target_split cwd outdir f Hp) as (_ & U & _). fold O in U.
  pose proof (in_parts f Hp) as I.
  assert (Hr : Forall fname_ok (removelast (parts f))).
  { pose proof (parts_ok f) as F. rewrite (app_removelast_last [] Hp) in F. apply Forall_app in F as [F _]. exact F. }
  apply keeps_bind; [|intro; apply keeps_bind; [|intro; apply keeps_ret]].
  - destruct (fst (os_split (zip_target outdir f))) as [|y u] eqn:E; [apply keeps_ret|]. rewrite U. intros s Hs.
    destruct (find s (O ++ removelast (parts f))); [exact Hs|]. apply keeps_makedirs; assumption.
  - destruct (ends_sl f).
    + intros s Hs. destruct (is_dir (O ++ parts f) s); [exact Hs|]. apply keeps_change; [|exact Hs]. intros s1 s2 H1 E. destruct (find s1 (O ++ parts f)); [discriminate|]. eapply J_place; eassumption.
    + apply keeps_bind; [apply keeps_open; exact I|]. intro. apply keeps_append. exact I.
Qed.
Lemma extract_gives : forall f c s a, result (extract cwd outdir f c s) = Ok a -> a = zip_target outdir f.
Proof.
  intros f c s a H. unfold extract in H. apply bind_ok in H as (x & _ & H & _). apply bind_ok in H as (y & _ & H & _). injection H as <-. reflexivity.
Qed.
Lemma resolve_name : forall f, last (split_sl f) [] <> str_of ".." ->
  resolve cwd (os_join outdir (snd (os_split f))) = O \/ (fname_ok (snd (os_split f)) /\ resolve cwd (os_join outdir (snd (os_split f))) = O ++ [snd (os_split f)]).
Proof.
  intros f H. rewrite <- tail_last in H. pose proof (tail_plain f) as P. set (n := snd (os_split f)) in *. clearbody n.
  destruct (str_eqb_spec n []) as [->|N1]; [left; rewrite resolve_join by reflexivity; apply walk_parts_empty|].
  destruct (str_eqb_spec n (str_of ".")) as [->|N2]; [left; rewrite resolve_join_part by exact P; reflexivity|].
  right. assert (G : fname_ok n) by (repeat split; assumption). split; [exact G|]. apply resolve_join_good. exact G.
Qed.
Lemma keeps_move : forall f, parts f <> [] -> last (split_sl f) [] <> str_of ".." -> keeps (move cwd (zip_target outdir f) (os_join outdir (snd (os_split f)))).
Proof.
  intros f Hp Hn s Hs. unfold move. destruct (target_split cwd outdir f Hp) as (B & _). rewrite B, resolve_target. fold O.
  pose proof (in_parts f Hp) as I.
  assert (N : fname_ok (last (parts f) [])).
  { pose proof (parts_ok f) as F. rewrite (app_removelast_last [] Hp) in F. apply Forall_app in F as [_ F]. inversion F; assumption. }
  rewrite (resolve_join_good cwd _ (last (parts f) [])) by exact N.
  destruct (resolve_name f Hn) as [E|[G E]]; rewrite E.
  - destruct Hs as [D F]. replace (is_dir O s) with true by (symmetry; apply is_dir_at; exact D).
    destruct (list_eq_dec _ _ _); [split; assumption|]. destruct (find s (O ++ [last (parts f) []])); [split; assumption|].
    apply keeps_rename; [exact I|exists (last (parts f) []), []; reflexivity|split; assumption].
  - destruct (is_dir (O ++ [snd (os_split f)]) s).
    + destruct (list_eq_dec _ _ _); [exact Hs|]. destruct (find s ((O ++ [snd (os_split f)]) ++ [last (parts f) []])); [exact Hs|].
      apply keeps_rename; [exact I| |exact Hs]. rewrite <- app_assoc. cbn [app]. eexists _, _. reflexivity.
    + destruct (list_eq_dec _ _ _); [exact Hs|]. apply keeps_rename; [exact I|eexists _, _; reflexivity|exact Hs].
Qed.
Definition fair (e : str * str) : Prop := proper (fst e) /\ last (split_sl (fst e)) [] <> str_of "..".
Lemma keeps_unpack : forall all l fb shp, Forall fair l -> keeps (unpack cwd outdir all l fb shp).
Proof.
  intros all l. induction l as [|[f c] l IH]; intros fb shp H; cbn [unpack]; [apply keeps_ret|]. inversion H as [|? ? [P N] H']; subst. cbn [fst] in P, N.
  apply parts_proper in P. intros s Hs.
  pose proof (keeps_extract f (content_of all f) P s Hs) as K. pose proof (extract_gives f (content_of all f) s) as G.
  unfold abind at 1. unfold result, final in *. destruct (extract cwd outdir f (content_of all f) s) as [[tr [a|e]] s1]; cbn [fst snd] in *; [|exact K].
  specialize (G a eq_refl). subst a.
  assert (M : keeps ((if str_eqb (zip_target outdir f) (os_join outdir (snd (os_split f))) then aret tt else move cwd (zip_target outdir f) (os_join outdir (snd (os_split f)))) ;;;
    unpack cwd outdir all l (Some (fst (os_split f))) (if ends_with (str_of ".shp") (snd (os_split f)) then Some (os_join outdir (snd (os_split f))) else shp))).
  { apply keeps_bind; [destruct (str_eqb _ _); [apply keeps_ret|apply keeps_move; assumption]|]. intro. apply IH. exact H'. }
  specialize (M s1 K). unfold final in M. destruct (((if str_eqb _ _ then _ else _) ;;; _) s1) as [[tr' r] s2]. exact M.
Qed.
Lemma keeps_rmtree : forall p, in_ p -> keeps (rmtree p).
Proof. intros p Hp. apply keeps_change. intros s s' Hs E. eapply J_unlink; eassumption. Qed.
End Inside.

(** ** The folder and the shapefile found *)
Lemma unpack_gives : forall cwd outdir all l fb shp s fb' shp', result (unpack cwd outdir all l fb shp s) = Ok (fb', shp') ->
  fb' = match l with [] => fb | _ => Some (fst (os_split (fst (last l ([], []))))) end /\
  ((exists n, last_shape (map (fun e => (snd (os_split (fst e)), snd e)) l) n /\ shp' = Some (os_join outdir n)) \/
   (shp' = shp /\ forall e, In e l -> ~ closes (str_of ".shp") (snd (os_split (fst e))))).
Proof.
  intros cwd outdir all l. induction l as [|[f c] l IH]; intros fb shp s fb' shp' H; cbn [unpack] in H.
  - injection H as <- <-. split; [reflexivity|]. right. split; [reflexivity|intros e []].
  - apply bind_ok in H as (a & _ & H & _). apply bind_ok in H as (u & _ & H & _). apply IH in H as [H1 H2]. split.
    + rewrite H1. destruct l as [|e l]; reflexivity.
    + destruct H2 as [(n & (pre & cc & post & E & C & P) & ->)|[-> N]].
      * left. exists n. split; [|reflexivity]. exists ((snd (os_split f), c) :: pre), cc, post. cbn [map fst snd]. rewrite E. repeat split; assumption.
      * destruct (ends_with (str_of ".shp") (snd (os_split f))) eqn:E.
        -- left. apply ends_with_spec in E. exists (snd (os_split f)). split; [|reflexivity]. exists [], c, (map (fun e => (snd (os_split (fst e)), snd e)) l).
           repeat split; auto. intros e He. apply in_map_iff in He as (e' & <- & He). cbn [fst]. apply N. exact He.
        -- right. split; [reflexivity|]. intros e [<-|He]; [|apply N; exact He]. cbn [fst]. intro C. apply ends_with_spec in C. congruence.
Qed.

(** ** An entry in a folder *)
Lemma makedirs_runs : forall rest done t, at_ t done = Some EDir -> Forall fname_ok rest ->
  (forall a b, rest = a ++ b -> at_ t (done ++ a) = None \/ at_ t (done ++ a) = Some EDir) -> result (makedirs done rest t) = Ok tt.
Proof.
  induction rest as [|n rest IH]; intros done t Hd G W; cbn [makedirs]; [reflexivity|]. inversion G as [|? ? G1 G2]; subst.
  destruct (find t (done ++ [n])) as [[c|es]|] eqn:E.
  - exfalso. apply find_file in E. destruct (W [n] rest eq_refl); congruence.
  - apply IH; [apply find_dir; eauto|exact G2|]. intros a b ->. rewrite <- app_assoc. apply (W (n :: a) b). reflexivity.
  - apply find_none in E. destruct (place_ok (done ++ [n]) t (Dir [])) as (t1 & P); [destruct done; discriminate|rewrite removelast_last; assumption|].
    unfold change. cbn [abind]. unfold abind. rewrite P. assert (A : at_ t1 (done ++ [n]) = Some EDir) by (rewrite (at_place _ _ _ _ P), cut_self; reflexivity).
    assert (R : result (makedirs (done ++ [n]) rest t1) = Ok tt).
    { apply IH; [exact A|exact G2|]. intros a b ->. rewrite (at_place _ _ _ _ P), cut_app. destruct a as [|x a]; [right; reflexivity|left]. reflexivity. }
    unfold result in *. destruct (makedirs (done ++ [n]) rest t1) as [[tr r] t2]. exact R.
Qed.

Section Step.
Variable cwd : path.
Variable outdir : str.
Let O := resolve cwd outdir.
Hypothesis HO : Forall fname_ok O.
Lemma place_entry : forall f R n c s, parts f = R ++ [n] -> R <> [] -> hd [] R <> n -> snd (os_split f) = n -> ends_sl f = false ->
  at_ s O = Some EDir -> (forall a b, R = a ++ b -> at_ s (O ++ a) = None \/ at_ s (O ++ a) = Some EDir) ->
  at_ s (O ++ R ++ [n]) <> Some EDir -> at_ s (O ++ [n]) <> Some EDir ->
  let m := (actual <- extract cwd outdir f c ;; if str_eqb actual (os_join outdir n) then aret tt else move cwd actual (os_join outdir n)) in
  result (m s) = Ok tt /\ at_ (final (m s)) (O ++ [n]) = Some (EFile c) /\ at_ (final (m s)) (O ++ R ++ [n]) = None /\ at_ (final (m s)) (O ++ R) = Some EDir /\
  forall q, q <> O ++ [n] -> q <> O ++ R ++ [n] -> at_ (final (m s)) q = at_ s q \/ (at_ s q = None /\ at_ (final (m s)) q = Some EDir /\ below q (O ++ R)).
Proof.
  intros f R n c s Hf HR Hh Hn He D W N1 N2 m.
  assert (Hp : parts f <> []) by (rewrite Hf; destruct R; discriminate).
  pose proof (parts_ok f) as OK. rewrite Hf in OK. apply Forall_app in OK as [OKR OKn]. inversion OKn as [|? ? Fn _]; subst x l. clear OKn.
  pose proof Fn as (f1 & f2 & f3 & f4).
  destruct (target_split cwd outdir f Hp) as (_ & U & NU). fold O in U. rewrite Hf, removelast_last in U, NU. specialize (NU HR).
  pose proof (resolve_target cwd outdir f) as T. fold O in T. rewrite Hf in T.
  assert (Root : at_ s [] = Some EDir) by (destruct O as [|y O']; [exact D|eapply at_nonempty; [exact D|discriminate]]).
  set (first := match fst (os_split (zip_target outdir f)) with [] => aret tt | _ =>
    fun t => match find t (resolve cwd (fst (os_split (zip_target outdir f)))) with Some _ => aret tt t | None => makedirs [] (resolve cwd (fst (os_split (zip_target outdir f)))) t end end).
  assert (F : result (first s) = Ok tt /\ at_ (final (first s)) (O ++ R) = Some EDir /\ grown (O ++ R) s (final (first s))).
  { assert (M : result (makedirs [] (O ++ R) s) = Ok tt /\ at_ (final (makedirs [] (O ++ R) s)) (O ++ R) = Some EDir /\ grown (O ++ R) s (final (makedirs [] (O ++ R) s))).
    { assert (FR : Forall fname_ok (O ++ R)) by (apply Forall_app; auto).
      assert (MR : result (makedirs [] (O ++ R) s) = Ok tt).
      { apply makedirs_runs; [exact Root|exact FR|]. intros a b E. cbn [app].
        destruct (below_linear a O (O ++ R)) as [(z & Ez)|(z & Ez)]; [exists b; exact E|apply below_app| |].
        - right. destruct z as [|y z]; [rewrite app_nil_r in Ez; rewrite <- Ez; exact D|]. rewrite Ez in D. apply at_above in D. exact D.
        - rewrite Ez. rewrite Ez, <- app_assoc in E. apply app_inv_head in E. apply (W z b). exact E. }
      destruct (makedirs_eff (O ++ R) [] s Root FR) as [G1 G2]. split; [exact MR|]. split; [apply (G2 tt); exact MR|]. apply (G1 (final (makedirs [] (O ++ R) s))). right. reflexivity. }
    subst first. destruct (fst (os_split (zip_target outdir f))) as [|y u] eqn:Eu; [congruence|].
    rewrite U. destruct (find s (O ++ R)) as [nd|] eqn:Ef; [|exact M]. split; [reflexivity|]. split; [|apply grown_refl].
    destruct (W R []) as [Z|Z]; [rewrite app_nil_r; reflexivity| |exact Z]. apply find_none in Z. congruence. }
  destruct F as (F1 & F2 & F3). set (s1 := final (first s)) in *.
  (* the file *)
  set (P := O ++ R ++ [n]) in *.
  assert (NP : P <> []) by (unfold P; destruct O; destruct R; discriminate).
  assert (PP : removelast P = O ++ R) by (unfold P; rewrite app_assoc; apply removelast_last).
  assert (OW : result (open_write P s1) = Ok tt).
  { unfold open_write, change. assert (ND : at_ s1 P <> Some EDir).
    { destruct (F3 P) as [->|(_ & _ & (z & Ez))]; [exact N1|]. exfalso. unfold P in Ez. rewrite <- !app_assoc in Ez. apply app_inv_head in Ez. rewrite <- (app_nil_r R) in Ez at 1. apply app_inv_head in Ez. discriminate. }
    destruct (place_ok P s1 (File []) NP) as (s' & Es); [rewrite PP; exact F2|]. destruct (find s1 P) as [[cc|es]|] eqn:Ef; rewrite ?Es; try reflexivity. exfalso. apply ND. apply find_dir. eauto. }
  destruct (open_write_eff P s1) as (O1 & _). destruct (O1 OW) as (SB & A2 & _). set (s2 := final (open_write P s1)) in *.
  destruct (append_eff P c s2 [] NP A2) as (AP & SB3 & A3 & _). set (s3 := final (append_file P c s2)) in *. cbn [app] in A3.
  assert (X : result (extract cwd outdir f c s) = Ok (zip_target outdir f) /\ final (extract cwd outdir f c s) = s3).
  { unfold extract. rewrite T. fold P. rewrite He. fold first.
    destruct (bind_ok_run first (fun _ : unit => (open_write P ;;; append_file P c) ;;; aret (zip_target outdir f)) s tt F1) as [-> ->]. fold s1.
    destruct (bind_ok_run (open_write P) (fun _ : unit => append_file P c) s1 tt OW) as [B1 B2]. fold s2 in B1, B2. rewrite AP in B1.
    destruct (bind_ok_run (open_write P ;;; append_file P c) (fun _ : unit => aret (zip_target outdir f)) s1 tt B1) as [-> ->]. rewrite B2. auto. }
  destruct X as [X1 X2]. unfold m. destruct (bind_ok_run (extract cwd outdir f c) (fun actual => if str_eqb actual (os_join outdir n) then aret tt else move cwd actual (os_join outdir n)) s _ X1) as [-> ->]. rewrite X2. clear m.
  (* the move *)
  assert (Dn : resolve cwd (os_join outdir n) = O ++ [n]) by (apply resolve_join_good; exact Fn).
  assert (Neq : P <> O ++ [n]).
  { unfold P. intro E. apply app_inv_head in E. destruct R as [|y [|z R]]; [congruence|discriminate|discriminate]. }
  destruct (str_eqb_spec (zip_target outdir f) (os_join outdir n)) as [E|_]; [exfalso; apply Neq; rewrite <- Dn, <- E; symmetry; exact T|].
  assert (Q : forall q, q <> P -> at_ s3 q = at_ s q \/ (at_ s q = None /\ at_ s3 q = Some EDir /\ below q (O ++ R))).
  { intros q Hq. rewrite (SB3 q Hq), (SB q Hq). exact (F3 q). }
  assert (NB : ~ below (O ++ [n]) (O ++ R)).
  { intros (z & Ez). rewrite <- app_assoc in Ez. apply app_inv_head in Ez. subst R. apply Hh. reflexivity. }
  assert (ND : at_ s3 (O ++ [n]) <> Some EDir).
  { destruct (Q (O ++ [n])) as [->|(_ & _ & B)]; [intro E; apply Neq; symmetry; exact E|exact N2|contradiction]. }
  assert (D3 : at_ s3 O = Some EDir).
  { destruct (Q O) as [->|(a & _)]; [|exact D|rewrite D in a; discriminate]. unfold P. intro E. rewrite <- (app_nil_r O) in E at 1. apply app_inv_head in E. destruct R; discriminate. }
  assert (DR3 : at_ s3 (O ++ R) = Some EDir).
  { rewrite SB3, SB; [exact F2| |]; unfold P; intro E; apply app_inv_head in E; rewrite <- (app_nil_r R) in E at 1; apply app_inv_head in E; discriminate. }
  unfold move. rewrite T, Dn. fold P. apply is_dir_no in ND as ND'. rewrite ND'. destruct (list_eq_dec (list_eq_dec ascii_dec) P (O ++ [n])) as [|_]; [contradiction|].
  unfold rename_any, change. assert (FP : find s3 P = Some (File c)) by (apply find_file; exact A3). rewrite FP.
  destruct (unlink_ok P s3 NP) as (s4 & U4); [congruence|]. pose proof (at_unlink _ _ _ U4) as A4.
  assert (CO : cut P O = None).
  { apply cut_None. intros (z & Ez). unfold P in Ez. rewrite <- app_assoc in Ez. rewrite <- (app_nil_r O) in Ez at 1. apply app_inv_head in Ez. destruct R; discriminate. }
  destruct (place_ok (O ++ [n]) s4 (File c)) as (s5 & P5); [destruct O; discriminate|rewrite removelast_last, A4, CO; exact D3|].
  rewrite U4, P5.
  assert (FQ : (match find s3 (O ++ [n]) with Some (File _) | None => Some s5 | Some (Dir _) => None end) = Some s5).
  { destruct (find s3 (O ++ [n])) as [[cc|es]|] eqn:Ef; try reflexivity. exfalso. apply ND. apply find_dir. eauto. }
  replace (match find s3 (O ++ [n]) with Some (File _) => Some s5 | Some (Dir _) => None | None => Some s5 end) with (Some s5).
  cbn [result final fst snd]. pose proof (at_place _ _ _ _ P5) as A5.
  assert (FR : forall q, q <> O ++ [n] -> q <> P -> at_ s5 q = at_ s3 q).
  { intros q Hq1 Hq2. rewrite A5. destruct (cut (O ++ [n]) q) as [r|] eqn:Ec.
    - apply cut_Some in Ec as ->. destruct r as [|y r]; [rewrite app_nil_r in Hq1; congruence|]. change (at_ (File c) (y :: r)) with (@None ent).
      destruct (at_ s3 ((O ++ [n]) ++ y :: r)) eqn:Ea; [|reflexivity]. apply at_above in Ea. contradiction.
    - rewrite A4. destruct (cut P q) as [r|] eqn:Ec2; [|reflexivity]. apply cut_Some in Ec2 as ->. destruct r as [|y r]; [rewrite app_nil_r in Hq2; congruence|].
      symmetry. eapply at_under_file; [exact A3|discriminate]. }
  split; [reflexivity|]. split; [rewrite A5, cut_self; reflexivity|]. split; [|split].
  - rewrite A5. destruct (cut (O ++ [n]) P) as [r|] eqn:Ec.
    + exfalso. apply cut_Some in Ec. unfold P in Ec. rewrite <- app_assoc in Ec. apply app_inv_head in Ec. destruct R as [|y R]; [congruence|]. cbn [app] in Ec. injection Ec as -> _. apply Hh. reflexivity.
    + rewrite A4, cut_self. reflexivity.
  - rewrite FR; [exact DR3| |].
    + intro E. apply NB. rewrite E. apply below_refl.
    + unfold P. intro E. apply app_inv_head in E. rewrite <- (app_nil_r R) in E at 1. apply app_inv_head in E. discriminate.
  - intros q Hq1 Hq2. rewrite (FR q Hq1 Hq2). apply Q. exact Hq2.
Qed.
End Step.

Lemma bind_assoc_run : forall {A B C} (a : act A) (g : A -> act B) (h : B -> act C) s u, result (abind a g s) = Ok u ->
  result (abind a (fun x => abind (g x) h) s) = result (h u (final (abind a g s))) /\ final (abind a (fun x => abind (g x) h) s) = final (h u (final (abind a g s))).
Proof.
  intros A B C a g h s u H. unfold abind, result, final in *. destruct (a s) as [[tr [x|e]] s1]; cbn [fst snd] in *; [|discriminate].
  destruct (g x s1) as [[tr1 [y|e]] s2]; cbn [fst snd] in *; [|discriminate]. injection H as ->. destruct (h u s2) as [[tr2 r] s3]; auto.
Qed.

(** ** Names *)
Lemma entry_total : forall f, exists d n, entry f d n.
Proof.
  intro f. assert (G : exists a n, f = a ++ n /\ ~ In sl n /\ (a = [] \/ ends_sl a = true)).
  { induction f as [|c f (a & n & E & Hn & Ha)]; [exists [], []; auto|]. destruct (Ascii.eqb_spec c sl) as [->|Nc].
    - exists (sl :: a), n. split; [rewrite E; reflexivity|]. split; [exact Hn|]. right. destruct Ha as [->|Ha]; [reflexivity|]. apply ends_sl_snoc in Ha as (r & ->). apply ends_sl_snoc. exists (sl :: r). reflexivity.
    - destruct a as [|x a].
      + exists [], (c :: n). split; [rewrite E; reflexivity|]. split; [intros [I|I]; [congruence|contradiction]|auto].
      + exists (c :: x :: a), n. split; [rewrite E; reflexivity|]. split; [exact Hn|]. right. destruct Ha as [Ha|Ha]; [discriminate|]. apply ends_sl_snoc in Ha as (r & ->). apply ends_sl_snoc. exists (c :: r). reflexivity. }
  destruct G as (a & n & -> & Hn & Ha). destruct (rstrip_repeat a) as (k & E). destruct Ha as [->|Ha]; [exists [], n; constructor; exact Hn|].
  assert (Er : ends_sl (rstrip_sl a) = false).
  { unfold rstrip_sl, ends_sl. rewrite rev_involutive. clear. induction (rev a) as [|c l IH]; [reflexivity|]. cbn [lstrip_sl]. destruct (Ascii.eqb c sl) eqn:Ec; [exact IH|]. exact Ec. }
  destruct k as [|k]; [rewrite app_nil_r in E; congruence|]. destruct (rstrip_sl a) as [|c d] eqn:Ed.
  - cbn [app] in E. rewrite E. exists (repeat sl (S k)), n. constructor. exact Hn.
  - rewrite E, <- app_assoc. exists (c :: d), n. constructor; [exact Hn|exact Er|discriminate].
Qed.
Lemma walk_below : forall l base, ~ In (str_of "..") l -> below base (walk_parts base l).
Proof.
  induction l as [|x l IH]; intros base H; cbn [walk_parts]; [apply below_refl|]. assert (Hl : ~ In (str_of "..") l) by (intro I; apply H; right; exact I).
  destruct (str_eqb x [] || str_eqb x (str_of "."))%bool; [apply IH; exact Hl|]. destruct (str_eqb_spec x (str_of "..")) as [->|_]; [exfalso; apply H; left; reflexivity|].
  eapply below_trans; [|apply IH; exact Hl]. apply below_app.
Qed.
Lemma honest_folder : forall cwd outdir f, honest f -> below (resolve cwd outdir) (resolve cwd (os_join outdir (fst (os_split f)))).
Proof.
  intros cwd outdir f (S & N & _). destruct (entry_total f) as (d & n & E). pose proof (entry_split _ _ _ E) as ES. rewrite ES. cbn [fst]. clear ES. destruct E as [n Hn|k n Hn|d k n Hn He Hd].
  - rewrite resolve_join by reflexivity. apply walk_below. intros [I|[]]. discriminate.
  - discriminate.
  - rewrite starts_sl_app in S by exact Hd. rewrite resolve_join by exact S. apply walk_below. intro I. apply N. cbn [repeat app]. rewrite split_sl_app. apply in_or_app. left. exact I.
Qed.
Lemma honest_fair : forall e, honest (fst e) -> fair e.
Proof.
  intros [f c] (S & N & P). cbn [fst] in *. split; [exact P|]. cbn [fst]. intro E. apply N. rewrite <- E.
  destruct (snoc_cases (split_sl f) (split_sl_nonempty f)) as (r & x & Er). rewrite Er, last_last. apply in_or_app. right. left. reflexivity.
Qed.
Lemma folder_entry : forall d n, fname_ok d -> ~ In sl n -> os_split (d ++ sl :: n) = (d, n).
Proof.
  intros d n (a & b & c & e) Hn. apply (entry_split (d ++ repeat sl 1 ++ n)). constructor; [exact Hn|apply plain_ends; exact e|exact a].
Qed.
Lemma folder_parts : forall d n, fname_ok d -> fname_ok n -> parts (d ++ sl :: n) = [d; n].
Proof.
  intros d n Hd Hn. unfold parts. rewrite split_sl_app, (split_sl_plain d), (split_sl_plain n) by (apply Hd || apply Hn). cbn [app filter].
  assert (G : forall x, fname_ok x -> good x = true) by (intros x (a & b & c & _); apply good_spec; auto). rewrite !G by assumption. reflexivity.
Qed.
Lemma folder_ends : forall d n, n <> [] -> ~ In sl n -> ends_sl (d ++ sl :: n) = false.
Proof.
  intros d n H Hn. destruct (snoc_cases n H) as (r & c & ->). replace (d ++ sl :: r ++ [c]) with ((d ++ sl :: r) ++ [c]) by (rewrite <- app_assoc; reflexivity). unfold ends_sl. rewrite rev_app_distr. cbn [rev app].
  apply Ascii.eqb_neq. intros ->. apply Hn. apply in_or_app. right. left. reflexivity.
Qed.

(** ** An archive with one folder *)
Section Good.
Variable cwd : path.
Variable outdir folder : str.
Let O := resolve cwd outdir.
Hypothesis HO : Forall fname_ok O.
Hypothesis HF : fname_ok folder.
Variable t1 : fsn.
Hypothesis D1 : at_ t1 O = Some EDir.
Hypothesis F1 : at_ t1 (O ++ [folder]) = None.
Variable files : list (str * str).
Hypothesis OKn : Forall fname_ok (map fst files).
Hypothesis ND : NoDup (map fst files).
Hypothesis NF : ~ In folder (map fst files).
Hypothesis Free : forall n, In n (map fst files) -> at_ t1 (O ++ [n]) <> Some EDir.

Lemma content_folder : forall n c, In (n, c) files -> content_of (in_folder folder files) (folder ++ sl :: n) = c.
Proof.
  intros n c H. unfold content_of. rewrite (aget_nodup _ c); [reflexivity| |].
  - rewrite map_rev. apply NoDup_rev. unfold in_folder. rewrite map_map. cbn [fst]. rewrite <- (map_map fst (fun n => folder ++ sl :: n)).
    apply FinFun.Injective_map_NoDup; [|exact ND]. intros x y E. apply app_inv_head in E. congruence.
  - rewrite <- in_rev. unfold in_folder. apply in_map_iff. exists (n, c). auto.
Qed.
Definition K (done : list (str * str)) (s : fsn) : Prop :=
  (forall q, q <> O ++ [folder] -> (forall n, In n (map fst done) -> q <> O ++ [n]) -> at_ s q = at_ t1 q) /\
  (at_ s (O ++ [folder]) = None \/ at_ s (O ++ [folder]) = Some EDir) /\
  (forall n c, In (n, c) done -> at_ s (O ++ [n]) = Some (EFile c)).
Lemma snoc_neq : forall (p : path) (x : str), p ++ [x] <> p.
Proof. intros p x E. rewrite <- (app_nil_r p) in E at 2. apply app_inv_head in E. discriminate. Qed.
Lemma unpack_folder : forall l done s fb shp, done ++ l = files -> K done s ->
  exists v, result (unpack cwd outdir (in_folder folder files) (in_folder folder l) fb shp s) = Ok v /\ K files (final (unpack cwd outdir (in_folder folder files) (in_folder folder l) fb shp s)).
Proof.
  induction l as [|[n c] l IH]; intros done s fb shp E HK.
  - rewrite app_nil_r in E. subst done. cbn. eexists. split; [reflexivity|exact HK].
  - cbn [in_folder map unpack]. cbn [fst snd]. fold (in_folder folder l).
    assert (In0 : In (n, c) files) by (rewrite <- E; apply in_or_app; right; left; reflexivity).
    assert (Inn : In n (map fst files)) by (apply in_map_iff; exists (n, c); auto).
    assert (Hn : fname_ok n) by (rewrite Forall_forall in OKn; apply OKn; exact Inn). pose proof Hn as (n1 & n2 & n3 & n4).
    assert (Nfn : folder <> n) by (intro X; apply NF; rewrite X; exact Inn).
    assert (Nd : ~ In n (map fst done)).
    { intro X. rewrite <- E, map_app in ND. cbn [map fst] in ND. apply NoDup_remove_2 in ND. apply ND. apply in_or_app. left. exact X. }
    rewrite (content_folder n c In0). rewrite (folder_entry folder n HF n4). cbn [fst snd].
    destruct HK as (K1 & K2 & K3).
    assert (Din : forall n0, In n0 (map fst done) -> fname_ok n0) by (intros n0 H0; rewrite Forall_forall in OKn; apply OKn; rewrite <- E, map_app; apply in_or_app; left; exact H0).
    assert (DO : at_ s O = Some EDir).
    { rewrite K1; [exact D1|intro X; symmetry in X; apply (snoc_neq _ _ X)|intros n0 _ X; symmetry in X; apply (snoc_neq _ _ X)]. }
    assert (Nn : O ++ [folder] <> O ++ [n]) by (intro X; apply app_inj_tail in X as [_ X]; contradiction).
    destruct (place_entry cwd outdir HO (folder ++ sl :: n) [folder] n c s) as (R1 & R2 & R3 & R4 & R5).
    + apply folder_parts; assumption.
    + discriminate.
    + exact Nfn.
    + rewrite (folder_entry folder n HF n4). reflexivity.
    + apply folder_ends; assumption.
    + exact DO.
    + intros a b Eab. destruct a as [|x a]; [right; rewrite app_nil_r; exact DO|]. destruct a as [|y a]; [|destruct a; discriminate]. injection Eab as <- _. exact K2.
    + fold O. change ([folder] ++ [n]) with [folder; n]. rewrite K1.
      * change [folder; n] with ([folder] ++ [n]). rewrite app_assoc, at_under_none by exact F1. discriminate.
      * intro X. apply app_inv_head in X. discriminate.
      * intros n0 _ X. apply app_inv_head in X. discriminate.
    + fold O. rewrite K1; [apply Free; exact Inn|intro X; apply Nn; symmetry; exact X|]. intros n0 H0 X. apply app_inj_tail in X as [_ <-]. contradiction.
    + fold O in R2, R3, R4, R5.
      match type of R1 with result ?ms = _ => set (s' := final ms) in * end.
      set (h := fun _ : unit => unpack cwd outdir (in_folder folder files) (in_folder folder l) (Some folder) (if ends_with (str_of ".shp") n then Some (os_join outdir n) else shp)).
      destruct (bind_assoc_run (extract cwd outdir (folder ++ sl :: n) c) (fun actual => if str_eqb actual (os_join outdir n) then aret tt else move cwd actual (os_join outdir n)) h s tt R1) as [B1 B2].
      cbn beta in B1, B2. rewrite B1, B2. clear B1 B2. fold s'. unfold h. apply (IH (done ++ [(n, c)])); [rewrite <- app_assoc; exact E|].
      assert (Sub : forall q, q <> O ++ [n] -> q <> O ++ [folder] ++ [n] -> q <> O ++ [folder] -> at_ s' q = at_ s q).
      { intros q Q1 Q2 Q3. destruct (R5 q Q1 Q2) as [X|(X1 & _ & (z & X2))]; [exact X|]. exfalso. destruct (snoc_cases (A := str) z) as (z0 & x & ->).
        - intros ->. rewrite app_nil_r in X2. apply Q3. symmetry. exact X2.
        - rewrite app_assoc in X2. apply app_inj_tail in X2 as [X2 _]. rewrite X2 in DO. destruct z0 as [|y z0]; [rewrite app_nil_r in DO; congruence|]. apply at_above in DO. congruence. }
      split; [|split].
      * intros q Q1 Q2. assert (Qn : q <> O ++ [n]) by (apply Q2; rewrite map_app; apply in_or_app; right; left; reflexivity).
        assert (Qd : forall n0, In n0 (map fst done) -> q <> O ++ [n0]) by (intros n0 H0; apply Q2; rewrite map_app; apply in_or_app; left; exact H0).
        destruct (list_eq_dec (list_eq_dec ascii_dec) q (O ++ [folder] ++ [n])) as [->|Q3]; [|rewrite Sub by assumption; apply K1; assumption].
        rewrite R3. symmetry. rewrite app_assoc. apply at_under_none. exact F1.
      * right. exact R4.
      * intros n0 c0 H0. apply in_app_or in H0 as [H0|[H0|[]]].
        -- assert (I0 : In n0 (map fst done)) by (apply in_map_iff; exists (n0, c0); auto). rewrite Sub; [apply K3; exact H0| | |].
           ++ intro X. apply app_inj_tail in X as [_ <-]. contradiction.
           ++ intro X. apply app_inv_head in X. discriminate.
           ++ intro X. apply app_inj_tail in X as [_ ->]. apply NF. rewrite <- E, map_app. apply in_or_app. left. exact I0.
        -- injection H0 as <- <-. exact R2.
Qed.
End Good.

(** ** The whole call *)
Lemma zip_ok : fname_ok zip_name.
Proof. repeat split; try discriminate. intro H. repeat (destruct H as [H|H]; [discriminate H|]). destruct H. Qed.
Section Call.
Variable cwd : path.
Variable decode : str -> res str.
Variable anchors : str -> list (option str).
Variable urljoin : str -> str -> str.
Variable unzip : str -> res (list (str * str)).
Notation call web := (get_recent_timezone_data cwd web decode anchors urljoin unzip).
(** What follows the writing of the archive. *)
Definition tail (outdir data : str) : act (option str) :=
  names <- lift (unzip data) ;;
  fb_shp <- unpack cwd outdir names names None None ;;
  match fst fb_shp with
  | None => araise Unbound
  | Some fbase =>
      let tmpdir := resolve cwd (os_join outdir fbase) in
      (fun t => if is_dir tmpdir t then rmtree tmpdir t else aret tt t) ;;; aret (snd fb_shp)
  end.
Definition write_zip (outdir data : str) : act unit :=
  open_write (resolve cwd (os_join outdir zip_name)) ;;; append_file (resolve cwd (os_join outdir zip_name)) data.
Definition fetched (web : str -> res str) (link : str) : Prop :=
  exists raw page, web release_url = Ok raw /\ decode raw = Ok page /\ pick_link urljoin (anchors page) None = Some link.
Lemma bind_ret : forall {A B} (a : A) (f : A -> act B) t, abind (aret a) f t = f a t.
Proof. intros A B a f t. unfold abind, aret. destruct (f a t) as [[tr r] t2]. reflexivity. Qed.
Lemma bind_raise : forall {A B} e (f : A -> act B) t, abind (araise e) f t = ([], Err e, t).
Proof. reflexivity. Qed.
Lemma call_err : forall web link e outdir t, fetched web link -> web link = Err e -> call web outdir t = ([], Err e, t).
Proof.
  intros web link e outdir t (raw & page & W & D & P) E. unfold get_recent_timezone_data. rewrite W. cbn [bind]. rewrite D. cbn [lift]. rewrite bind_ret, P, E. reflexivity.
Qed.
Lemma call_ok : forall web link data outdir t, fetched web link -> web link = Ok data ->
  let o := resolve cwd (os_join outdir zip_name) in
  call web outdir t = (open_write o ;;; append_file o data ;;; tail outdir data) t.
Proof.
  intros web link data outdir t (raw & page & W & D & P) E o. unfold get_recent_timezone_data. rewrite W. cbn [bind]. rewrite D. cbn [lift]. rewrite bind_ret, P, E. cbn [lift]. rewrite bind_ret. reflexivity.
Qed.
Lemma call_runs : forall web link data outdir t, fetched web link -> web link = Ok data -> at_ t (resolve cwd outdir) = Some EDir ->
  at_ t (resolve cwd outdir ++ [zip_name]) <> Some EDir ->
  exists t1, at_ t1 (resolve cwd outdir ++ [zip_name]) = Some (EFile data) /\ (forall q, q <> resolve cwd outdir ++ [zip_name] -> at_ t1 q = at_ t q) /\
    In t1 (trace (call web outdir t)) /\ result (call web outdir t) = result (tail outdir data t1) /\ final (call web outdir t) = final (tail outdir data t1).
Proof.
  intros web link data outdir t F E D N. rewrite (call_ok web link data outdir t F E). rewrite (resolve_join_good cwd outdir zip_name zip_ok). set (o := resolve cwd outdir ++ [zip_name]) in *.
  assert (No : o <> []) by (unfold o; destruct (resolve cwd outdir); discriminate).
  assert (OW : result (open_write o t) = Ok tt).
  { unfold open_write, change. destruct (place_ok o t (File []) No) as (s' & Es); [unfold o; rewrite removelast_last; exact D|].
    destruct (find t o) as [[cc|es]|] eqn:Ef; rewrite ?Es; try reflexivity. exfalso. apply N. apply find_dir. eauto. }
  destruct (open_write_eff o t) as (O1 & _). destruct (O1 OW) as (SB & A2 & _). set (s2 := final (open_write o t)) in *.
  destruct (append_eff o data s2 [] No A2) as (AP & SB3 & A3 & _). exists (final (append_file o data s2)). cbn [app] in A3.
  split; [exact A3|]. split; [intros q Hq; rewrite SB3, SB by exact Hq; reflexivity|].
  assert (Tr : In (final (append_file o data s2)) (trace (append_file o data s2))).
  { unfold append_file, change in AP |- *. destruct (match find s2 o with Some (File c) => place s2 o (File (c ++ data)) | _ => None end); [left; reflexivity|discriminate]. }
  split; [|].
  - unfold abind, trace, result, final in *. unfold s2 in *. destruct (open_write o t) as [[tr1 [[]|e1]] w1]; cbn [fst snd] in *; [|discriminate].
    destruct (append_file o data w1) as [[tr2 [[]|e2]] w2]; cbn [fst snd] in *; [|discriminate]. destruct (tail outdir data w2) as [[tr3 r3] w3]. cbn [fst snd].
    apply in_or_app. right. apply in_or_app. left. exact Tr.
  - destruct (bind_ok_run (open_write o) (fun _ : unit => append_file o data ;;; tail outdir data) t tt OW) as [-> ->]. fold s2.
    destruct (bind_ok_run (append_file o data) (fun _ : unit => tail outdir data) s2 tt AP) as [-> ->]. auto.
Qed.
Lemma tail_done : forall outdir data names t1 r, unzip data = Ok names -> result (tail outdir data t1) = Ok r ->
  exists s fb shp, names <> [] /\ result (unpack cwd outdir names names None None t1) = Ok (fb, shp) /\ r = shp /\ final (unpack cwd outdir names names None None t1) = s /\
    fb = Some (fst (os_split (fst (last names ([], []))))) /\
    (let D := resolve cwd (os_join outdir (fst (os_split (fst (last names ([], [])))))) in
     (at_ s D = Some EDir /\ unlink s D = Some (final (tail outdir data t1))) \/ (at_ s D <> Some EDir /\ final (tail outdir data t1) = s)).
Proof.
  intros outdir data names t1 r U H. unfold tail in *. rewrite U in *. cbn [lift] in *.
  apply bind_ok in H as (ns & Hn & H & Hf0). injection Hn as <-. rewrite Hf0. clear Hf0. change (final (aret names t1)) with t1 in *.
  apply bind_ok in H as ([fb shp] & Hu & H & Hf). rewrite Hf. clear Hf. exists (final (unpack cwd outdir names names None None t1)), fb, shp.
  destruct (unpack_gives _ _ _ _ _ _ _ _ _ Hu) as [G _]. destruct names as [|e names]; [subst fb; discriminate|]. split; [discriminate|]. split; [exact Hu|].
  subst fb. cbn [fst snd] in H |- *. apply bind_ok in H as (u & Hr & H & Hf). rewrite Hf. clear Hf. injection H as <-. split; [reflexivity|]. split; [reflexivity|]. split; [reflexivity|].
  set (D := resolve cwd (os_join outdir (fst (os_split (fst (last (e :: names) ([], []))))))) in *. cbn zeta.
  destruct (is_dir D (final (unpack cwd outdir (e :: names) (e :: names) None None t1))) eqn:Ed.
  - left. split; [apply is_dir_at; exact Ed|]. unfold rmtree, change in *. destruct (unlink _ D); [reflexivity|discriminate].
  - right. split; [apply is_dir_no; exact Ed|]. reflexivity.
Qed.
End Call.
