(** C115 to C117: downloading the time zone data. *)
From Coq Require Import ZArith String Ascii Bool List Lia.
From Verif Require Import PyBase PyStr FsModel FsSpec FsProofs PathProofs CopyProofs TzdataModel TzdataSpec TzdataProofs TzdataRunProofs.
Import ListNotations.

Notation call := get_recent_timezone_data.

(** For the examples. *)
Definition ok : str -> res str := Ok.
Definition glue (a b : str) : str := a ++ b.
Definition page_of (l : list string) : str -> list (option str) := fun _ => None :: map (fun s => Some (str_of s)) l ++ [None].
Definition names_of (l : list (string * string)) : str -> res (list (str * str)) := fun _ => Ok (map (fun e => (str_of (fst e), str_of (snd e))) l).
Definition disk : fsn := Dir [(str_of "home", Dir [(str_of "tz", Dir [(str_of "mine", File (str_of "m"))]); (str_of "key", File (str_of "k"))]); (str_of "etc", Dir [(str_of "passwd", File (str_of "p"))])].
Definition home : path := [str_of "home"].
Definition two_links := page_of ["/about"%string; "/r/timezones.shapefile.zip"%string; "/old/timezones.shapefile.zip"%string].

(** The page asked for is that of the latest release. *)
Theorem C115_page : forall cwd web decode anchors urljoin unzip outdir t, let page := str_of "https://github.com/evansiroky/timezone-boundary-builder/releases/latest" in
  (forall e, web page = Err e -> call cwd web decode anchors urljoin unzip outdir t = ([], Err e, t)) /\
  (forall raw e, web page = Ok raw -> decode raw = Err e -> call cwd web decode anchors urljoin unzip outdir t = ([], Err e, t)).
Proof. intros. change page with release_url in *. unfold call. split; intros *; [intros ->; reflexivity|intros ->; cbn [bind]; intros ->; reflexivity]. Qed.
Print Assumptions C115_page.
(** C115.  The archive is read from the first link of the page whose address has the text
    timezones.shapefile.zip: no other address plays a part, an error there is the error of
    the call with nothing changed, and what it gives is stored first. *)
Theorem C115_first : forall cwd web decode anchors urljoin unzip outdir t raw page h,
  web release_url = Ok raw -> decode raw = Ok page -> first_link (anchors page) h ->
  let u := urljoin (str_of "https://github.com") h in
  (forall web', web' release_url = Ok raw -> web' u = web u ->
     call cwd web' decode anchors urljoin unzip outdir t = call cwd web decode anchors urljoin unzip outdir t) /\
  (forall e, web u = Err e -> call cwd web decode anchors urljoin unzip outdir t = ([], Err e, t)) /\
  (forall data, web u = Ok data -> at_ t (resolve cwd outdir) = Some EDir -> at_ t (resolve cwd outdir ++ [wanted]) <> Some EDir ->
     exists s, In s (trace (call cwd web decode anchors urljoin unzip outdir t)) /\ at_ s (resolve cwd outdir ++ [wanted]) = Some (EFile data)).
Proof.
  intros cwd web decode anchors urljoin unzip outdir t raw page h W D F u.
  assert (G : forall web', web' release_url = Ok raw -> fetched decode anchors urljoin web' u) by (intros web' W'; exists raw, page; repeat split; auto; apply pick_first; exact F).
  split; [|split].
  - intros web' W' E. destruct (web u) as [data|e] eqn:Eu.
    + rewrite (call_ok cwd decode anchors urljoin unzip web' u data outdir t (G web' W') E), (call_ok cwd decode anchors urljoin unzip web u data outdir t (G web W) Eu). reflexivity.
    + rewrite (call_err cwd decode anchors urljoin unzip web' u e outdir t (G web' W') E), (call_err cwd decode anchors urljoin unzip web u e outdir t (G web W) Eu). reflexivity.
  - intros e E. apply (call_err cwd decode anchors urljoin unzip web u e outdir t (G web W) E).
  - intros data E Hd Hz. destruct (call_runs cwd decode anchors urljoin unzip web u data outdir t (G web W) E Hd Hz) as (t1 & A & _ & I & _). exists t1. split; [exact I|exact A].
Qed.
Print Assumptions C115_first.
Example C115_first_ex : exists h, first_link (two_links (str_of "page")) h /\ h = str_of "/r/timezones.shapefile.zip".
Proof.
  exists (str_of "/r/timezones.shapefile.zip"). split; [|reflexivity]. exists [None; Some (str_of "/about")], [Some (str_of "/old/timezones.shapefile.zip"); None].
  split; [reflexivity|]. split; [exists (str_of "/r/"), []; reflexivity|]. intros h' [H|[H|[]]]; [discriminate|]. injection H as <-.
  intro C. apply contains_spec in C. vm_compute in C. discriminate.
Qed.

(** Without any link the call fails, and nothing is changed. *)
Theorem C115_missing : forall cwd web decode anchors urljoin unzip outdir t raw page,
  web release_url = Ok raw -> decode raw = Ok page -> (forall x, In x (anchors page) -> x = None) ->
  call cwd web decode anchors urljoin unzip outdir t = ([], Err Generic, t).
Proof.
  intros cwd web decode anchors urljoin unzip outdir t raw page W D N. unfold call. rewrite W. cbn [bind]. rewrite D. cbn [lift]. rewrite bind_ret, pick_none by exact N. reflexivity.
Qed.
Print Assumptions C115_missing.
Example C115_missing_ex : forall x, In x (page_of [] (str_of "page")) -> x = None.
Proof. intros x [H|[H|[]]]; auto. Qed.

(** With links of which none is the wanted one, the last of them is read instead, as it
    stands: no error is raised for the missing data. *)
Theorem C115_others : forall cwd web decode anchors urljoin unzip outdir t raw page h,
  web release_url = Ok raw -> decode raw = Ok page -> only_others (anchors page) h ->
  (forall e, web h = Err e -> call cwd web decode anchors urljoin unzip outdir t = ([], Err e, t)) /\
  (forall data, web h = Ok data -> at_ t (resolve cwd outdir) = Some EDir -> at_ t (resolve cwd outdir ++ [wanted]) <> Some EDir ->
     exists s, In s (trace (call cwd web decode anchors urljoin unzip outdir t)) /\ at_ s (resolve cwd outdir ++ [wanted]) = Some (EFile data)).
Proof.
  intros cwd web decode anchors urljoin unzip outdir t raw page h W D F.
  assert (G : fetched decode anchors urljoin web h) by (exists raw, page; repeat split; auto; apply pick_others; exact F).
  split; [intros e E; apply (call_err cwd decode anchors urljoin unzip web h e outdir t G E)|].
  intros data E Hd Hz. destruct (call_runs cwd decode anchors urljoin unzip web h data outdir t G E Hd Hz) as (t1 & A & _ & I & _). exists t1. split; [exact I|exact A].
Qed.
Print Assumptions C115_others.
Theorem C115_unnoticed_refuted : exists web anchors unzip t, (forall page h, In (Some h) (anchors page) -> ~ inside wanted h) /\
  result (call home web ok anchors glue unzip (str_of "tz") t) = Ok None.
Proof.
  exists ok, (page_of ["/about"%string; "/login"%string]), (names_of [("a/b"%string, "x"%string)]), disk. split; [|vm_compute; reflexivity].
  intros page h [H|[H|[H|[H|[]]]]]; try discriminate; injection H as <-; intro C; apply contains_spec in C; vm_compute in C; discriminate.
Qed.
Print Assumptions C115_unnoticed_refuted.

(** C116.  An archive of files in one folder, with plain names, each once: the files are in
    the output directory afterwards, the folder is not, the archive itself is, and
    everything else is as it was; the result is the last name ending in .shp. *)
Theorem C116_unpacked : forall cwd web decode anchors urljoin unzip outdir t raw page h data folder files,
  web release_url = Ok raw -> decode raw = Ok page -> first_link (anchors page) h -> web (urljoin (str_of "https://github.com") h) = Ok data ->
  unzip data = Ok (in_folder folder files) -> files <> [] -> fname_ok folder -> Forall fname_ok (map fst files) -> NoDup (map fst files) ->
  ~ In folder (map fst files) -> ~ In wanted (folder :: map fst files) ->
  let O := resolve cwd outdir in
  Forall fname_ok O -> at_ t O = Some EDir -> at_ t (O ++ [folder]) = None ->
  (forall n, In n (wanted :: map fst files) -> at_ t (O ++ [n]) <> Some EDir) ->
  let r := call cwd web decode anchors urljoin unzip outdir t in
  (forall n c, In (n, c) files -> at_ (final r) (O ++ [n]) = Some (EFile c)) /\
  at_ (final r) (O ++ [wanted]) = Some (EFile data) /\
  (forall q, (forall n, In n (wanted :: map fst files) -> q <> O ++ [n]) -> at_ (final r) q = at_ t q) /\
  ((exists n, last_shape files n /\ result r = Ok (Some (os_join outdir n))) \/
   ((forall f, In f files -> ~ closes (str_of ".shp") (fst f)) /\ result r = Ok None)).
Proof.
  intros cwd web decode anchors urljoin unzip outdir t raw page h data folder files W D F Wd U Ne Hf Hn ND NF NZ O HO Dt Ft Fr r.
  assert (G : fetched decode anchors urljoin web (urljoin (str_of "https://github.com") h)) by (exists raw, page; repeat split; auto; apply pick_first; exact F).
  destruct (call_runs cwd decode anchors urljoin unzip web _ data outdir t G Wd Dt) as (t1 & A1 & S1 & _ & R1 & R2); [apply Fr; left; reflexivity|]. fold O in A1, S1. fold r in R1, R2.
  change zip_name with wanted in A1, S1.
  assert (D1 : at_ t1 O = Some EDir) by (rewrite S1; [exact Dt|intro X; symmetry in X; apply (snoc_neq _ _ X)]).
  assert (F1 : at_ t1 (O ++ [folder]) = None) by (rewrite S1; [exact Ft|intro X; apply app_inj_tail in X as [_ X]; apply NZ; left; exact X]).
  assert (Free : forall n, In n (map fst files) -> at_ t1 (O ++ [n]) <> Some EDir).
  { intros n I. rewrite S1; [apply Fr; right; exact I|]. intro X. apply app_inj_tail in X as [_ X]. apply NZ. right. rewrite <- X. exact I. }
  destruct (unpack_folder cwd outdir folder HO Hf t1 D1 F1 files Hn ND NF Free files [] t1 None None) as ([fb shp] & V & K1 & K2 & K3); [reflexivity| |].
  { split; [reflexivity|]. split; [left; exact F1|intros n c []]. }
  fold O in K1, K2, K3. set (s := final (unpack cwd outdir (in_folder folder files) (in_folder folder files) None None t1)) in *.
  destruct (unpack_gives _ _ _ _ _ _ _ _ _ V) as [Gf Gs].
  assert (Fb : fb = Some folder).
  { rewrite Gf. destruct (snoc_cases files Ne) as (fs & [n c] & E). unfold in_folder. rewrite E, map_app. cbn [map].
    match goal with |- match ?l0 with [] => _ | _ => _ end = _ => destruct l0 as [|e l] eqn:El; [destruct fs; discriminate|] end. rewrite <- El, last_last. cbn [fst snd].
    rewrite folder_entry; [reflexivity|exact Hf|]. rewrite E, map_app in Hn. apply Forall_app in Hn as [_ Hn]. inversion Hn as [|? ? (_ & _ & _ & X) _]. exact X. }
  clear Gf. subst fb.
  assert (Tl : result (tail cwd unzip outdir data t1) = Ok shp /\ (forall q, at_ (final (tail cwd unzip outdir data t1)) q = match cut (O ++ [folder]) q with Some _ => None | None => at_ s q end)).
  { unfold tail. rewrite U. cbn [lift]. rewrite !bind_ret.
    destruct (bind_ok_run (unpack cwd outdir (in_folder folder files) (in_folder folder files) None None) (fun fb_shp => match fst fb_shp with None => araise Unbound | Some fbase =>
       (fun t => if is_dir (resolve cwd (os_join outdir fbase)) t then rmtree (resolve cwd (os_join outdir fbase)) t else aret tt t) ;;; aret (snd fb_shp) end) t1 (Some folder, shp) V) as [-> ->].
    cbn [fst snd]. fold s. rewrite (resolve_join_good cwd outdir folder Hf). fold O.
    destruct (is_dir (O ++ [folder]) s) eqn:Ed.
    - destruct (unlink_ok (O ++ [folder]) s) as (s' & Us); [destruct O; discriminate|apply is_dir_at in Ed; congruence|].
      unfold abind, rmtree, change. rewrite Ed, Us. split; [reflexivity|]. apply (at_unlink _ _ _ Us).
    - unfold abind. rewrite Ed. split; [reflexivity|]. intro q. change (at_ s q = match cut (O ++ [folder]) q with Some _ => None | None => at_ s q end).
      destruct (cut (O ++ [folder]) q) as [z|] eqn:Ec; [|reflexivity]. apply cut_Some in Ec as ->. apply at_under_none. apply is_dir_no in Ed. destruct K2; congruence. }
  destruct Tl as [T1 T2]. rewrite R1, R2, T1.
  assert (NC : forall n, n <> folder -> cut (O ++ [folder]) (O ++ [n]) = None).
  { intros n X. apply cut_None. intros (z & E). rewrite <- app_assoc in E. apply app_inv_head in E. cbn [app] in E. injection E as -> _. congruence. }
  split; [|split; [|split]].
  - intros n c I. rewrite T2, NC; [apply K3; exact I|]. intros ->. apply NF. apply in_map_iff. exists (folder, c). auto.
  - rewrite T2, NC; [|intros X; apply NZ; left; symmetry; exact X]. rewrite K1; [exact A1| |].
    + intro X. apply app_inj_tail in X as [_ X]. apply NZ. left. symmetry. exact X.
    + intros n I X. apply app_inj_tail in X as [_ X]. apply NZ. right. rewrite X. exact I.
  - intros q Q. rewrite T2. destruct (cut (O ++ [folder]) q) as [z|] eqn:Ec.
    + apply cut_Some in Ec as ->. symmetry. apply at_under_none. exact Ft.
    + rewrite K1; [apply S1; apply Q; left; reflexivity|intros ->; rewrite cut_self in Ec; discriminate|intros n I; apply Q; right; exact I].
  - assert (M : map (fun e => (snd (os_split (fst e)), snd e)) (in_folder folder files) = files).
    { unfold in_folder. rewrite map_map. cbn [fst snd]. clear - Hn Hf. induction files as [|[n c] l IH]; [reflexivity|]. cbn [map fst snd] in *. inversion Hn as [|? ? (_ & _ & _ & X) Hn']; subst.
      rewrite folder_entry by assumption. cbn [snd]. f_equal. apply IH. exact Hn'. }
    rewrite M in Gs. destruct Gs as [(n & L & ->)|[-> N]]; [left; exists n; auto|right]. split; [|reflexivity].
    intros f I. specialize (N (folder ++ sl :: fst f, snd f)). cbn [fst] in N. rewrite folder_entry in N; [apply N; unfold in_folder; apply in_map_iff; exists f; auto|exact Hf|].
    rewrite Forall_forall in Hn. destruct (Hn (fst f)) as (_ & _ & _ & X); [apply in_map; exact I|exact X].
Qed.
Print Assumptions C116_unpacked.
Definition zip_ex := names_of [("dist/a.shp", "1"); ("dist/a.dbf", "2")]%string.
Example C116_ex : let r := call home ok ok two_links glue zip_ex (str_of "tz") disk in
  result r = Ok (Some (str_of "tz/a.shp")) /\ at_ (final r) (home ++ [str_of "tz"; str_of "a.dbf"]) = Some (EFile (str_of "2")) /\
  at_ (final r) (home ++ [str_of "tz"; str_of "dist"]) = None /\ at_ (final r) (home ++ [str_of "tz"; str_of "mine"]) = Some (EFile (str_of "m")) /\
  zip_ex [] = Ok (in_folder (str_of "dist") [(str_of "a.shp", str_of "1"); (str_of "a.dbf", str_of "2")]).
Proof. vm_compute. repeat split. Qed.

(** C117.  If all names are relative, without "..", nothing outside the output directory is
    changed, whatever happens. *)
Theorem C117_outside : forall cwd web decode anchors urljoin unzip outdir t, Forall fname_ok (resolve cwd outdir) ->
  (forall data names, unzip data = Ok names -> Forall (fun e => honest (fst e)) names) ->
  forall q, ~ below (resolve cwd outdir) q -> at_ (final (call cwd web decode anchors urljoin unzip outdir t)) q = at_ t q.
Proof.
  intros cwd web decode anchors urljoin unzip outdir t HO H q Hq. set (O := resolve cwd outdir) in *.
  unfold call. destruct (bind (web release_url) decode) as [page|e]; cbn [lift]; [|reflexivity]. rewrite bind_ret.
  destruct (pick_link urljoin (anchors page) None) as [link|]; [|reflexivity]. destruct (web link) as [data|e] eqn:Ew; cbn [lift]; [|reflexivity]. rewrite bind_ret.
  rewrite (resolve_join_good cwd outdir zip_name zip_ok). fold O.
  destruct (at_ t O) as [[c|]|] eqn:Et.
  2:{ assert (Jt : J cwd outdir t t) by (split; [exact Et|reflexivity]).
      assert (Iz : in_ cwd outdir (O ++ [zip_name])) by (exists zip_name, []; reflexivity).
      match goal with |- at_ (final (?m t)) q = _ => assert (G : forall s, J cwd outdir t s -> at_ (final (m s)) q = at_ t q); [|apply G; exact Jt] end.
      assert (NI : forall s, J cwd outdir t s -> at_ s q = at_ t q) by (intros s [_ Fs]; apply Fs; intros (x & z & ->); apply Hq; apply below_app).
      assert (B : forall A B (m : act A) (f : A -> act B), keeps cwd outdir t m -> (forall a s, J cwd outdir t s -> at_ (final (f a s)) q = at_ t q) -> forall s, J cwd outdir t s -> at_ (final (abind m f s)) q = at_ t q).
      { intros A B m f Km Kf s Js. specialize (Km s Js). unfold abind, final in *. destruct (m s) as [[tr [a|e]] s1]; cbn [snd] in *; [|apply NI; exact Km].
        specialize (Kf a s1 Km). destruct (f a s1) as [[tr' rr] s2]. exact Kf. }
      apply B; [apply keeps_open; exact Iz|]. intros _. apply B; [apply keeps_append; exact Iz|]. intros _. destruct (unzip data) as [names|e] eqn:Eu; cbn [lift]; [|exact NI].
      intros s Js. rewrite bind_ret. specialize (H data names Eu). revert s Js.
      assert (Fa : Forall fair names) by (eapply Forall_impl; [|exact H]; apply honest_fair).
      intros s Js. pose proof (keeps_unpack cwd outdir t HO names names None None Fa s Js) as Ku.
      pose proof (unpack_gives cwd outdir names names None None s) as Gu. unfold abind at 1. unfold final, result in *.
      destruct (unpack cwd outdir names names None None s) as [[tr [[fb shp]|e]] s1]; cbn [fst snd] in *; [|apply NI; exact Ku].
      destruct (Gu fb shp eq_refl) as [Gf _]. destruct fb as [fb|]; [|apply NI; exact Ku].
      assert (Bl : below O (resolve cwd (os_join outdir fb))).
      { destruct names as [|e names]; [discriminate|]. injection Gf as ->. apply honest_folder. rewrite Forall_forall in H. apply (H (last (e :: names) ([], []))).
        destruct (snoc_cases (e :: names)) as (l & x & El); [discriminate|]. rewrite El, last_last. apply in_or_app. right. left. reflexivity. }
      destruct (is_dir (resolve cwd (os_join outdir fb)) s1) eqn:Ed; [|unfold abind; rewrite Ed; cbn [snd]; apply NI; exact Ku].
      unfold abind, rmtree, change. rewrite Ed. destruct (unlink s1 (resolve cwd (os_join outdir fb))) as [s2|] eqn:Es; cbn [snd]; [|apply NI; exact Ku].
      rewrite (at_unlink _ _ _ Es). destruct (cut (resolve cwd (os_join outdir fb)) q) as [z|] eqn:Ec; [|apply NI; exact Ku].
      exfalso. apply Hq. apply cut_Some in Ec as ->. eapply below_trans; [exact Bl|apply below_app]. }
  all: assert (P : forall n, place t (O ++ [zip_name]) n = None) by (intro n; destruct (place t (O ++ [zip_name]) n) eqn:Ep; [apply place_parent in Ep as [_ Ep]; rewrite removelast_last in Ep; congruence|reflexivity]).
  all: unfold abind, open_write, change, final; rewrite P; destruct (find t (O ++ [zip_name])) as [[]|]; reflexivity.
Qed.
Print Assumptions C117_outside.
Example C117_outside_ex : Forall (fun e : str * str => honest (fst e)) [(str_of "dist/a.shp", []); (str_of "dist/", [])] /\ ~ honest (str_of "../x") /\ ~ honest (str_of "/x").
Proof.
  assert (P : forall f, In (str_of "dist") (split_sl f) -> proper f).
  { intros f I. exists (str_of "dist"). split; [exact I|]. repeat split; try discriminate. intro H. repeat (destruct H as [H|H]; [discriminate H|]). destruct H. }
  split; [repeat constructor; try (apply P; left; reflexivity); cbn; intuition discriminate|]. split; intros (a & b & _); [apply b; left; reflexivity|discriminate].
Qed.

(** Whatever folder the name of the last entry has, it is removed with all that is in it. *)
Theorem C117_removed : forall cwd web decode anchors urljoin unzip outdir t names f c d n, Forall fname_ok (resolve cwd outdir) ->
  (forall data, unzip data = Ok (names ++ [(f, c)])) -> entry f d n ->
  forall r, result (call cwd web decode anchors urljoin unzip outdir t) = Ok r ->
  let D := resolve cwd (os_join outdir d) in
  at_ (final (call cwd web decode anchors urljoin unzip outdir t)) D <> Some EDir /\
  forall x p, at_ (final (call cwd web decode anchors urljoin unzip outdir t)) (D ++ x :: p) = None.
Proof.
  intros cwd web decode anchors urljoin unzip outdir t names f c d n HO U En r H D.
  assert (N : at_ (final (call cwd web decode anchors urljoin unzip outdir t)) D <> Some EDir).
  { unfold call in *. destruct (bind (web release_url) decode) as [page|e]; cbn [lift] in *; [|discriminate]. rewrite bind_ret in *.
    destruct (pick_link urljoin (anchors page) None) as [link|]; [|discriminate]. destruct (web link) as [data|e] eqn:Ew; cbn [lift] in *; [|discriminate]. rewrite bind_ret in *.
    apply bind_ok in H as (u1 & _ & H & ->). apply bind_ok in H as (u2 & _ & H & ->).
    match type of H with result (_ ?s) = _ => destruct (tail_done cwd unzip outdir data _ s r (U data) H) as (s' & fb & shp & _ & _ & _ & _ & _ & E) end.
    cbn zeta in E. rewrite last_last in E. cbn [fst] in E. rewrite (entry_split _ _ _ En) in E. cbn [fst] in E. fold D in E.
    match goal with |- at_ (final ?m) D <> _ => change m with (tail cwd unzip outdir data (final (append_file (resolve cwd (os_join outdir zip_name)) data (final (open_write (resolve cwd (os_join outdir zip_name)) t))))) end.
    destruct E as [[_ E]|[E1 E2]].
    - rewrite (at_unlink _ _ _ E), cut_self. discriminate.
    - rewrite E2. exact E1. }
  split; [exact N|]. intros x p. destruct (at_ _ (D ++ x :: p)) eqn:E; [|reflexivity]. apply at_above in E. contradiction.
Qed.
Print Assumptions C117_removed.
Example C117_removed_ex : entry (str_of "a/b//n") (str_of "a/b") (str_of "n").
Proof. apply (entry_in (str_of "a/b") 1 (str_of "n")); [intros [H|[]]; discriminate|reflexivity|discriminate]. Qed.

(** If the last file has no folder, the output directory itself is removed with all that
    was in it, and the shapefile named in the result does not exist. *)
Theorem C117_flat : forall cwd web decode anchors urljoin unzip outdir t names f c r, Forall fname_ok (resolve cwd outdir) ->
  (forall data, unzip data = Ok (names ++ [(f, c)])) -> ~ In sl f ->
  result (call cwd web decode anchors urljoin unzip outdir t) = Ok r ->
  let O := resolve cwd outdir in
  at_ (final (call cwd web decode anchors urljoin unzip outdir t)) O <> Some EDir /\
  (forall x p, at_ (final (call cwd web decode anchors urljoin unzip outdir t)) (O ++ x :: p) = None) /\
  (forall shp, r = Some shp -> at_ (final (call cwd web decode anchors urljoin unzip outdir t)) (resolve cwd shp) = None).
Proof.
  intros cwd web decode anchors urljoin unzip outdir t names f c r HO U Hf H O.
  destruct (C117_removed cwd web decode anchors urljoin unzip outdir t names f c [] f HO U (entry_plain f Hf) r H) as [A B].
  replace (resolve cwd (os_join outdir [])) with O in A, B by (rewrite resolve_join by reflexivity; symmetry; apply walk_parts_empty).
  split; [exact A|]. split; [exact B|]. intros shp ->.
  assert (S : exists n, fname_ok n /\ shp = os_join outdir n).
  { clear A B. unfold call in *. destruct (bind (web release_url) decode) as [page|e]; cbn [lift] in *; [|discriminate]. rewrite bind_ret in *.
    destruct (pick_link urljoin (anchors page) None) as [link|]; [|discriminate]. destruct (web link) as [data|e] eqn:Ew; cbn [lift] in *; [|discriminate]. rewrite bind_ret in *.
    apply bind_ok in H as (u1 & _ & H & _). apply bind_ok in H as (u2 & _ & H & _).
    match type of H with result (_ ?s) = _ => destruct (tail_done cwd unzip outdir data _ s _ (U data) H) as (s' & fb & sh & _ & V & <- & _) end.
    apply unpack_gives in V as [_ [(n & (pre & cc & post & E & C & _) & Es)|[X _]]]; [|discriminate]. injection Es as ->. exists n. split; [|reflexivity].
    assert (Pl : ~ In sl n).
    { assert (I : In (n, cc) (map (fun e => (snd (os_split (fst e)), snd e)) (names ++ [(f, c)]))) by (rewrite E; apply in_or_app; right; left; reflexivity).
      apply in_map_iff in I as (e & I & _). injection I as <- _. apply tail_plain. }
    destruct C as (u & ->). repeat split; [destruct u; discriminate| | |exact Pl]; intro X; apply (f_equal (@rev ascii)) in X; rewrite rev_app_distr in X; discriminate. }
  destruct S as (n & Hn & ->). rewrite (resolve_join_good cwd outdir n Hn). apply B.
Qed.
Print Assumptions C117_flat.
Theorem C117_flat_refuted : exists web anchors unzip t shp, let r := call home web ok anchors glue unzip (str_of "tz") t in
  result r = Ok (Some shp) /\ at_ t (home ++ [str_of "tz"; str_of "mine"]) = Some (EFile (str_of "m")) /\
  at_ (final r) (home ++ [str_of "tz"]) = None /\ at_ (final r) (resolve home shp) = None.
Proof. exists ok, two_links, (names_of [("a.shp", "1"); ("a.dbf", "2")]%string), disk, (str_of "tz/a.shp"). vm_compute. repeat split. Qed.
Print Assumptions C117_flat_refuted.

(** An archive can have any directory removed: one entry with an absolute name does it. *)
Theorem C117_anywhere : forall cwd web decode anchors urljoin unzip outdir t raw page h data D n c,
  web release_url = Ok raw -> decode raw = Ok page -> first_link (anchors page) h -> web (urljoin (str_of "https://github.com") h) = Ok data ->
  Forall fname_ok (resolve cwd outdir) -> D <> [] -> Forall fname_ok D -> fname_ok n -> hd [] D <> n -> hd [] D <> wanted ->
  (forall data', unzip data' = Ok [(sl :: join [sl] D ++ sl :: n, c)]) ->
  at_ t (resolve cwd outdir) = Some EDir -> at_ t (resolve cwd outdir ++ [hd [] D]) = None ->
  at_ t (resolve cwd outdir ++ [n]) <> Some EDir -> at_ t (resolve cwd outdir ++ [wanted]) <> Some EDir ->
  let r := call cwd web decode anchors urljoin unzip outdir t in
  is_ok (result r) = true /\ at_ (final r) D <> Some EDir /\ forall x p, at_ (final r) (D ++ x :: p) = None.
Proof.
  intros cwd web decode anchors urljoin unzip outdir t raw page h data D n c W De F Wd HO ND HD Hn H1 H2 U Dt Ft Fn Fz r. set (O := resolve cwd outdir) in *.
  pose proof Hn as (n1 & n2 & n3 & n4). set (f := sl :: join [sl] D ++ sl :: n) in *.
  assert (DP : Forall (fun x => ~ In sl x) D) by (eapply Forall_impl; [|exact HD]; intros x (_ & _ & _ & X); exact X).
  assert (Sp : split_sl f = [] :: D ++ [n]).
  { unfold f. rewrite join_slash. cbn [split_sl]. rewrite Ascii.eqb_refl. rewrite split_sl_app, slash_join_split, (split_sl_plain n) by assumption. reflexivity. }
  assert (Pf : parts f = D ++ [n]).
  { unfold parts. rewrite Sp. cbn [filter]. change (good []) with false. cbn iota. assert (G : forall l, Forall fname_ok l -> filter good l = l).
    { induction l as [|x l IH]; intro Hl; [reflexivity|]. inversion Hl as [|? ? (a & b & cc & _) Hl']; subst. cbn [filter]. replace (good x) with true by (symmetry; apply good_spec; auto). rewrite IH by exact Hl'. reflexivity. }
    apply G. apply Forall_app. auto. }
  assert (Ent : entry f (sl :: slash_join D) n).
  { unfold f. rewrite join_slash. change (sl :: slash_join D ++ sl :: n) with ((sl :: slash_join D) ++ repeat sl 1 ++ n). constructor; [exact n4| |discriminate].
    destruct (snoc_cases D ND) as (D0 & z & Ez). rewrite Ez. destruct (slash_join_snoc D0 z) as (w & ->). rewrite Ez in HD. apply Forall_app in HD as [_ HD]. inversion HD as [|? ? (z1 & _ & _ & z4) _]; subst.
    destruct (snoc_cases z z1) as (z0 & zc & ->). change (sl :: w ++ z0 ++ [zc]) with ((sl :: w) ++ z0 ++ [zc]). rewrite app_assoc. unfold ends_sl. rewrite rev_app_distr. cbn [rev app]. apply Ascii.eqb_neq. intros ->. apply z4. apply in_or_app. right. left. reflexivity. }
  assert (RD : resolve cwd (os_join outdir (sl :: slash_join D)) = D).
  { unfold os_join. cbn [starts_sl]. rewrite Ascii.eqb_refl. unfold resolve. cbn [starts_sl]. rewrite Ascii.eqb_refl. change (sl :: slash_join D) with (repeat sl 1 ++ slash_join D).
    rewrite walk_repeat, walk_slash_join by exact DP. apply (walk_parts_good D []). exact HD. }
  assert (G : fetched decode anchors urljoin web (urljoin (str_of "https://github.com") h)) by (exists raw, page; repeat split; auto; apply pick_first; exact F).
  destruct (call_runs cwd decode anchors urljoin unzip web _ data outdir t G Wd Dt Fz) as (t1 & A1 & S1 & _ & R1 & R2). fold O in A1, S1. fold r in R1, R2.
  assert (D1 : at_ t1 O = Some EDir) by (rewrite S1; [exact Dt|intro X; symmetry in X; apply (snoc_neq _ _ X)]).
  assert (F1 : at_ t1 (O ++ [hd [] D]) = None) by (rewrite S1; [exact Ft|intro X; apply app_inj_tail in X as [_ X]; contradiction]).
  assert (Fn1 : at_ t1 (O ++ [n]) <> Some EDir).
  { destruct (list_eq_dec ascii_dec n wanted) as [->|X]; [change wanted with zip_name; congruence|]. rewrite S1; [exact Fn|]. intro Y. apply app_inj_tail in Y as [_ Y]. contradiction. }
  assert (Und : forall a b, D = a ++ b -> a <> [] -> at_ t1 (O ++ a) = None).
  { intros a b E Ha. destruct a as [|x a]; [congruence|]. assert (hd [] D = x) by (rewrite E; reflexivity). subst x. change (hd [] D :: a) with ([hd [] D] ++ a). rewrite app_assoc. apply at_under_none. exact F1. }
  destruct (place_entry cwd outdir HO f D n c t1) as (P1 & _).
  - exact Pf.
  - exact ND.
  - exact H1.
  - rewrite (entry_split _ _ _ Ent). reflexivity.
  - unfold f. change (sl :: join [sl] D ++ sl :: n) with ((sl :: join [sl] D) ++ sl :: n). apply folder_ends; assumption.
  - exact D1.
  - intros a b E. destruct a as [|x a]; [right; rewrite app_nil_r; exact D1|left]. apply (Und (x :: a) b E). discriminate.
  - rewrite app_assoc. rewrite at_under_none; [discriminate|]. apply (Und D []); [rewrite app_nil_r; reflexivity|exact ND].
  - exact Fn1.
  - assert (Uk : exists shp, result (unpack cwd outdir [(f, c)] [(f, c)] None None t1) = Ok (Some (sl :: slash_join D), shp)).
    { cbn [unpack]. rewrite (entry_split _ _ _ Ent). cbn [fst snd]. replace (content_of [(f, c)] f) with c by (unfold content_of; cbn [rev app aget]; rewrite str_eqb_refl; reflexivity).
      destruct (bind_assoc_run (extract cwd outdir f c) (fun actual => if str_eqb actual (os_join outdir n) then aret tt else move cwd actual (os_join outdir n))
        (fun _ : unit => aret (Some (sl :: slash_join D), if ends_with (str_of ".shp") n then Some (os_join outdir n) else None)) t1 tt P1) as [B1 _].
      eexists. exact B1. }
    destruct Uk as (shp & Uk).
    assert (Ok1 : is_ok (result r) = true).
    { rewrite R1. unfold tail. rewrite U. cbn [lift]. rewrite !bind_ret.
      destruct (bind_ok_run (unpack cwd outdir [(f, c)] [(f, c)] None None) (fun fb_shp => match fst fb_shp with None => araise Unbound | Some fbase =>
         (fun t => if is_dir (resolve cwd (os_join outdir fbase)) t then rmtree (resolve cwd (os_join outdir fbase)) t else aret tt t) ;;; aret (snd fb_shp) end) t1 _ Uk) as [-> _].
      cbn [fst snd]. rewrite RD. set (s := final _). unfold abind, rmtree, change. destruct (is_dir D s) eqn:Ed; [|reflexivity].
      destruct (unlink_ok D s ND) as (s' & ->); [apply is_dir_at in Ed; congruence|reflexivity]. }
    split; [exact Ok1|]. destruct (result r) as [v|e] eqn:Er; [|discriminate].
    destruct (C117_removed cwd web decode anchors urljoin unzip outdir t [] f c (sl :: slash_join D) n HO U Ent v Er) as [B1 B2]. rewrite RD in B1, B2. split; [exact B1|exact B2].
Qed.
Print Assumptions C117_anywhere.
Theorem C117_anywhere_refuted : exists web anchors unzip t, let r := call home web ok anchors glue unzip (str_of "tz") t in
  result r = Ok None /\ at_ t [str_of "etc"; str_of "passwd"] = Some (EFile (str_of "p")) /\ at_ (final r) [str_of "etc"] = None.
Proof. exists ok, two_links, (names_of [("/etc/x", "1")]%string), disk. vm_compute. repeat split. Qed.
Print Assumptions C117_anywhere_refuted.

(** An archive that begins with an entry for its folder is refused. *)
Theorem C117_folder_entry : forall cwd web decode anchors urljoin unzip outdir t d c rest raw page h, Forall fname_ok (resolve cwd outdir) ->
  web release_url = Ok raw -> decode raw = Ok page -> first_link (anchors page) h -> is_ok (web (urljoin (str_of "https://github.com") h)) = true ->
  at_ t (resolve cwd outdir) = Some EDir -> at_ t (resolve cwd outdir ++ [wanted]) <> Some EDir ->
  fname_ok d -> (forall data, unzip data = Ok ((d ++ [sl], c) :: rest)) ->
  result (call cwd web decode anchors urljoin unzip outdir t) = Err IOErr.
Proof.
  intros cwd web decode anchors urljoin unzip outdir t d c rest raw page h HO W De F Hw Dt Fz Hd U. set (link := urljoin (str_of "https://github.com") h) in *.
  assert (G : fetched decode anchors urljoin web link) by (exists raw, page; repeat split; auto; apply pick_first; exact F). destruct (web link) as [data|] eqn:Ew; [|discriminate].
  destruct (call_runs cwd decode anchors urljoin unzip web link data outdir t G Ew Dt Fz) as (t1 & A1 & S1 & _ & R1 & _). rewrite R1. set (O := resolve cwd outdir) in *.
  assert (D1 : at_ t1 O = Some EDir) by (rewrite S1; [exact Dt|intro X; symmetry in X; apply (snoc_neq _ _ X)]).
  unfold tail. rewrite U. cbn [lift]. rewrite bind_ret. apply bind_err. cbn [unpack].
  pose proof Hd as (d1 & d2 & d3 & d4).
  assert (Pf : parts (d ++ [sl]) = [d]).
  { unfold parts. change (d ++ [sl]) with (d ++ sl :: []). rewrite split_sl_app, (split_sl_plain d) by exact d4. cbn [app split_sl filter]. replace (good d) with true by (symmetry; apply good_spec; auto). reflexivity. }
  assert (Es : os_split (d ++ [sl]) = (d, [])) by (apply (folder_entry d [] Hd); intros []).
  rewrite Es. cbn [fst snd]. set (f := d ++ [sl]) in *.
  assert (Hp : parts f <> []) by (rewrite Pf; discriminate).
  pose proof (resolve_target cwd outdir f) as T. fold O in T. rewrite Pf in T. destruct (target_split cwd outdir f Hp) as (Bn & Up & _). rewrite Pf in Bn, Up. cbn [last removelast] in Bn, Up. rewrite app_nil_r in Up. fold O in Up.
  set (cc := content_of ((f, c) :: rest) f). clearbody cc.
  assert (X : result (extract cwd outdir f cc t1) = Err IOErr \/ (result (extract cwd outdir f cc t1) = Ok (zip_target outdir f) /\ at_ (final (extract cwd outdir f cc t1)) (O ++ [d]) = Some EDir /\ at_ (final (extract cwd outdir f cc t1)) O = Some EDir)).
  { unfold extract. rewrite T. replace (ends_sl f) with true by (symmetry; apply ends_sl_snoc; exists d; reflexivity).
    assert (Fst : forall B (k : unit -> act B), abind (match fst (os_split (zip_target outdir f)) with [] => aret tt | _ =>
      fun t => match find t (resolve cwd (fst (os_split (zip_target outdir f)))) with Some _ => aret tt t | None => makedirs [] (resolve cwd (fst (os_split (zip_target outdir f)))) t end end) k t1 = k tt t1).
    { intros B k. destruct (fst (os_split (zip_target outdir f))) as [|y u] eqn:Eu; [apply bind_ret|]. rewrite Up. apply find_dir in D1 as (es & Ef).
      unfold abind. rewrite Ef. cbn. destruct (k tt t1) as [[tr rr] t2]. reflexivity. }
    rewrite Fst. destruct (is_dir (O ++ [d]) t1) eqn:Ed.
    - right. unfold abind. rewrite Ed. cbn. split; [reflexivity|]. split; [apply is_dir_at; exact Ed|exact D1].
    - unfold abind. rewrite Ed. unfold change. destruct (find t1 (O ++ [d])) as [nd|] eqn:Ef; [left; reflexivity|]. right.
      destruct (place_ok (O ++ [d]) t1 (Dir [])) as (s' & Pl); [destruct O; discriminate|rewrite removelast_last; exact D1|]. rewrite Pl. cbn. split; [reflexivity|].
      unfold final. cbn [snd]. rewrite !(at_place _ _ _ _ Pl), cut_self. split; [reflexivity|]. destruct (cut (O ++ [d]) O) as [z|] eqn:Ec; [|exact D1].
      exfalso. apply cut_Some in Ec. rewrite <- app_assoc in Ec. rewrite <- (app_nil_r O) in Ec at 1. apply app_inv_head in Ec. discriminate. }
  destruct X as [X|(X1 & X2 & X3)]; [apply bind_err; exact X|].
  destruct (bind_ok_run (extract cwd outdir f cc) (fun actual => (if str_eqb actual (os_join outdir []) then aret tt else move cwd actual (os_join outdir [])) ;;;
     unpack cwd outdir ((f, c) :: rest) rest (Some d) (if ends_with (str_of ".shp") [] then Some (os_join outdir []) else None)) t1 _ X1) as [-> _].
  set (s := final (extract cwd outdir f cc t1)) in *. apply bind_err.
  assert (RO : resolve cwd (os_join outdir []) = O) by (rewrite resolve_join by reflexivity; apply walk_parts_empty).
  destruct (str_eqb_spec (zip_target outdir f) (os_join outdir [])) as [E|_]; [exfalso; rewrite E, RO in T; symmetry in T; apply (snoc_neq _ _ T)|].
  unfold move. rewrite RO, T. apply is_dir_at in X3. rewrite X3. destruct (list_eq_dec _ _ _) as [E|_]; [exfalso; apply (snoc_neq _ _ E)|].
  rewrite Bn. rewrite (resolve_join_good cwd _ d Hd), RO. apply find_dir in X2 as (es & ->). reflexivity.
Qed.
Print Assumptions C117_folder_entry.
Theorem C117_folder_entry_refuted : exists web anchors unzip t, let r := call home web ok anchors glue unzip (str_of "tz") t in
  unzip [] = Ok [(str_of "dist/", []); (str_of "dist/a.shp", str_of "1")] /\ result r = Err IOErr.
Proof. exists ok, two_links, (names_of [("dist/", ""); ("dist/a.shp", "1")]%string), disk. vm_compute. repeat split. Qed.
Print Assumptions C117_folder_entry_refuted.

(** An empty archive is an error too. *)
Theorem C117_empty : forall cwd web decode anchors urljoin unzip outdir t raw page h,
  web release_url = Ok raw -> decode raw = Ok page -> first_link (anchors page) h -> is_ok (web (urljoin (str_of "https://github.com") h)) = true ->
  at_ t (resolve cwd outdir) = Some EDir -> at_ t (resolve cwd outdir ++ [wanted]) <> Some EDir -> (forall data, unzip data = Ok []) ->
  result (call cwd web decode anchors urljoin unzip outdir t) = Err Unbound.
Proof.
  intros cwd web decode anchors urljoin unzip outdir t raw page h W De F Hw Dt Fz U. set (link := urljoin (str_of "https://github.com") h) in *.
  assert (G : fetched decode anchors urljoin web link) by (exists raw, page; repeat split; auto; apply pick_first; exact F). destruct (web link) as [data|] eqn:Ew; [|discriminate].
  destruct (call_runs cwd decode anchors urljoin unzip web link data outdir t G Ew Dt Fz) as (t1 & _ & _ & _ & R1 & _). rewrite R1. unfold tail. rewrite U. reflexivity.
Qed.
Print Assumptions C117_empty.
Example C117_empty_ex : result (call home ok ok two_links glue (names_of []) (str_of "tz") disk) = Err Unbound.
Proof. vm_compute. reflexivity. Qed.
