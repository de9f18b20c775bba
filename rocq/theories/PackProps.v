(** C126 to C129: version files, the version of setup.py, and "versioneer.py setup". *)
From Coq Require Import ZArith String Ascii Bool List Lia.
From Verif Require Import PyBase PyStr PathProofs PolyModel PolySpec PolyProofs VersionModel VersionSpec VersionProofs PackModel PackSpec PackProofs PackLineProofs.
Import ListNotations.
Open Scope nat_scope.

(** ** C126 *)
(** Whatever the texts are, versions_from_file reads back what write_to_version_file wrote,
    also after the line ends of the file were changed to those of another system. *)
Theorem C126_readback : forall old v, exists t d, write_to_version_file (Some old) v = Ok (Some t) /\ shows d v /\
  versions_from_file (Some t) = Got d /\ versions_from_file (Some (crlf t)) = Got d.
Proof.
  intros old v. exists (version_text v), (to_dict v). pose proof (ascii_unix _ (ascii_version_text v)) as U. split; [reflexivity|]. split; [apply to_dict_shows|].
  split; apply from_text; [apply universal_unix|apply universal_crlf]; exact U.
Qed.
Print Assumptions C126_readback.
(** The file is ASCII, so that its encoding does not matter. *)
Theorem C126_ascii : forall old v t, write_to_version_file old v = Ok (Some t) -> ascii_text t.
Proof. intros [old|] v t; [|discriminate]. intro E. injection E as <-. apply ascii_version_text. Qed.
Print Assumptions C126_ascii.
(** A file that is not there is not written. *)
Theorem C126_missing : forall v, write_to_version_file None v = Err FileNotFoundError.
Proof. reflexivity. Qed.
Print Assumptions C126_missing.
(** Nothing is found in a file that can not be read, or without the mark at the beginning or
    the one at the end; the other methods are tried then. *)
Lemma after_first_occurs p s : after_first p s = None <-> ~ occurs p s.
Proof.
  rewrite <- has_text_occurs. induction s as [|c s IH]; cbn [after_first has_text].
  - destruct (starts_with p []); cbn [orb]; split; congruence.
  - destruct (starts_with p (c :: s)); cbn [orb]; [split; congruence|exact IH].
Qed.
Theorem C126_unmarked : forall t, unix t -> ~ occurs (str_of "version_json = '''" ++ [chr 10]) t \/ ~ occurs (str_of "'''  # END VERSION_JSON") t ->
  versions_from_file (Some t) = NotThis.
Proof.
  intros t U H. unfold versions_from_file. rewrite universal_unix by exact U.
  assert (B : forall x y, ~ occurs json_end (x ++ y) -> before_last json_end y = None).
  { intros x y N. unfold before_last. rewrite (proj2 (after_first_occurs _ _)); [reflexivity|]. intros (a & b & E). apply N. exists (x ++ rev b), (rev a). apply (f_equal (@rev ascii)) in E. rewrite rev_involutive, !rev_app_distr, rev_involutive in E. rewrite E, <- !app_assoc. reflexivity. }
  assert (A : forall p s r, after_first p s = Some r -> exists x, s = x ++ r).
  { clear. intros p s r. induction s as [|c s IH]; cbn [after_first]; destruct starts_with.
    - intro E. exists []. destruct p; injection E as <-; reflexivity.
    - discriminate.
    - intro E. injection E as <-. exists (firstn (length p) (c :: s)). symmetry. apply firstn_skipn.
    - intro E. destruct (IH E) as (x & ->). exists (c :: x). reflexivity. }
  assert (C : forall start, search start json_end t = None \/ ~ ~ occurs json_end t).
  { intro start. destruct (has_text json_end t) eqn:E; [right; intro N; apply N, has_text_occurs; exact E|left]. unfold search. destruct (after_first start t) as [r|] eqn:F; [|reflexivity]. destruct (A _ _ _ F) as (x & ->). apply (B x). rewrite <- has_text_occurs, E. discriminate. }
  assert (D : search (json_start ++ [chr 13; newline]) json_end t = None).
  { unfold search. rewrite (proj2 (after_first_occurs _ _)); [reflexivity|]. intros (a & b & ->). apply U. apply in_or_app. right. apply in_or_app. left. apply in_or_app. right. left. reflexivity. }
  rewrite D. destruct H as [H|H].
  - unfold search. rewrite (proj2 (after_first_occurs _ _)) by exact H. reflexivity.
  - destruct (C (json_start ++ [newline])) as [->|N]; [reflexivity|elim (N H)].
Qed.
Print Assumptions C126_unmarked.
Definition sample : versions := mkversions (str_of "1.0+3.gabc") (Some (str_of "abcdef")) (Some false) None (Some (str_of "2020-01-01T00:00:00+0000")).
Example C126_example : dumps (to_dict (mkversions (str_of "1" ++ [chr 34]) None (Some true) None None)) =
  str_of "{" ++ nl ++ str_of " ""date"": null," ++ nl ++ str_of " ""dirty"": true," ++ nl ++ str_of " ""error"": null," ++ nl ++ str_of " ""full-revisionid"": null," ++ nl
  ++ str_of " ""version"": ""1\""""" ++ nl ++ str_of "}" /\ versions_from_file None = NotThis.
Proof. split; reflexivity. Qed.

(** ** C127 *)
(** Importing the written file gives the dictionary, if the texts have no quotes, backslashes,
    control characters and no three apostrophes. *)
Theorem C127_imported : forall v, Forall plain (texts v) -> exists d, imported v = Ok d /\ shows d v.
Proof. intros v P. exists (to_dict v). split; [apply imported_plain; exact P|apply to_dict_shows]. Qed.
Print Assumptions C127_imported.
(** The text that Python takes for version_json is the one that versions_from_file finds. *)
Theorem C127_other_texts_refuted :
  (* a quote, as git allows in tags: the file can not be used *)
  (exists v, v_version v = str_of "1""2" /\ imported v = Err ValueError) /\
  (* a backslash: another version is told *)
  (exists v d, v_version v = str_of "1\n2" /\ imported v = Ok d /\ item (str_of "version") d = Ok (JText (str_of "1" ++ [chr 10] ++ str_of "2")) ) /\
  (* three apostrophes end the text early, and what follows is program text *)
  (exists v a b, v_version v = str_of "1'''+f()+'''" /\ version_text v = a ++ str_of "version_json = '''" ++ b ++ str_of "'''+f()+'''" ++ skipn (length a + 18 + length b + 11) (version_text v) /\
     ~ occurs (str_of "'''") b /\ length a + length b < 400).
Proof.
  split; [|split].
  - exists (mkversions (str_of "1""2") None None None None). split; vm_compute; reflexivity.
  - eexists (mkversions (str_of "1\n2") None None None None), _. split; [reflexivity|]. split; vm_compute; reflexivity.
  - exists (mkversions (str_of "1'''+f()+'''") None None None None), file_start, (nl ++ str_of "{" ++ nl ++ str_of " ""date"": null," ++ nl ++ str_of " ""dirty"": null," ++ nl ++ str_of " ""error"": null," ++ nl ++ str_of " ""full-revisionid"": null," ++ nl ++ str_of " ""version"": ""1").
    split; [reflexivity|]. split; [vm_compute; reflexivity|]. split; [rewrite <- has_text_occurs; vm_compute; discriminate|vm_compute; lia].
Qed.
Print Assumptions C127_other_texts_refuted.
Example C127_example : imported sample = Ok (to_dict sample) /\ Forall plain (texts sample).
Proof.
  split; [vm_compute; reflexivity|]. repeat (apply Forall_cons; [split; [intros c I; vm_compute in I; repeat (destruct I as [<-|I]; [repeat split; [discriminate|discriminate|vm_compute; lia]|]); destruct I|rewrite <- has_text_occurs; vm_compute; discriminate]|]). apply Forall_nil.
Qed.

(** ** C128 *)
Section Setup.
Variable popen : str -> str -> list str -> launch.
Variable iparse : str -> option Z.
Variable content : str -> option str.
Notation versions_of := (get_versions popen iparse content).
(** In a distribution, whose version file was written, the version is the one written,
    whatever git says and whatever the directory is called. *)
Theorem C128_distribution : forall cfg root source prefix v t old, c_vcs cfg = str_of "git" -> c_source cfg = Some source -> c_tag_prefix cfg = Some prefix ->
  write_to_version_file (Some old) v = Ok (Some t) -> (content (os_join root source) = Some t \/ content (os_join root source) = Some (crlf t)) ->
  get_version popen iparse content cfg root = Ok (JText (v_version v)) /\ exists d, versions_of cfg root = Ok d /\ shows d v.
Proof.
  intros cfg root source prefix v t old G S P W C. injection W as <-. pose proof (ascii_unix _ (ascii_version_text v)) as U.
  assert (X : exists t, content (os_join root source) = Some t /\ universal t = version_text v) by (destruct C as [C|C]; eexists; (split; [exact C|]); [apply universal_unix|apply universal_crlf]; exact U).
  destruct X as (t & T & UT). assert (E : versions_of cfg root = Ok (to_dict v)).
  { unfold get_versions. rewrite G, S, P, T. cbn [str_eqb negb option_map]. change (str_eqb (str_of "git") (str_of "git")) with true. cbn [negb]. rewrite (version_no_keywords v t UT). cbn [from_keywords]. rewrite (from_text v t UT). reflexivity. }
  split; [|exists (to_dict v); split; [exact E|apply to_dict_shows]]. unfold get_version. rewrite E. reflexivity.
Qed.
(** The order of the methods: keywords filled in by git-archive, the written file, git, the
    name of the directory; the first one that applies decides, also by failing. *)
Inductive decided (cfg : config) (root source prefix : str) : res jdict -> Prop :=
| by_keywords a : from_keywords (git_get_keywords (option_map lines (content (os_join root source)))) prefix = a -> a <> NotThis ->
    decided cfg root source prefix (match a with Got v => Ok (to_dict v) | Raised e => Err e | NotThis => Err Generic end)
| by_file a : from_keywords (git_get_keywords (option_map lines (content (os_join root source)))) prefix = NotThis -> versions_from_file (content (os_join root source)) = a -> a <> NotThis ->
    decided cfg root source prefix (match a with Got d => Ok d | Raised e => Err e | NotThis => Err Generic end)
| by_git a : from_keywords (git_get_keywords (option_map lines (content (os_join root source)))) prefix = NotThis -> versions_from_file (content (os_join root source)) = NotThis ->
    git_pieces popen iparse prefix root = a -> a <> NotThis ->
    decided cfg root source prefix (match a with Got p => match render p (Some (c_style cfg)) with Ok v => Ok (to_dict v) | Err e => Err e end | Raised e => Err e | NotThis => Err Generic end)
| by_directory parent i r rest : from_keywords (git_get_keywords (option_map lines (content (os_join root source)))) prefix = NotThis -> versions_from_file (content (os_join root source)) = NotThis ->
    git_pieces popen iparse prefix root = NotThis -> c_parent cfg = Some parent -> parent <> [] -> i < 3 -> r = Nat.iter i dirname root -> basename r = parent ++ rest ->
    (forall j, j < i -> forall x, basename (Nat.iter j dirname root) <> parent ++ x) ->
    decided cfg root source prefix (Ok (to_dict (mkversions rest None (Some false) None None)))
| by_nothing : from_keywords (git_get_keywords (option_map lines (content (os_join root source)))) prefix = NotThis -> versions_from_file (content (os_join root source)) = NotThis ->
    git_pieces popen iparse prefix root = NotThis ->
    (forall parent, c_parent cfg = Some parent -> parent <> [] -> forall i x, i < 3 -> basename (Nat.iter i dirname root) <> parent ++ x) ->
    decided cfg root source prefix (Ok (to_dict (mkversions (str_of "0+unknown") None None (Some (str_of "unable to compute version")) None))).
Lemma parent_cases n parent root :
  (exists i rest, i < n /\ basename (Nat.iter i dirname root) = parent ++ rest /\ (forall j, j < i -> forall x, basename (Nat.iter j dirname root) <> parent ++ x) /\
     from_parentdir n parent root = Got (mkversions rest None (Some false) None None)) \/
  ((forall i x, i < n -> basename (Nat.iter i dirname root) <> parent ++ x) /\ from_parentdir n parent root = NotThis).
Proof.
  assert (IT : forall j r, Nat.iter j dirname (dirname r) = Nat.iter (S j) dirname r) by (intro j; induction j as [|j IH]; intro r; [reflexivity|cbn [Nat.iter nat_rect]; f_equal; apply IH]).
  revert root. induction n as [|n IH]; intro root; [right; split; [intros; lia|reflexivity]|]. cbn [from_parentdir]. destruct (starts_with parent (basename root)) eqn:E.
  - left. apply starts_iff in E as (r & E). exists 0, r. split; [lia|]. split; [exact E|]. split; [intros; lia|]. rewrite E, skipn_app, Nat.sub_diag, skipn_all. reflexivity.
  - assert (Z : forall x, basename root <> parent ++ x) by (intros x X; rewrite X, starts_with_app in E; discriminate).
    destruct (IH (dirname root)) as [(i & r & L & B & F & R)|(F & R)]; [left|right].
    + exists (S i), r. split; [lia|]. split; [rewrite <- IT; exact B|]. split; [|exact R]. intros [|j] J x; [apply Z|]. rewrite <- IT. apply F. lia.
    + split; [|exact R]. intros [|i] x L; [apply Z|]. rewrite <- IT. apply F. lia.
Qed.
Theorem C128_order : forall cfg root source prefix, c_vcs cfg = str_of "git" -> c_source cfg = Some source -> c_tag_prefix cfg = Some prefix ->
  decided cfg root source prefix (versions_of cfg root).
Proof.
  intros cfg root source prefix G S P. unfold get_versions. rewrite G, S, P. change (str_eqb (str_of "git") (str_of "git")) with true. cbn [negb].
  destruct (from_keywords _ prefix) as [v| |e] eqn:K; [exact (by_keywords cfg root source prefix _ K ltac:(discriminate))| |exact (by_keywords cfg root source prefix _ K ltac:(discriminate))].
  destruct (versions_from_file _) as [d| |e] eqn:F; [exact (by_file cfg root source prefix _ K F ltac:(discriminate))| |exact (by_file cfg root source prefix _ K F ltac:(discriminate))].
  destruct (git_pieces popen iparse prefix root) as [p| |e] eqn:V; [pose proof (by_git cfg root source prefix _ K F V ltac:(discriminate)) as X; cbn iota in X; destruct (render p (Some (c_style cfg))); exact X| |exact (by_git cfg root source prefix _ K F V ltac:(discriminate))].
  destruct (c_parent cfg) as [[|c parent]|] eqn:C.
  - apply by_nothing; auto. intros parent' E N. congruence.
  - destruct (parent_cases 3 (c :: parent) root) as [(i & r & L & B & H & ->)|(H & ->)].
    + exact (by_directory cfg root source prefix (c :: parent) i _ r K F V C ltac:(discriminate) L eq_refl B H).
    + apply by_nothing; auto. intros parent' E N. rewrite C in E. injection E as <-. exact H.
  - apply by_nothing; auto. intros parent' E N. congruence.
Qed.
(** Without a version control system that is known, a version file and a prefix of tags in
    the configuration there is no version. *)
Theorem C128_unconfigured : forall cfg root, c_vcs cfg <> str_of "git" \/ c_source cfg = None \/ c_tag_prefix cfg = None -> versions_of cfg root = Err AssertionError.
Proof.
  intros cfg root H. unfold get_versions. destruct (str_eqb_spec (c_vcs cfg) (str_of "git")); [|reflexivity]. cbn [negb]. destruct H as [H|[H|H]]; [contradiction| |]; rewrite H; [reflexivity|]. destruct (c_source cfg); reflexivity.
Qed.
(** setup.py and the package agree in a checkout: the same version is found by versioneer
    from the directory and by the package from the path of its _version.py. *)
Theorem C128_agrees : forall get cfg root text, config_of get = Some cfg -> get "VCS"%string = Some (str_of "git") -> get "style"%string = Some (str_of "pep440") ->
  get "versionfile_source"%string = Some (str_of "impactutils/_version.py") -> get "tag_prefix"%string = Some [] -> get "parentdir_prefix"%string = Some (str_of "impactutils-") ->
  root <> [] -> ends_sl root = false -> content (root ++ str_of "/impactutils/_version.py") = Some text -> versions_from_file (Some text) = NotThis ->
  (exists full date, git_get_keywords (Some (lines text)) = [(str_of "date", date); (str_of "full", full); (str_of "refnames", str_of "$Format:%d$")]) ->
  forall r, VersionModel.get_versions popen iparse get_keywords (Some (root ++ str_of "/impactutils/_version.py")) = r -> versions_of cfg root = bind r (fun v => Ok (to_dict v)).
Proof.
  intros get cfg root text C G1 G2 G3 G4 G5 NE ES T NV (full & date & K) r <-. unfold config_of in C. rewrite G1, G2, G3, G4, G5 in C. 
  assert (X : Some cfg = Some (mkconfig (str_of "git") (str_of "pep440") (Some (str_of "impactutils/_version.py")) (Some []) (Some (str_of "impactutils-")))) by (rewrite <- C; reflexivity). clear C.
  apply (f_equal (fun o => match o with Some c => c | None => cfg end)) in X. cbn beta iota in X. subst cfg.
  unfold get_versions. cbn [c_vcs c_source c_tag_prefix c_style c_parent]. change (str_eqb (str_of "git") (str_of "git")) with true. cbn [negb].
  assert (J : os_join root (str_of "impactutils/_version.py") = root ++ str_of "/impactutils/_version.py") by (unfold os_join; cbn [starts_sl]; change (starts_sl (str_of "impactutils/_version.py")) with false; cbn iota; destruct root; [congruence|]; rewrite ES; reflexivity).
  rewrite J, T. cbn [option_map]. rewrite K, NV. cbn [from_keywords]. change (lookup (str_of "refnames") _) with (Some (str_of "$Format:%d$")). cbn iota. change (starts_with (str_of "$Format") (strip (str_of "$Format:%d$"))) with true. cbn iota.
  unfold VersionModel.get_versions. change (from_keywords get_keywords tag_prefix) with (@NotThis versions). cbn iota.
  assert (D : dirname (dirname (root ++ str_of "/impactutils/_version.py")) = root).
  { change (root ++ str_of "/impactutils/_version.py") with (root ++ str_of "/impactutils" ++ sl :: str_of "_version.py"). rewrite app_assoc.
    assert (L : forall (h t : str), h <> [] -> ends_sl h = false -> ~ In sl t -> dirname (h ++ sl :: t) = h).
    { clear. intros h t N E T. unfold dirname, os_split. cbn [fst]. rewrite rev_app_distr. cbn [rev]. rewrite <- app_assoc. cbn [app].
      assert (H : forall u x, ~ In sl u -> head_part (u ++ sl :: x) = sl :: x). { induction u as [|c u IH]; intros x U; cbn [app head_part]; [change (Ascii.eqb sl sl) with true; reflexivity|]. destruct (Ascii.eqb_spec c sl) as [->|_]; [elim U; left; reflexivity|]. apply IH. intro I. apply U. right. exact I. }
      rewrite H by (rewrite <- in_rev; exact T). cbn [rev]. rewrite rev_involutive. assert (R : exists y z, h = y ++ [z] /\ z <> sl). { unfold ends_sl in E. destruct (rev h) as [|z y] eqn:Z; [apply (f_equal (@rev ascii)) in Z; rewrite rev_involutive in Z; contradiction|]. exists (rev y), z. apply (f_equal (@rev ascii)) in Z. rewrite rev_involutive in Z. split; [exact Z|]. intros ->. discriminate. }
      destruct R as (y & z & -> & NZ). assert (F : forallb (Ascii.eqb sl) ((y ++ [z]) ++ [sl]) = false). { rewrite !forallb_app. cbn [forallb]. destruct (Ascii.eqb_spec sl z); [congruence|]. rewrite andb_false_r. reflexivity. }
      rewrite F. unfold rstrip_sl. rewrite !rev_app_distr. cbn [rev app lstrip_sl]. change (Ascii.eqb sl sl) with true. cbn iota. destruct (Ascii.eqb_spec z sl); [contradiction|]. cbn [rev]. rewrite rev_involutive. reflexivity. }
    rewrite L; [| |unfold ends_sl; rewrite rev_app_distr; reflexivity|cbn; intuition discriminate].
    - change (root ++ str_of "/impactutils") with (root ++ sl :: str_of "impactutils"). apply L; [exact NE|exact ES|cbn; intuition discriminate].
    - intro X. apply app_eq_nil in X as (_ & X). discriminate. }
  rewrite D. unfold tag_prefix. destruct (git_pieces popen iparse [] root) as [p| |e]; [destruct (render p (Some (str_of "pep440"))); reflexivity| |reflexivity].
  unfold parentdir_prefix. change (match Some (str_of "impactutils-") with Some (_ :: _ as pp) => from_parentdir 3 pp root | _ => NotThis end) with (from_parentdir 3 (str_of "impactutils-") root).
  destruct (from_parentdir 3 (str_of "impactutils-") root); reflexivity.
Qed.
End Setup.
Print Assumptions C128_distribution.
Print Assumptions C128_order.
Print Assumptions C128_unconfigured.
Print Assumptions C128_agrees.
(** The directory of the project: the working directory, or else that of the script. *)
Theorem C128_root : forall exists_ cwd script,
  let has d := exists_ (os_join d (str_of "setup.py")) = true \/ exists_ (os_join d (str_of "versioneer.py")) = true in
  (has cwd -> get_root exists_ cwd script = Ok cwd) /\
  (~ has cwd -> has (dirname script) -> get_root exists_ cwd script = Ok (dirname script)) /\
  (~ has cwd -> ~ has (dirname script) -> get_root exists_ cwd script = Err Generic).
Proof.
  intros ex cwd script has. unfold get_root, has. rewrite <- !orb_true_iff. repeat split; intros; repeat match goal with H : ?x = true |- _ => rewrite H | H : ?x <> true |- _ => apply not_true_is_false in H; rewrite H end; reflexivity.
Qed.
Print Assumptions C128_root.
(** Quotation marks are taken off an empty prefix, and a missing style is the empty one. *)
Theorem C128_config : forall get,
  (get "VCS"%string = None -> config_of get = None) /\
  (forall v, get "VCS"%string = Some v -> exists c, config_of get = Some c /\ c_vcs c = v /\ c_source c = get "versionfile_source"%string /\ c_parent c = get "parentdir_prefix"%string /\
     (get "style"%string = None -> c_style c = []) /\ (forall s, get "style"%string = Some s -> c_style c = s) /\
     (get "tag_prefix"%string = None -> c_tag_prefix c = None) /\
     (forall p, get "tag_prefix"%string = Some p -> (p = str_of "''" \/ p = str_of """""") -> c_tag_prefix c = Some []) /\
     (forall p, get "tag_prefix"%string = Some p -> p <> str_of "''" -> p <> str_of """""" -> c_tag_prefix c = Some p)).
Proof.
  intro get. unfold config_of. split; [intros ->; reflexivity|]. intros v ->. eexists. split; [reflexivity|]. cbn [c_vcs c_source c_parent c_style c_tag_prefix].
  repeat split.
  - intros ->. reflexivity.
  - intros s ->. reflexivity.
  - intros ->. reflexivity.
  - intros p -> [->| ->]; reflexivity.
  - intros p -> A B. destruct (str_eqb_spec p (str_of "''")); [contradiction|]. destruct (str_eqb_spec p [quote; quote]); [elim B; assumption|reflexivity].
Qed.
Print Assumptions C128_config.
Example C128_example : let cfg := mkconfig (str_of "git") (str_of "pep440") (Some (str_of "impactutils/_version.py")) (Some []) (Some (str_of "impactutils-")) in
  get_version (fun _ _ _ => NoSuch) (fun _ => None) (fun _ => Some (version_text sample)) cfg (str_of "/tmp/impactutils-9.9") = Ok (JText (str_of "1.0+3.gabc")) /\
  get_version (fun _ _ _ => NoSuch) (fun _ => None) (fun _ => None) cfg (str_of "/tmp/impactutils-9.9") = Ok (JText (str_of "9.9")).
Proof. split; vm_compute; reflexivity. Qed.

(** ** C129 *)
(** A line marks a file for git-archive. *)
Definition marks (source l : str) : Prop := exists s r first w, trimmed l s /\ s = source ++ r /\ words s (first :: w) /\ In (str_of "export-subst") w.
Definition marked (source s : str) : Prop := exists l, line_of s l /\ marks source l.
(** A line includes a file in a distribution. *)
Definition included (name s : str) : Prop := exists l r first w, line_of s l /\ l = str_of "include " ++ r /\ words l (first :: w) /\ In name w.
Lemma marks_iff source l : marked_line source l = true <-> marks source l.
Proof.
  unfold marked_line, marks. rewrite andb_true_iff, starts_iff, str_mem. split.
  - intros ((r & R) & I). destruct (split_blanks (strip l)) as [|x w] eqn:W; [destruct I|]. exists (strip l), r, x, w. split; [apply strip_trimmed|]. split; [exact R|]. split; [apply words_iff; exact W|exact I].
  - intros (s & r & first & w & T & R & W & I). apply trimmed_strip in T. apply words_split in W. rewrite T, W. split; [exists r; exact R|exact I].
Qed.
Lemma marked_iff source s : unix s -> (existsb (marked_line source) (lines s) = true <-> marked source s).
Proof. intro U. rewrite existsb_exists. split; intros (l & I & M); exists l; (split; [apply lines_iff; assumption|apply marks_iff; exact M]). Qed.
Lemma included_iff name s : unix s -> (existsb (str_eqb name) (includes s) = true <-> included name s).
Proof.
  intro U. rewrite str_mem. unfold includes. rewrite in_flat_map. split.
  - intros (l & I & M). apply lines_iff in I; [|exact U]. destruct (starts_with (str_of "include ") l) eqn:S; [|destruct M]. apply starts_iff in S as (r & R). destruct (split_blanks l) as [|x w] eqn:W; [destruct M|]. exists l, r, x, w. split; [exact I|]. split; [exact R|]. split; [apply words_iff; exact W|exact M].
  - intros (l & r & first & w & I & R & W & M). exists l. split; [apply lines_iff; assumption|]. rewrite (proj2 (starts_iff _ _)) by (exists r; exact R). apply words_split in W. rewrite W. exact M.
Qed.

(** .gitattributes: a line is added unless there is one already; nothing else changes. *)
Theorem C129_attributes : forall source file, name_ok source -> unix (text_of file) ->
  (marked source (text_of file) -> set_attributes source file = file) /\
  (~ marked source (text_of file) -> set_attributes source file = Some (text_of file ++ source ++ str_of " export-subst" ++ [chr 10])) /\
  (complete (text_of file) -> marked source (text_of (set_attributes source file))).
Proof.
  intros source file N U. unfold set_attributes. pose proof (marked_iff source _ U) as M. destruct (existsb (marked_line source) (lines (text_of file))) eqn:E.
  - split; [reflexivity|]. split; [intro X; elim X; apply M; reflexivity|]. intros _. apply M. reflexivity.
  - split; [intro X; apply M in X; discriminate|]. split; [reflexivity|]. intro C. cbn [append text_of].
    assert (L : lines (source ++ str_of " export-subst" ++ nl) = [source ++ str_of " export-subst" ++ nl]).
    { unfold nl. rewrite app_assoc. apply lines_one; [apply unix_app; [apply name_unix; exact N|vm_compute; intuition discriminate]|apply no_nl_app; [apply name_no_nl; exact N|vm_compute; intuition discriminate]]. }
    apply marked_iff. { apply unix_app; [exact U|]. apply unix_app; [apply name_unix; exact N|vm_compute; intuition discriminate]. }
    rewrite lines_app by exact C. rewrite existsb_app, L. cbn [existsb]. rewrite mark_line by exact N. rewrite orb_true_r. reflexivity.
Qed.
Print Assumptions C129_attributes.
Lemma marked_after source s : name_ok source -> complete s -> existsb (marked_line source) (lines (s ++ source ++ str_of " export-subst" ++ nl)) = true.
Proof.
  intros N C. rewrite lines_app by exact C. assert (L : lines (source ++ str_of " export-subst" ++ nl) = [source ++ str_of " export-subst" ++ nl]).
  { unfold nl. rewrite app_assoc. apply lines_one; [apply unix_app; [apply name_unix; exact N|vm_compute; intuition discriminate]|apply no_nl_app; [apply name_no_nl; exact N|vm_compute; intuition discriminate]]. }
  rewrite existsb_app, L. cbn [existsb]. rewrite mark_line by exact N. rewrite orb_true_r. reflexivity.
Qed.
Lemma include_line name : name_ok name -> includes (str_of "include " ++ name ++ nl) = [name].
Proof.
  intro N. unfold includes, nl. rewrite app_assoc. rewrite lines_one; [|apply unix_app; [vm_compute; intuition discriminate|apply name_unix; exact N]|apply no_nl_app; [vm_compute; intuition discriminate|apply name_no_nl; exact N]].
  cbn [flat_map]. rewrite <- app_assoc. rewrite starts_with_app. rewrite app_nil_r. unfold split_blanks. change (str_of "include " ++ name ++ [newline]) with (str_of "include" ++ " "%char :: name ++ [newline]).
  destruct N as (NE & B). rewrite words_one; [|discriminate|repeat constructor|reflexivity]. cbn [tl]. rewrite words_one; [reflexivity|exact NE|apply Forall_forall; exact B|reflexivity].
Qed.
Lemma includes_app a b : complete a -> includes (a ++ b) = includes a ++ includes b.
Proof. intro C. unfold includes. rewrite lines_app by exact C. apply flat_map_app. Qed.
Lemma versioneer_name : name_ok (str_of "versioneer.py").
Proof. split; [discriminate|]. intros c I. cbn in I. intuition (subst; reflexivity). Qed.
Lemma complete_line a x : complete (a ++ str_of x ++ nl).
Proof. apply complete_app. Qed.
Lemma set_manifest_cases source file : name_ok source -> complete (text_of file) ->
  existsb (str_eqb (str_of "versioneer.py")) (includes (text_of (set_manifest source file))) = true /\ existsb (str_eqb source) (includes (text_of (set_manifest source file))) = true /\ complete (text_of (set_manifest source file)).
Proof.
  intros N C. unfold set_manifest. set (f := text_of file) in *. assert (C1 : complete (f ++ str_of "include versioneer.py" ++ nl)) by apply complete_app.
  assert (I1 : existsb (str_eqb (str_of "versioneer.py")) (includes (f ++ str_of "include versioneer.py" ++ nl)) = true).
  { rewrite includes_app by exact C. change (str_of "include versioneer.py" ++ nl) with (str_of "include " ++ str_of "versioneer.py" ++ nl). rewrite include_line by apply versioneer_name. apply str_mem, in_or_app. right. left. reflexivity. }
  assert (L : forall g, complete (g ++ str_of "include " ++ source ++ nl)) by (intro g; rewrite (app_assoc (str_of "include ")); apply complete_app).
  assert (K : forall g x, complete g -> existsb (str_eqb x) (includes g) = true -> existsb (str_eqb x) (includes (g ++ str_of "include " ++ source ++ nl)) = true).
  { intros g x G E. rewrite includes_app by exact G. rewrite existsb_app, E. reflexivity. }
  assert (S : forall g, complete g -> existsb (str_eqb source) (includes (g ++ str_of "include " ++ source ++ nl)) = true).
  { intros g G. rewrite includes_app by exact G. rewrite include_line by exact N. apply str_mem, in_or_app. right. left. reflexivity. }
  destruct (existsb (str_eqb (str_of "versioneer.py")) (includes f)) eqn:V, (existsb (str_eqb source) (includes f)) eqn:W; cbn [append text_of]; fold f.
  - auto.
  - auto.
  - split; [exact I1|]. split; [|exact C1]. rewrite includes_app by exact C. rewrite existsb_app, W. reflexivity.
  - auto.
Qed.
(** MANIFEST.in: likewise for two files. *)
Theorem C129_manifest : forall source file, name_ok source -> unix (text_of file) ->
  (exists t, text_of (set_manifest source file) = text_of file ++ t) /\
  (included (str_of "versioneer.py") (text_of file) /\ included source (text_of file) <-> set_manifest source file = file) /\
  (complete (text_of file) -> included (str_of "versioneer.py") (text_of (set_manifest source file)) /\ included source (text_of (set_manifest source file))).
Proof.
  intros source file N U. assert (UV : unix (text_of (set_manifest source file))).
  { unfold set_manifest. assert (A : forall g, unix g -> unix (g ++ str_of "include " ++ source ++ nl)) by (intros g G; apply unix_app; [exact G|apply unix_app; [vm_compute; intuition discriminate|apply unix_app; [apply name_unix; exact N|vm_compute; intuition discriminate]]]).
    assert (B : forall g, unix g -> unix (g ++ str_of "include versioneer.py" ++ nl)) by (intros g G; apply unix_app; [exact G|vm_compute; intuition discriminate]).
    destruct existsb, existsb; cbn [append text_of]; auto. }
  split; [|split].
  - unfold set_manifest. destruct existsb, existsb; cbn [append text_of]; [exists []; rewrite app_nil_r; reflexivity|eexists; reflexivity|eexists; reflexivity|eexists; rewrite <- app_assoc; reflexivity].
  - rewrite <- !included_iff by exact U. unfold set_manifest.
    assert (D : forall f x c t, append f (x ++ c :: t) <> f). { intros f x c t E. apply (f_equal (fun o => length (text_of o))) in E. cbn [append text_of] in E. rewrite !app_length in E. cbn [length] in E. lia. }
    assert (D2 : forall f x c t, append (append f x) (c :: t) <> f). { intros f x c t E. apply (f_equal (fun o => length (text_of o))) in E. cbn [append text_of] in E. rewrite !app_length in E. cbn [length] in E. lia. }
    destruct existsb, existsb; split; try (intros _; split; reflexivity); try (intros (? & ?); discriminate); try reflexivity; intro E; exfalso; revert E; [apply (D file [])|apply (D file [])|apply D2].
  - intro C. destruct (set_manifest_cases source file N C) as (A & B & _). split; apply included_iff; assumption.
Qed.
Print Assumptions C129_manifest.
(** A second run changes nothing if the files end with a newline; a third run never does. *)
Theorem C129_again : forall source file, name_ok source ->
  let a := set_attributes source in let m := set_manifest source in
  (complete (text_of file) -> a (a file) = a file /\ m (m file) = m file) /\
  a (a (a file)) = a (a file) /\ m (m (m file)) = m (m file).
Proof.
  intros source file N a m.
  assert (A2 : forall f, complete (text_of f) -> a (a f) = a f).
  { intros f C. subst a. unfold set_attributes at 2 3. destruct (existsb (marked_line source) (lines (text_of f))) eqn:E; [unfold set_attributes; rewrite E; reflexivity|]. unfold append. unfold set_attributes. match goal with |- context [text_of (Some ?x)] => change (text_of (Some x)) with x end. rewrite (marked_after source (text_of f) N C). reflexivity. }
  assert (M2 : forall f, complete (text_of f) -> m (m f) = m f).
  { intros f C. subst m. destruct (set_manifest_cases source f N C) as (V & S & _). generalize (set_manifest source f) V S. intros g Vg Sg. unfold set_manifest. rewrite Vg, Sg. reflexivity. }
  split; [intro C; split; auto|]. split.
  - destruct (existsb (marked_line source) (lines (text_of file))) eqn:E.
    + assert (F : a file = file) by (subst a; unfold set_attributes; rewrite E; reflexivity). rewrite !F. reflexivity.
    + apply A2. subst a. unfold set_attributes. rewrite E. cbn [append text_of]. rewrite (app_assoc source). apply complete_app.
  - destruct (existsb (str_eqb (str_of "versioneer.py")) (includes (text_of file))) eqn:V, (existsb (str_eqb source) (includes (text_of file))) eqn:S.
    + assert (F : m file = file) by (subst m; unfold set_manifest; rewrite V, S; reflexivity). rewrite !F. reflexivity.
    + apply M2. subst m. unfold set_manifest. rewrite V, S. cbn [append text_of]. rewrite (app_assoc (str_of "include ")). apply complete_app.
    + apply M2. subst m. unfold set_manifest. rewrite V, S. cbn [append text_of]. apply complete_app.
    + apply M2. subst m. unfold set_manifest. rewrite V, S. cbn [append text_of]. rewrite (app_assoc (str_of "include ")). apply complete_app.
Qed.
Print Assumptions C129_again.
(** __init__.py: the lines that set __version__ are added once, at the end; a missing file is
    not made. *)
Theorem C129_init : forall file, set_init (set_init file) = set_init file /\
  (set_init file = None <-> file = None) /\
  forall s, file = Some s -> exists r, set_init file = Some r /\ (r = s \/ r = s ++ snippet) /\ (unix s -> occurs snippet r) /\ (unix s -> occurs snippet s -> r = s).
Proof.
  intros [s|]; [|repeat split; try reflexivity; discriminate]. cbn [set_init].
  assert (H : has_text snippet (universal (s ++ snippet)) = true).
  { unfold snippet at 2, nl at 1. cbn [app]. rewrite universal_app_nl. destruct (universal_ends s) as (a & ->). apply has_text_occurs.
    rewrite universal_unix by (vm_compute; intuition discriminate). exists a, []. rewrite app_nil_r, <- app_assoc. reflexivity. }
  destruct (has_text snippet (universal s)) eqn:E.
  - split; [cbn [set_init]; rewrite E; reflexivity|]. split; [split; discriminate|]. intros s' X. injection X as <-. exists s. split; [reflexivity|]. split; [left; reflexivity|]. split; [|auto]. intro U. apply has_text_occurs. rewrite universal_unix in E by exact U. exact E.
  - split; [cbn [append set_init text_of]; rewrite H; reflexivity|]. split; [split; discriminate|]. intros s' X. injection X as <-. exists (s ++ snippet). split; [reflexivity|]. split; [right; reflexivity|]. split; [intros _; exists s, []; rewrite app_nil_r; reflexivity|].
    intros U O. apply has_text_occurs in O. rewrite universal_unix in E by exact U. congruence.
Qed.
Print Assumptions C129_init.
(** setup.py: nothing is complained of if it says the three things, and does not set what the
    configuration should. *)
Theorem C129_scan : forall s, unix s ->
  let says t := exists l, line_of s l /\ occurs (str_of t) l in
  scan_setup s = 0 <-> says "import versioneer"%string /\ says "versioneer.get_cmdclass()"%string /\ says "versioneer.get_version()"%string /\
    ~ says "versioneer.VCS"%string /\ ~ says "versioneer.versionfile_source"%string.
Proof.
  intros s U says. assert (S : forall t, existsb (has_text (str_of t)) (lines s) = true <-> says t).
  { intro t. rewrite existsb_exists. split; intros (l & I & O); exists l; (split; [apply lines_iff; assumption|apply has_text_occurs; exact O]). }
  unfold scan_setup. rewrite <- !S. repeat match goal with |- context [existsb (has_text (str_of ?t)) (lines s)] => destruct (existsb (has_text (str_of t)) (lines s)) end; cbn [andb orb Nat.add]; intuition congruence.
Qed.
Print Assumptions C129_scan.
(** Without a newline at the end of the file the line is glued to the last one: the file is
    not marked, and the next run adds the line once more; in MANIFEST.in a file is lost. *)
Theorem C129_glued_refuted : let a := set_attributes (str_of "v.py") in let m := set_manifest (str_of "v.py") in
  (exists s, a (Some s) <> a (a (Some s)) /\ ~ marked (str_of "v.py") (text_of (a (Some s)))) /\
  (exists s, unix s /\ included (str_of "foo") s /\ ~ included (str_of "foo") (text_of (m (Some s)))) /\
  (* a file with a longer name counts *)
  (exists s, unix s /\ ~ (exists l r, line_of s l /\ words l (str_of "v.py" :: r)) /\ a (Some s) = Some s).
Proof.
  cbn zeta. split; [|split].
  - exists (str_of "*.nc binary"). split; [vm_compute; discriminate|]. rewrite <- marked_iff by (vm_compute; intuition discriminate). vm_compute. discriminate.
  - exists (str_of "include foo"). split; [vm_compute; intuition discriminate|]. rewrite <- !included_iff by (vm_compute; intuition discriminate). split; vm_compute; [reflexivity|discriminate].
  - exists (str_of "v.py.orig export-subst" ++ nl). split; [vm_compute; intuition discriminate|]. split; [|vm_compute; reflexivity]. intros (l & r & I & W). apply lines_iff in I; [|vm_compute; intuition discriminate]. vm_compute in I. destruct I as [<-|[]]. apply words_split in W. vm_compute in W. discriminate.
Qed.
Print Assumptions C129_glued_refuted.
Example C129_example : set_attributes (str_of "impactutils/_version.py") None = Some (str_of "impactutils/_version.py export-subst" ++ nl) /\
  set_manifest (str_of "impactutils/_version.py") (Some (str_of "include versioneer.py" ++ nl)) = Some (str_of "include versioneer.py" ++ nl ++ str_of "include impactutils/_version.py" ++ nl).
Proof. split; vm_compute; reflexivity. Qed.
(** The file of a checkout has the form that C128_agrees asks for. *)
Definition checkout : str := str_of "def get_keywords():" ++ nl ++ str_of "    git_refnames = ""$Format:%d$""" ++ nl ++ str_of "    git_full = ""$Format:%H$""" ++ nl ++ str_of "    git_date = ""$Format:%ci$""" ++ nl.
Example C128_checkout : versions_from_file (Some checkout) = NotThis /\
  exists full date, git_get_keywords (Some (lines checkout)) = [(str_of "date", date); (str_of "full", full); (str_of "refnames", str_of "$Format:%d$")].
Proof. split; [vm_compute; reflexivity|]. do 2 eexists. vm_compute. reflexivity. Qed.
