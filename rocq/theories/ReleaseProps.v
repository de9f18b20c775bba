(** C130: distributions tell the version of the tree they were made from. *)
From Coq Require Import ZArith String Ascii Bool List Lia.
From Verif Require Import PyBase PyStr PathProofs PolyModel PolySpec PolyProofs VersionModel VersionSpec VersionProofs PackModel PackSpec PackProofs PackLineProofs PackProps ReleaseModel.
Import ListNotations.

Lemma of_to v : of_dict (to_dict v) = Some v.
Proof. destruct v as [v [f|] [b|] [e|] [t|]]; reflexivity. Qed.
Lemma of_dict_version d v : of_dict d = Some v -> item (str_of "version") d = Ok (JText (v_version v)).
Proof.
  unfold of_dict, text_item. destruct (length d) as [|[|[|[|[|[|n]]]]]]; try discriminate. destruct (item (str_of "version") d) as [[s|b|]|]; try discriminate.
  destruct (match item (str_of "full-revisionid") d with Ok _ => _ | Err _ => _ end); [|discriminate]. destruct (truth_item "dirty" d); [|discriminate].
  destruct (match item (str_of "error") d with Ok _ => _ | Err _ => _ end); [|discriminate]. destruct (match item (str_of "date") d with Ok _ => _ | Err _ => _ end); [|discriminate]. intro E. injection E as <-. reflexivity.
Qed.
Lemma update_ok target d fs fs' : update target d fs = Ok fs' -> exists v, of_dict d = Some v /\ fs target <> None /\ fs' target = Some (version_text v) /\ forall q, q <> target -> fs' q = fs q.
Proof.
  unfold update. destruct (of_dict d) as [v|]; [|discriminate]. destruct (fs target) as [o|] eqn:F; [|discriminate]. cbn [write_to_version_file bind]. intro E. injection E as <-. exists v. split; [reflexivity|]. split; [discriminate|]. split.
  - unfold put. destruct (str_eqb_spec target target); [reflexivity|contradiction].
  - intros q N. unfold put. destruct (str_eqb_spec q target); [contradiction|reflexivity].
Qed.

Section Release.
Variable popen : str -> str -> list str -> launch.
Variable iparse : str -> option Z.
(** Wherever the archive is unpacked, whatever git says there and whichever line ends the files
    get, setup.py tells the version that is in the name of the archive; and the same for an archive
    made from the unpacked one, and so on, each on another machine. *)
Inductive descends (cfg : config) (source : str) : tree -> str -> jval -> Prop :=
| made p i content copied root base name fs unpacked root' : sdist p i content copied cfg root base = Ok (name, fs) ->
    (unpacked (os_join root' source) = fs (os_join base source) \/ unpacked (os_join root' source) = option_map crlf (fs (os_join base source))) -> descends cfg source unpacked root' name
| again p i content copied root base name name' fs unpacked root' : descends cfg source content root name -> sdist p i content copied cfg root base = Ok (name', fs) ->
    (unpacked (os_join root' source) = fs (os_join base source) \/ unpacked (os_join root' source) = option_map crlf (fs (os_join base source))) -> descends cfg source unpacked root' name.
Lemma written_version p i cfg root source prefix content v : c_vcs cfg = str_of "git" -> c_source cfg = Some source -> c_tag_prefix cfg = Some prefix ->
  (content (os_join root source) = Some (version_text v) \/ content (os_join root source) = Some (crlf (version_text v))) ->
  get_version p i content cfg root = Ok (JText (v_version v)).
Proof. intros G S P C. exact (proj1 (C128_distribution p i content cfg root source prefix v (version_text v) [] G S P eq_refl C)). Qed.
Lemma sdist_inv p i content copied cfg root base source name fs : c_source cfg = Some source -> sdist p i content copied cfg root base = Ok (name, fs) ->
  exists v, name = JText (v_version v) /\ fs (os_join base source) = Some (version_text v) /\ get_version p i content cfg root = Ok name /\ copied (os_join base source) <> None /\ forall q, q <> os_join base source -> fs q = copied q.
Proof.
  intros S. unfold sdist, get_version. rewrite S. destruct (get_versions p i content cfg root) as [d|]; [|discriminate]. cbn [bind]. destruct (item (str_of "version") d) as [n|] eqn:N; [|discriminate]. cbn [bind].
  destruct (update (os_join base source) d copied) as [fs'|] eqn:U; [|discriminate]. cbn [bind]. intro E. injection E as <- <-. destruct (update_ok _ _ _ _ U) as (v & V & X & Y & Z). exists v. rewrite (of_dict_version d v V) in N. injection N as <-. repeat split; assumption.
Qed.
Lemma sdist_configured p i content copied cfg root base r : sdist p i content copied cfg root base = Ok r -> c_vcs cfg = str_of "git" /\ exists prefix, c_tag_prefix cfg = Some prefix.
Proof.
  unfold sdist. destruct (get_versions p i content cfg root) as [d|] eqn:G; [|discriminate]. intros _. unfold get_versions in G. destruct (str_eqb_spec (c_vcs cfg) (str_of "git")) as [E|]; [|discriminate]. split; [exact E|]. cbn [negb] in G. destruct (c_source cfg); [|discriminate]. destruct (c_tag_prefix cfg) as [p0|]; [|discriminate]. exists p0. reflexivity.
Qed.
Lemma unpacked_cases (u f : option str) t : f = Some t -> (u = f \/ u = option_map crlf f) -> u = Some t \/ u = Some (crlf t).
Proof. intros -> [->| ->]; auto. Qed.
Theorem C130_archive : forall cfg source unpacked root name, c_source cfg = Some source -> descends cfg source unpacked root name ->
  forall p i, get_version p i unpacked cfg root = Ok name.
Proof.
  intros cfg source unpacked root name S D. induction D as [p0 i0 content copied root base name fs unpacked root' E U|p0 i0 content copied root base name name' fs unpacked root' D IH E U]; intros p i.
  - destruct (sdist_inv _ _ _ _ _ _ _ _ _ _ S E) as (v & -> & F & _). destruct (sdist_configured _ _ _ _ _ _ _ _ E) as (G & prefix & P). eapply written_version; eauto using unpacked_cases.
  - destruct (sdist_inv _ _ _ _ _ _ _ _ _ _ S E) as (v & -> & F & V & _). rewrite (IH p0 i0) in V. injection V as V. destruct (sdist_configured _ _ _ _ _ _ _ _ E) as (G & prefix & P). rewrite V. eapply written_version; eauto using unpacked_cases.
Qed.
(** The archive: the version of the tree, the other files as they were copied; it is an error if
    the version file is not among them. *)
Theorem C130_tree : forall cfg source content copied root base, c_source cfg = Some source ->
  (forall name fs, sdist popen iparse content copied cfg root base = Ok (name, fs) ->
     get_version popen iparse content cfg root = Ok name /\ copied (os_join base source) <> None /\ forall q, q <> os_join base source -> fs q = copied q) /\
  (forall v, get_versions popen iparse content cfg root = Ok (to_dict v) -> copied (os_join base source) = None -> sdist popen iparse content copied cfg root base = Err FileNotFoundError) /\
  (forall v, get_versions popen iparse content cfg root = Ok (to_dict v) -> copied (os_join base source) <> None -> exists fs, sdist popen iparse content copied cfg root base = Ok (JText (v_version v), fs)).
Proof.
  intros cfg source content copied root base S. split; [|split].
  - intros name fs E. destruct (sdist_inv _ _ _ _ _ _ _ _ _ _ S E) as (v & _ & _ & V & C & Q). auto.
  - intros v G C. unfold sdist. rewrite G. cbn [bind]. change (item (str_of "version") (to_dict v)) with (Ok (JText (v_version v))). cbn [bind]. rewrite S. unfold update. rewrite of_to, C. reflexivity.
  - intros v G C. unfold sdist. rewrite G. cbn [bind]. change (item (str_of "version") (to_dict v)) with (Ok (JText (v_version v))). cbn [bind]. rewrite S. unfold update. rewrite of_to. destruct (copied (os_join base source)) as [o|]; [|contradiction]. eexists. reflexivity.
Qed.
(** The installed package tells the version of the tree, for plain texts (see C127). *)
Theorem C130_installed : forall cfg build content copied root lib v fs, build <> [] -> get_versions popen iparse content cfg root = Ok (to_dict v) ->
  build_py popen iparse content copied cfg (Some build) root lib = Ok fs ->
  fs (os_join lib build) = Some (version_text v) /\ (forall q, q <> os_join lib build -> fs q = copied q) /\
  (Forall plain (texts v) -> exists d, imported v = Ok d /\ shows d v).
Proof.
  intros cfg build content copied root lib v fs N G. unfold build_py. rewrite G. cbn [bind]. destruct build as [|c build]; [contradiction|]. intro U. destruct (update_ok _ _ _ _ U) as (v' & V & _ & T & Q). rewrite of_to in V. injection V as <-. split; [exact T|]. split; [exact Q|]. apply C127_imported.
Qed.
(** Without versionfile_build the tree stays as it was copied. *)
Theorem C130_not_built : forall cfg build content copied root lib d, build = None \/ build = Some [] -> get_versions popen iparse content cfg root = Ok d -> build_py popen iparse content copied cfg build root lib = Ok copied.
Proof. intros cfg build content copied root lib d [->| ->] G; unfold build_py; rewrite G; reflexivity. Qed.
(** The version command shows the entries, and an error only if there is one. *)
Theorem C130_shown : forall cfg content root v, get_versions popen iparse content cfg root = Ok (to_dict v) ->
  exists l, shown_version popen iparse content cfg root = Ok l /\ nth_error l 0 = Some (str_of "Version", JText (v_version v)) /\
    (forall j, In (str_of "full-revisionid", j) l <-> j = opt_text (v_full v)) /\ (forall j, In (str_of "date", j) l <-> j = opt_text (v_date v)) /\
    (forall j, In (str_of "dirty", j) l <-> j = match v_dirty v with Some b => JTruth b | None => JNone end) /\
    (forall j, In (str_of "error", j) l <-> exists e, j = JText e /\ e <> [] /\ v_error v = Some e).
Proof.
  intros cfg content root v G. unfold shown_version. rewrite G. cbn [bind]. destruct v as [ver full dirty err date]. eexists. split; [reflexivity|]. cbn [v_full v_date v_dirty v_error v_version].
  change (item (str_of "full-revisionid") _) with (Ok (opt_text full)). change (item (str_of "dirty") _) with (Ok (match dirty with Some b => JTruth b | None => JNone end)). change (item (str_of "date") _) with (Ok (opt_text date)).
  split; [reflexivity|]. destruct err as [[|c e]|]; cbn [opt_text app In snd]; repeat split; intros H;
    repeat match goal with H : _ \/ _ |- _ => destruct H end; try contradiction; try discriminate; try (injection H as <-; first [reflexivity|eexists; split; [reflexivity|split; [discriminate|reflexivity]]]); subst; auto 10;
    try (destruct H as (e' & -> & N & E); first [discriminate|injection E as <-; first [contradiction|auto 10]]).
Qed.
End Release.
Print Assumptions C130_archive.
Print Assumptions C130_tree.
Print Assumptions C130_installed.
Print Assumptions C130_not_built.
Print Assumptions C130_shown.
(** An archive of a tree at a tag, unpacked beside a working directory of git. *)
Definition ex_cfg : config := mkconfig (str_of "git") (str_of "pep440") (Some (str_of "v.py")) (Some []) (Some (str_of "p-")).
Example C130_example : exists fs, sdist (fun _ _ _ => NoSuch) (fun _ => None) (fun _ => None) (fun _ => Some []) ex_cfg (str_of "/w/p-1.2") (str_of "p-1.2") = Ok (JText (str_of "1.2"), fs) /\
  get_version (fun _ _ _ => NoSuch) (fun _ => None) (fun _ => fs (str_of "p-1.2/v.py")) ex_cfg (str_of "/tmp/other") = Ok (JText (str_of "1.2")).
Proof. eexists. split; [vm_compute; reflexivity|]. vm_compute. reflexivity. Qed.
