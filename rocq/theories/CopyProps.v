(** Properties C23-C26: sending by copy. *)
From Coq Require Import ZArith String Ascii Bool List Lia.
From Verif Require Import PyBase PyStr FsModel FsSpec FsProofs PathProofs CopyModel CopySpec CopyProofs CopyStepProofs CopySendProofs CopyHistProofs.
Import ListNotations.
Open Scope Z_scope.

(** A concrete case: /src with a file and a nested file, one listed file, a
    remote directory that has an old file and a cancel marker. *)
Definition ex_env : env := {| cwd := [str_of "home"]; chunk := fun _ c => map (fun x => [x]) c; stamp := fun _ => str_of "2020" |}.
Definition ex_sender : sender := {| remote_directory := str_of "/out/"; local_files := [str_of "extra.txt"];
  local_directory := Some (str_of "/src"); cancelfile := str_of ".cancel" |}.
Definition ex_fs : fsn := Dir [
  (str_of "src", Dir [(str_of "a", File (str_of "new")); (str_of "sub", Dir [(str_of "b", File (str_of "bb"))])]);
  (str_of "home", Dir [(str_of "extra.txt", File (str_of "xx"))]);
  (str_of "out", Dir [(str_of "a", File (str_of "old")); (str_of ".cancel", File []); (str_of "keep", File (str_of "k"))])].
Definition p_out : path := [str_of "out"].
Definition p_src : path := [str_of "src"].

Example C23_ex_run : result (send ex_env ex_sender ex_fs) = Ok 5 /\ List.length (trace (send ex_env ex_sender ex_fs)) = 15%nat.
Proof. vm_compute. split; reflexivity. Qed.

Lemma ex_files : forall rel c, at_ ex_fs (p_src ++ rel) = Some (EFile c) -> rel = [str_of "a"] \/ rel = [str_of "sub"; str_of "b"].
Proof.
  intros rel c H. unfold ex_fs, p_src in H. cbn [app] in H. rewrite at_dir in H. cbn [aget] in H. rewrite str_eqb_refl in H.
  destruct rel as [|x rel]; [discriminate|]. rewrite at_dir in H. cbn [aget] in H.
  destruct (str_eqb_spec x (str_of "a")) as [->|_].
  - destruct rel; [auto|discriminate].
  - destruct (str_eqb_spec x (str_of "sub")) as [->|_]; [|discriminate]. destruct rel as [|y rel]; [discriminate|]. rewrite at_dir in H. cbn [aget] in H.
    destruct (str_eqb_spec y (str_of "b")) as [->|_]; [|discriminate]. destruct rel; [auto|discriminate].
Qed.

Ltac good_names := repeat (first [apply Forall_cons | apply Forall_nil | split | discriminate | (cbn; unfold sl, chr; cbn; intuition discriminate)]).

Ltac no_occurrence Ev u :=
  destruct u as [|? u]; cbn in Ev; [discriminate Ev|first [discriminate Ev | injection Ev as _ Ev; no_occurrence Ev u]].

Lemma ex_setting : setting_ok ex_env ex_sender ex_fs.
Proof.
  assert (R : resolve (cwd ex_env) (remote_directory ex_sender) = p_out) by (vm_compute; reflexivity).
  constructor; rewrite ?R.
  - split; [|reflexivity]. unfold ex_fs, wf. cbn [map fst snd fold_right].
    repeat (first [ apply Forall_cons | apply Forall_nil | apply NoDup_cons | apply NoDup_nil | split | exact I | discriminate | (cbn; unfold sl, chr; cbn; intuition discriminate) ]).
  - good_names.
  - intros i c. cbn [chunk ex_env]. induction c as [|x c IH]; [reflexivity|]. cbn [map concat app]. congruence.
  - intros i. cbn. unfold sl, chr. cbn. intuition discriminate.
  - intros ld H _. injection H as <-. split; [reflexivity|]. split; intros (r & E); discriminate.
  - intros ld rel c H _ A. change (Some (str_of "/src") = Some ld) in H. assert (ld = str_of "/src") by congruence. subst ld. clear H. assert (E : resolve (cwd ex_env) (str_of "/src") = p_src) by (vm_compute; reflexivity). rewrite E in A.
    intros (u & v & Ev). apply ex_files in A as [->| ->]; cbn in Ev;
    no_occurrence Ev u.
  - intros f [<-|[]]. split; [intros (r & E); discriminate|]. exists (str_of "extra.txt"). split; [|good_names].
    split; [|left; reflexivity]. cbn. unfold sl, chr. cbn. intuition discriminate.
  - good_names.
Qed.

Lemma ex_targets : forall D, target ex_env ex_sender ex_fs D ->
  D = [str_of "out"; str_of "a"] \/ D = [str_of "out"; str_of "sub"; str_of "b"] \/ D = [str_of "out"; str_of "extra.txt"].
Proof.
  assert (R : resolve (cwd ex_env) (remote_directory ex_sender) = p_out) by (vm_compute; reflexivity).
  intros D (src & H). inversion H as [ld rel c E1 E2 E3 E4|f n E1 E2]; subst.
  - change (Some (str_of "/src") = Some ld) in E1. assert (ld = str_of "/src") by congruence. subst ld. clear E1. assert (E : resolve (cwd ex_env) (str_of "/src") = p_src) by (vm_compute; reflexivity). rewrite E in E4. apply ex_files in E4.
    rewrite R. destruct E4 as [->| ->]; [left|right; left]; reflexivity.
  - destruct E1 as [<-|[]]. apply split_base in E2. rewrite R. right. right. rewrite <- E2. vm_compute. reflexivity.
Qed.
Lemma ex_clash : no_clash ex_env ex_sender ex_fs.
Proof.
  intros D D' T HD HD' (p & n & i & E1 & E2) E. apply ex_targets in HD. apply ex_targets in HD'. subst T.
  assert (G : forall q : path, forall m, D' = q ++ [m] -> p = q /\ n = m) by (intros q m E'; rewrite E' in E1; apply app_inj_tail in E1; intuition).
  assert (K : (p = [str_of "out"] /\ n = str_of "a") \/ (p = [str_of "out"; str_of "sub"] /\ n = str_of "b") \/ (p = [str_of "out"] /\ n = str_of "extra.txt")).
  { destruct HD' as [H|[H|H]]; [left|right; left|right; right]; apply G; assumption. }
  destruct K as [[-> ->]|[[-> ->]|[-> ->]]]; rewrite E in HD; destruct HD as [H|[H|H]]; discriminate.
Qed.
Lemma ex_not_marker : ~ target ex_env ex_sender ex_fs (cancel_path ex_env ex_sender) /\ ~ temp ex_env ex_sender ex_fs (cancel_path ex_env ex_sender).
Proof.
  assert (K : cancel_path ex_env ex_sender = [str_of "out"; str_of ".cancel"]) by (vm_compute; reflexivity). rewrite K. split.
  - intro H. apply ex_targets in H. destruct H as [H|[H|H]]; discriminate.
  - intros (D & HD & p & n & i & E1 & E2). apply ex_targets in HD.
    assert (G : p = [str_of "out"] /\ n ++ str_of ".tmp_" ++ stamp ex_env i = str_of ".cancel").
    { change [str_of "out"; str_of ".cancel"] with ([str_of "out"] ++ [str_of ".cancel"]) in E2. apply app_inj_tail in E2. intuition. }
    destruct G as [-> G]. cbn [stamp ex_env] in G. cbn [app] in E1. destruct HD as [H|[H|H]]; rewrite H in E1; try discriminate; injection E1 as <-; discriminate.
Qed.

(** ** C23  A published file is never partial, whatever the crash point *)

(** [trace] lists the file system after every primitive change (creating a
    directory, truncating, appending any piece, renaming, removing), so its
    members are the states any crash can leave; cutting the contents into pieces
    is left to the environment.  Names of temporary files excepted, every path
    is as before, or holds the complete content of a source meant for it; or a
    directory was made on the way to a target; or it is the removed marker. *)
Theorem C23_every_state : forall e s t s', setting_ok e s t ->
  In s' (trace (send e s t)) \/ s' = final (send e s t) ->
  forall q, ~ (exists D, target e s t D /\ temp_of e D q) ->
    at_ s' q = at_ t q \/
    (exists src c, source e s t src q /\ at_ t src = Some (EFile c) /\ at_ s' q = Some (EFile c)) \/
    (q = cancel_path e s /\ at_ s' q = None) \/
    ((at_ t q = None \/ q = cancel_path e s) /\ at_ s' q = Some EDir /\
     (below q (resolve (cwd e) (remote_directory s)) \/ exists D, target e s t D /\ below q (removelast D))).
Proof.
  intros e s t s' OK H q Hq. destruct (send_states e s t OK s' H) as [S _]. destruct (S q Hq) as [E|[E|[E|E]]]; auto.
Qed.
Print Assumptions C23_every_state.

(** A target that is not also needed as a directory (nor the marker) holds its
    previous content or the complete new one, at every point. *)
Theorem C23_whole_files : forall e s t s' D, setting_ok e s t -> no_clash e s t ->
  In s' (trace (send e s t)) \/ s' = final (send e s t) ->
  target e s t D -> D <> cancel_path e s -> (forall D', target e s t D' -> ~ below D (removelast D')) ->
  at_ s' D = at_ t D \/ exists src c, source e s t src D /\ at_ t src = Some (EFile c) /\ at_ s' D = Some (EFile c).
Proof.
  intros e s t s' D OK NC H HD NK ND. destruct (C23_every_state e s t s' OK H D) as [E|[E|[(E & _)|(_ & _ & [B|(D' & HD' & B)])]]]; auto.
  - intros (D' & HD' & T). apply (NC D D' D HD HD' T). reflexivity.
  - contradiction.
  - exfalso. destruct (target_form e s t D HD) as (r & Hr & ->). destruct B as (r' & E). apply (f_equal (@List.length _)) in E. rewrite !app_length in E.
    destruct r; [congruence|]. cbn in E. lia.
  - exfalso. apply (ND D' HD' B).
Qed.
Print Assumptions C23_whole_files.

Example C23_ex : setting_ok ex_env ex_sender ex_fs /\ no_clash ex_env ex_sender ex_fs /\
  map (fun s' => at_ s' [str_of "out"; str_of "a"]) (firstn 6 (trace (send ex_env ex_sender ex_fs))) =
  [Some (EFile (str_of "old")); Some (EFile (str_of "old")); Some (EFile (str_of "old")); Some (EFile (str_of "old")); Some (EFile (str_of "old")); Some (EFile (str_of "new"))].
Proof. split; [apply ex_setting|]. split; [apply ex_clash|]. vm_compute. reflexivity. Qed.

(** ** C24  CopySender reproduces the local tree under the remote directory *)

Theorem C24_directory_files : forall e s t z ld rel c, setting_ok e s t -> no_clash e s t -> result (send e s t) = Ok z ->
  local_directory s = Some ld -> ld <> [] -> rel <> [] -> at_ t (resolve (cwd e) ld ++ rel) = Some (EFile c) ->
  (forall f n, In f (local_files s) -> base_of f n -> rel <> [n]) ->
  at_ (final (send e s t)) (resolve (cwd e) (remote_directory s) ++ rel) = Some (EFile c).
Proof.
  intros e s t z ld rel c OK NC H El Nl Hr A NB.
  assert (E : ld_ s = ld) by (unfold ld_; rewrite El; reflexivity). subst ld. eapply send_dir_file; eassumption.
Qed.
Print Assumptions C24_directory_files.

(** Of the listed files with the same last part the last one is kept; it also
    replaces a directory's file of that name. *)
Theorem C24_listed_files : forall e s t z pre f post n c, setting_ok e s t -> no_clash e s t -> result (send e s t) = Ok z ->
  local_files s = pre ++ f :: post -> base_of f n -> (forall g, In g post -> ~ base_of g n) ->
  at_ t (resolve (cwd e) f) = Some (EFile c) ->
  at_ (final (send e s t)) (resolve (cwd e) (remote_directory s) ++ [n]) = Some (EFile c).
Proof. intros. eapply send_list_file; eassumption. Qed.
Print Assumptions C24_listed_files.

(** No file is found afterwards that was not there or is not a target: no
    temporary file and no marker remains. *)
Theorem C24_no_other_file : forall e s t z q c, setting_ok e s t -> result (send e s t) = Ok z ->
  at_ (final (send e s t)) q = Some (EFile c) ->
  target e s t q \/ (at_ t q = Some (EFile c) /\ q <> cancel_path e s).
Proof. intros. eapply send_no_new_files; eassumption. Qed.
Print Assumptions C24_no_other_file.

(** Outside the remote directory every file stays as it is, whatever happens. *)
Theorem C24_outside : forall e s t q c, setting_ok e s t -> ~ below (resolve (cwd e) (remote_directory s)) q ->
  (at_ (final (send e s t)) q = Some (EFile c) <-> at_ t q = Some (EFile c)).
Proof.
  intros e s t q c OK N. apply (seen_file_outside e s t OK); [|assumption]. apply (send_states e s t OK). right. reflexivity.
Qed.
Print Assumptions C24_outside.

(** Sending succeeds if the listed files exist and no name is wanted both for a
    file and for a directory, or already used for the other. *)
Theorem C24_succeeds : forall e s t, setting_ok e s t ->
  (forall f, In f (local_files s) -> exists c, at_ t (resolve (cwd e) f) = Some (EFile c)) ->
  let file q := target e s t q \/ (exists D, target e s t D /\ temp_of e D q) in
  let directory q := below q (resolve (cwd e) (remote_directory s)) \/ (exists D, target e s t D /\ below q (removelast D)) in
  (forall q, file q -> ~ directory q) -> (forall q, file q -> at_ t q <> Some EDir) ->
  (forall q c, directory q -> at_ t q <> Some (EFile c)) ->
  exists z, result (send e s t) = Ok z.
Proof. intros e s t OK Hl file directory H1 H2 H3. apply (send_succeeds e s t OK Hl); assumption. Qed.
Print Assumptions C24_succeeds.

Example C24_ex : let t' := final (send ex_env ex_sender ex_fs) in
  at_ t' [str_of "out"; str_of "a"] = Some (EFile (str_of "new")) /\ at_ t' [str_of "out"; str_of "sub"; str_of "b"] = Some (EFile (str_of "bb")) /\
  at_ t' [str_of "out"; str_of "extra.txt"] = Some (EFile (str_of "xx")) /\ at_ t' [str_of "out"; str_of ".cancel"] = None /\
  at_ t' [str_of "out"; str_of "keep"] = Some (EFile (str_of "k")).
Proof. vm_compute. repeat split. Qed.

(** Finding: with a relative remote directory a directory's files are copied
    below the root, not below the working directory. *)
Theorem C24_relative_refuted : exists e s t z, local_directory s = Some (str_of "/src") /\ result (send e s t) = Ok z /\
  at_ t [str_of "src"; str_of "a"] = Some (EFile (str_of "new")) /\
  resolve (cwd e) (remote_directory s) = [str_of "home"; str_of "out"] /\
  at_ (final (send e s t)) [str_of "home"; str_of "out"; str_of "a"] = None /\
  at_ (final (send e s t)) [str_of "out"; str_of "a"] = Some (EFile (str_of "new")).
Proof.
  exists ex_env, {| remote_directory := str_of "out"; local_files := []; local_directory := Some (str_of "/src"); cancelfile := str_of ".cancel" |}, ex_fs, 4.
  vm_compute. repeat split.
Qed.
Print Assumptions C24_relative_refuted.

(** Finding: if the local directory's name occurs again in a path, the rest of
    the path is not kept: /s/s/a goes to /out/a. *)
Theorem C24_repeated_name_refuted : exists e s t z, local_directory s = Some (str_of "/s") /\ result (send e s t) = Ok z /\
  at_ t [str_of "s"; str_of "s"; str_of "a"] = Some (EFile (str_of "new")) /\
  resolve (cwd e) (remote_directory s) = [str_of "out"] /\
  at_ (final (send e s t)) [str_of "out"; str_of "s"; str_of "a"] = None /\
  at_ (final (send e s t)) [str_of "out"; str_of "a"] = Some (EFile (str_of "new")).
Proof.
  exists ex_env, {| remote_directory := str_of "/out"; local_files := []; local_directory := Some (str_of "/s"); cancelfile := str_of ".cancel" |},
    (Dir [(str_of "s", Dir [(str_of "s", Dir [(str_of "a", File (str_of "new"))])])]), 2.
  vm_compute. repeat split.
Qed.
Print Assumptions C24_repeated_name_refuted.

(** ** C25  CopySender counts directory files twice *)
Theorem C25_count : forall e s t z ld l, setting_ok e s t -> result (send e s t) = Ok z ->
  local_directory s = Some ld -> ld <> [] -> at_ t (resolve (cwd e) ld) = Some EDir -> file_list t (resolve (cwd e) ld) l ->
  z = 2 * Z.of_nat (List.length l) + Z.of_nat (List.length (local_files s)).
Proof.
  intros e s t z ld l OK H El Nl Ad Hl. eapply send_count; [eassumption|eassumption| |].
  - intros ld' E' _. assert (ld' = ld) by congruence. subst ld'. split; [assumption|]. intro Hin. apply Hl in Hin as (c & Hc). rewrite app_nil_r in Hc. congruence.
  - intro E. unfold ld_ in E. rewrite El in E. contradiction.
Qed.
Print Assumptions C25_count.

Theorem C25_count_listed : forall e s t z, setting_ok e s t -> result (send e s t) = Ok z ->
  local_directory s = None \/ local_directory s = Some [] -> z = Z.of_nat (List.length (local_files s)).
Proof.
  intros e s t z OK H El. rewrite (send_count e s t OK z [] H); [reflexivity| |reflexivity].
  intros ld E N. destruct El; congruence.
Qed.
Print Assumptions C25_count_listed.

Example C25_ex : result (send ex_env ex_sender ex_fs) = Ok 5 /\ file_list ex_fs p_src [[str_of "a"]; [str_of "sub"; str_of "b"]].
Proof.
  split; [vm_compute; reflexivity|]. split.
  - repeat constructor; cbn; intuition discriminate.
  - intro rel. split.
    + intros [<-|[<-|[]]]; eexists; vm_compute; reflexivity.
    + intros (c & H). apply ex_files in H as [->| ->]; cbn; auto.
Qed.

(** ** C26  send and cancel are inverse on the cancel marker *)

(** Every send, successful or not, removes the marker; a successful cancel
    writes it with its content (nothing if there is none); a failing cancel
    changes nothing. *)
Theorem C26_marker : forall s ops t w K m,
  (forall e o, In (e, o) ops -> cwd e = w /\ setting_ok e s t /\ K = cancel_path e s /\
     ~ target e s t K /\ ~ (exists D, target e s t D /\ temp_of e D K)) ->
  (forall c, at_ t K = Some (EFile c) <-> m = Some c) ->
  forall c, at_ (snd (history s ops t)) K = Some (EFile c) <-> marker m (fst (history s ops t)) = Some c.
Proof.
  intros s ops t w K m H Hm. apply (history_marker s ops t w); [|intros e o Hin; apply (H e o Hin)|assumption].
  intros e o Hin. destruct (H e o Hin) as (a & b & c & d & f). subst K. auto.
Qed.
Print Assumptions C26_marker.

Example C26_ex : let h := history ex_sender [(ex_env, OCancel (Some (str_of "x"))); (ex_env, OSend); (ex_env, OCancel None)] ex_fs in
  setting_ok ex_env ex_sender ex_fs /\ ~ target ex_env ex_sender ex_fs (cancel_path ex_env ex_sender) /\
  map snd (fst h) = [true; true; true] /\ marker (Some []) (fst h) = Some [] /\ at_ (snd h) [str_of "out"; str_of ".cancel"] = Some (EFile []).
Proof. split; [apply ex_setting|]. split; [apply ex_not_marker|]. vm_compute. repeat split. Qed.

(** Finding: a send that fails has removed the marker. *)
Theorem C26_failed_send_refuted : exists e s t er, result (send e s t) = Err er /\
  at_ t (cancel_path e s) = Some (EFile []) /\ at_ (final (send e s t)) (cancel_path e s) = None.
Proof.
  exists ex_env, {| remote_directory := str_of "/out"; local_files := [str_of "/nowhere"]; local_directory := None; cancelfile := str_of ".cancel" |}, ex_fs, FileNotFoundError.
  vm_compute. repeat split.
Qed.
Print Assumptions C26_failed_send_refuted.
