(** Properties C28, C29 and C61: mail. *)
From Coq Require Import ZArith String Ascii Bool List Lia.
From Verif Require Import PyBase PyStr CopySpec EmailModel EmailSpec EmailProofs.
Import ListNotations.
Open Scope Z_scope.

(** ** C28  Email recipients are partitioned into batches *)
Theorem C28_individual : forall fuel recipients primary,
  split_addresses fuel recipients 0 primary = Some (map (fun r => (r, [])) recipients).
Proof. reflexivity. Qed.
Print Assumptions C28_individual.

Theorem C28_batches : forall fuel recipients max_bcc primary, 2 <= max_bcc -> (List.length recipients <= fuel)%nat ->
  exists ts, split_addresses fuel recipients max_bcc primary = Some ts /\
    groups recipients (max_bcc - 1) (map snd ts) /\ (forall t, In t ts -> fst t = primary).
Proof. exact split_batches. Qed.
Print Assumptions C28_batches.

(** More time does not change the result. *)
Theorem C28_fuel : forall fuel fuel' recipients max_bcc primary ts, (fuel <= fuel')%nat ->
  split_addresses fuel recipients max_bcc primary = Some ts -> split_addresses fuel' recipients max_bcc primary = Some ts.
Proof. exact split_mono. Qed.
Print Assumptions C28_fuel.

(** Finding: with max_bcc = 1 or a negative value the loop never ends. *)
Theorem C28_never_ends : forall fuel recipients max_bcc primary, max_bcc = 1 \/ max_bcc < 0 -> recipients <> [] ->
  split_addresses fuel recipients max_bcc primary = None.
Proof. exact split_diverges. Qed.
Print Assumptions C28_never_ends.

Definition five : list str := [str_of "a"; str_of "b"; str_of "c"; str_of "d"; str_of "e"].
Example C28_ex : split_addresses 5 five 3 (str_of "p") =
  Some [(str_of "p", [str_of "a"; str_of "b"]); (str_of "p", [str_of "c"; str_of "d"]); (str_of "p", [str_of "e"])] /\
  groups five 2 [[str_of "a"; str_of "b"]; [str_of "c"; str_of "d"]; [str_of "e"]].
Proof.
  split; [vm_compute; reflexivity|]. split; [reflexivity|]. split.
  - intros g H. cbn [In] in H. destruct H as [<-|[<-|[<-|[]]]]; cbn; lia.
  - intros pre g g' post E. destruct pre as [|x [|x' [|x'' [|? pre]]]]; cbn [app] in E; try (injection E as <- <- <-; reflexivity);
      try (injection E as <- <- <- <-; reflexivity); try discriminate.
Qed.

(** ** C29  SMTP failover: delivered at least once or reported as failed *)

(** It returns iff one of the servers would accept; servers are tried in order
    until one accepts and closes properly, and every accepting server on the
    way delivers to those recipients it does not refuse. *)
Theorem C29_failover : forall smtp n rcpt m servers ds n' b, send_email smtp n rcpt m servers = (ds, n', b) ->
  (b = true <-> exists j, (j < List.length servers)%nat /\ accepts (smtp (n + j)%nat)) /\
  exists k, n' = (n + k)%nat /\ (k <= List.length servers)%nat /\
    (forall j, (S j < k)%nat -> ~ clean (smtp (n + j)%nat)) /\
    (k = List.length servers \/ exists j, k = S j /\ clean (smtp (n + j)%nat)) /\
    ds = concat (map (fun js => hand_on (smtp (n + fst js)%nat) (snd js) rcpt m) (combine (seq 0 k) servers)).
Proof.
  intros smtp n rcpt m servers ds n' b H. destruct (try_servers_spec _ _ _ _ _ _ _ _ _ H) as (k & E1 & E2 & E3 & E4 & E5 & E6).
  split; [|exists k; auto]. rewrite E6. split; [intros [C|C]; [discriminate|exact C]|auto].
Qed.
Print Assumptions C29_failover.

(** If no server fails after accepting there is one delivery, by the first
    server that accepts. *)
Theorem C29_once : forall smtp n rcpt m servers ds n' b, (forall i, accepts (smtp i) -> clean (smtp i)) ->
  send_email smtp n rcpt m servers = (ds, n', b) ->
  (b = true /\ exists i s refused, nth_error servers i = Some s /\ smtp (n + i)%nat = Accepts refused true /\
     (forall j, (j < i)%nat -> smtp (n + j)%nat = Rejects) /\ ds = hand_on (smtp (n + i)%nat) s rcpt m) \/
  (b = false /\ ds = [] /\ forall j, (j < List.length servers)%nat -> smtp (n + j)%nat = Rejects).
Proof. intros smtp n rcpt m servers ds n' b Hc H. eapply try_servers_once; eassumption. Qed.
Print Assumptions C29_once.

Definition note : mail := {| m_from := str_of "me"; m_to := str_of "a"; m_subject := []; m_bcc := []; m_body := []; m_att := [] |}.
(** Otherwise the same recipient gets the message twice. *)
Theorem C29_twice_refuted : exists smtp servers ds n', send_email smtp 0 [str_of "a"] note servers = (ds, n', true) /\
  map d_to ds = [[str_of "a"]; [str_of "a"]].
Proof.
  exists (fun n => match n with O => Accepts [] false | _ => Accepts [] true end), [str_of "s"; str_of "t"].
  eexists _, _. split; [vm_compute; reflexivity|reflexivity].
Qed.
Print Assumptions C29_twice_refuted.

(** Finding: recipients refused by the server are dropped although the call
    succeeds and other servers remain. *)
Theorem C29_refused_refuted : exists smtp servers rcpt ds n', send_email smtp 0 rcpt note servers = (ds, n', true) /\
  In (str_of "b") rcpt /\ forall d, In d ds -> ~ In (str_of "b") (d_to d).
Proof.
  exists (fun n => match n with O => Accepts [str_of "b"] true | _ => Accepts [] true end), [str_of "s"; str_of "t"], [str_of "a"; str_of "b"].
  eexists _, _. split; [vm_compute; reflexivity|]. split; [right; left; reflexivity|].
  intros d [<-|[]]. cbn. intros [C|[]]. discriminate.
Qed.
Print Assumptions C29_refused_refuted.

Example C29_ex : let smtp n := match n with 2%nat => Accepts [] true | _ => Rejects end in
  send_email smtp 0 [str_of "a"] note [str_of "s"; str_of "t"; str_of "u"; str_of "v"] =
    ([{| d_server := str_of "u"; d_to := [str_of "a"]; d_mail := note |}], 3%nat, true) /\
  send_email smtp 0 [str_of "a"] note [str_of "s"; str_of "t"] = ([], 2%nat, false) /\
  (forall i, accepts (smtp i) -> clean (smtp i)).
Proof.
  split; [reflexivity|]. split; [reflexivity|]. intros i H. destruct i as [|[|[|i]]]; try (exfalso; apply H; reflexivity). eexists. reflexivity.
Qed.

(** ** C61  Mail goes to the batches in order, and each delivered message is complete *)

(** When servers either reject a message or deliver it to everybody: the
    messages of the first batches are delivered, one each, with the configured
    sender, subject, text and attachments; all of them iff the call returns,
    and then it reports the number of files. *)
Theorem C61_send : forall fuel walk encodes smtp c ds r, (forall i, ideal (smtp i)) -> e_recipients c <> [] ->
  send_mail fuel walk encodes smtp c = Some (ds, r) ->
  exists done rest, messages c (done ++ rest) /\ (r <> None <-> rest = []) /\
    Forall2 (fun t d => d_to d = fst t :: snd t /\ attachments walk c = Ok (m_att (d_mail d)) /\ In (d_server d) (e_servers c) /\
      m_from (d_mail d) = e_sender c /\ m_to (d_mail d) = fst t /\ m_subject (d_mail d) = e_subject c /\ m_bcc (d_mail d) = snd t /\ m_body (d_mail d) = e_text c) done ds /\
    (r <> None -> r = Some (List.length (e_files c) + match e_dir c with Some d => List.length (walk d) | None => 0 end)%nat).
Proof. exact send_mail_spec. Qed.
Print Assumptions C61_send.

(** The attachments: the files and then those below the directory, each once.
    Finding: a directory without files and without zip_file cannot be sent. *)
Theorem C61_attachments : forall walk c, (forall d, e_dir c = Some d -> d <> []) ->
  let below := match e_dir c with Some d => walk d | None => [] end in
  match e_zip c with
  | None =>
      match e_files c, e_dir c with
      | [], None => attachments walk c = Ok []
      | [], Some _ => attachments walk c = Err Unbound
      | _, _ => attachments walk c = Ok (map Plain (e_files c ++ below))
      end
  | Some z =>
      match e_files c, e_dir c with
      | [], None => attachments walk c = Ok []
      | _, _ => exists entries, attachments walk c = Ok [Zip z entries] /\ map snd entries = e_files c ++ below
      end
  end.
Proof. exact attachments_spec. Qed.
Print Assumptions C61_attachments.

(** In the archive the files have their last names, and those of the directory
    their names without the directory (if it does not occur again in them). *)
Theorem C61_archive : forall walk c z entries, e_zip c = Some z -> attachments walk c = Ok [Zip z entries] ->
  exists l1 l2, entries = l1 ++ l2 /\ map snd l1 = e_files c /\ (forall n f, In (n, f) l1 -> base_of f n) /\
    map snd l2 = match e_dir c with Some d => if is_empty d then [] else walk d | None => [] end /\
    (forall d n f rest, e_dir c = Some d -> In (n, f) l2 -> f = d ++ rest -> ~ inside d rest -> n = rest).
Proof. exact archive_names. Qed.
Print Assumptions C61_archive.
Example C61_archive_ex : let c := {| e_sender := []; e_subject := []; e_text := []; e_servers := []; e_recipients := [];
     e_max_bcc := None; e_primary := None; e_zip := Some (str_of "z"); e_cancel_subject := None; e_cancel_content := None;
     e_files := [str_of "/x/f"]; e_dir := Some (str_of "/d") |} in
  attachments (fun d => [d ++ str_of "/g"]) c = Ok [Zip (str_of "z") [(str_of "f", str_of "/x/f"); (str_of "/g", str_of "/d/g")]].
Proof. vm_compute. reflexivity. Qed.

(** cancel goes to the same batches; the property cancel_content has priority
    over the argument. *)
Theorem C61_cancel : forall fuel encodes smtp c content ds b, (forall i, ideal (smtp i)) -> e_recipients c <> [] ->
  cancel_mail fuel encodes smtp c content = Some (ds, b) ->
  exists done rest, messages c (done ++ rest) /\ (b = true <-> rest = []) /\
    Forall2 (fun t d => d_to d = fst t :: snd t /\ m_att (d_mail d) = [] /\ In (d_server d) (e_servers c) /\
      m_from (d_mail d) = e_sender c /\ m_to (d_mail d) = fst t /\ m_bcc (d_mail d) = snd t /\
      m_subject (d_mail d) = match e_cancel_subject c with Some s => s | None => e_subject c end /\
      m_body (d_mail d) = match e_cancel_content c, content with Some s, _ => s | None, Some s => s | None, None => str_of "This is a cancel message." end) done ds.
Proof. exact cancel_mail_spec. Qed.
Print Assumptions C61_cancel.

Definition ex_settings : settings :=
  {| e_sender := str_of "me"; e_subject := str_of "s"; e_text := str_of "t"; e_servers := [str_of "x"; str_of "y"]; e_recipients := five;
     e_max_bcc := Some 3; e_primary := None; e_zip := None; e_cancel_subject := None; e_cancel_content := None;
     e_files := [str_of "f"]; e_dir := Some (str_of "/d") |}.
Definition ex_walk (d : str) : list str := [d ++ str_of "/g"].
(** Two servers of which the first always rejects, then both reject: two
    batches of three are delivered and the call fails. *)
Example C61_ex : let smtp n := match n with 1%nat | 3%nat => Accepts [] true | _ => Rejects end in
  (forall i, ideal (smtp i)) /\
  (exists ds, send_mail 5 ex_walk (fun _ => true) smtp ex_settings = Some (ds, None) /\
    map d_to ds = [[[]; str_of "a"; str_of "b"]; [[]; str_of "c"; str_of "d"]]) /\
  (exists ds, send_mail 5 ex_walk (fun _ => true) (fun _ => Accepts [] true) ex_settings = Some (ds, Some 2%nat) /\
    List.length ds = 3%nat).
Proof.
  split; [|split].
  - intro i. destruct i as [|[|[|[|i]]]]; try (left; reflexivity); right; reflexivity.
  - eexists. split; vm_compute; reflexivity.
  - eexists. split; vm_compute; reflexivity.
Qed.

(** Finding: every delivered message names all recipients of its batch in the
    transmitted Bcc header. *)
Theorem C61_bcc_visible_refuted : exists c ds, send_mail 5 ex_walk (fun _ => true) (fun _ => Accepts [] true) c = Some (ds, Some 2%nat) /\
  exists d, In d ds /\ In (str_of "a") (d_to d) /\ In (str_of "b") (m_bcc (d_mail d)).
Proof.
  exists ex_settings. eexists. split; [vm_compute; reflexivity|]. eexists. split; [left; reflexivity|]. split; vm_compute; tauto.
Qed.
Print Assumptions C61_bcc_visible_refuted.
