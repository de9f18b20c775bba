(** Properties C77-C79: sending by SSH. *)
From Coq Require Import ZArith String Ascii Bool List Lia.
From Verif Require Import PyBase PyStr FsModel FsSpec FsProofs PathProofs CopyModel CopySpec CopyProofs FtpSpec FtpProps SecureModel SecureSpec ShellProofs SecureProofs SecureSendProofs SecureCancelProofs.
Import ListNotations.
Open Scope Z_scope.

(** The files of the FTP case, sent to a host with the same old file. *)
Definition nothing_else (l : list str) : act (nat * str) := aret (127%nat, []).
Definition ss_env (w : nat -> list nat) (f : nat -> sfate) : senv :=
  {| home := [str_of "root"]; slocal := [str_of "home"]; spieces := fun _ c => map (fun x => [x]) c;
     stamps := fun _ => str_of "20260101000000"; wakes := w; sfates := f; other := nothing_else |}.
Definition at_once (n : nat) : list nat := [0%nat].
Definition never (n : nat) : list nat := [].
Definition fine_steps (n : nat) : sfate := Done.
(** The connection is lost at the [k]-th step. *)
Definition lost_at (k n : nat) : sfate := if Nat.ltb n k then Done else Lost IOErr.

Lemma ss_pieces : forall (c : str), concat (map (fun x => [x]) c) = c.
Proof. induction c as [|x c IH]; [reflexivity|]. cbn [map concat app]. congruence. Qed.
Ltac ss_harmless := let c := fresh in let H := fresh in intros c H; cbn in H; vm_compute; tauto.
Lemma ss_ok : forall w f, secure_ok (ss_env w f) fx_sender fx_loc fx_srv.
Proof.
  intros w f. destruct (fx_ok all_fine) as [h1 h2 h3 h4 h5 h6 h7]. constructor.
  - exact h1.
  - reflexivity.
  - intros i c. apply ss_pieces.
  - intros i c H. cbn in H. vm_compute. tauto.
  - reflexivity.
  - ss_harmless.
  - intros ld rel c n H N A I. change (Some (str_of "/src") = Some ld) in H. assert (ld = str_of "/src") by congruence. subst ld.
    assert (E0 : resolve (slocal (ss_env w f)) (str_of "/src") = [str_of "src"]) by (vm_compute; reflexivity). rewrite E0 in A.
    apply fx_files in A as [->| ->]; cbn in I; [destruct I as [<-|[]]|destruct I as [<-|[<-|[]]]]; ss_harmless.
  - intros g n I B. split; [eapply h6; eassumption|]. destruct I as [<-|[]]. apply split_base in B. vm_compute in B. subst n. ss_harmless.
  - exact h5.
Qed.
Lemma ss_each : forall w f, one_each (ss_env w f) fx_sender fx_loc.
Proof.
  intros w f. split.
  - intros i j g h n Hi Hj _ _. destruct i as [|[|i]]; destruct j as [|[|j]]; try reflexivity; cbn in Hi, Hj; try discriminate; destruct i; discriminate.
  - intros g n ld c [<-|[]] B H _ A. change (Some (str_of "/src") = Some ld) in H. assert (ld = str_of "/src") by congruence. subst ld.
    apply split_base in B. vm_compute in B. subst n. vm_compute in A. discriminate.
Qed.
Lemma ss_way : forall w f, clear_way (ss_env w f) fx_sender fx_loc fx_srv.
Proof.
  intros w f.
  assert (TD : forall D, (exists c, meant (slocal (ss_env w f)) fx_sender fx_loc c D) -> exists p n, D = p ++ [n] /\ (p = [str_of "pub"] /\ (n = str_of "a" \/ n = str_of "extra.txt") \/ p = [str_of "pub"; str_of "sub"] /\ n = str_of "b")).
  { intros D (c & Hc). apply (fx_meant all_fine) in Hc as [->|[->| ->]].
    - exists [str_of "pub"], (str_of "a"). split; [reflexivity|]. left. auto.
    - exists [str_of "pub"; str_of "sub"], (str_of "b"). split; [reflexivity|]. right. auto.
    - exists [str_of "pub"], (str_of "extra.txt"). split; [reflexivity|]. left. auto. }
  set (x := str_of ".tmp_20260101000000").
  assert (FQ : forall q, file_path (ss_env w f) fx_sender fx_loc q -> exists p n, q = p ++ [n] /\ (p = [str_of "pub"] /\ (n = str_of "a" \/ n = str_of "extra.txt" \/ n = str_of "a" ++ x \/ n = str_of "extra.txt" ++ x) \/ p = [str_of "pub"; str_of "sub"] /\ (n = str_of "b" \/ n = str_of "b" ++ x))).
  { intros q (c & D & M & K). destruct (TD D (ex_intro _ c M)) as (p & n & -> & Q). destruct K as [->|(p' & n' & i & e1 & e2)].
    - exists p, n. split; [reflexivity|]. tauto.
    - apply app_inj_tail in e1 as (<- & <-). exists p, (n ++ x). split; [exact e2|]. destruct Q as [(-> & [->| ->])|(-> & ->)]; auto 10. }
  assert (DQ : forall q, directory_path (ss_env w f) fx_sender fx_loc q -> below q [str_of "pub"; str_of "sub"]).
  { assert (ER : remote fx_sender = [str_of "pub"]) by (vm_compute; reflexivity). intros q [H|(c & D & M & H)].
    - rewrite ER in H. eapply below_trans; [exact H|]. exists [str_of "sub"]. reflexivity.
    - destruct (TD D (ex_intro _ c M)) as (p & n & -> & Q). rewrite removelast_last in H. destruct Q as [(-> & _)|(-> & _)]; [|assumption].
      eapply below_trans; [exact H|]. exists [str_of "sub"]. reflexivity. }
  constructor.
  - intros q F D. apply FQ in F as (p & n & -> & K). apply DQ in D as (r & Hr). destruct K as [[-> K]|[-> K]]; cbn in Hr; [|discriminate Hr].
    injection Hr as E1 _. destruct K as [->|[->|[->| ->]]]; discriminate E1.
  - intros q F A. apply FQ in F as (p & n & -> & K). destruct K as [[-> [->|[->|[->| ->]]]]|[-> [->| ->]]]; vm_compute in A; discriminate A.
  - intros q c D A. apply DQ in D as (r & Hr). destruct q as [|y q]; [discriminate A|]. cbn in Hr. injection Hr as <- Hr. destruct q as [|z q]; [vm_compute in A; discriminate A|].
    cbn in Hr. injection Hr as <- Hr. destruct q as [|? q]; [vm_compute in A; discriminate A|discriminate Hr].
  - intros c D c' D' H H' (p & n & i & e1 & e2). destruct (TD D (ex_intro _ c H)) as (p1 & n1 & -> & Q). destruct (TD D' (ex_intro _ c' H')) as (p2 & n2 & -> & Q').
    apply app_inj_tail in e1 as (<- & <-). apply app_inj_tail in e2 as (-> & e2). destruct Q as [(_ & [->| ->])|(_ & ->)]; destruct Q' as [(_ & [->| ->])|(_ & ->)]; vm_compute in e2; discriminate e2.
Qed.

(** ** C77  A published file is never partial, whatever becomes of the commands *)

(** For every fate of every step and every schedule of the commands started,
    during the call and after it: each path that is not a temporary name is as
    before, or holds the complete content meant for it, or is a directory newly
    made on the way to the files. *)
Theorem C77_every_state : forall E s loc t x, secure_ok E s loc t -> one_each E s loc -> clear_way E s loc t ->
  seen E (secure_send E s loc (open_session t)) x ->
  forall q, ~ (exists c D, meant (slocal E) s loc c D /\ stemp E D q) ->
    at_ x q = at_ t q \/
    (exists c, meant (slocal E) s loc c q /\ at_ x q = Some (EFile c)) \/
    (at_ t q = None /\ at_ x q = Some EDir /\ directory_path E s loc q).
Proof.
  intros E s loc t x OK Each Way H q Hq. destruct (send_tri E s loc t OK Each Way) as (h1 & _ & (u & cur & pr & h3) & _).
  assert (G : good E (meant (slocal E) s loc) (remote s) t x).
  { destruct H as [H|(picks & H)]; [auto|]. unfold later, session_of in H.
    destruct (carry_inv E _ _ t (so_root _ _ _ _ OK) (h_apart E s loc t Way) (h_files E s loc t Way) (h_dirs E s loc t Way) (h_tmp E s loc t Way)
      (fun D D' T _ _ => tmp_inj E s loc t OK D D' T) (R_ok E s loc t OK) (tgt_ok E s loc t OK) picks u cur pr _ h3) as (c1 & c2 & _).
    destruct H as [H| ->]; [apply c1; assumption|]. eapply Inv_good. exact c2. }
  destruct (g_all _ _ _ _ _ G q) as [e|[(a & b & e)|e]]; auto.
  - intros (D & (c & Hc) & T). apply Hq. eauto.
  - right. right. split; [assumption|]. split; [assumption|]. apply dir_iff. assumption.
Qed.
Print Assumptions C77_every_state.

(** So every file to be published is, at every moment, as before or complete. *)
Theorem C77_whole_files : forall E s loc t x c D w, secure_ok E s loc t -> one_each E s loc -> clear_way E s loc t ->
  seen E (secure_send E s loc (open_session t)) x -> meant (slocal E) s loc c D -> at_ x D = Some (EFile w) ->
  at_ t D = Some (EFile w) \/ w = c.
Proof.
  intros E s loc t x c D w OK Each Way H HD A. destruct (C77_every_state E s loc t x OK Each Way H D) as [e|[(c' & e1 & e2)|(_ & e & _)]].
  - intros (c' & D' & HD' & T). apply (cw_temps _ _ _ _ Way c D c' D' HD HD' T).
  - left. congruence.
  - right. rewrite (meant_fun E s loc Each c c' D HD e1). congruence.
  - congruence.
Qed.
Print Assumptions C77_whole_files.

(** Nothing outside the remote directory changes, except that directories
    leading to it may be made. *)
Theorem C77_outside : forall E s loc t x q, secure_ok E s loc t -> one_each E s loc -> clear_way E s loc t ->
  seen E (secure_send E s loc (open_session t)) x -> ~ below (remote s) q ->
  at_ x q = at_ t q \/ (at_ t q = None /\ at_ x q = Some EDir /\ below q (remote s)).
Proof.
  intros E s loc t x q OK Each Way H N.
  assert (F : forall c D, meant (slocal E) s loc c D -> exists r, r <> [] /\ D = remote s ++ r).
  { intros c D M. destruct (src_form E s loc t OK c D M) as (r & a & b & _). eauto. }
  destruct (C77_every_state E s loc t x OK Each Way H q) as [e|[(c' & e1 & e2)|(a & b & [e|(c & D & HD & e)])]].
  - intros (c & D & HD & p & n & i & E1 & E2). destruct (F c D HD) as (r & Hr & ->). destruct (snoc_cases r Hr) as (r' & y & ->). rewrite app_assoc in E1. apply app_inj_tail in E1 as [<- _].
    apply N. rewrite E2, <- app_assoc. apply below_app.
  - auto.
  - destruct (F _ _ e1) as (r & _ & ->). exfalso. apply N. apply below_app.
  - auto.
  - destruct (F _ _ HD) as (r & Hr & ->). rewrite removelast_app in e by assumption.
    destruct (below_linear q (remote s) _ e (below_app _ _)) as [B|B]; [auto|contradiction].
Qed.
Print Assumptions C77_outside.

(** The case above: undisturbed, and with the connection lost inside the
    transfer of /pub/a. *)
Example C77_ex : (forall w f, secure_ok (ss_env w f) fx_sender fx_loc fx_srv /\ one_each (ss_env w f) fx_sender fx_loc /\ clear_way (ss_env w f) fx_sender fx_loc fx_srv) /\
  (let E := ss_env at_once fine_steps in let r := secure_send E fx_sender fx_loc (open_session fx_srv) in
   outcome r = Ok 3 /\ jobs (later E r [0%nat]) = [] /\
   at_ (rtree (later E r [0%nat])) [str_of "pub"; str_of "a"] = Some (EFile (str_of "new")) /\
   at_ (rtree (later E r [0%nat])) [str_of "pub"; str_of "sub"; str_of "b"] = Some (EFile (str_of "bb")) /\
   at_ (rtree (later E r [0%nat])) [str_of "pub"; str_of "extra.txt"] = Some (EFile (str_of "xx"))) /\
  (let E := ss_env at_once (lost_at 10) in let r := secure_send E fx_sender fx_loc (open_session fx_srv) in
   outcome r = Err Generic /\
   at_ (rtree (later E r [0%nat])) [str_of "pub"; str_of "a.tmp_20260101000000"] = Some (EFile (str_of "n")) /\
   at_ (rtree (later E r [0%nat])) [str_of "pub"; str_of "a"] = Some (EFile (str_of "old"))).
Proof.
  split; [intros w f; split; [apply ss_ok|split; [apply ss_each|apply ss_way]]|]. split; vm_compute; repeat split.
Qed.

(** A file listed twice, sent within one second: both transfers use the same
    temporary name, and the first rename can publish the second, unfinished one. *)
Definition twice_sender : sender := {| remote_directory := str_of "/pub"; local_files := [str_of "extra.txt"; str_of "extra.txt"]; local_directory := None; cancelfile := str_of ".cancel" |}.
Theorem C77_twice_refuted : exists E s loc t x c D w, secure_ok E s loc t /\ clear_way E s loc t /\ (forall i, sfates E i = Done) /\
  seen E (secure_send E s loc (open_session t)) x /\ meant (slocal E) s loc c D /\ at_ x D = Some (EFile w) /\ at_ t D = None /\ w <> c.
Proof.
  set (E := ss_env (fun n => if Nat.eqb n 9 then [0%nat] else []) fine_steps).
  set (r := secure_send E twice_sender fx_loc (open_session fx_srv)).
  exists E, twice_sender, fx_loc, fx_srv, (rtree (session_of r)), (str_of "xx"), [str_of "pub"; str_of "extra.txt"], (str_of "x").
  assert (MM : forall c D, meant (slocal E) twice_sender fx_loc c D -> D = [str_of "pub"; str_of "extra.txt"]).
  { intros c D [ld rel w H1 H2 H3 H4|f n w H1 H2 H3]; [discriminate H1|]. assert (f = str_of "extra.txt") by (destruct H1 as [<-|[<-|[]]]; reflexivity). subst f. apply split_base in H2. vm_compute in H2. subst n. vm_compute. reflexivity. }
  assert (FQ : forall q, file_path E twice_sender fx_loc q -> q = [str_of "pub"; str_of "extra.txt"] \/ q = [str_of "pub"; str_of "extra.txt.tmp_20260101000000"]).
  { intros q (c & D & M & K). apply MM in M. subst D. destruct K as [->|(p & n & i & e1 & e2)]; [auto|right].
    change [str_of "pub"; str_of "extra.txt"] with ([str_of "pub"] ++ [str_of "extra.txt"]) in e1. apply app_inj_tail in e1 as (<- & <-). exact e2. }
  assert (DQ : forall q, directory_path E twice_sender fx_loc q -> below q [str_of "pub"]).
  { intros q [H|(c & D & M & H)]; [exact H|]. apply MM in M. subst D. exact H. }
  split; [|split; [|split; [reflexivity|split; [|split; [|vm_compute; repeat split; discriminate]]]]].
  - destruct (ss_ok (wakes E) fine_steps) as [h1 h2 h3 h4 h5 h6 h7 h8 h9]. constructor; try assumption.
    + ss_harmless.
    + discriminate.
    + intros f n H. apply h8. destruct H as [<-|[<-|[]]]; left; reflexivity.
    + discriminate.
  - constructor.
    + intros q F D. apply DQ in D as (y & Hy). destruct (FQ q F) as [->| ->]; discriminate Hy.
    + intros q F. destruct (FQ q F) as [->| ->]; vm_compute; discriminate.
    + intros q c D. apply DQ in D as (y & Hy). destruct q as [|a q]; [vm_compute; discriminate|]. cbn in Hy. injection Hy as <- Hy. destruct q; [vm_compute; discriminate|discriminate Hy].
    + intros c D c' D' H H' (p & n & i & e1 & e2). apply MM in H. apply MM in H'. subst D D'.
      change [str_of "pub"; str_of "extra.txt"] with ([str_of "pub"] ++ [str_of "extra.txt"]) in e1, e2. apply app_inj_tail in e1 as (<- & <-). discriminate e2.
  - right. exists []. right. reflexivity.
  - change [str_of "pub"; str_of "extra.txt"] with (remote twice_sender ++ [str_of "extra.txt"]). apply of_list with (f := str_of "extra.txt"); [left; reflexivity| |vm_compute; reflexivity]. change (str_of "extra.txt") with (snd (os_split (str_of "extra.txt"))) at 2. apply base_exists.
Qed.
Print Assumptions C77_twice_refuted.

(** A file that has the name of the remote directory is removed. *)
Theorem C77_obstacle_refuted : exists E s loc t z, (secure_ok E s loc t /\ one_each E s loc /\ prompt E) /\
  at_ t (remote s) = Some (EFile (str_of "precious")) /\
  outcome (secure_send E s loc (open_session t)) = Ok z /\ at_ (rtree (session_of (secure_send E s loc (open_session t)))) (remote s) = Some EDir.
Proof.
  exists (ss_env at_once fine_steps), fx_sender, fx_loc, (Dir [(str_of "pub", File (str_of "precious"))]), 3.
  split; [|vm_compute; repeat split]. split; [|split; [apply ss_each|intro i; split; reflexivity]].
  destruct (ss_ok at_once fine_steps). constructor; assumption.
Qed.
Print Assumptions C77_obstacle_refuted.

(** The text of the remote directory is run by the remote shell: here it removes
    another file. *)
Theorem C77_injection_refuted : exists E s loc t, prompt E /\ remote_directory s = str_of "/pub; rm /pub/keep" /\
  at_ t [str_of "pub"; str_of "keep"] = Some (EFile (str_of "k")) /\
  at_ (rtree (session_of (secure_send E s loc (open_session t)))) [str_of "pub"; str_of "keep"] = None.
Proof.
  exists (ss_env at_once fine_steps), {| remote_directory := str_of "/pub; rm /pub/keep"; local_files := []; local_directory := None; cancelfile := str_of ".cancel" |}, fx_loc, fx_srv.
  split; [intro i; split; reflexivity|]. vm_compute. repeat split.
Qed.
Print Assumptions C77_injection_refuted.

(** ** C78  What a successful send means *)

(** When the call has returned and every command it started has been carried out,
    in whatever order, each file is in place with its content, and no other file
    is found that was not there: no temporary file is left. *)
Theorem C78_in_place : forall E s loc t z picks, secure_ok E s loc t -> one_each E s loc -> clear_way E s loc t ->
  let r := secure_send E s loc (open_session t) in
  outcome r = Ok z -> jobs (later E r picks) = [] ->
  (forall c D, meant (slocal E) s loc c D -> at_ (rtree (later E r picks)) D = Some (EFile c)) /\
  (forall q c, at_ (rtree (later E r picks)) q = Some (EFile c) -> meant (slocal E) s loc c q \/ at_ t q = Some (EFile c)).
Proof.
  intros E s loc t z picks OK Each Way r H J. subst r. destruct (send_tri E s loc t OK Each Way) as (_ & _ & _ & h4). unfold outcome in H. rewrite H in h4.
  destruct h4 as ((u & I & U) & _). unfold later, session_of in *.
  destruct (carry_inv E _ _ t (so_root _ _ _ _ OK) (h_apart E s loc t Way) (h_files E s loc t Way) (h_dirs E s loc t Way) (h_tmp E s loc t Way)
      (fun D D' T _ _ => tmp_inj E s loc t OK D D' T) (R_ok E s loc t OK) (tgt_ok E s loc t OK) picks u None None _ I) as (_ & I2 & _).
  destruct I2 as (l & F & i). rewrite J in F. inversion F; subst l. split.
  - intros c D M. destruct (i_done _ _ _ _ _ _ _ _ _ i D) as [(c' & a & b)|(T & c' & [])].
    + apply U. eapply meant_listed; eassumption.
    + rewrite (meant_fun E s loc Each c c' D M a). assumption.
  - intros q c A.
    assert (Nt : tmp E (meant (slocal E) s loc) q -> at_ t q = Some (EFile c)).
    { intro T. destruct (i_left _ _ _ _ _ _ _ _ _ i q T) as [e|[e|[(D & c' & [])|(D & y & e)]]]; congruence. }
    assert (Dc : ~ tmp E (meant (slocal E) s loc) q \/ at_ t q = Some (EFile c) \/ (at_ t q <> Some (EFile c))).
    { destruct (at_ t q) as [[c'|]|]; [|right; right; discriminate|right; right; discriminate]. destruct (str_eqb_spec c' c) as [->|N]; [right; left; reflexivity|right; right; congruence]. }
    assert (K : at_ t q = Some (EFile c) \/ ~ tmp E (meant (slocal E) s loc) q) by (destruct Dc as [K|[K|K]]; auto).
    destruct K as [K|K]; [auto|]. destruct (g_all _ _ _ _ _ (i_good _ _ _ _ _ _ _ _ _ i) q K) as [e|[(_ & e & _)|(c' & a & b)]]; [right; congruence|congruence|].
    left. congruence.
Qed.
Print Assumptions C78_in_place.

(** The number returned is that of the files. *)
Theorem C78_count : forall E s loc t z, secure_ok E s loc t -> one_each E s loc -> clear_way E s loc t ->
  outcome (secure_send E s loc (open_session t)) = Ok z ->
  (forall ld l, local_directory s = Some ld -> ld <> [] -> at_ loc (resolve (slocal E) ld) = Some EDir -> file_list loc (resolve (slocal E) ld) l ->
     z = Z.of_nat (List.length (local_files s) + List.length l)) /\
  (local_directory s = None \/ local_directory s = Some [] -> z = Z.of_nat (List.length (local_files s))).
Proof.
  intros E s loc t z OK Each Way H. destruct (send_tri E s loc t OK Each Way) as (_ & _ & _ & h4). unfold outcome in H. rewrite H in h4.
  destruct h4 as (_ & -> & _). destruct (srels_spec E s loc t OK) as (Fn & Fs). split.
  - intros ld l El Nl Ad (Nd & Hl'). do 2 f_equal. apply Nat.le_antisymm; apply NoDup_incl_length; auto; intros rel Hin.
    + apply Fs in Hin as (ld' & w & a & _ & _ & d). apply Hl'. assert (ld' = ld) by congruence. subst. eauto.
    + apply Hl' in Hin as (w & d). apply Fs. exists ld, w. split; [assumption|]. split; [assumption|]. split; [|assumption]. intros ->. rewrite app_nil_r in d. congruence.
  - intros El. assert (E0 : srels E s loc = []) by (unfold srels; destruct El as [-> | ->]; reflexivity). rewrite E0. cbn [List.length]. rewrite Nat.add_0_r. reflexivity.
Qed.
Print Assumptions C78_count.

(** Sending succeeds, and the files are in place once the last command is carried
    out, if every step works and a command started is carried out before the next
    step, the listed files exist and nothing is in the way. *)
Theorem C78_succeeds : forall E s loc t, secure_ok E s loc t -> one_each E s loc -> clear_way E s loc t -> prompt E ->
  (forall f, In f (local_files s) -> exists c, at_ loc (resolve (slocal E) f) = Some (EFile c)) ->
  let r := secure_send E s loc (open_session t) in
  (exists z, outcome r = Ok z) /\ jobs (later E r [0%nat]) = [].
Proof.
  intros E s loc t OK Each Way Pr Hl r. subst r. destruct (send_tri E s loc t OK Each Way) as (_ & _ & _ & h4). unfold outcome.
  destruct (snd (fst (secure_send E s loc (open_session t)))) as [z|e].
  - destruct h4 as (_ & _ & f). split; [eauto|]. unfold later, session_of. apply carry_calm. apply f. assumption.
  - exfalso. apply h4. split; assumption.
Qed.
Print Assumptions C78_succeeds.

Example C78_ex : prompt (ss_env at_once fine_steps) /\
  (forall f, In f (local_files fx_sender) -> exists c, at_ fx_loc (resolve [str_of "home"] f) = Some (EFile c)) /\
  file_list fx_loc [str_of "src"] [[str_of "a"]; [str_of "sub"; str_of "b"]].
Proof.
  split; [intro i; split; reflexivity|]. split; [|apply C75_ex]. intros f [<-|[]]. exists (str_of "xx"). vm_compute. reflexivity.
Qed.

(** Success is reported before the files are in place: here the last file is
    missing when the call returns, and will be if its command is never carried out. *)
Theorem C78_early_refuted : exists E s loc t c D z, (secure_ok E s loc t /\ one_each E s loc /\ clear_way E s loc t) /\ (forall i, sfates E i = Done) /\
  meant (slocal E) s loc c D /\ outcome (secure_send E s loc (open_session t)) = Ok z /\
  at_ (rtree (session_of (secure_send E s loc (open_session t)))) D = None.
Proof.
  exists (ss_env at_once fine_steps), fx_sender, fx_loc, fx_srv, (str_of "bb"), [str_of "pub"; str_of "sub"; str_of "b"], 3.
  split; [split; [apply ss_ok|split; [apply ss_each|apply ss_way]]|]. split; [reflexivity|]. split; [|vm_compute; repeat split].
  change [str_of "pub"; str_of "sub"; str_of "b"] with (remote fx_sender ++ [str_of "sub"; str_of "b"]).
  apply of_directory with (ld := str_of "/src"); [reflexivity|discriminate|discriminate|vm_compute; reflexivity].
Qed.
Print Assumptions C78_early_refuted.

(** A remote host that is slow to make the directory makes the call fail, though
    the directory is then there and nothing went wrong. *)
Theorem C78_slow_refuted : exists E s loc t, (secure_ok E s loc t /\ one_each E s loc /\ clear_way E s loc t) /\ (forall i, sfates E i = Done) /\
  (forall f, In f (local_files s) -> exists c, at_ loc (resolve (slocal E) f) = Some (EFile c)) /\
  outcome (secure_send E s loc (open_session t)) = Err Generic /\
  at_ (rtree (later E (secure_send E s loc (open_session t)) [0%nat; 0%nat; 0%nat])) (removelast [str_of "pub"; str_of "sub"; str_of "b"]) = Some EDir.
Proof.
  exists (ss_env never fine_steps), fx_sender, fx_loc, fx_srv.
  split; [split; [apply ss_ok|split; [apply ss_each|apply ss_way]]|]. split; [reflexivity|]. split; [apply C78_ex|]. vm_compute. repeat split.
Qed.
Print Assumptions C78_slow_refuted.

(** A name with a blank: the call reports success, all commands are carried out,
    and the file is left under its temporary name. *)
Theorem C78_blank_refuted : exists E s loc t c z, prompt E /\ local_files s = [str_of "a b"] /\ at_ loc (resolve (slocal E) (str_of "a b")) = Some (EFile c) /\
  outcome (secure_send E s loc (open_session t)) = Ok z /\ jobs (later E (secure_send E s loc (open_session t)) [0%nat]) = [] /\
  at_ (rtree (later E (secure_send E s loc (open_session t)) [0%nat])) (remote s ++ [str_of "a b"]) = None /\
  at_ (rtree (later E (secure_send E s loc (open_session t)) [0%nat])) (remote s ++ [str_of "a b.tmp_20260101000000"]) = Some (EFile c).
Proof.
  exists (ss_env at_once fine_steps), {| remote_directory := str_of "/pub"; local_files := [str_of "a b"]; local_directory := None; cancelfile := str_of ".cancel" |},
    (Dir [(str_of "home", Dir [(str_of "a b", File (str_of "xx"))])]), fx_srv, (str_of "xx"), 1.
  split; [intro i; split; reflexivity|]. vm_compute. repeat split.
Qed.
Print Assumptions C78_blank_refuted.

(** A directory with the file's name swallows the temporary file. *)
Theorem C78_swallowed_refuted : exists E s loc t c D z, (secure_ok E s loc t /\ one_each E s loc /\ prompt E) /\ meant (slocal E) s loc c D /\
  outcome (secure_send E s loc (open_session t)) = Ok z /\ jobs (later E (secure_send E s loc (open_session t)) [0%nat]) = [] /\
  at_ (rtree (later E (secure_send E s loc (open_session t)) [0%nat])) D = Some EDir /\
  at_ (rtree (later E (secure_send E s loc (open_session t)) [0%nat])) (D ++ [str_of "a.tmp_20260101000000"]) = Some (EFile c).
Proof.
  exists (ss_env at_once fine_steps), fx_sender, fx_loc, (Dir [(str_of "pub", Dir [(str_of "a", Dir [])])]), (str_of "new"), [str_of "pub"; str_of "a"], 3.
  split; [split; [|split; [apply ss_each|intro i; split; reflexivity]]|].
  - destruct (ss_ok at_once fine_steps). constructor; assumption.
  - split; [|vm_compute; repeat split]. change [str_of "pub"; str_of "a"] with (remote fx_sender ++ [str_of "a"]).
    apply of_directory with (ld := str_of "/src"); [reflexivity|discriminate|discriminate|vm_compute; reflexivity].
Qed.
Print Assumptions C78_swallowed_refuted.

(** With a relative remote directory the listed files go below the home
    directory, and those of the local directory below the root. *)
Theorem C78_relative_refuted : exists E s loc t, prompt E /\ remote_directory s = str_of "pub" /\ home E = [str_of "root"] /\
  let r := secure_send E s loc (open_session t) in outcome r = Ok 3 /\
  at_ (rtree (later E r [0%nat])) [str_of "root"; str_of "pub"; str_of "extra.txt"] = Some (EFile (str_of "xx")) /\
  at_ (rtree (later E r [0%nat])) [str_of "root"; str_of "pub"; str_of "a"] = None /\
  at_ (rtree (later E r [0%nat])) [str_of "pub"; str_of "a"] = Some (EFile (str_of "new")).
Proof.
  exists (ss_env at_once fine_steps), {| remote_directory := str_of "pub"; local_files := [str_of "extra.txt"]; local_directory := Some (str_of "/src"); cancelfile := str_of ".cancel" |},
    fx_loc, (Dir [(str_of "root", Dir [])]).
  split; [intro i; split; reflexivity|]. vm_compute. repeat split.
Qed.
Print Assumptions C78_relative_refuted.

(** ** C79  Cancelling *)

(** Whatever happens, only the marker changes, and it is as before, or empty, or
    holds the text and a newline. *)
Theorem C79_states : forall E s t content txt x, cancel_ok s -> marker_text content txt ->
  seen E (secure_cancel E s content (open_session t)) x ->
  (forall q, q <> marker s -> at_ x q = at_ t q) /\
  (at_ x (marker s) = at_ t (marker s) \/ at_ x (marker s) = Some (EFile []) \/ at_ x (marker s) = Some (EFile (txt ++ [chr 10]))).
Proof.
  intros E s t content txt x OK Txt H. destruct (cancel_run E s t content txt OK Txt) as (h1 & h2 & _).
  assert (F : fine s txt t x).
  { destruct H as [H|(picks & H)]; [auto|]. unfold later, session_of in H. destruct (carry_phase E s t content txt OK Txt picks _ h2) as (c1 & c2 & _).
    destruct H as [H| ->]; [auto|]. eapply phase_fine. exact c2. }
  destruct F as (a & b). split; assumption.
Qed.
Print Assumptions C79_states.

(** If the call succeeds, something has the marker's name; and when the command
    has been carried out, the marker is a directory or holds the text. *)
Theorem C79_success : forall E s t content txt picks, cancel_ok s -> marker_text content txt ->
  let r := secure_cancel E s content (open_session t) in
  outcome r = Ok tt ->
  at_ (rtree (session_of r)) (marker s) <> None /\
  (jobs (later E r picks) = [] -> at_ t (remote s) = Some EDir -> at_ t (marker s) <> Some EDir ->
   at_ (rtree (later E r picks)) (marker s) = Some (EFile (txt ++ [chr 10]))).
Proof.
  intros E s t content txt picks OK Txt r H. subst r. destruct (cancel_run E s t content txt OK Txt) as (_ & h2 & h3 & _). unfold outcome in H. destruct (h3 H) as (b & n). split; [exact n|].
  intros J A B. unfold later, session_of in *. destruct (carry_phase E s t content txt OK Txt picks _ h2) as (_ & c2 & c3 & _). destruct (c3 b) as [e|(_ & [(_ & [e|e])|e])]; [congruence|contradiction|contradiction|exact e].
Qed.
Print Assumptions C79_success.

(** With every step working and the command carried out at once, the call
    succeeds if the remote directory exists, and raises if nothing has the
    marker's name and it does not. *)
Theorem C79_succeeds : forall E s t content txt, cancel_ok s -> marker_text content txt -> prompt E ->
  let r := secure_cancel E s content (open_session t) in
  (at_ t (remote s) = Some EDir -> outcome r = Ok tt /\ (at_ t (marker s) <> Some EDir -> at_ (rtree (session_of r)) (marker s) = Some (EFile (txt ++ [chr 10])))) /\
  (at_ t (remote s) <> Some EDir -> outcome r = Err Generic /\ forall q, at_ (rtree (session_of r)) q = at_ t q).
Proof.
  intros E s t content txt OK Txt Pr r. subst r. destruct (cancel_run E s t content txt OK Txt) as (_ & _ & _ & h4). destruct (h4 Pr) as (j & (sb & W) & y & n). unfold outcome, session_of. split.
  - intro A. destruct W as [(W & [e|e])|W]; [|contradiction|].
    + split; [|congruence]. apply y. unfold marker in *. congruence.
    + split; [|intros _; exact W]. apply y. unfold marker in *. congruence.
  - intro A. assert (K0 : at_ t (marker s) = None).
    { destruct (at_ t (marker s)) as [e|] eqn:Q; [|reflexivity]. exfalso. apply A. unfold marker in Q. apply at_above in Q. exact Q. }
    destruct W as [(W & _)|W].
    + split; [apply n; unfold marker in *; congruence|]. intro q. destruct (path_dec q (marker s)) as [->|N]; [exact W|apply sb; assumption].
    + exfalso. apply A. unfold marker in W. apply at_above in W. rewrite <- (sb (remote s)); [exact W|]. intro e. apply (f_equal (@List.length str)) in e. unfold marker in e. rewrite app_length in e. cbn in e. lia.
Qed.
Print Assumptions C79_succeeds.

Example C79_ex : cancel_ok fx_sender /\ marker_text (Some (str_of "wrong event")) (str_of "wrong event") /\ at_ fx_srv (remote fx_sender) = Some EDir /\
  (let r := secure_cancel (ss_env at_once fine_steps) fx_sender (Some (str_of "wrong event")) (open_session fx_srv) in
   outcome r = Ok tt /\ at_ (rtree (session_of r)) [str_of "pub"; str_of ".cancel"] = Some (EFile (str_of "wrong event" ++ [chr 10]))).
Proof.
  split; [|split; [|split; [vm_compute; reflexivity|vm_compute; repeat split]]].
  - constructor; [reflexivity|ss_harmless| |ss_harmless]. fx_names.
  - change (str_of "wrong event") with (join (str_of " ") [str_of "wrong"; str_of "event"]). apply some_text; [|discriminate].
    apply Forall_cons; [split; [discriminate|ss_harmless]|]. apply Forall_cons; [split; [discriminate|ss_harmless]|]. apply Forall_nil.
Qed.

(** Without content the marker says None. *)
Example C79_none_ex : at_ (rtree (session_of (secure_cancel (ss_env at_once fine_steps) fx_sender None (open_session fx_srv)))) [str_of "pub"; str_of ".cancel"] = Some (EFile (str_of "None" ++ [chr 10])).
Proof. vm_compute. reflexivity. Qed.

(** A marker left from before is enough for success: here the new text is never
    written. *)
Theorem C79_stale_refuted : exists E s t, cancel_ok s /\ (forall i, sfates E i = Done) /\
  outcome (secure_cancel E s (Some (str_of "new")) (open_session t)) = Ok tt /\
  at_ (rtree (session_of (secure_cancel E s (Some (str_of "new")) (open_session t)))) (marker s) = Some (EFile (str_of "old")).
Proof.
  exists (ss_env never fine_steps), fx_sender, (Dir [(str_of "pub", Dir [(str_of ".cancel", File (str_of "old"))])]).
  split; [apply C79_ex|]. split; [reflexivity|]. vm_compute. repeat split.
Qed.
Print Assumptions C79_stale_refuted.

(** And a slow host makes the call fail though the marker appears. *)
Theorem C79_slow_refuted : exists E s t, cancel_ok s /\ (forall i, sfates E i = Done) /\ at_ t (remote s) = Some EDir /\
  let r := secure_cancel E s (Some (str_of "new")) (open_session t) in
  outcome r = Err Generic /\ at_ (rtree (later E r [0%nat])) (marker s) = Some (EFile (str_of "new" ++ [chr 10])).
Proof.
  exists (ss_env never fine_steps), fx_sender, fx_srv. split; [apply C79_ex|]. split; [reflexivity|]. vm_compute. repeat split.
Qed.
Print Assumptions C79_slow_refuted.
