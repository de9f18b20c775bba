(** Properties C74-C76: sending by FTP. *)
From Coq Require Import ZArith String Ascii Bool List Lia.
From Verif Require Import PyBase PyStr FsModel FsSpec FsProofs PathProofs CopyModel CopySpec CopyProofs FtpModel FtpSpec FtpProofs FtpSendProofs.
Import ListNotations.
Open Scope Z_scope.

(** A concrete case: /src with a file and a nested file, one listed file; the
    server has an old file of the same name and another one. *)
Definition fx_loc : fsn := Dir [
  (str_of "src", Dir [(str_of "a", File (str_of "new")); (str_of "sub", Dir [(str_of "b", File (str_of "bb"))])]);
  (str_of "home", Dir [(str_of "extra.txt", File (str_of "xx"))])].
Definition fx_srv : fsn := Dir [(str_of "pub", Dir [(str_of "a", File (str_of "old")); (str_of "keep", File (str_of "k"))])].
Definition fx_sender : sender := {| remote_directory := str_of "/pub/"; local_files := [str_of "extra.txt"];
  local_directory := Some (str_of "/src"); cancelfile := str_of ".cancel" |}.
Definition fx_env (f : nat -> fate) : fenv := {| lcwd := [str_of "home"]; pieces := fun _ c => map (fun x => [x]) c; fates := f |}.
Definition all_fine (n : nat) : fate := Fine.
(** The connection breaks for good at the [k]-th command. *)
Definition breaks (k n : nat) : fate := if Nat.ltb n k then Fine else Refused (Other IOErr).

Lemma fx_files : forall rel c, at_ fx_loc ([str_of "src"] ++ rel) = Some (EFile c) -> rel = [str_of "a"] \/ rel = [str_of "sub"; str_of "b"].
Proof.
  intros rel c H. unfold fx_loc in H. cbn [app] in H. rewrite at_dir in H. cbn [aget] in H. rewrite str_eqb_refl in H.
  destruct rel as [|x rel]; [discriminate|]. rewrite at_dir in H. cbn [aget] in H.
  destruct (str_eqb_spec x (str_of "a")) as [->|_].
  - destruct rel; [auto|discriminate].
  - destruct (str_eqb_spec x (str_of "sub")) as [->|_]; [|discriminate]. destruct rel as [|y rel]; [discriminate|]. rewrite at_dir in H. cbn [aget] in H.
    destruct (str_eqb_spec y (str_of "b")) as [->|_]; [|discriminate]. destruct rel; [auto|discriminate].
Qed.
Ltac fx_names := repeat (first [apply Forall_cons | apply Forall_nil | split | discriminate | (cbn; unfold sl, chr; cbn; intuition discriminate)]).
Ltac fx_once Ev u := destruct u as [|? u]; cbn in Ev; [discriminate Ev|first [discriminate Ev | injection Ev as _ Ev; fx_once Ev u]].
Lemma fx_ok : forall f, ftp_ok (fx_env f) fx_sender fx_loc fx_srv.
Proof.
  intro f. constructor.
  - unfold fx_loc, wf. cbn [map fst snd fold_right].
    repeat (first [ apply Forall_cons | apply Forall_nil | apply NoDup_cons | apply NoDup_nil | split | exact I | discriminate | (cbn; unfold sl, chr; cbn; intuition discriminate) ]).
  - reflexivity.
  - intros i c. cbn [pieces fx_env]. induction c as [|x c IH]; [reflexivity|]. cbn [map concat app]. congruence.
  - cbn. intros [H|[H|[H|[]]]]; discriminate.
  - intros ld rel c H _ A. change (Some (str_of "/src") = Some ld) in H. assert (ld = str_of "/src") by congruence. subst ld. clear H.
    assert (E0 : resolve (lcwd (fx_env f)) (str_of "/src") = [str_of "src"]) by (vm_compute; reflexivity). rewrite E0 in A.
    intros (u & v & Ev). apply fx_files in A as [->| ->]; cbn in Ev; fx_once Ev u.
  - intros g n [<-|[]] Hb. apply split_base in Hb. vm_compute in Hb. subst n. fx_names.
  - fx_names.
Qed.
Lemma fx_meant : forall f c D, meant (lcwd (fx_env f)) fx_sender fx_loc c D ->
  D = [str_of "pub"; str_of "a"] \/ D = [str_of "pub"; str_of "sub"; str_of "b"] \/ D = [str_of "pub"; str_of "extra.txt"].
Proof.
  intros f c D H. assert (ER : remote fx_sender = [str_of "pub"]) by (vm_compute; reflexivity). inversion H as [ld rel w E1 E2 E3 E4|g n w E1 E2 E3]; subst; rewrite ER.
  - change (Some (str_of "/src") = Some ld) in E1. assert (ld = str_of "/src") by congruence. subst ld.
    assert (E0 : resolve (lcwd (fx_env f)) (str_of "/src") = [str_of "src"]) by (vm_compute; reflexivity). rewrite E0 in E4.
    apply fx_files in E4 as [->| ->]; [left|right; left]; reflexivity.
  - destruct E1 as [<-|[]]. apply split_base in E2. right. right. rewrite <- E2. vm_compute. reflexivity.
Qed.
Lemma fx_clash : forall f, ftp_no_clash (lcwd (fx_env f)) fx_sender fx_loc.
Proof.
  intros f c D c' D' HD HD' (p & n & E1 & E2). apply fx_meant in HD. apply fx_meant in HD'.
  assert (G : forall q : path, forall m, D' = q ++ [m] -> p = q /\ n = m) by (intros q m E'; rewrite E' in E1; apply app_inj_tail in E1; intuition).
  assert (K : (p = [str_of "pub"] /\ n = str_of "a") \/ (p = [str_of "pub"; str_of "sub"] /\ n = str_of "b") \/ (p = [str_of "pub"] /\ n = str_of "extra.txt")).
  { destruct HD' as [H|[H|H]]; [left|right; left|right; right]; apply G; assumption. }
  destruct K as [[-> ->]|[[-> ->]|[-> ->]]]; rewrite E2 in HD; destruct HD as [H|[H|H]]; discriminate.
Qed.

(** ** C74  A published file is never partial, whatever happens to the connection *)

(** For every fate of every command: in each state of the server's files during
    the call and at its end, each path that is not a temporary name is as before,
    or holds one of the complete contents meant for it, or is a directory newly
    made on the way to the files. *)
Theorem C74_every_state : forall E s loc t s', ftp_ok E s loc t ->
  In s' (ftrace (ftp_send E s loc (connect t))) \/ s' = ffinal (ftp_send E s loc (connect t)) ->
  forall q, ~ (exists c D, meant (lcwd E) s loc c D /\ ftp_temp D q) ->
    at_ s' q = at_ t q \/
    (exists c, meant (lcwd E) s loc c q /\ at_ s' q = Some (EFile c)) \/
    (at_ t q = None /\ at_ s' q = Some EDir /\ (below q (remote s) \/ exists c D, meant (lcwd E) s loc c D /\ below q (removelast D))).
Proof.
  intros E s loc t s' OK H q Hq. destruct (send_tri E s loc t OK) as (h1 & h2 & _). cbn [connect tree] in *.
  assert (St : stage (meant (lcwd E) s loc) (remote s) t s') by (destruct H as [H| ->]; auto).
  destruct (st_other _ _ _ _ St q) as [e|[(a & b & [e|(D & (c & Hc) & e)])|e]]; auto.
  - intros (D & (c & Hc) & T). apply Hq. eauto.
  - right. right. auto.
  - right. right. split; [assumption|]. split; [assumption|]. right. exists c, D. auto.
Qed.
Print Assumptions C74_every_state.

(** So every file to be published is, at every moment, as before or complete. *)
Theorem C74_whole_files : forall E s loc t s' c D w, ftp_ok E s loc t -> ftp_no_clash (lcwd E) s loc ->
  In s' (ftrace (ftp_send E s loc (connect t))) \/ s' = ffinal (ftp_send E s loc (connect t)) ->
  meant (lcwd E) s loc c D -> at_ s' D = Some (EFile w) ->
  at_ t D = Some (EFile w) \/ meant (lcwd E) s loc w D.
Proof.
  intros E s loc t s' c D w OK NC H HD A. destruct (C74_every_state E s loc t s' OK H D) as [e|[(c' & e1 & e2)|(_ & e & _)]].
  - intros (c' & D' & HD' & T). apply (NC c D c' D' HD HD' T).
  - left. congruence.
  - right. congruence.
  - congruence.
Qed.
Print Assumptions C74_whole_files.

(** Nothing outside the remote directory changes, except that directories
    leading to it may be made; and no directory is ever removed. *)
Theorem C74_outside : forall E s loc t s' q, ftp_ok E s loc t ->
  In s' (ftrace (ftp_send E s loc (connect t))) \/ s' = ffinal (ftp_send E s loc (connect t)) ->
  (~ below (remote s) q -> at_ s' q = at_ t q \/ (at_ t q = None /\ at_ s' q = Some EDir /\ below q (remote s))) /\
  (at_ t q = Some EDir -> at_ s' q = Some EDir).
Proof.
  intros E s loc t s' q OK H. split.
  - intro N.
    assert (F : forall c D, meant (lcwd E) s loc c D -> exists r, r <> [] /\ D = remote s ++ r) by (intros c D H'; eapply src_form; exact H').
    destruct (C74_every_state E s loc t s' OK H q) as [e|[(c' & e1 & e2)|(a & b & [e|(c & D & HD & e)])]].
    + intros (c & D & HD & p & n & E1 & E2). destruct (F c D HD) as (r & Hr & ->). destruct (snoc_cases r Hr) as (r' & x & ->). rewrite app_assoc in E1. apply app_inj_tail in E1 as [<- _].
      apply N. rewrite E2, <- app_assoc. apply below_app.
    + auto.
    + destruct (F _ _ e1) as (r & _ & ->). exfalso. apply N. apply below_app.
    + auto.
    + destruct (F _ _ HD) as (r & Hr & ->). rewrite removelast_app in e by assumption.
      destruct (below_linear q (remote s) _ e (below_app _ _)) as [B|B]; [auto|contradiction].
  - intro A. destruct (send_tri E s loc t OK) as (h1 & h2 & _). cbn [connect tree] in *.
    assert (St : stage (meant (lcwd E) s loc) (remote s) t s') by (destruct H as [H| ->]; auto). apply (st_dirs _ _ _ _ St). assumption.
Qed.
Print Assumptions C74_outside.

(** The case above, undisturbed, and with the connection breaking inside the
    transfer of /pub/a: the old file stays in place. *)
Example C74_ex : (forall f, ftp_ok (fx_env f) fx_sender fx_loc fx_srv /\ ftp_no_clash (lcwd (fx_env f)) fx_sender fx_loc) /\
  (let r := ftp_send (fx_env all_fine) fx_sender fx_loc (connect fx_srv) in
   fresult r = FOk 3 /\ List.length (ftrace r) = 14%nat /\
   at_ (ffinal r) [str_of "pub"; str_of "a"] = Some (EFile (str_of "new")) /\
   at_ (ffinal r) [str_of "pub"; str_of "sub"; str_of "b"] = Some (EFile (str_of "bb")) /\
   at_ (ffinal r) [str_of "pub"; str_of "extra.txt"] = Some (EFile (str_of "xx"))) /\
  (let r := ftp_send (fx_env (breaks 11)) fx_sender fx_loc (connect fx_srv) in
   fresult r = FErr (Other NameErr) /\
   at_ (ffinal r) [str_of "pub"; str_of "a.tmp"] = Some (EFile (str_of "n")) /\
   at_ (ffinal r) [str_of "pub"; str_of "a"] = Some (EFile (str_of "old"))).
Proof.
  split; [intro f; split; [apply fx_ok|apply fx_clash]|]. split; vm_compute; repeat split.
Qed.

(** ** C75  What a successful send means *)

(** Every listed file is in place: its path holds a content meant for it. *)
Theorem C75_listed : forall E s loc t z f n, ftp_ok E s loc t -> ftp_no_clash (lcwd E) s loc ->
  fresult (ftp_send E s loc (connect t)) = FOk z -> In f (local_files s) -> base_of f n ->
  exists c, meant (lcwd E) s loc c (remote s ++ [n]) /\ at_ (ffinal (ftp_send E s loc (connect t))) (remote s ++ [n]) = Some (EFile c).
Proof.
  intros E s loc t z f n OK NC H Hf Hn. destruct (send_tri E s loc t OK) as (_ & _ & h3). rewrite H in h3.
  destruct h3 as (sent & _ & _ & _ & _ & _ & h & _). destruct (h f n Hf Hn) as [(w & Hw) K]. apply K.
  intros (D & (c & Hc) & T). apply (NC _ _ _ _ Hw Hc T).
Qed.
Print Assumptions C75_listed.

(** The number returned is honest: that many files, the listed ones and [sent]
    files of the directory, are in place. *)
Theorem C75_count : forall E s loc t z, ftp_ok E s loc t -> ftp_no_clash (lcwd E) s loc ->
  fresult (ftp_send E s loc (connect t)) = FOk z ->
  exists sent, NoDup sent /\ z = Z.of_nat (List.length (local_files s) + List.length sent) /\
    forall rel, In rel sent -> exists ld c0 c, local_directory s = Some ld /\ at_ loc (resolve (lcwd E) ld ++ rel) = Some (EFile c0) /\
      meant (lcwd E) s loc c (remote s ++ rel) /\ at_ (ffinal (ftp_send E s loc (connect t))) (remote s ++ rel) = Some (EFile c).
Proof.
  intros E s loc t z OK NC H. destruct (send_tri E s loc t OK) as (_ & _ & h3). rewrite H in h3.
  destruct h3 as (sent & h1 & h2 & h3 & h4 & _). exists sent. split; [assumption|]. split; [assumption|]. intros rel Hin.
  destruct (proj1 (proj2 (frels_spec E s loc t OK) rel) (h2 rel Hin)) as (ld & w & a & b & c & d).
  assert (Hw : meant (lcwd E) s loc w (remote s ++ rel)) by (eapply of_directory; eassumption).
  destruct (h4 rel Hin) as (c' & k1 & k2); [|exists ld, w, c'; auto]. intros (D & (c' & Hc) & T). apply (NC _ _ _ _ Hw Hc T).
Qed.
Print Assumptions C75_count.

(** If the number is that of all the files, they are all in place, and no other
    file is found that was not there: no temporary file is left. *)
Theorem C75_all : forall E s loc t z ld l, ftp_ok E s loc t -> ftp_no_clash (lcwd E) s loc ->
  fresult (ftp_send E s loc (connect t)) = FOk z -> local_directory s = Some ld -> ld <> [] ->
  at_ loc (resolve (lcwd E) ld) = Some EDir -> file_list loc (resolve (lcwd E) ld) l ->
  z <= Z.of_nat (List.length (local_files s) + List.length l) /\
  (z = Z.of_nat (List.length (local_files s) + List.length l) ->
   (forall rel, In rel l -> exists c, meant (lcwd E) s loc c (remote s ++ rel) /\ at_ (ffinal (ftp_send E s loc (connect t))) (remote s ++ rel) = Some (EFile c)) /\
   (forall q c, at_ (ffinal (ftp_send E s loc (connect t))) q = Some (EFile c) -> (exists c', meant (lcwd E) s loc c' q) \/ at_ t q = Some (EFile c))).
Proof.
  intros E s loc t z ld l OK NC H El Nl Ad (Nd & Hl). destruct (send_tri E s loc t OK) as (_ & _ & h3). rewrite H in h3.
  destruct h3 as (sent & h1 & h2 & h3 & h4 & h5 & _). destruct (frels_spec E s loc t OK) as (Fn & Fs).
  assert (Same : forall rel, In rel (frels E s loc) <-> In rel l).
  { intro rel. rewrite Fs, Hl. split.
    - intros (ld' & w & a & _ & _ & d). assert (ld' = ld) by congruence. subst. eauto.
    - intros (w & d). exists ld, w. split; [assumption|]. split; [assumption|]. split; [|assumption]. intros ->. rewrite app_nil_r in d. congruence. }
  assert (Len : List.length (frels E s loc) = List.length l).
  { apply Nat.le_antisymm; apply NoDup_incl_length; auto; intros x Hx; apply Same; assumption. }
  pose proof (NoDup_incl_length h1 h2) as Le. split; [lia|]. intro Ez. assert (Eq : List.length sent = List.length (frels E s loc)) by lia. split.
  - intros rel Hin. assert (Hs : In rel sent).
    { assert (I : incl (frels E s loc) sent) by (apply NoDup_length_incl; [assumption|lia|assumption]). apply I. apply Same. assumption. }
    destruct (proj1 (Fs rel) (h2 rel Hs)) as (ld' & w & a & b & c & d).
    assert (Hw : meant (lcwd E) s loc w (remote s ++ rel)) by (eapply of_directory; eassumption).
    apply (h4 rel Hs). intros (D & (c' & Hc) & T). apply (NC _ _ _ _ Hw Hc T).
  - intros q c Hq. destruct (h5 Eq q c Hq) as [K|K]; auto.
Qed.
Print Assumptions C75_all.

(** Sending succeeds, and counts all the files, if every command can be carried
    out, the remote directory is absolute, the listed files exist, and no name is
    wanted both for a file and for a directory, or already used for the other. *)
Theorem C75_succeeds : forall E s loc t, ftp_ok E s loc t -> (forall i, fates E i = Fine) -> starts_sl (remote_directory s) = true ->
  (forall f, In f (local_files s) -> exists c, at_ loc (resolve (lcwd E) f) = Some (EFile c)) ->
  let target q := exists c, meant (lcwd E) s loc c q in
  let file q := target q \/ (exists D, target D /\ ftp_temp D q) in
  let directory q := below q (remote s) \/ (exists D, target D /\ below q (removelast D)) in
  (forall q, file q -> ~ directory q) -> (forall q, file q -> at_ t q <> Some EDir) ->
  (forall q c, directory q -> at_ t q <> Some (EFile c)) ->
  exists z, fresult (ftp_send E s loc (connect t)) = FOk z /\
    (forall ld l, local_directory s = Some ld -> ld <> [] -> at_ loc (resolve (lcwd E) ld) = Some EDir -> file_list loc (resolve (lcwd E) ld) l ->
       z = Z.of_nat (List.length (local_files s) + List.length l)) /\
    (local_directory s = None \/ local_directory s = Some [] -> z = Z.of_nat (List.length (local_files s))).
Proof.
  intros E s loc t OK Hf Ab Hl target file directory H1 H2 H3.
  assert (Rd : ready E (meant (lcwd E) s loc) (remote s) t) by (constructor; assumption).
  destruct (send_tri E s loc t OK) as (_ & _ & h3). destruct (fresult (ftp_send E s loc (connect t))) as [z|er]; [|exfalso; apply h3; auto].
  exists z. split; [reflexivity|]. destruct h3 as (sent & _ & _ & -> & _ & _ & _ & h). specialize (h Rd Ab). subst sent. destruct (frels_spec E s loc t OK) as (Fn & Fs). split.
  - intros ld l El Nl Ad (Nd & Hl'). do 2 f_equal. apply Nat.le_antisymm; apply NoDup_incl_length; auto; intros rel Hin.
    + apply Fs in Hin as (ld' & w & a & _ & _ & d). apply Hl'. assert (ld' = ld) by congruence. subst. eauto.
    + apply Hl' in Hin as (w & d). apply Fs. exists ld, w. split; [assumption|]. split; [assumption|]. split; [|assumption]. intros ->. rewrite app_nil_r in d. congruence.
  - intros El. assert (E0 : frels E s loc = []) by (unfold frels; destruct El as [-> | ->]; reflexivity). rewrite E0. cbn [List.length]. rewrite Nat.add_0_r. reflexivity.
Qed.
Print Assumptions C75_succeeds.

(** The example meets these hypotheses. *)
Example C75_ex : let E := fx_env all_fine in let s := fx_sender in
  let target q := exists c, meant (lcwd E) s fx_loc c q in
  let file q := target q \/ (exists D, target D /\ ftp_temp D q) in
  let directory q := below q (remote s) \/ (exists D, target D /\ below q (removelast D)) in
  (forall q, file q -> ~ directory q) /\ (forall q, file q -> at_ fx_srv q <> Some EDir) /\
  (forall q c, directory q -> at_ fx_srv q <> Some (EFile c)) /\ file_list fx_loc [str_of "src"] [[str_of "a"]; [str_of "sub"; str_of "b"]].
Proof.
  intros E s target file directory.
  assert (FQ : forall q, file q -> exists p n, q = p ++ [n] /\ (p = [str_of "pub"] /\ (n = str_of "a" \/ n = str_of "a.tmp" \/ n = str_of "extra.txt" \/ n = str_of "extra.txt.tmp") \/ p = [str_of "pub"; str_of "sub"])).
  { assert (G : forall D, target D -> exists p n, D = p ++ [n] /\ (p = [str_of "pub"] /\ (n = str_of "a" \/ n = str_of "extra.txt") \/ p = [str_of "pub"; str_of "sub"])).
    { intros D (c & Hc). apply fx_meant in Hc as [->|[->| ->]].
      - exists [str_of "pub"], (str_of "a"). split; [reflexivity|]. left. auto.
      - exists [str_of "pub"; str_of "sub"], (str_of "b"). split; [reflexivity|]. right. reflexivity.
      - exists [str_of "pub"], (str_of "extra.txt"). split; [reflexivity|]. left. auto. }
    intros q [H|(D & H & p' & n' & E1 & E2)].
    - destruct (G q H) as (p & n & -> & K). exists p, n. split; [reflexivity|]. tauto.
    - destruct (G D H) as (p & n & -> & K). apply app_inj_tail in E1 as [<- <-]. subst q. exists p, (n ++ str_of ".tmp"). split; [reflexivity|].
      destruct K as [[-> [->| ->]]| ->]; [left|left|right; reflexivity]; (split; [reflexivity|]); auto. }
  assert (DQ : forall q, directory q -> below q [str_of "pub"; str_of "sub"]).
  { assert (ER : remote s = [str_of "pub"]) by (vm_compute; reflexivity). intros q [H|(D & (c & Hc) & H)].
    - rewrite ER in H. eapply below_trans; [exact H|]. exists [str_of "sub"]. reflexivity.
    - apply fx_meant in Hc as [->|[->| ->]]; cbn in H.
      + eapply below_trans; [exact H|]. exists [str_of "sub"]. reflexivity.
      + assumption.
      + eapply below_trans; [exact H|]. exists [str_of "sub"]. reflexivity. }
  split; [|split; [|split]].
  - intros q Hf Hd. apply FQ in Hf as (p & n & -> & K). apply DQ in Hd as (r & Hr). destruct K as [[-> K]| ->]; cbn in Hr.
    + injection Hr as E1 _. destruct K as [->|[->|[->| ->]]]; discriminate E1.
    + discriminate Hr.
  - intros q Hf A. apply FQ in Hf as (p & n & -> & K). destruct K as [[-> [->|[->|[->| ->]]]]| ->]; vm_compute in A; try discriminate A.
  - intros q c Hd A. apply DQ in Hd as (r & Hr). destruct q as [|x q]; [discriminate A|]. cbn in Hr. injection Hr as <- Hr. destruct q as [|y q]; [vm_compute in A; discriminate A|].
    cbn in Hr. injection Hr as <- Hr. destruct q as [|? q]; [vm_compute in A; discriminate A|discriminate Hr].
  - split.
    + repeat constructor; cbn; intuition discriminate.
    + intro rel. split.
      * intros [<-|[<-|[]]]; eexists; reflexivity.
      * intros (c & A). apply fx_files in A. cbn. intuition.
Qed.

(** A file that cannot be sent does not make the call fail, though the
    documentation says so: here a directory has the file's name on the server,
    every command is answered as it should be, and the call reports success. *)
Theorem C75_missing_refuted : exists E s loc t rel c z, ftp_ok E s loc t /\ ftp_no_clash (lcwd E) s loc /\ (forall i, fates E i = Fine) /\
  at_ loc (resolve (lcwd E) (str_of "/src") ++ rel) = Some (EFile c) /\ local_directory s = Some (str_of "/src") /\
  fresult (ftp_send E s loc (connect t)) = FOk z /\ z = 2 /\
  at_ (ffinal (ftp_send E s loc (connect t))) (remote s ++ rel) = Some EDir /\
  at_ (ffinal (ftp_send E s loc (connect t))) (remote s ++ [str_of "a.tmp"]) = Some (EFile c).
Proof.
  exists (fx_env all_fine), fx_sender, fx_loc, (Dir [(str_of "pub", Dir [(str_of "a", Dir [])])]), [str_of "a"], (str_of "new"), 2.
  split; [|split; [apply fx_clash|split; [reflexivity|vm_compute; repeat split]]].
  destruct (fx_ok all_fine). constructor; try assumption.
Qed.
Print Assumptions C75_missing_refuted.

(** With a relative remote directory the files of the directory are sent but
    none is counted. *)
Theorem C75_relative_refuted : exists E s loc t z, ftp_ok E s loc t /\ (forall i, fates E i = Fine) /\ remote_directory s = str_of "pub" /\
  local_directory s = Some (str_of "/src") /\ file_list loc (resolve (lcwd E) (str_of "/src")) [[str_of "a"]; [str_of "sub"; str_of "b"]] /\
  fresult (ftp_send E s loc (connect t)) = FOk z /\ z = Z.of_nat (List.length (local_files s)) /\
  at_ (ffinal (ftp_send E s loc (connect t))) (remote s ++ [str_of "a"]) = Some (EFile (str_of "new")) /\
  at_ (ffinal (ftp_send E s loc (connect t))) (remote s ++ [str_of "sub"; str_of "b"]) = Some (EFile (str_of "bb")).
Proof.
  set (s := {| remote_directory := str_of "pub"; local_files := [str_of "extra.txt"]; local_directory := Some (str_of "/src"); cancelfile := str_of ".cancel" |}).
  exists (fx_env all_fine), s, fx_loc, fx_srv, 1. split.
  - destruct (fx_ok all_fine). constructor; try assumption. cbn. intros [H|[]]; discriminate.
  - split; [reflexivity|]. split; [reflexivity|]. split; [reflexivity|]. split; [apply C75_ex|]. vm_compute. repeat split.
Qed.
Print Assumptions C75_relative_refuted.

(** ** C76  Cancelling, and how calls fail *)

(** A successful cancel leaves an empty marker; whatever happens, no other file
    of the server changes, its temporary name excepted. *)
Theorem C76_cancel : forall E s loc t s', ftp_ok E s loc t -> starts_sl (remote_directory s) = true ->
  let K := remote s ++ [cancelfile s] in
  let r := ftp_cancel E s (connect t) in
  (fresult r = FOk tt -> at_ (ffinal r) K = Some (EFile []) /\ forall q c, at_ (ffinal r) q = Some (EFile c) -> q = K \/ at_ t q = Some (EFile c)) /\
  (In s' (ftrace r) \/ s' = ffinal r -> forall q, ~ ftp_temp K q ->
     at_ s' q = at_ t q \/ (q = K /\ at_ s' q = Some (EFile [])) \/ (at_ t q = None /\ at_ s' q = Some EDir /\ below q (remote s))).
Proof.
  intros E s loc t s' OK Ab K r. subst r. destruct (cancel_tri E s loc t OK Ab) as (h1 & h2 & h3). cbn [connect tree] in *. split.
  - intro H. rewrite H in h3. destruct h3 as (a & b). split; [exact a|]. intros q c Hq. destruct (b q c Hq) as [(c' & _ & e)|e]; auto.
  - intros H q Hq. assert (St : stage (mark s) (remote s) t s') by (destruct H as [H| ->]; auto).
    destruct (st_other _ _ _ _ St q) as [e|[(a & b & e)|(c & (-> & e1) & e2)]]; auto.
    + intros (D & (c & _ & ->) & T). contradiction.
    + right. right. split; [assumption|]. split; [assumption|]. destruct e as [e|(D & (c & _ & ->) & e)]; [assumption|]. rewrite removelast_last in e. assumption.
Qed.
Print Assumptions C76_cancel.

(** Cancelling succeeds if nothing is in the way. *)
Theorem C76_succeeds : forall E s loc t, ftp_ok E s loc t -> starts_sl (remote_directory s) = true -> (forall i, fates E i = Fine) ->
  (forall q c, below q (remote s) -> at_ t q <> Some (EFile c)) ->
  at_ t (remote s ++ [cancelfile s]) <> Some EDir -> at_ t (remote s ++ [cancelfile s ++ str_of ".tmp"]) <> Some EDir ->
  fresult (ftp_cancel E s (connect t)) = FOk tt.
Proof.
  intros E s loc t OK Ab Hf H1 H2 H3. destruct (cancel_tri E s loc t OK Ab) as (_ & _ & h3). cbn [connect tree] in *.
  destruct (fresult (ftp_cancel E s (connect t))) as [[]|er]; [reflexivity|]. exfalso. apply h3.
  assert (TG : forall q, tgt (mark s) q -> q = remote s ++ [cancelfile s]) by (intros q (c & _ & ->); reflexivity).
  assert (FQ : forall q, Files (mark s) q -> q = remote s ++ [cancelfile s] \/ q = remote s ++ [cancelfile s ++ str_of ".tmp"]).
  { intros q [H|(D & H & p & n & E1 & E2)]; [left; auto|]. right. apply TG in H. rewrite H in E1. apply app_inj_tail in E1 as [<- <-]. assumption. }
  assert (DQ : forall q, Dirs (mark s) (remote s) q -> below q (remote s)).
  { intros q [H|(D & H & B)]; [assumption|]. apply TG in H. subst D. rewrite removelast_last in B. assumption. }
  constructor; auto.
  - intros q F D. apply DQ in D as (r & Hr). apply (f_equal (@List.length _)) in Hr. rewrite app_length in Hr. destruct (FQ q F) as [->| ->]; rewrite app_length in Hr; cbn in Hr; lia.
  - intros q F. destruct (FQ q F) as [->| ->]; assumption.
Qed.
Print Assumptions C76_succeeds.

Example C76_ex : let r := ftp_cancel (fx_env all_fine) fx_sender (connect fx_srv) in
  fresult r = FOk tt /\ at_ (ffinal r) [str_of "pub"; str_of ".cancel"] = Some (EFile []) /\ at_ (ffinal r) [str_of "pub"; str_of "keep"] = Some (EFile (str_of "k")) /\
  starts_sl (remote_directory fx_sender) = true.
Proof. vm_compute. repeat split. Qed.

(** With a relative remote directory cancel fails although the directory is there,
    or puts the marker into a directory further down. *)
Theorem C76_relative_refuted : exists E s loc t t', ftp_ok E s loc t /\ ftp_ok E s loc t' /\ (forall i, fates E i = Fine) /\
  at_ t (remote s) = Some EDir /\ fresult (ftp_cancel E s (connect t)) = FErr (Other Generic) /\
  fresult (ftp_cancel E s (connect t')) = FOk tt /\ at_ (ffinal (ftp_cancel E s (connect t'))) (remote s ++ [cancelfile s]) = None /\
  at_ (ffinal (ftp_cancel E s (connect t'))) (remote s ++ remote s ++ [cancelfile s]) = Some (EFile []).
Proof.
  set (s := {| remote_directory := str_of "pub"; local_files := []; local_directory := None; cancelfile := str_of ".cancel" |}).
  exists (fx_env all_fine), s, fx_loc, fx_srv, (Dir [(str_of "pub", Dir [(str_of "pub", Dir [])])]).
  assert (G : forall t, at_ t [] = Some EDir -> ftp_ok (fx_env all_fine) s fx_loc t).
  { intros t Ht. destruct (fx_ok all_fine). constructor; try assumption.
    - cbn. intros [H|[]]; discriminate.
    - intros ld rel c H. discriminate.
    - intros f n []. }
  split; [apply G; reflexivity|]. split; [apply G; reflexivity|]. split; [reflexivity|]. vm_compute. repeat split.
Qed.
Print Assumptions C76_relative_refuted.

(** A marker stays when files are sent again, unlike with the copying sender. *)
Theorem C76_marker_stays : forall E s loc t s' w, ftp_ok E s loc t ->
  In s' (ftrace (ftp_send E s loc (connect t))) \/ s' = ffinal (ftp_send E s loc (connect t)) ->
  let K := remote s ++ [cancelfile s] in
  at_ t K = Some (EFile w) -> (forall c, ~ meant (lcwd E) s loc c K) -> (forall c D, meant (lcwd E) s loc c D -> ~ ftp_temp D K) ->
  at_ s' K = Some (EFile w).
Proof.
  intros E s loc t s' w OK H K A N1 N2. destruct (C74_every_state E s loc t s' OK H K) as [e|[(c & e & _)|(e & _)]].
  - intros (c & D & HD & T). apply (N2 c D HD T).
  - congruence.
  - exfalso. apply (N1 c e).
  - congruence.
Qed.
Print Assumptions C76_marker_stays.

(** Every failed send raises NameError: the message names an undefined variable. *)
Theorem C76_name_error : forall E s loc t e, fresult (ftp_send E s loc (connect t)) = FErr e -> e = Other NameErr.
Proof.
  intros E s loc t e H. unfold ftp_send, on_any, fresult, fraise in H.
  match type of H with context [match ?m with _ => _ end] => destruct m as [[tr [a|x]] c1] end; cbn in H; congruence.
Qed.
Print Assumptions C76_name_error.

(** Copying one file without a local folder, which _copy_file_with_path allows, never
    succeeds and never sends anything: the file's name is not defined. *)
Theorem C76_no_folder : forall E loc f r c, let x := ftp_copy E loc f r None c in
  (exists e, fresult x = FErr e) /\ ftrace x = [] /\ ffinal x = tree c.
Proof.
  intros E loc f r c x. unfold x, ftp_copy, fbind, ftp_cwd, command. destruct (fates E (clock c)); unfold abind, asks, aret, araise, fresult, ftrace, ffinal in *;
    repeat match goal with |- context [if ?b then _ else _] => destruct b end; cbn; eauto.
Qed.
Print Assumptions C76_no_folder.
Example C76_no_folder_ex : fresult (ftp_copy (fx_env all_fine) fx_loc (str_of "extra.txt") (str_of "/pub") None (connect fx_srv)) = FErr (Other NameErr).
Proof. vm_compute. reflexivity. Qed.
