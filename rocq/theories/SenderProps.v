(** Property C27: which senders can be constructed. *)
From Coq Require Import ZArith String Ascii Bool List Lia.
From Verif Require Import PyBase PyStr FsModel SenderModel SenderProofs.
Import ListNotations.

(** ** C27  Sender construction accepts exactly complete configurations *)
Theorem C27_accepts : forall required isfile isdir props files dir cancelfile b,
  sender_init required isfile isdir props files dir cancelfile = inl b <->
  ((forall p, In p required -> present props p) /\
   match files with FilesNone => True | FilesList l => forall f, In f l -> isfile f = true | FilesOther => False end /\
   (forall d, dir = Some d -> isdir d = true)) /\
  b_props b = props /\ b_dir b = dir /\ b_cancel b = cancelfile /\
  match files with FilesList l => b_files b = l | _ => b_files b = [] end.
Proof. exact init_accepts. Qed.
Print Assumptions C27_accepts.

(** What each kind of sender asks for, property by property. *)
Definition needed_by (p : string) (ks : list klass) : Prop := forall k, In (str_of p) (required_properties k) <-> In k ks.
Theorem C27_required :
  needed_by "remote_directory" [KCopy; KFtp; KSsh] /\ needed_by "remote_host" [KFtp; KSsh] /\ needed_by "private_key" [KSsh] /\
  needed_by "java" [KPdl] /\ needed_by "jarfile" [KPdl] /\ needed_by "privatekey" [KPdl] /\ needed_by "configfile" [KPdl] /\ needed_by "source" [KPdl] /\
  needed_by "type" [KPdl] /\ needed_by "code" [KPdl] /\ needed_by "eventsource" [KPdl] /\ needed_by "eventsourcecode" [KPdl] /\
  needed_by "smtp_servers" [KEmail] /\ needed_by "sender" [KEmail] /\ needed_by "subject" [KEmail] /\ needed_by "recipients" [KEmail] /\ needed_by "message" [KEmail] /\
  forall k, List.length (required_properties k) = match k with KCopy => 1 | KFtp => 2 | KSsh => 3 | KPdl => 9 | KEmail => 5 end.
Proof.
  repeat split; intros; unfold needed_by in *;
  repeat match goal with k : klass |- _ => destruct k end; cbn in *; try reflexivity; try tauto;
  repeat match goal with H : _ \/ _ |- _ => destruct H as [H|H] | H : False |- _ => destruct H | H : _ = _ |- _ => discriminate H end.
Qed.
Print Assumptions C27_required.

(** The first failing check decides the exception. *)
Theorem C27_missing_property : forall required isfile isdir d files dir cancelfile p,
  sender_init required isfile isdir (Some d) files dir cancelfile = inr (Missing p) <->
  exists pre post, required = pre ++ p :: post /\ (forall x, In x pre -> present (Some d) x) /\ ~ present (Some d) p.
Proof. exact init_missing. Qed.
Print Assumptions C27_missing_property.

Theorem C27_no_properties : forall required isfile isdir files dir cancelfile,
  required <> [] -> sender_init required isfile isdir None files dir cancelfile = inr NoneNotIterable.
Proof. exact init_none. Qed.
Print Assumptions C27_no_properties.

Theorem C27_not_a_list : forall required isfile isdir props dir cancelfile,
  (forall p, In p required -> present props p) ->
  sender_init required isfile isdir props FilesOther dir cancelfile = inr NotAList.
Proof. exact init_not_list. Qed.
Print Assumptions C27_not_a_list.

Theorem C27_missing_file : forall required isfile isdir props l dir cancelfile f,
  (forall p, In p required -> present props p) ->
  (sender_init required isfile isdir props (FilesList l) dir cancelfile = inr (NoFile f) <->
   exists pre post, l = pre ++ f :: post /\ (forall x, In x pre -> isfile x = true) /\ isfile f = false).
Proof. exact init_missing_file. Qed.
Print Assumptions C27_missing_file.

(** Finding: a missing directory is reported by a NameError, not by the
    FileNotFoundError the code means to raise. *)
Theorem C27_missing_directory : forall required isfile isdir props files d cancelfile,
  (forall p, In p required -> present props p) ->
  match files with FilesNone => True | FilesList l => forall f, In f l -> isfile f = true | FilesOther => False end ->
  isdir d = false -> sender_init required isfile isdir props files (Some d) cancelfile = inr UndefinedName.
Proof. exact init_missing_dir. Qed.
Print Assumptions C27_missing_directory.

(** Afterwards: whatever is called in whatever order, the required properties
    stay, the files are those of the construction (addFiles always fails), and
    the directory existed when it was set. *)
Theorem C27_later : forall required isfile isdir props files dir cancelfile b l,
  sender_init required isfile isdir props files dir cancelfile = inl b ->
  let b' := edits l b in
  (forall p, In p required -> present (b_props b') p) /\ b_files b' = b_files b /\
  (b_dir b' = dir \/ exists isdir' d, In (isdir', ChangeDirectory d) l /\ isdir' d = true /\ b_dir b' = Some d).
Proof. exact edits_keep. Qed.
Print Assumptions C27_later.

Theorem C27_factory : forall s k, get_sender_class s = Ok k <->
  In (s, k) [(str_of "copy", KCopy); (str_of "ftp", KFtp); (str_of "pdl", KPdl); (str_of "email", KEmail); (str_of "ssh", KSsh)].
Proof. exact factory_names. Qed.
Print Assumptions C27_factory.
Theorem C27_factory_other : forall s, (forall k, get_sender_class s <> Ok k) <-> get_sender_class s = Err KeyError.
Proof. exact factory_other. Qed.
Print Assumptions C27_factory_other.

Example C27_ex : let props := Some [(str_of "remote_directory", str_of "/out"); (str_of "remote_host", str_of "h")] in
  let isfile f := str_eqb f (str_of "a") in let isdir d := str_eqb d (str_of "/d") in
  let init k := sender_init (required_properties k) isfile isdir props (FilesList [str_of "a"]) (Some (str_of "/d")) [] in
  (exists b, init KFtp = inl b) /\ init KSsh = inr (Missing (str_of "private_key")) /\
  sender_init (required_properties KCopy) isfile isdir props (FilesList [str_of "a"; str_of "b"]) None [] = inr (NoFile (str_of "b")) /\
  sender_init (required_properties KCopy) isfile isdir props FilesNone (Some (str_of "/x")) [] = inr UndefinedName.
Proof. split; [eexists; vm_compute; reflexivity|]. repeat split; vm_compute; reflexivity. Qed.
