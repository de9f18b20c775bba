(** What sending by FTP is meant to do, in terms of what is found at each path
    on the server. *)
From Coq Require Import ZArith String Ascii Bool List Lia.
From Verif Require Import PyBase PyStr FsModel FsSpec CopyModel CopySpec FtpModel.
Import ListNotations.

(** The server's directory: relative paths start at the root. *)
Definition remote (s : sender) : path := resolve [] (remote_directory s).

(** [c] is meant for the path [D] on the server. *)
Inductive meant (lw : path) (s : sender) (loc : fsn) : str -> path -> Prop :=
| of_directory : forall ld rel c, local_directory s = Some ld -> ld <> [] -> rel <> [] ->
    at_ loc (resolve lw ld ++ rel) = Some (EFile c) -> meant lw s loc c (remote s ++ rel)
| of_list : forall f n c, In f (local_files s) -> base_of f n -> at_ loc (resolve lw f) = Some (EFile c) ->
    meant lw s loc c (remote s ++ [n]).

(** [T] is the temporary name used for [D]. *)
Definition ftp_temp (D T : path) : Prop := exists p n, D = p ++ [n] /\ T = p ++ [n ++ str_of ".tmp"].

Record ftp_ok (E : fenv) (s : sender) (loc t : fsn) : Prop := {
  fo_local : wf loc;
  fo_root : at_ t [] = Some EDir;
  fo_pieces : forall i c, concat (pieces E i c) = c;
  fo_up : ~ In (str_of "..") (split_sl (remote_directory s));
  (* the local directory's name does not occur again in the names of its files *)
  fo_once : forall ld rel c, local_directory s = Some ld -> ld <> [] ->
    at_ loc (resolve (lcwd E) ld ++ rel) = Some (EFile c) -> ~ inside ld (sl :: slashed rel);
  fo_listed : forall f n, In f (local_files s) -> base_of f n -> fname_ok n;
  fo_cancelfile : fname_ok (cancelfile s)
}.

(** No path is meant for a file and is the temporary name of another. *)
Definition ftp_no_clash (lw : path) (s : sender) (loc : fsn) : Prop :=
  forall c D c' D', meant lw s loc c D -> meant lw s loc c' D' -> ~ ftp_temp D' D.
