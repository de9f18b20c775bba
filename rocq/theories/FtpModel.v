(** Model of /repo/impactutils/transfer/ftpsender.py.

    The FTP server is a tree of directories and files with a current directory.
    Each protocol command may be carried out, be refused, or be carried out
    without the client learning it; which, is up to the environment, as is the
    way a transferred content is cut into pieces.  Commands that the server
    cannot carry out are answered with error_perm (reply 550).  The local files
    do not change during a call.  Not modelled: messages, login names,
    exceptions that are not of class Exception. *)
From Coq Require Import ZArith String Ascii Bool List Lia.
From Verif Require Import PyBase PyStr FsModel CopyModel.
Import ListNotations.
Open Scope Z_scope.

(** ftplib.error_perm, and everything else. *)
Inductive ferr := Perm | Other (e : exn).
Inductive fres (A : Type) := FOk (a : A) | FErr (e : ferr).
Arguments FOk {A}. Arguments FErr {A}.

(** What becomes of a command. *)
Inductive fate := Fine | Refused (e : ferr) | Lost (e : exn).
(** The local working directory, the pieces in which the transfer started by the
    n-th command arrives, and the fate of the n-th command. *)
Record fenv := { lcwd : path; pieces : nat -> str -> list str; fates : nat -> fate }.

(** The server's files, the current directory, the number of commands so far. *)
Record conn := { tree : fsn; here : path; clock : nat }.
(** The server's files after each change, the result, the connection. *)
Definition fact (A : Type) := conn -> list fsn * fres A * conn.

Definition fret {A} (a : A) : fact A := fun c => ([], FOk a, c).
Definition fraise {A} (e : ferr) : fact A := fun c => ([], FErr e, c).
Definition fbind {A B} (m : fact A) (f : A -> fact B) : fact B :=
  fun c => match m c with
           | (tr, FOk a, c1) => match f a c1 with (tr', r, c2) => (tr ++ tr', r, c2) end
           | (tr, FErr e, c1) => (tr, FErr e, c1)
           end.
(** try: m / except error_perm: h *)
Definition on_perm {A} (m h : fact A) : fact A :=
  fun c => match m c with
           | (tr, FErr Perm, c1) => match h c1 with (tr', r, c2) => (tr ++ tr', r, c2) end
           | x => x
           end.
(** try: m / except: h *)
Definition on_any {A} (m h : fact A) : fact A :=
  fun c => match m c with
           | (tr, FErr _, c1) => match h c1 with (tr', r, c2) => (tr ++ tr', r, c2) end
           | x => x
           end.
Notation "x <~ m ;; k" := (fbind m (fun x => k)) (at level 61, m at next level, right associativity).
Notation "m ;~ k" := (fbind m (fun _ => k)) (at level 61, right associativity).

Definition ftrace {A} (r : list fsn * fres A * conn) : list fsn := fst (fst r).
Definition fresult {A} (r : list fsn * fres A * conn) : fres A := snd (fst r).
Definition ffinal {A} (r : list fsn * fres A * conn) : fsn := tree (snd r).

Section Ftp.
Variable E : fenv.

(** One command; [f] gives its effect and the new current directory. *)
Definition command (f : path -> act path) : fact unit :=
  fun c =>
    let at_once w t := {| tree := t; here := w; clock := S (clock c) |} in
    match fates E (clock c) with
    | Refused e => ([], FErr e, at_once (here c) (tree c))
    | Fine =>
        match f (here c) (tree c) with
        | (tr, Ok w, t) => (tr, FOk tt, at_once w t)
        | (tr, Err _, t) => (tr, FErr Perm, at_once (here c) t)
        end
    | Lost x =>
        match f (here c) (tree c) with
        | (tr, Ok w, t) => (tr, FErr (Other x), at_once w t)
        | (tr, Err _, t) => (tr, FErr (Other x), at_once (here c) t)
        end
    end.

Definition noop : fact unit := command (fun w => aret w).   (* connect, login, quit *)
Definition ftp_cwd (d : str) : fact unit :=
  command (fun w => ok <- asks (is_dir (resolve w d)) ;; if (ok : bool) then aret (resolve w d) else araise IOErr).
Definition ftp_mkd (d : str) : fact unit :=
  command (fun w => n <- asks (fun t => find t (resolve w d)) ;;
                    match n with
                    | None => change (fun t => place t (resolve w d) (Dir [])) IOErr ;;; aret w
                    | Some _ => araise IOErr
                    end).
Definition ftp_rename (a b : str) : fact unit :=
  command (fun w => os_rename (resolve w a) (resolve w b) ;;; aret w).
(** storbinary: STOR and the pieces of the content. *)
Fixpoint ftp_pieces (name : str) (l : list str) : fact unit :=
  match l with
  | [] => fret tt
  | x :: r => command (fun w => append_file (resolve w name) x ;;; aret w) ;~ ftp_pieces name r
  end.
Definition ftp_stor (name content : str) : fact unit :=
  fun c => (command (fun w => open_write (resolve w name) ;;; aret w) ;~ ftp_pieces name (pieces E (clock c) content)) c.

(** ftpsender.py:256-264, after the file is read *)
Definition put (name content : str) : fact unit :=
  ftp_stor (name ++ str_of ".tmp") content ;~ ftp_rename (name ++ str_of ".tmp") name.

(** ftpsender.py:246-264  __sendfile; open() is evaluated before the transfer. *)
Definition sendfile (loc : fsn) (filename : str) : fact unit :=
  match find loc (resolve (lcwd E) filename) with
  | Some (File c) => put (snd (os_split filename)) c
  | _ => fraise (Other FileNotFoundError)
  end.

(** ftpsender.py:269-270  _split *)
Definition ftp_split (p : str) : list str := split_sl (strip_sl p).
(** ftpsender.py:272-276  _path_split *)
Definition path_split (p : str) : str * str :=
  let parts := ftp_split p in (str_of "/" ++ join (str_of "/") (removelast parts), last parts []).

(** ftpsender.py:188-197 *)
Fixpoint cd_or_make (parts : list str) : fact unit :=
  match parts with
  | [] => fret tt
  | d :: r =>
      on_perm (ftp_cwd d) (on_perm (ftp_mkd d ;~ ftp_cwd d) (fraise (Other Generic))) ;~ cd_or_make r
  end.
(** ftpsender.py:171-197  _create_remote_directory *)
Definition create_remote_directory (d : str) : fact unit :=
  ftp_cwd (str_of "/") ;~ on_perm (ftp_cwd d) (cd_or_make (ftp_split d)).

(** ftpsender.py:131-169  _setup *)
Definition setup (remote_folder : str) : fact unit :=
  on_perm (noop ;~ noop) (fraise (Other Generic)) ;~
  on_any (create_remote_directory remote_folder) (noop ;~ fraise (Other Generic)).

(** ftpsender.py:199-244  _copy_file_with_path; without a local folder the name
    [filename] in line 229 is not defined. *)
Definition ftp_copy (loc : fsn) (local_file remote_folder : str) (local_folder : option str) : fact unit :=
  match local_folder with
  | None => ftp_cwd remote_folder ;~ fraise (Other NameErr)
  | Some lf =>
      let remote_file := str_of "/" ++ join (str_of "/") (ftp_split remote_folder ++ ftp_split (py_replace local_file lf [])) in
      let remfolder := fst (path_split remote_file) in
      on_perm (ftp_cwd remfolder) (create_remote_directory remfolder) ;~
      sendfile loc local_file ;~
      ftp_cwd remote_folder
  end.

(** ftpsender.py:77-79 *)
Fixpoint send_listed (loc : fsn) (fs : list str) : fact unit :=
  match fs with [] => fret tt | f :: r => sendfile loc f ;~ send_listed loc r end.
(** ftpsender.py:85-92: what cannot be sent is skipped. *)
Fixpoint send_tree (loc : fsn) (fs : list str) (remote_folder local_folder : str) (n : Z) : fact Z :=
  match fs with
  | [] => fret n
  | f :: r =>
      k <~ on_any (ftp_copy loc f remote_folder (Some local_folder) ;~ fret 1) (fret 0) ;;
      send_tree loc r remote_folder local_folder (n + k)
  end.

(** sender.py:97-105  getAllLocalFiles *)
Definition ftp_local_files (loc : fsn) (ld : str) : list str :=
  match ld with
  | [] => []
  | _ => match find loc (resolve (lcwd E) ld) with Some n => walk_files ld n | None => [] end
  end.

(** ftpsender.py:56-98  send; line 98 uses the undefined name [host]. *)
Definition ftp_send (s : sender) (loc : fsn) : fact Z :=
  on_any
    (setup (remote_directory s) ;~
     send_listed loc (local_files s) ;~
     n <~ match local_directory s with
          | Some ld => send_tree loc (ftp_local_files loc ld) (remote_directory s) ld (Z.of_nat (List.length (local_files s)))
          | None => fret (Z.of_nat (List.length (local_files s)))
          end ;;
     noop ;~ fret n)
    (fraise (Other NameErr)).

(** ftpsender.py:100-129  cancel, for a cancel file without slashes in its name;
    the marker is an empty local file. *)
Definition ftp_cancel (s : sender) : fact unit :=
  setup (remote_directory s) ;~
  on_any (ftp_cwd (remote_directory s) ;~ put (cancelfile s) []) (fraise (Other Generic)).
End Ftp.

Definition connect (t : fsn) : conn := {| tree := t; here := []; clock := 0%nat |}.
