(** Model of /repo/impactutils/transfer/copysender.py and of
    Sender.getAllLocalFiles (sender.py:89-106). *)
From Coq Require Import ZArith String Ascii Bool List Lia.
From Verif Require Import PyBase PyStr FsModel.
Import ListNotations.
Open Scope Z_scope.

(** What the sender does not control: the working directory, how copyfile cuts
    the n-th content into pieces, and the time stamp of the n-th copy. *)
Record env := { cwd : path; chunk : nat -> str -> list str; stamp : nat -> str }.

Record sender := {
  remote_directory : str;          (* self._properties['remote_directory'] *)
  local_files : list str;          (* self._local_files *)
  local_directory : option str;    (* self._local_directory *)
  cancelfile : str                 (* self._cancelfile *)
}.

(** sender.py:97-105  getAllLocalFiles; os.walk of a non-directory yields nothing. *)
Definition all_local_files (e : env) (ld : str) (t : fsn) : list str :=
  match find t (resolve (cwd e) ld) with
  | Some n => walk_files ld n
  | None => []
  end.

(** copysender.py:139-150: the path the file is copied to. *)
Definition remote_name (local_file remote_folder : str) (local_folder : option str) : str :=
  match local_folder with
  | Some lf =>
      os_join_all (str_of "/")
        (split_sl (strip_sl remote_folder) ++ split_sl (strip_sl (py_replace local_file lf [])))
  | None => os_join remote_folder (snd (os_split local_file))
  end.

Definition tmp_name (remote_file : str) (st : str) : str := remote_file ++ str_of ".tmp_" ++ st.

(** copysender.py:110-153  _copy_file_with_path, as the [i]-th copy. *)
Definition copy_file_with_path (e : env) (i : nat) (local_file remote_folder : str) (local_folder : option str) : act unit :=
  let remote_file := remote_name local_file remote_folder local_folder in
  let root := resolve (cwd e) (fst (os_split remote_file)) in
  (match local_folder with
   | Some _ => d <- asks (is_dir root) ;; if (d : bool) then aret tt else makedirs [] root
   | None => aret tt
   end) ;;;
  let dst := resolve (cwd e) remote_file in
  let tmp := resolve (cwd e) (tmp_name remote_file (stamp e i)) in
  copyfile (chunk e i) (resolve (cwd e) local_file) tmp ;;;
  os_rename tmp dst.

Fixpoint copy_all (e : env) (i : nat) (fs : list str) (remote_folder : str) (local_folder : option str) : act unit :=
  match fs with
  | [] => aret tt
  | f :: fs' => copy_file_with_path e i f remote_folder local_folder ;;; copy_all e (S i) fs' remote_folder local_folder
  end.

Definition cancel_path (e : env) (s : sender) : path := resolve (cwd e) (os_join (remote_directory s) (cancelfile s)).

(** copysender.py:46-88  send; returns the number of files. *)
Definition send (e : env) (s : sender) : act Z :=
  let rf := remote_directory s in
  c <- asks (is_file (cancel_path e s)) ;;
  (if (c : bool) then os_remove (cancel_path e s) else aret tt) ;;;
  d <- asks (is_dir (resolve (cwd e) rf)) ;;
  (if (d : bool) then aret tt else makedirs [] (resolve (cwd e) rf)) ;;;
  n <- match local_directory s with
       | Some ((_ :: _) as ld) =>
           fs <- asks (all_local_files e ld) ;;
           copy_all e 0 fs rf (Some ld) ;;;
           fs' <- asks (all_local_files e ld) ;;
           aret (List.length fs, List.length fs + List.length fs')%nat
       | _ => aret (0, 0)%nat
       end ;;
  copy_all e (fst n) (local_files s) rf None ;;;
  aret (Z.of_nat (snd n + List.length (local_files s))).

(** copysender.py:90-108  cancel *)
Definition cancel (e : env) (s : sender) (content : option str) : act unit :=
  open_write (cancel_path e s) ;;;
  match content with Some c => append_file (cancel_path e s) c | None => aret tt end.
