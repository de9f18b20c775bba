(** Model of /repo/impactutils/transfer/sender.py and factory.py: construction
    and modification of senders.  The property dictionary is represented by its
    keys and values; values other than those of the mail and PDL senders do not
    matter here. *)
From Coq Require Import ZArith String Ascii Bool List Lia.
From Verif Require Import PyBase PyStr FsModel.
Import ListNotations.

(** Errors with what they name. *)
Inductive init_err :=
| Missing (prop : str)     (* RequiredArgumentError *)
| NotAList                 (* TypeError: Input files must be a list *)
| NoFile (f : str)         (* FileNotFoundError *)
| UndefinedName            (* NameError *)
| NoneNotIterable.         (* TypeError: argument of type 'NoneType' is not iterable *)

(** The local_files argument. *)
Inductive files_arg := FilesNone | FilesList (l : list str) | FilesOther.

Record base := {
  b_props : option (list (str * str));   (* self._properties *)
  b_files : list str;                    (* self._local_files *)
  b_dir : option str;                    (* self._local_directory *)
  b_cancel : str                         (* self._cancelfile *)
}.

Definition has_key {A} (k : str) (d : list (str * A)) : bool := existsb (fun kv => str_eqb k (fst kv)) d.

(** sender.py:52-55: the first required property that is absent. *)
Fixpoint check_required (req : list str) (props : option (list (str * str))) : option init_err :=
  match req with
  | [] => None
  | p :: req' =>
      match props with
      | None => Some NoneNotIterable
      | Some d => if has_key p d then check_required req' props else Some (Missing p)
      end
  end.

(** sender.py:60-63: the first file that does not exist. *)
Fixpoint check_files (isfile : str -> bool) (l : list str) : option init_err :=
  match l with
  | [] => None
  | f :: l' => if isfile f then check_files isfile l' else Some (NoFile f)
  end.

(** sender.py:34-79  Sender.__init__; [directory] in line 68 is not defined. *)
Definition sender_init (required : list str) (isfile isdir : str -> bool)
    (props : option (list (str * str))) (files : files_arg) (dir : option str) (cancelfile : str) : base + init_err :=
  match check_required required props with
  | Some e => inr e
  | None =>
      match (match files with
             | FilesNone => None
             | FilesOther => Some NotAList
             | FilesList l => check_files isfile l
             end) with
      | Some e => inr e
      | None =>
          match (match dir with
                 | None => None
                 | Some d => if isdir d then None else Some UndefinedName
                 end) with
          | Some e => inr e
          | None => inl {| b_props := props;
                           b_files := match files with FilesList l => l | _ => [] end;
                           b_dir := dir; b_cancel := cancelfile |}
          end
      end
  end.

(** sender.py:81-82  addProperty; None has no item assignment. *)
Fixpoint dict_set (k v : str) (d : list (str * str)) : list (str * str) :=
  match d with
  | [] => [(k, v)]
  | (k', v') :: d' => if str_eqb k k' then (k', v) :: d' else (k', v') :: dict_set k v d'
  end.
Definition add_property (k v : str) (b : base) : base + init_err :=
  match b_props b with
  | None => inr NoneNotIterable
  | Some d => inl {| b_props := Some (dict_set k v d); b_files := b_files b; b_dir := b_dir b; b_cancel := b_cancel b |}
  end.

(** sender.py:84-88  addFiles: iterates over the undefined name [files]. *)
Definition add_files (l : list str) (b : base) : base + init_err := inr UndefinedName.

(** sender.py:90-95  changeDirectory (the alias is stored and never read). *)
Definition change_directory (isdir : str -> bool) (d : str) (b : base) : base + init_err :=
  if isdir d then inl {| b_props := b_props b; b_files := b_files b; b_dir := Some d; b_cancel := b_cancel b |}
  else inr UndefinedName.

Inductive edit := AddProperty (k v : str) | AddFiles (l : list str) | ChangeDirectory (d : str).
(** A call: the new object (unchanged when an exception is raised) and the exception. *)
Definition apply_edit (isdir : str -> bool) (o : edit) (b : base) : base * option init_err :=
  match (match o with
         | AddProperty k v => add_property k v b
         | AddFiles l => add_files l b
         | ChangeDirectory d => change_directory isdir d b
         end) with
  | inl b' => (b', None)
  | inr e => (b, Some e)
  end.
(** Calls over time; the file system may differ at each. *)
Fixpoint edits (l : list ((str -> bool) * edit)) (b : base) : base :=
  match l with [] => b | (isdir, o) :: l' => edits l' (fst (apply_edit isdir o b)) end.

(** factory.py:8-34  get_sender_class *)
Inductive klass := KCopy | KFtp | KPdl | KEmail | KSsh.
Definition get_sender_class (s : str) : res klass :=
  if str_eqb s (str_of "copy") then Ok KCopy
  else if str_eqb s (str_of "ftp") then Ok KFtp
  else if str_eqb s (str_of "pdl") then Ok KPdl
  else if str_eqb s (str_of "email") then Ok KEmail
  else if str_eqb s (str_of "ssh") then Ok KSsh
  else Err KeyError.

(** copysender.py:43, ftpsender.py:53, pdlsender.py:59-61, emailsender.py:111-112,
    securesender.py:47: _required_properties *)
Definition required_properties (k : klass) : list str :=
  map str_of
    match k with
    | KCopy => ["remote_directory"]%string
    | KFtp => ["remote_directory"; "remote_host"]%string
    | KPdl => ["java"; "jarfile"; "privatekey"; "configfile"; "source"; "type"; "code"; "eventsource"; "eventsourcecode"]%string
    | KEmail => ["smtp_servers"; "sender"; "subject"; "recipients"; "message"]%string
    | KSsh => ["private_key"; "remote_host"; "remote_directory"]%string
    end.
