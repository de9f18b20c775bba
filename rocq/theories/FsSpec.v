(** The file system seen from outside: what is found at each absolute path. *)
From Coq Require Import ZArith String Ascii Bool List Lia.
From Verif Require Import PyBase PyStr FsModel.
Import ListNotations.

Inductive ent := EFile (c : str) | EDir.
Definition at_ (t : fsn) (p : path) : option ent :=
  match find t p with
  | Some (File c) => Some (EFile c)
  | Some (Dir _) => Some EDir
  | None => None
  end.

(** Names a POSIX directory can contain. *)
Definition fname_ok (s : str) : Prop := s <> [] /\ s <> str_of "." /\ s <> str_of ".." /\ ~ In sl s.

(** A proper file system: no name twice in a directory, proper names. *)
Fixpoint wf (t : fsn) : Prop :=
  match t with
  | File _ => True
  | Dir es => NoDup (map fst es) /\ Forall fname_ok (map fst es) /\
              fold_right (fun kn P => wf (snd kn) /\ P) True es
  end.

(** [q] is [p] or below it. *)
Definition below (p q : path) : Prop := exists r, q = p ++ r.

(** The files below [p], by relative path, each once. *)
Definition file_list (t : fsn) (p : path) (l : list path) : Prop :=
  NoDup l /\ forall rel, In rel l <-> exists c, at_ t (p ++ rel) = Some (EFile c).
