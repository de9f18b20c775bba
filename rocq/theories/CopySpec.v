(** What sending by copy is meant to do, in terms of what is found at each path. *)
From Coq Require Import ZArith String Ascii Bool List Lia.
From Verif Require Import PyBase PyStr FsModel FsSpec CopyModel.
Import ListNotations.

(** [n] is the last part of the path string [f]. *)
Definition base_of (f n : str) : Prop := ~ In sl n /\ (f = n \/ exists h, f = h ++ sl :: n).
(** [a] occurs in [s]. *)
Definition inside (a s : str) : Prop := exists u v, s = u ++ a ++ v.
(** The parts [l], separated by slashes. *)
Fixpoint slashed (l : list str) : str :=
  match l with [] => [] | [x] => x | x :: r => x ++ sl :: slashed r end.
(** [T] is the temporary name used for [D]. *)
Definition temp_of (e : env) (D T : path) : Prop :=
  exists p n i, D = p ++ [n] /\ T = p ++ [n ++ str_of ".tmp_" ++ stamp e i].

(** The file at [S] is to be copied to [D]. *)
Inductive source (e : env) (s : sender) (t : fsn) : path -> path -> Prop :=
| from_directory : forall ld rel c, local_directory s = Some ld -> ld <> [] -> rel <> [] ->
    at_ t (resolve (cwd e) ld ++ rel) = Some (EFile c) ->
    source e s t (resolve (cwd e) ld ++ rel) (resolve (cwd e) (remote_directory s) ++ rel)
| from_list : forall f n, In f (local_files s) -> base_of f n ->
    source e s t (resolve (cwd e) f) (resolve (cwd e) (remote_directory s) ++ [n]).
Definition target e s t D : Prop := exists S, source e s t S D.

Record setting_ok (e : env) (s : sender) (t : fsn) : Prop := {
  ok_tree : wf t /\ at_ t [] = Some EDir;
  ok_cwd : Forall fname_ok (cwd e);
  ok_chunks : forall i c, concat (chunk e i c) = c;
  ok_stamps : forall i, ~ In sl (stamp e i);
  (* with a local directory, the remote one is absolute, and neither contains the other *)
  ok_directory : forall ld, local_directory s = Some ld -> ld <> [] ->
    starts_sl (remote_directory s) = true /\
    ~ below (resolve (cwd e) ld) (resolve (cwd e) (remote_directory s)) /\
    ~ below (resolve (cwd e) (remote_directory s)) (resolve (cwd e) ld);
  (* the local directory's name does not occur again in the names of its files *)
  ok_once : forall ld rel c, local_directory s = Some ld -> ld <> [] ->
    at_ t (resolve (cwd e) ld ++ rel) = Some (EFile c) -> ~ inside ld (sl :: slashed rel);
  ok_listed : forall f, In f (local_files s) ->
    ~ below (resolve (cwd e) (remote_directory s)) (resolve (cwd e) f) /\
    exists n, base_of f n /\ fname_ok n;
  ok_cancelfile : fname_ok (cancelfile s)
}.

(** No target has the name of a temporary file. *)
Definition no_clash e s t : Prop := forall D D' T, target e s t D -> target e s t D' -> temp_of e D' T -> D <> T.

(** Histories of calls on one sender; the environment may differ from call to call. *)
Inductive op := OSend | OCancel (content : option str).
Definition call (e : env) (s : sender) (o : op) (t : fsn) : bool * fsn :=
  match o with
  | OSend => let m := send e s t in (match result m with Ok _ => true | Err _ => false end, final m)
  | OCancel c => let m := cancel e s c t in (match result m with Ok _ => true | Err _ => false end, final m)
  end.
Fixpoint history (s : sender) (ops : list (env * op)) (t : fsn) : list (op * bool) * fsn :=
  match ops with
  | [] => ([], t)
  | (e, o) :: r => let (ok, t1) := call e s o t in let (h, t2) := history s r t1 in ((o, ok) :: h, t2)
  end.
(** The marker after a history with the given outcomes. *)
Fixpoint marker (m : option str) (h : list (op * bool)) : option str :=
  match h with
  | [] => m
  | (OSend, _) :: h' => marker None h'
  | (OCancel (Some c), true) :: h' => marker (Some c) h'
  | (OCancel None, true) :: h' => marker (Some []) h'
  | (OCancel _, false) :: h' => marker m h'
  end.
