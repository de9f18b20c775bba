(** What sending by SSH is meant to do, in terms of what is found at each path on
    the remote host.  [remote] and [meant] are those of FtpSpec: the remote
    directory is absolute. *)
From Coq Require Import ZArith String Ascii Bool List Lia.
From Verif Require Import PyBase PyStr FsModel FsSpec CopyModel CopySpec FtpSpec SecureModel.
Import ListNotations.

(** Only characters without a meaning for the shell. *)
Definition harmless (w : str) : Prop :=
  forall c, In c w -> In c (str_of "ABCDEFGHIJKLMNOPQRSTUVWXYZabcdefghijklmnopqrstuvwxyz0123456789-./:_").

(** [T] is a temporary name used for [D]. *)
Definition stemp (E : senv) (D T : path) : Prop :=
  exists p n i, D = p ++ [n] /\ T = p ++ [n ++ str_of ".tmp_" ++ stamps E i].

Record secure_ok (E : senv) (s : sender) (loc t : fsn) : Prop := {
  so_local : wf loc;
  so_root : at_ t [] = Some EDir;
  so_pieces : forall i c, concat (spieces E i c) = c;
  so_stamps : forall i c, In c (stamps E i) -> In c (str_of "0123456789");
  so_absolute : starts_sl (remote_directory s) = true;
  so_directory : harmless (remote_directory s);
  so_names : forall ld rel c n, local_directory s = Some ld -> ld <> [] ->
    at_ loc (resolve (slocal E) ld ++ rel) = Some (EFile c) -> In n rel -> harmless n;
  so_listed : forall f n, In f (local_files s) -> base_of f n -> fname_ok n /\ harmless n;
  (* the local directory's name does not occur again in the names of its files *)
  so_once : forall ld rel c, local_directory s = Some ld -> ld <> [] ->
    at_ loc (resolve (slocal E) ld ++ rel) = Some (EFile c) -> ~ inside ld (sl :: slashed rel)
}.

(** No two of the files are meant for the same path. *)
Definition one_each (E : senv) (s : sender) (loc : fsn) : Prop :=
  (forall i j f g n, nth_error (local_files s) i = Some f -> nth_error (local_files s) j = Some g -> base_of f n -> base_of g n -> i = j) /\
  (forall f n ld c, In f (local_files s) -> base_of f n -> local_directory s = Some ld -> ld <> [] ->
     at_ loc (resolve (slocal E) ld ++ [n]) <> Some (EFile c)).

(** Nothing is in the way: no path is wanted, or used already, for two things. *)
Definition file_path (E : senv) (s : sender) (loc : fsn) (q : path) : Prop :=
  exists c D, meant (slocal E) s loc c D /\ (q = D \/ stemp E D q).
Definition directory_path (E : senv) (s : sender) (loc : fsn) (q : path) : Prop :=
  below q (remote s) \/ exists c D, meant (slocal E) s loc c D /\ below q (removelast D).
Record clear_way (E : senv) (s : sender) (loc t : fsn) : Prop := {
  cw_apart : forall q, file_path E s loc q -> ~ directory_path E s loc q;
  cw_files : forall q, file_path E s loc q -> at_ t q <> Some EDir;
  cw_dirs : forall q c, directory_path E s loc q -> at_ t q <> Some (EFile c);
  cw_temps : forall c D c' D', meant (slocal E) s loc c D -> meant (slocal E) s loc c' D' -> ~ stemp E D' D
}.

(** The remote files at some moment of a call, or later, when commands it
    started are carried out. *)
Definition srun (A : Type) : Type := list fsn * res A * session.
Definition outcome {A} (r : srun A) : res A := snd (fst r).
Definition session_of {A} (r : srun A) : session := snd r.
Definition later (E : senv) {A} (r : srun A) (picks : list nat) : session := snd (carry_out E picks (session_of r)).
Definition seen (E : senv) {A} (r : srun A) (x : fsn) : Prop :=
  In x (fst (fst r)) \/ exists picks, In x (fst (carry_out E picks (session_of r))) \/ x = rtree (later E r picks).

(** Every step works, and a command is carried out before the next step. *)
Definition prompt (E : senv) : Prop := forall i, sfates E i = Done /\ wakes E i = [0%nat].

(** The marker of a cancellation, and what is to be written to it. *)
Record cancel_ok (s : sender) : Prop := {
  co_absolute : starts_sl (remote_directory s) = true;
  co_directory : harmless (remote_directory s);
  co_name : fname_ok (cancelfile s);
  co_harmless : harmless (cancelfile s)
}.
Definition marker (s : sender) : path := remote s ++ [cancelfile s].
(** Words with single blanks between them, the first not like an option. *)
Inductive marker_text : option str -> str -> Prop :=
| no_text : marker_text None (str_of "None")
| some_text : forall w ws, Forall (fun x => x <> [] /\ harmless x) (w :: ws) -> (forall r, w <> chr 45 :: r) ->
    marker_text (Some (join (str_of " ") (w :: ws))) (join (str_of " ") (w :: ws)).
