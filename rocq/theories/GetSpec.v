(** Vocabulary for C100 to C102: receiving files over scp. *)
From Coq Require Import ZArith String Ascii Bool List.
From Verif Require Import PyBase PyStr FsModel FsSpec GetModel.
Import ListNotations.

(** ** Staying inside *)
(** Names of one component, directories left only after they were entered; at the outermost
    level one may leave if nothing but times follows.  The local path itself, used in place
    of a name, is no level. *)
Definition named_ok (c : command) : Prop := match c with CFile (Some n) | CDir (Some n) => fname_ok n | _ => True end.
Fixpoint stays (level : nat) (cs : list command) : Prop :=
  match cs with
  | [] => True
  | CDir (Some _) :: cs => stays (S level) cs
  | CUp :: cs => match level with O => Forall (eq CTime) cs | S l => stays l cs end
  | _ :: cs => stays level cs
  end.

(** ** An honest server *)
Inductive node := NFile (mode : Z) (times : option (Z * Z)) (content : str) | NDir (mode : Z) (times : option (Z * Z)) (children : list (str * node)).
Definition ent_of (n : node) : ent := match n with NFile _ _ c => EFile c | NDir _ _ _ => EDir end.
Definition mode_of (n : node) : Z := match n with NFile m _ _ | NDir m _ _ => m end.
Definition times_of (n : node) : option (Z * Z) := match n with NFile _ t _ | NDir _ t _ => t end.
(** A text without blanks. *)
Definition solid (s : str) : Prop := s <> [] /\ forall c, In c s -> ~ In (nat_of_ascii c) [9; 10; 11; 12; 13; 32]%nat.
(** The last character of a file's name is no blank. *)
Definition firm (s : str) : Prop := forall r c, s = r ++ [c] -> ~ In (nat_of_ascii c) [9; 10; 11; 12; 13; 32]%nat.
Section Server.
Variables iparse oparse : str -> option Z.
Definition number (parse : str -> option Z) (n : Z) (s : str) : Prop := solid s /\ parse s = Some n.
Definition line (s : str) : event := Piece (s ++ [chr 10]).
Definition fits (s : str) : Prop := (length s < 1024)%nat.
(** The line with the times: modification, then access. *)
Inductive timing : option (Z * Z) -> list event -> Prop :=
| untimed : timing None []
| timed a m ta tm z : number iparse a ta -> number iparse m tm -> solid z -> fits (str_of "T" ++ tm ++ str_of " " ++ z ++ str_of " " ++ ta ++ str_of " " ++ z) -> a <> 0%Z ->
    timing (Some (a, m)) [line (str_of "T" ++ tm ++ str_of " " ++ z ++ str_of " " ++ ta ++ str_of " " ++ z)].
(** What it sends for one name and for several; contents may come in any pieces. *)
Inductive serves : str -> node -> list event -> Prop :=
| serve_file name mode times content t m z pieces : timing times t -> number oparse mode m -> number iparse (Z.of_nat (length content)) z ->
    fits (str_of "C" ++ m ++ str_of " " ++ z ++ str_of " " ++ name) -> concat pieces = content ++ [chr 0] -> Forall (fun s => s <> []) pieces ->
    serves name (NFile mode times content) (t ++ line (str_of "C" ++ m ++ str_of " " ++ z ++ str_of " " ++ name) :: map Piece pieces)
| serve_dir name mode times children t m z inner : timing times t -> number oparse mode m -> solid z ->
    fits (str_of "D" ++ m ++ str_of " " ++ z ++ str_of " " ++ name) -> serves_all children inner ->
    serves name (NDir mode times children) (t ++ line (str_of "D" ++ m ++ str_of " " ++ z ++ str_of " " ++ name) :: inner ++ [line (str_of "E")])
with serves_all : list (str * node) -> list event -> Prop :=
| serve_none : serves_all [] []
| serve_more name n rest evs evs' : serves name n evs -> serves_all rest evs' -> serves_all ((name, n) :: rest) (evs ++ evs').
End Server.
(** Names that arrive as they are, each once in its directory. *)
Inductive tidy : list (str * node) -> Prop :=
| tidy_none : tidy []
| tidy_file name mode times content rest : fname_ok name -> firm name -> ~ In name (map fst rest) -> tidy rest -> tidy ((name, NFile mode times content) :: rest)
| tidy_dir name mode times children rest : fname_ok name -> ~ In name (map fst rest) -> tidy children -> tidy rest -> tidy ((name, NDir mode times children) :: rest).
(** What is at a place among the things served. *)
Fixpoint node_at (f : list (str * node)) (rel : path) : option node :=
  match rel with
  | [] => None
  | n :: rel' =>
      match aget n f with
      | None => None
      | Some nd => match rel', nd with [], _ => Some nd | _, NDir _ _ ch => node_at ch rel' | _, NFile _ _ _ => None end
      end
  end.
(** No file is in the way of a directory, nor the other way round. *)
Definition welcome (B : path) (f : list (str * node)) (fs : fsn) : Prop :=
  forall rel n, node_at f rel = Some n -> match n, at_ fs (B ++ rel) with NFile _ _ _, Some EDir | NDir _ _ _, Some (EFile _) => False | _, _ => True end.
(** The things served are there, and nothing else has changed. *)
Definition arrived (B : path) (f : list (str * node)) (fs fs' : fsn) : Prop :=
  (forall rel n, node_at f rel = Some n -> at_ fs' (B ++ rel) = Some (ent_of n)) /\
  (forall q, (forall rel n, node_at f rel = Some n -> q <> B ++ rel) -> at_ fs' q = at_ fs q).
(** Modes and times are those served; whatever else was done was making the thing. *)
Definition dressed (B : path) (f : list (str * node)) (deeds : list (path * deed)) : Prop :=
  (forall rel n, node_at f rel = Some n -> In (B ++ rel, Mode (mode_of n)) deeds /\ In (B ++ rel, Time (times_of n)) deeds) /\
  (forall p d, In (p, d) deeds -> exists rel n, node_at f rel = Some n /\ p = B ++ rel /\
     match d with Mode m => m = mode_of n | Time t => t = times_of n | Made => ent_of n = EDir | Wrote c => c = [] \/ ent_of n = EFile c end).

(** A client as it is made, or after a transfer that succeeded. *)
Definition fresh_client (c : client) : Prop := c_channel c <> Used /\ c_utime c = None /\ c_dirtimes c = [].
