(** Vocabulary for C134: sending files over scp. *)
From Coq Require Import ZArith String Ascii Bool List.
From Verif Require Import PyBase PyStr FsModel FsSpec ScpModel GetModel GetSpec PutModel.
Import ListNotations.

(** What is sent, and the calls of the progress function, among what is done. *)
Fixpoint says (l : list act) : list str := match l with [] => [] | Say s :: l => s :: says l | _ :: l => says l end.
Fixpoint calls (l : list act) : list (str * nat * nat) := match l with [] => [] | Report n z p :: l => (n, z, p) :: calls l | _ :: l => calls l end.
(** How often an answer is waited for. *)
Fixpoint waits (l : list act) : nat := match l with [] => 0 | Confirm :: l => S (waits l) | _ :: l => waits l end.
(** Nothing but sending, waiting and calling. *)
Definition smooth (l : list act) : Prop := Forall (fun a => match a with Throw _ | Forever => False | _ => True end) l.

(** A server that says yes [n] times, with some text after the zero byte; one that does not:
    it closes the channel, is silent, or says something else. *)
Inductive grants : nat -> list event -> list event -> Prop :=
| grants_none ch : grants 0 ch ch
| grants_more n m ch ch' : (length m < 512)%nat -> grants n ch ch' -> grants (S n) (Piece (chr 0 :: m) :: ch) ch'.
Inductive refuses : list event -> Prop :=
| refuses_closed : refuses []
| refuses_silent ch : refuses (Quiet :: ch)
| refuses_says c m ch : c <> chr 0 -> refuses (Piece (c :: m) :: ch).

(** The positions after each of some pieces. *)
Fixpoint marks (pos : nat) (pieces : list str) : list nat :=
  match pieces with [] => [] | s :: l => (pos + length s)%nat :: marks (pos + length s) l end.
(** A text cut in pieces of at most [n] bytes. *)
Definition cut (n : nat) (s : str) (pieces : list str) : Prop := concat pieces = s /\ Forall (fun p => p <> [] /\ (length p <= n)%nat) pieces.

(** Octal digits and what they mean. *)
Definition octal_char (c : ascii) : Prop := (48 <= nat_of_ascii c < 56)%nat.
Definition octal_value (s : str) : Z := fold_left (fun z c => 8 * z + (Z.of_nat (nat_of_ascii c) - 48))%Z s 0%Z.

(** The lines for a file or directory. *)
Definition time_line (st : stats) : str := str_of "T" ++ str_of_Z (st_mtime st) ++ str_of " 0 " ++ str_of_Z (st_atime st) ++ str_of " 0" ++ [nl].
Definition file_line (st : stats) (name : str) : str := str_of "C" ++ mode_text (st_mode st) ++ str_of " " ++ str_of_Z (Z.of_nat (st_size st)) ++ str_of " " ++ name ++ [nl].

(** What one file becomes on the other side. *)
Definition node_of (preserve : bool) (st : stats) (content : str) : node :=
  NFile (st_mode st mod 4096) (if preserve then Some (st_atime st, st_mtime st) else None) content.
(** The message of a step. *)
Definition msg_of (read : str -> option str) (s : step) : option msg :=
  match s with
  | SFile p => match read p with Some c => Some (SendFile (wire_name p) c) | None => None end
  | SDir p => Some (Push (wire_name p))
  | SUp => Some Pop
  | SStuck => None
  end.
(** The tree at a path, seen through os.walk and open. *)
Definition seen (walk : str -> option (list (str * list str))) (read : str -> option str) (it : str * fsn) : Prop :=
  match snd it with
  | File c => walk (fst it) = None /\ read (fst it) = Some c
  | Dir _ => walk (fst it) = Some (map (fun d => (fst d, map fst (snd d))) (walk_dirs (fst it) (snd it))) /\
             (forall d n c, In d (walk_dirs (fst it) (snd it)) -> In (n, c) (snd d) -> read (os_join (fst d) n) = Some c)
  end.
