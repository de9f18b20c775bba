(** Model of put in /repo/impactutils/extern/scp/scp.py with its confirmations, modes,
    times and progress calls (ScpModel has the bytes of one file and the order of the
    messages, all confirmed).  What os.stat, open and os.walk give is the same during one
    call; the text of exceptions, Windows and timeouts while sending are left out. *)
From Coq Require Import ZArith String Ascii Bool List.
From Verif Require Import PyBase PyStr FsModel ScpModel GetModel.
Import ListNotations.
Open Scope Z_scope.

(** What os.stat gives: st_mode, st_size and the two times cut to whole seconds. *)
Record stats := mkstats { st_mode : Z; st_size : nat; st_mtime : Z; st_atime : Z }.

(** oct(z) of a number that is not negative; [fuel] digits are enough. *)
Definition octal_digit (z : Z) : ascii := chr (48 + Z.to_nat (z mod 8)).
Fixpoint octal (fuel : nat) (z : Z) : str :=
  match fuel with
  | O => []
  | S fuel' => (if Z.ltb z 8 then [] else octal fuel' (z / 8)) ++ [octal_digit z]
  end.
Definition oct (z : Z) : str := str_of "0o" ++ octal (S (Z.to_nat z)) z.
(** s[-4:] *)
Definition last4 (s : str) : str := skipn (List.length s - 4) s.
(** scp.py:223 *)
Definition mode_text (z : Z) : str := last4 (oct z).
(** b.replace(b'\n', b'\\^J') of the last part of a path *)
Definition base_name (p : str) : str := snd (os_split p).
Definition wire_name (p : str) : str := py_replace (base_name p) [nl] (str_of "\^J").

(** What the client does, in order: sendall, _recv_confirm, a call of the progress
    function, an exception, a loop that does not end. *)
Inductive act := Say (s : str) | Confirm | Report (name : str) (size pos : nat) | Throw (e : exn) | Forever.

Section Put.
(** os.stat, and the content of a file that can be opened; the directories of os.walk with
    the names of their files, None if it is no directory *)
Variable stat : str -> option stats.
Variable read : str -> option str.
Variable walk : str -> option (list (str * list str)).
Variable buff_size : nat.
(** whether there is a progress function; preserve_times *)
Variables progress preserve : bool.

Definition report (name : str) (size pos : nat) : list act := if progress then [Report name size pos] else [].
(** scp.py:311-316  _send_time *)
Definition send_time (mtime atime : Z) : list act :=
  [Say (str_of "T" ++ str_of_Z mtime ++ str_of " 0 " ++ str_of_Z atime ++ str_of " 0" ++ [nl]); Confirm].
Definition times (st : stats) : list act := if preserve then send_time (st_mtime st) (st_atime st) else [].
(** scp.py:253-257 *)
Fixpoint send_data (fuel : nat) (name : str) (size : nat) (content : str) (pos : nat) : list act :=
  if Nat.ltb pos size then
    match fuel with
    | O => [Forever]
    | S fuel' =>
        let piece := firstn buff_size (skipn pos content) in
        let pos := (pos + List.length piece)%nat in
        Say piece :: report name size pos ++ send_data fuel' name size content pos
    end
  else [].
(** scp.py:229-260: one round of _send_files *)
Definition send_one (fuel : nat) (name : str) : list act :=
  match stat name with
  | None => [Throw IOErr]
  | Some st =>
      times st ++
      match read name with
      | None => [Throw IOErr]
      | Some content =>
          [Say (str_of "C" ++ mode_text (st_mode st) ++ str_of " " ++ str_of_Z (Z.of_nat (st_size st)) ++ str_of " " ++ wire_name name ++ [nl]); Confirm] ++
          (if Nat.eqb (st_size st) 0 then report (base_name name) 1 1 else report (base_name name) (st_size st) 0) ++
          send_data fuel (base_name name) (st_size st) content 0 ++
          [Say [nul]; Confirm]
      end
  end.
(** scp.py:296-305  _send_pushd *)
Definition send_pushd (dir : str) : list act :=
  match stat dir with
  | None => [Throw IOErr]
  | Some st => times st ++ [Say (str_of "D" ++ mode_text (st_mode st) ++ str_of " 0 " ++ wire_name dir ++ [nl]); Confirm]
  end.
(** scp.py:307-310  _send_popd *)
Definition send_popd : list act := [Say (str_of "E" ++ [nl]); Confirm].

(** The same in larger steps: a file, into a directory, out of one, a loop. *)
Inductive step := SFile (path : str) | SDir (path : str) | SUp | SStuck.
Definition acts (fuel : nat) (s : step) : list act :=
  match s with SFile p => send_one fuel p | SDir p => send_pushd p | SUp => send_popd | SStuck => [Forever] end.
(** scp.py:275-277 *)
Fixpoint pop_steps (fuel : nat) (cur common : str) : list step :=
  if str_eqb cur common then []
  else match fuel with O => [SStuck] | S fuel' => SUp :: pop_steps fuel' (fst (os_split cur)) common end.
(** scp.py:262-279  _chdir *)
Definition chdir_steps (fuel : nat) (from to : str) : list step :=
  pop_steps fuel (rstrip_sl from) (fst (os_split (common_prefix (from ++ [sl]) (to ++ [sl])))) ++ [SDir to].
(** scp.py:288-291 *)
Fixpoint dir_steps (fuel : nat) (last : str) (l : list (str * list str)) : list step :=
  match l with
  | [] => []
  | (root, files) :: l' => chdir_steps fuel last root ++ map (fun f => SFile (os_join root f)) files ++ dir_steps fuel root l'
  end.
(** the change of self._pushed *)
Definition balance (l : list step) : Z := fold_right (fun s z => match s with SDir _ => z + 1 | SUp => z - 1 | _ => z end) 0 l.
(** scp.py:281-294  _send_recursive; [pushed] is self._pushed *)
Fixpoint tree_steps (fuel : nat) (pushed : Z) (files : list str) : list step :=
  match files with
  | [] => []
  | base :: files' =>
      match walk base with
      | None => SFile base :: tree_steps fuel pushed files'
      | Some l =>
          let into := dir_steps fuel base l in
          let pushed := pushed + balance into in
          into ++ repeat SUp (Z.to_nat pushed) ++ tree_steps fuel (Z.min pushed 0) files'
      end
  end.
Definition plan (fuel : nat) (recursive : bool) (files : list str) : list step :=
  if recursive then tree_steps fuel 0 files else map SFile files.

(** scp.py:318-336  _recv_confirm: what is left of the answers, None for SCPException *)
Definition recv_confirm (ch : list event) : option (list event) :=
  match recv 512 ch with
  | Some (c :: _, ch') => if Ascii.eqb c nul then Some ch' else None
  | _ => None
  end.
(** What was sent, the calls of the progress function, the answers left, and the channel. *)
Record sending := mksending { d_said : list str; d_calls : list (str * nat * nat); d_answers : list event; d_channel : channel }.
Definition said (s : str) (d : sending) : sending := mksending (d_said d ++ [s]) (d_calls d) (d_answers d) (d_channel d).
Definition called (c : str * nat * nat) (d : sending) : sending := mksending (d_said d) (d_calls d ++ [c]) (d_answers d) (d_channel d).
Definition answered (ch : list event) (d : sending) : sending := mksending (d_said d) (d_calls d) ch (d_channel d).
Definition left_open (x : channel) (d : sending) : sending := mksending (d_said d) (d_calls d) (d_answers d) x.
(** Doing it; None if it does not end. *)
Fixpoint perform (l : list act) (d : sending) : option (res unit * sending) :=
  match l with
  | [] => Some (Ok tt, d)
  | Say s :: l' => perform l' (said s d)
  | Confirm :: l' => match recv_confirm (d_answers d) with Some ch => perform l' (answered ch d) | None => Some (Err SCPError, d) end
  | Report n z p :: l' => perform l' (called (n, z, p) d)
  | Throw e :: _ => Some (Err e, d)
  | Forever :: _ => None
  end.

(** scp.py:130-158  put, with the command it runs; the channel as in GetModel. *)
Definition put (fuel : nat) (files : list str) (remote_path : str) (recursive : bool) (ch : channel) (answers : list event) : option (res unit * option str * sending) :=
  match ch with
  | Used => Some (Err Generic, None, mksending [] [] answers Used)
  | _ =>
      match perform (Confirm :: flat_map (acts fuel) (plan fuel recursive files)) (mksending [] [] answers Used) with
      | None => None
      | Some (Ok _, d) => Some (Ok tt, Some (put_command recursive remote_path), left_open NoChannel d)
      | Some (Err e, d) => Some (Err e, Some (put_command recursive remote_path), d)
      end
  end.
End Put.
(** scp.py:121-128  with SCPClient(...) as c: whatever happens inside, the channel is
    there before and gone afterwards. *)
Definition enter (ch : channel) : channel := match ch with NoChannel => Unused | c => c end.
Definition leave (ch : channel) : channel := NoChannel.
