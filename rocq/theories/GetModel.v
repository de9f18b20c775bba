(** Model of the receiving side of /repo/impactutils/extern/scp/scp.py: get and
    what it calls.  Paths are resolved by their text (no links); modes and times are
    kept in a list of what was done to which path.  Progress callbacks, Windows,
    the text of messages and what is sent to the server are left out. *)
From Coq Require Import ZArith String Ascii Bool List.
From Verif Require Import PyBase PyStr FsModel ScpModel.
Import ListNotations.
Open Scope Z_scope.

(** What a channel delivers: pieces of bytes, or nothing for longer than the timeout;
    after the last one it is closed. *)
Inductive event := Piece (s : str) | Quiet.
(** channel.recv(n): at most [n] bytes, none when closed; [None] is socket.timeout. *)
Fixpoint recv (n : nat) (ch : list event) : option (str * list event) :=
  match ch with
  | [] => Some ([], [])
  | Quiet :: _ => None
  | Piece [] :: ch' => recv n ch'
  | Piece s :: ch' => Some (firstn n s, match skipn n s with [] => ch' | r => Piece r :: ch' end)
  end.

(** What was done to a path. *)
Inductive deed := Wrote (c : str) | Made | Mode (m : Z) | Time (t : option (Z * Z)).
(** A command carried out, for stating properties only: the name is [None] when the
    local path was used in its place. *)
Inductive command := CFile (name : option str) | CDir (name : option str) | CUp | CTime.
(** scp.py:106-119: the client.  A channel is missing, open, or already used for a
    command. *)
Inductive channel := NoChannel | Unused | Used.
Record client := mkclient { c_channel : channel; c_dir : str; c_rename : bool; c_utime : option (Z * Z); c_dirtimes : list (str * option (Z * Z)) }.
(** The state: the file system, what was done, what was heard, the client and the channel. *)
Record state := mkstate { s_fs : fsn; s_deeds : list (path * deed); s_heard : list command; s_client : client; s_chan : list event }.

Section Get.
(** the working directory; int(text) and int(text, 8) of bytes *)
Variable cwd : path.
Variables iparse oparse : str -> option Z.
(** the size of the buffer *)
Variable buff_size : nat.

Definition with_fs (fs : fsn) (st : state) : state := mkstate fs (s_deeds st) (s_heard st) (s_client st) (s_chan st).
Definition did (s : str) (d : deed) (st : state) : state := mkstate (s_fs st) (s_deeds st ++ [(resolve cwd s, d)]) (s_heard st) (s_client st) (s_chan st).
Definition heard (c : command) (st : state) : state := mkstate (s_fs st) (s_deeds st) (s_heard st ++ [c]) (s_client st) (s_chan st).
Definition with_client (c : client) (st : state) : state := mkstate (s_fs st) (s_deeds st) (s_heard st) c (s_chan st).
Definition with_chan (ch : list event) (st : state) : state := mkstate (s_fs st) (s_deeds st) (s_heard st) (s_client st) ch.
Definition set_dir (d : str) (c : client) : client := mkclient (c_channel c) d (c_rename c) (c_utime c) (c_dirtimes c).
Definition set_rename (b : bool) (c : client) : client := mkclient (c_channel c) (c_dir c) b (c_utime c) (c_dirtimes c).
Definition set_utime (u : option (Z * Z)) (c : client) : client := mkclient (c_channel c) (c_dir c) (c_rename c) u (c_dirtimes c).
Definition set_dirtimes (l : list (str * option (Z * Z))) (c : client) : client := mkclient (c_channel c) (c_dir c) (c_rename c) (c_utime c) l.
Definition set_channel (x : channel) (c : client) : client := mkclient x (c_dir c) (c_rename c) (c_utime c) (c_dirtimes c).
Definition outcome := (res unit * state)%type.

(** bytes.strip() and the parts of s.split(b' ', 2) and s.split(b' ') *)
Definition white (c : ascii) : bool := let n := nat_of_ascii c in (((9 <=? n)%nat && (n <=? 13)%nat) || (n =? 32)%nat)%bool.
Fixpoint drop_white (s : str) : str := match s with c :: s' => if white c then drop_white s' else s | [] => [] end.
Definition bstrip (s : str) : str := rev (drop_white (rev (drop_white s))).
Fixpoint cut_blank (s : str) : str * option str :=
  match s with
  | [] => ([], None)
  | c :: s' => if Ascii.eqb c " " then ([], Some s') else let (a, b) := cut_blank s' in (c :: a, b)
  end.
Definition part1 (s : str) : str := fst (cut_blank s).
Definition rest1 (s : str) : option str := snd (cut_blank s).
Definition part2 (s : str) : option str := option_map part1 (rest1 s).
Definition rest2 (s : str) : option str := match rest1 s with Some r => rest1 r | None => None end.
Definition part3 (s : str) : option str := option_map part1 (rest2 s).

(** scp.py:352-362  _set_time *)
Definition set_time (cmd : str) (st : state) : outcome :=
  match iparse (part1 cmd), option_map iparse (part3 cmd) with
  | Some mtime, Some (Some atime) => (Ok tt, with_client (set_utime (Some (if Z.eqb atime 0 then mtime else atime, mtime)) (s_client st)) (heard CTime st))
  | _, _ => (Err SCPError, st)
  end.

(** scp.py:402-413: the content of a file, as in ScpModel but from pieces.  The first
    [None] means that the loop does not end within [fuel] rounds, the second timeout; in
    either case what was read so far has been written. *)
Fixpoint recv_data (fuel : nat) (buff : nat) (size pos : Z) (ch : list event) (got : str) : str * option (option (list event)) :=
  if Z.ltb pos size then
    match fuel with
    | O => (got, None)
    | S fuel' =>
        let buff := if Z.leb (size - pos) (Z.of_nat buff) then Z.to_nat (size - pos) else buff in
        match recv buff ch with
        | None => (got, Some None)
        | Some (s, ch') => recv_data fuel' buff size (pos + Z.of_nat (List.length s)) ch' (got ++ s)
        end
    end
  else (got, Some (Some ch)).

(** open(path, 'wb') and writing [c] *)
Definition write_file (p : str) (c : str) (st : state) : option state :=
  if ends_sl p then None
  else match find (s_fs st) (resolve cwd p) with
       | Some (Dir _) => None
       | _ => match place (s_fs st) (resolve cwd p) (File c) with
              | Some fs => Some (did p (Wrote c) (with_fs fs st))
              | None => None
              end
       end.
(** scp.py:370-381, 434-445: the path of a file or directory; the second component is
    the name if it was used. *)
Definition target (name : option str) (c : client) : option (str * option str * client) :=
  if c_rename c then Some (c_dir c, None, set_rename false c)
  else match name with Some n => Some (os_join (c_dir c) n, Some n, c) | None => None end.
(** scp.py:364-427  _recv_file *)
Definition recv_file (fuel : nat) (cmd : str) (st : state) : option outcome :=
  let cmd := bstrip cmd in
  match oparse (part1 cmd), option_map iparse (part2 cmd), target (rest2 cmd) (s_client st) with
  | Some mode, Some (Some size), Some (p, used, cl) =>
      let st := heard (CFile used) (with_client cl st) in
      match write_file p [] st with
      | None => Some (Err IOErr, st)
      | Some st0 =>
          match recv_data fuel buff_size size 0 (s_chan st) [] with
          | (_, None) => None
          | (got, Some more) =>
              match write_file p got st0 with
              | None => Some (Err IOErr, st0)   (* not reached *)
              | Some st1 =>
                  match more with
                  | None => Some (Err SCPError, st1)
                  | Some ch =>
                      match recv 512 ch with
                      | None => Some (Err SCPError, with_chan ch st1)
                      | Some (c :: _, ch') =>
                          if Ascii.eqb c nul
                          then let st2 := with_chan ch' st1 in Some (Ok tt, did p (Mode mode) (with_client (set_utime None (s_client st2)) (did p (Time (c_utime (s_client st2))) st2)))
                          else Some (Err SCPError, with_chan ch' st1)
                      | Some ([], ch') => let st2 := with_chan ch' st1 in Some (Ok tt, did p (Mode mode) (with_client (set_utime None (s_client st2)) (did p (Time (c_utime (s_client st2))) st2)))
                      end
                  end
              end
          end
      end
  | _, _, _ => Some (Err SCPError, st)
  end.

(** d[k] = v *)
Fixpoint put_time (k : str) (v : option (Z * Z)) (d : list (str * option (Z * Z))) : list (str * option (Z * Z)) :=
  match d with [] => [(k, v)] | (k', v') :: d' => if str_eqb k k' then (k', v) :: d' else (k', v') :: put_time k v d' end.
(** scp.py:429-462  _recv_pushd *)
Definition recv_pushd (cmd : str) (st : state) : outcome :=
  match oparse (part1 cmd), target (rest2 cmd) (s_client st) with
  | Some mode, Some (p, used, cl) =>
      let st := heard (CDir used) (with_client cl st) in
      let entered (st : state) := with_client (set_dir p (set_utime None (set_dirtimes (put_time p (c_utime (s_client st)) (c_dirtimes (s_client st))) (s_client st)))) st in
      match find (s_fs st) (resolve cwd p) with
      | None =>
          match place (s_fs st) (resolve cwd p) (Dir []) with
          | Some fs => (Ok tt, entered (did p (Mode mode) (did p Made (with_fs fs st))))
          | None => (Err IOErr, st)
          end
      | Some (Dir _) => (Ok tt, entered (did p (Mode mode) st))
      | Some (File _) => (Err SCPError, st)
      end
  | _, _ => (Err SCPError, st)
  end.
(** scp.py:464-465  _recv_popd *)
Definition recv_popd (st : state) : outcome :=
  let st := heard CUp st in
  (Ok tt, with_client (set_dir (fst (os_split (c_dir (s_client st)))) (s_client st)) st).
(** scp.py:467-472  _set_dirtimes *)
Fixpoint apply_times (l : list (str * option (Z * Z))) (st : state) : outcome :=
  match l with
  | [] => (Ok tt, st)
  | (d, t) :: l' => match find (s_fs st) (resolve cwd d) with Some _ => apply_times l' (did d (Time t) st) | None => (Err IOErr, st) end
  end.
Definition finish_times (st : state) : outcome :=
  let (r, st) := apply_times (c_dirtimes (s_client st)) st in (r, with_client (set_dirtimes [] (s_client st)) st).

(** scp.py:329-350  _recv_all.  An unknown command is a message of the server. *)
Definition carry_out (fuel : nat) (code : ascii) (cmd : str) (st : state) : option outcome :=
  if Ascii.eqb code "C" then recv_file fuel cmd st
  else if Ascii.eqb code "T" then Some (set_time cmd st)
  else if Ascii.eqb code "D" then Some (recv_pushd cmd st)
  else if Ascii.eqb code "E" then Some (recv_popd st)
  else Some (Err SCPError, st).
Fixpoint recv_all (fuel : nat) (st : state) : option outcome :=
  match fuel with
  | O => None
  | S fuel' =>
      match recv 1024 (s_chan st) with
      | None => Some (Err IOErr, st)
      | Some (s, ch) =>
          let st := with_chan ch st in
          match rev s with
          | [] => Some (finish_times st)
          | c :: r =>
              if negb (Ascii.eqb c nl) then Some (Err AssertionError, st)
              else match rev r with
                   | [] => Some (Err SCPError, st)
                   | code :: cmd =>
                       match carry_out fuel' code cmd st with
                       | None => None
                       | Some (Ok _, st) => recv_all fuel' st
                       | Some (Err e, st) => Some (Err e, st)
                       end
                   end
          end
      end
  end.

(** scp.py:160-201  get; [served] is what a new channel delivers after the command.
    A channel takes one command only (RFC 4254, 6.5). *)
Definition cwd_text : str := match cwd with [] => [sl] | _ => flat_map (fun n => sl :: n) cwd end.
Definition get (fuel : nat) (n_paths : nat) (local_path : str) (served : list event) (fs : fsn) (cl : client) : option outcome :=
  let dir := match local_path with [] => cwd_text | _ => local_path end in
  let rename := (Nat.eqb n_paths 1 && negb (is_dir (resolve cwd local_path) fs))%bool in
  let cl := set_rename rename (set_dir dir cl) in
  let st := mkstate fs [] [] cl [] in
  if (Nat.ltb 1 n_paths && negb (is_dir (resolve cwd dir) fs))%bool then Some (Err SCPError, st)
  else match c_channel cl with
       | Used => Some (Err Generic, st)
       | _ => match recv_all fuel (mkstate fs [] [] (set_channel Used cl) served) with
              | Some (Ok _, st) => Some (Ok tt, with_client (set_channel NoChannel (s_client st)) st)
              | r => r
              end
       end.
(** scp.py:208-214  close *)
Definition close_client (c : client) : client := set_channel NoChannel c.
End Get.
