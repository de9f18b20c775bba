(** Model of /repo/impactutils/extern/scp/scp.py: quoting, and the bytes sent
    and received.  The channel is reliable; confirmations, times and progress
    callbacks are in PutModel. *)
From Coq Require Import ZArith String Ascii Bool List Lia.
From Verif Require Import PyBase PyStr FsModel.
Import ListNotations.

(** scp.py:17  the class [\w@%+=:,./~-] of a bytes pattern *)
Definition between (a b : nat) (c : ascii) : bool := (Nat.leb a (nat_of_ascii c) && Nat.leb (nat_of_ascii c) b)%bool.
Definition word_char (c : ascii) : bool := between 97 122 c || between 65 90 c || between 48 57 c || Ascii.eqb c "_".
Definition safe_char (c : ascii) : bool := word_char c || existsb (Ascii.eqb c) (str_of "@%+=:,./~-").

(** scp.py:20-31  _sh_quote *)
Definition sh_quote (s : str) : str :=
  match s with
  | [] => []
  | _ => if forallb safe_char s then s
         else str_of "'" ++ py_replace s (str_of "'") (str_of "'""'""'") ++ str_of "'"
  end.

(** scp.py:144-146: the remote command of put *)
Definition put_command (recursive : bool) (remote_path : str) : str :=
  (if recursive then str_of "scp -r -t " else str_of "scp -t ") ++ sh_quote remote_path.
(** scp.py:175, 186-195: the remote command of get *)
Fixpoint joined (l : list str) : str := match l with [] => [] | [x] => x | x :: l' => x ++ str_of " " ++ joined l' end.
Definition get_command (recursive preserve : bool) (paths : list str) : str :=
  str_of "scp" ++ (if recursive then str_of " -r" else []) ++ (if preserve then str_of " -p" else []) ++ str_of " -f " ++
  joined (map sh_quote paths).

Definition nl : ascii := chr 10.
Definition nul : ascii := chr 0.
(** scp.py:241-242: the first message of a file; [mode] is oct(st_mode)[-4:]. *)
Definition file_header (mode : str) (size : nat) (name : str) : str :=
  str_of "C" ++ mode ++ str_of " " ++ str_of_Z (Z.of_nat size) ++ str_of " " ++ py_replace name [nl] (str_of "\^J") ++ [nl].

(** scp.py:253-257: the sending loop; the file has [size] bytes according to
    os.stat and [content] when it is read.  None when [fuel] is exhausted. *)
Fixpoint send_loop (fuel : nat) (buff size : nat) (content : str) (pos : nat) : option str :=
  if Nat.ltb pos size then
    match fuel with
    | O => None
    | S fuel' =>
        let piece := firstn buff (skipn pos content) in
        match send_loop fuel' buff size content (pos + List.length piece) with
        | Some rest => Some (piece ++ rest)
        | None => None
        end
    end
  else Some [].

(** scp.py:229-260  _send_files for one file, all confirmations positive: the
    bytes sent. *)
Definition send_file (fuel : nat) (buff : nat) (mode : str) (size : nat) (name content : str) : option str :=
  match send_loop fuel buff size content 0 with
  | Some data => Some (file_header mode size name ++ data ++ [nul])
  | None => None
  end.

(** scp.py:405-420: the receiving loop.  [recv i n] says how many bytes the
    i-th call gets when n are asked for (at least one if there are any, not
    more than n); [stream] is what is still to come until the channel closes.
    The result is what has been written and the rest of the stream. *)
Definition take_some (want got : nat) (stream : str) : nat := Nat.min (Nat.min want (Nat.max 1 got)) (List.length stream).
Fixpoint recv_loop (fuel : nat) (recv : nat -> nat) (i : nat) (buff size pos : nat) (stream : str) : option (str * str * nat) :=
  if Nat.ltb pos size then
    match fuel with
    | O => None
    | S fuel' =>
        let buff' := if Nat.leb (size - pos) buff then size - pos else buff in
        let n := take_some buff' (recv i) stream in
        match recv_loop fuel' recv (S i) buff' size (pos + n) (skipn n stream) with
        | Some (rest, stream', i') => Some (firstn n stream ++ rest, stream', i')
        | None => None
        end
    end
  else Some ([], stream, i).
(** scp.py:405-420 with the final message: Ok of the content, or SCPException. *)
Definition recv_content (fuel : nat) (recv : nat -> nat) (buff size : nat) (stream : str) : option (res str) :=
  match recv_loop fuel recv 0 buff size 0 stream with
  | None => None
  | Some (data, rest, i) =>
      match firstn (take_some 512 (recv i) rest) rest with
      | [] => Some (Ok data)                                       (* channel closed *)
      | c :: _ => if Ascii.eqb c nul then Some (Ok data) else Some (Err SCPError)
      end
  end.

(** ** Recursive sending.  Messages to the remote scp: *)
Inductive msg := Push (name : str) | Pop | SendFile (name content : str).

(** os.path.commonprefix of two strings *)
Fixpoint common_prefix (a b : str) : str :=
  match a, b with x :: a', y :: b' => if Ascii.eqb x y then x :: common_prefix a' b' else [] | _, _ => [] end.
(** scp.py:275-277: pop until [cur] is [common] *)
Fixpoint pop_until (fuel : nat) (cur common : str) : option (list msg) :=
  if str_eqb cur common then Some []
  else match fuel with
       | O => None
       | S fuel' => match pop_until fuel' (fst (os_split cur)) common with Some l => Some (Pop :: l) | None => None end
       end.
(** scp.py:262-279  _chdir; [Push] carries the name as transmitted (scp.py:296-304) *)
Definition chdir (fuel : nat) (from to : str) : option (list msg) :=
  let common := fst (os_split (common_prefix (from ++ [sl]) (to ++ [sl]))) in
  match pop_until fuel (rstrip_sl from) common with
  | Some l => Some (l ++ [Push (py_replace (snd (os_split to)) [nl] (str_of "\^J"))])
  | None => None
  end.

(** os.walk: directories top down with their files *)
Fixpoint walk_dirs (root : str) (t : fsn) : list (str * list (str * str)) :=
  match t with
  | File _ => []
  | Dir es =>
      (root, flat_map (fun kn => match kn with (n, File c) => [(n, c)] | _ => [] end) es) ::
      flat_map (fun kn => match kn with (n, c) => walk_dirs (os_join root n) c end) es
  end.

Definition pushed (l : list msg) : Z :=
  fold_right (fun m z => match m with Push _ => z + 1 | Pop => z - 1 | SendFile _ _ => z end)%Z 0%Z l.

(** scp.py:288-291: the loop over the directories *)
Fixpoint send_dirs (fuel : nat) (last : str) (l : list (str * list (str * str))) : option (list msg) :=
  match l with
  | [] => Some []
  | (root, files) :: l' =>
      match chdir fuel last root with
      | None => None
      | Some ms =>
          match send_dirs fuel root l' with
          | None => None
          | Some rest => Some (ms ++ map (fun f => SendFile (py_replace (fst f) [nl] (str_of "\^J")) (snd f)) files ++ rest)
          end
      end
  end.
(** scp.py:281-294  _send_recursive for one directory: the messages, then
    pops until nothing is pushed. *)
Definition send_recursive (fuel : nat) (base : str) (t : fsn) : option (list msg) :=
  match send_dirs fuel base (walk_dirs base t) with
  | None => None
  | Some ms => Some (ms ++ repeat Pop (Z.to_nat (pushed ms)))
  end.

(** scp.py:281-294  _send_recursive for a list of paths; plain files are sent
    as they are (lines 283-286). *)
Fixpoint put_messages (fuel : nat) (items : list (str * fsn)) : option (list msg) :=
  match items with
  | [] => Some []
  | (base, t) :: items' =>
      match (match t with
             | File c => Some [SendFile (py_replace (snd (os_split base)) [nl] (str_of "\^J")) c]
             | Dir _ => send_recursive fuel base t
             end), put_messages fuel items' with
      | Some a, Some b => Some (a ++ b)
      | _, _ => None
      end
  end.
