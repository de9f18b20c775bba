(** Model of /repo/impactutils/transfer/securesender.py.

    exec_command only starts a command on the remote host; the sender waits for
    it only if it reads the output.  So the session has a list of commands that
    were started and are not finished, and the environment says which of them
    are carried out when, in any order, or never.  The remote shell is modelled
    for the commands the sender uses; what it does with anything else is up to
    the environment.  Simplifications: one command line runs without
    interruption; the output of a test is not lost in part; mv of a directory
    fails; the local files do not change during a call; messages and closing of
    connections are left out; exceptions are of class Exception. *)
From Coq Require Import ZArith String Ascii Bool List Lia.
From Verif Require Import PyBase PyStr FsModel CopyModel.
Import ListNotations.
Open Scope Z_scope.
Local Arguments str_of _ : simpl never.

(** ** The remote shell *)
Fixpoint split_chr (d : ascii) (s : str) : list str :=
  match s with
  | [] => [[]]
  | c :: s' =>
      if Ascii.eqb c d then [] :: split_chr d s'
      else match split_chr d s' with x :: r => (c :: x) :: r | [] => [[c]] end
  end.
Definition words (s : str) : list str := filter (fun w => negb (str_eqb w [])) (split_chr (chr 32) s).
Definition char_in (lo hi : nat) (c : ascii) : bool := (Nat.leb lo (nat_of_ascii c) && Nat.leb (nat_of_ascii c) hi)%bool.
(** Characters without a meaning for the shell: letters, digits and - . / : _ *)
Definition ordinary (c : ascii) : bool :=
  (char_in 45 58 c || char_in 65 90 c || char_in 97 122 c || Nat.eqb (nat_of_ascii c) 95)%bool.
(** A word the modelled shell understands. *)
Definition known (w : str) : bool :=
  (forallb ordinary w || str_eqb w (str_of "[") || str_eqb w (str_of "]") || str_eqb w (str_of ">") || str_eqb w (str_of "$?"))%bool.
Definition option_like (w : str) : bool := starts_with (str_of "-") w.
(** The last words are > and a file. *)
Definition redirection (ws : list str) : option (list str * str) :=
  match rev ws with
  | f :: g :: r => if str_eqb g (str_of ">") then Some (rev r, f) else None
  | _ => None
  end.
Fixpoint digits_of (fuel : nat) (n : nat) : str :=
  match fuel with
  | O => []
  | S k => (if Nat.leb 10 n then digits_of k (n / 10) else []) ++ [chr (48 + n mod 10)]
  end.
Definition show_nat (n : nat) : str := digits_of (S n) n.
(** int() of a text: blanks around digits; signs and underscores are left out. *)
Definition blank (c : ascii) : bool := (char_in 9 13 c || Nat.eqb (nat_of_ascii c) 32)%bool.
Fixpoint lstrip_blank (s : str) : str := match s with c :: s' => if blank c then lstrip_blank s' else s | [] => [] end.
Definition strip_blank (s : str) : str := rev (lstrip_blank (rev (lstrip_blank s))).
Definition int_of (s : str) : res nat :=
  let d := strip_blank s in
  if (negb (str_eqb d []) && forallb (char_in 48 57) d)%bool
  then Ok (fold_left (fun n c => n * 10 + (nat_of_ascii c - 48))%nat d 0%nat) else Err ValueError.

(** What the sender does not control: the remote home directory, the local
    working directory, the pieces of the transfer started at a step, the time
    stamp at a step, the commands carried out before a step, what becomes of a
    step, and what the shell does with other commands: an exit status and an output. *)
Inductive sfate := Done | Refused (e : exn) | Lost (e : exn).
Record senv := {
  home : path; slocal : path; spieces : nat -> str -> list str; stamps : nat -> str;
  wakes : nat -> list nat; sfates : nat -> sfate; other : list str -> act (nat * str)
}.

Section Secure.
Variable E : senv.

(** An error of a command is its exit status 1. *)
Definition attempt (m : act unit) : act nat :=
  fun t => match m t with (tr, Ok _, t') => (tr, Ok 0%nat, t') | (tr, Err _, t') => (tr, Ok 1%nat, t') end.
Fixpoint each (f : str -> act nat) (l : list str) : act nat :=
  match l with [] => aret 0%nat | x :: r => a <- f x ;; b <- each f r ;; aret (Nat.max a b) end.
Definition into (d : path) (a : str) : path := d ++ [snd (os_split a)].
Definition sh_rm (w : str) : act nat := attempt (os_remove (resolve (home E) w)).
Definition sh_mkdir (w : str) : act nat := attempt (makedirs [] (resolve (home E) w)).
(** mv: into the last operand if it is a directory. *)
Definition sh_mv (l : list str) : act nat :=
  match rev l with
  | [] | [_] => aret 1%nat
  | b :: r =>
      d <- asks (is_dir (resolve (home E) b)) ;;
      if (d : bool) then each (fun a => attempt (os_rename (resolve (home E) a) (into (resolve (home E) b) a))) (rev r)
      else match r with
           | [a] => attempt (os_rename (resolve (home E) a) (resolve (home E) b))
           | _ => aret 1%nat
           end
  end.
Definition sh_test (l : list str) : act nat :=
  match l with
  | [a; x; c] =>
      if negb (str_eqb c (str_of "]")) then aret 2%nat
      else if str_eqb a (str_of "-e") then fun t => ([], Ok (match find t (resolve (home E) x) with Some _ => 0 | None => 1 end)%nat, t)
      else if str_eqb a (str_of "-d") then fun t => ([], Ok (if is_dir (resolve (home E) x) t then 0 else 1)%nat, t)
      else aret 2%nat
  | [a; c] => if str_eqb c (str_of "]") then aret 0%nat else aret 2%nat   (* [ -e ] : the word is not empty *)
  | _ => aret 2%nat
  end.
(** A command without redirection: exit status and output. *)
Definition simple (status : nat) (ws : list str) : act (nat * str) :=
  let quiet (m : act nat) := n <- m ;; aret (n, []) in
  match ws with
  | [] => aret (status, [])
  | c :: l =>
      if str_eqb c (str_of "[") then quiet (sh_test l)
      else if (str_eqb c (str_of "echo") && negb (option_like (hd [] l)))%bool then
        aret (0%nat, join (str_of " ") (map (fun w => if str_eqb w (str_of "$?") then show_nat status else w) l) ++ [chr 10])
      else if existsb (str_eqb (str_of "$?")) l then other E ws
      else if str_eqb c (str_of "mkdir") then
        match l with
        | p :: l' => if (str_eqb p (str_of "-p") && negb (existsb option_like l'))%bool then quiet (each sh_mkdir l') else other E ws
        | [] => other E ws
        end
      else if existsb option_like l then other E ws
      else if str_eqb c (str_of "rm") then quiet (each sh_rm l)
      else if str_eqb c (str_of "mv") then quiet (sh_mv l)
      else other E ws
  end.
Definition sh_command (status : nat) (s : str) : act (nat * str) :=
  let ws := words s in
  if negb (forallb known ws) then other E [s]
  else match redirection ws with
       | Some (l, f) =>
           let p := resolve (home E) f in
           opened <- attempt (open_write p) ;;
           if Nat.eqb opened 0 then r <- simple status l ;; attempt (append_file p (snd r)) ;;; aret (fst r, [])
           else aret (1%nat, [])
       | None => simple status ws
       end.
(** Commands separated by semicolons. *)
Fixpoint sh_list (status : nat) (l : list str) : act str :=
  match l with
  | [] => aret []
  | s :: l' => r <- sh_command status s ;; o <- sh_list (fst r) l' ;; aret (snd r ++ o)
  end.
Definition shell (line : str) : act str := sh_list 0 (split_chr (chr 59) line).

(** ** The session *)
Record session := { rtree : fsn; jobs : list str; tick : nat }.
Definition sact (A : Type) := session -> list fsn * res A * session.
Definition sret {A} (a : A) : sact A := fun s => ([], Ok a, s).
Definition sraise {A} (e : exn) : sact A := fun s => ([], Err e, s).
Definition sbind {A B} (m : sact A) (f : A -> sact B) : sact B :=
  fun s => match m s with
           | (tr, Ok a, s1) => match f a s1 with (tr', r, s2) => (tr ++ tr', r, s2) end
           | (tr, Err e, s1) => (tr, Err e, s1)
           end.
(** try: m / except Exception: raise Exception(...) *)
Definition wrapped {A} (m : sact A) : sact A :=
  fun s => match m s with (tr, Err _, s1) => (tr, Err Generic, s1) | x => x end.

Fixpoint drop_nth {A} (i : nat) (l : list A) : list A :=
  match l, i with [], _ => [] | _ :: r, O => r | x :: r, S k => x :: drop_nth k r end.
(** Some of the commands started are carried out. *)
Fixpoint carry_out (picks : list nat) (s : session) : list fsn * session :=
  match picks with
  | [] => ([], s)
  | i :: r =>
      match nth_error (jobs s) i with
      | None => carry_out r s
      | Some line =>
          match shell line (rtree s) with
          | (tr, _, t) => let (tr', s') := carry_out r {| rtree := t; jobs := drop_nth i (jobs s); tick := tick s |} in (tr ++ tr', s')
          end
      end
  end.
(** One step of the client: [m] is what it does remotely. *)
Definition step {A} (m : act A) : sact A :=
  fun s0 =>
    let (tr0, s) := carry_out (wakes E (tick s0)) s0 in
    let next t := {| rtree := t; jobs := jobs s; tick := S (tick s) |} in
    match sfates E (tick s0) with
    | Refused e => (tr0, Err e, next (rtree s))
    | Done => match m (rtree s) with (tr, r, t) => (tr0 ++ tr, r, next t) end
    | Lost e => match m (rtree s) with (tr, _, t) => (tr0 ++ tr, Err e, next t) end
    end.
(** ssh.exec_command(line), output not read *)
Definition start (line : str) : sact unit :=
  fun s0 =>
    let (tr0, s) := carry_out (wakes E (tick s0)) s0 in
    let next l := {| rtree := rtree s; jobs := l; tick := S (tick s) |} in
    match sfates E (tick s0) with
    | Refused e => (tr0, Err e, next (jobs s))
    | Done => (tr0, Ok tt, next (jobs s ++ [line]))
    | Lost e => (tr0, Err e, next (jobs s ++ [line]))
    end.
(** not int(stdout.read().decode('utf-8').strip()) *)
Definition ask (line : str) : sact bool :=
  sbind (step (shell line)) (fun out => match int_of out with Ok n => sret (Nat.eqb n 0) | Err e => sraise e end).
(** scp.put(file, name) of a file with content [c]: into a directory of that name. *)
Fixpoint transfer (p : path) (l : list str) : sact unit :=
  match l with
  | [] => sret tt
  | x :: r => sbind (step (append_file p x)) (fun _ => transfer p r)
  end.
Definition scp_put (base name c : str) : sact unit :=
  fun s =>
    sbind (step (d <- asks (is_dir (resolve (home E) name)) ;;
                 let p := if (d : bool) then resolve (home E) name ++ [base] else resolve (home E) name in
                 open_write p ;;; aret p))
      (fun p => transfer p (spieces E (tick s) c)) s.

(** ** The sender *)
Definition test_e (p : str) : str := str_of "[ -e " ++ p ++ str_of " ];echo $?".
Definition test_d (p : str) : str := str_of "[ -d " ++ p ++ str_of " ];echo $?".
(** securesender.py:226-243  _check_remote_folder *)
Definition check_remote_folder (p : str) : sact (bool * bool) :=
  sbind (ask (test_e p)) (fun e => sbind (ask (test_d p)) (fun d => sret (e, d))).
(** securesender.py:245-270  _make_remote_folder *)
Definition make_remote_folder (p : str) : sact bool :=
  sbind (check_remote_folder p) (fun ed =>
  if snd ed then sret true
  else
    sbind (if fst ed then sbind (start (str_of "rm " ++ p)) (fun _ => ask (test_d p)) else sret false) (fun exists_ =>
    if exists_ then sret true
    else sbind (start (str_of "mkdir -p " ++ p)) (fun _ =>
         sbind (check_remote_folder p) (fun ed => sret (snd ed))))).
(** securesender.py:168-224  _copy_file_with_path; the path is built as in copysender.py *)
Definition secure_copy (loc : fsn) (local_file remote_folder : str) (local_folder : option str) : sact unit :=
  let remote_file := remote_name local_file remote_folder local_folder in
  sbind (match local_folder with
         | None => sret tt
         | Some _ =>
             let root := fst (os_split remote_file) in
             sbind (check_remote_folder root) (fun ed =>
             if snd ed then sret tt
             else sbind (make_remote_folder root) (fun ok => if ok then sret tt else sraise Generic))
         end) (fun _ => fun s =>
  let tmp := tmp_name remote_file (stamps E (tick s)) in
  match find loc (resolve (slocal E) local_file) with
  | Some (File c) =>
      sbind (scp_put (snd (os_split local_file)) tmp c) (fun _ =>
      start (str_of "mv " ++ tmp ++ str_of " " ++ remote_file)) s
  | _ => sraise FileNotFoundError s
  end).
Fixpoint copy_each (loc : fsn) (fs : list str) (remote_folder : str) (local_folder : option str) : sact unit :=
  match fs with
  | [] => sret tt
  | f :: r => sbind (secure_copy loc f remote_folder local_folder) (fun _ => copy_each loc r remote_folder local_folder)
  end.
(** sender.py:97-105  getAllLocalFiles; os.walk('') yields nothing *)
Definition files_below (loc : fsn) (ld : str) : list str :=
  match ld with
  | [] => []
  | _ => match find loc (resolve (slocal E) ld) with Some n => walk_files ld n | None => [] end
  end.
(** securesender.py:140-166  _connect *)
Definition secure_connect : sact unit := wrapped (step (aret tt)).
(** securesender.py:50-107  send *)
Definition secure_send (s : sender) (loc : fsn) : sact Z :=
  sbind secure_connect (fun _ =>
  sbind (make_remote_folder (remote_directory s)) (fun ok =>
  if negb ok then sraise Generic
  else
    let below := match local_directory s with Some ld => files_below loc ld | None => [] end in
    sbind (wrapped (sbind (copy_each loc (local_files s) (remote_directory s) None) (fun _ =>
                    match local_directory s with
                    | Some ld => copy_each loc below (remote_directory s) (Some ld)
                    | None => sret tt
                    end))) (fun _ =>
    sret (Z.of_nat (List.length (local_files s) + List.length below))))).
(** securesender.py:109-138  cancel; without content the text is None *)
Definition secure_cancel (s : sender) (content : option str) : sact unit :=
  let f := os_join (remote_directory s) (cancelfile s) in
  sbind secure_connect (fun _ =>
  sbind (start (str_of "echo " ++ (match content with Some c => c | None => str_of "None" end) ++ str_of " > " ++ f)) (fun _ =>
  sbind (ask (test_e f)) (fun e => if e then sret tt else sraise Generic))).
End Secure.

Definition open_session (t : fsn) : session := {| rtree := t; jobs := []; tick := 0%nat |}.
