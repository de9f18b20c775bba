(** How a POSIX shell reads a command line, and how a receiver of the scp
    protocol reads what it is sent. *)
From Coq Require Import ZArith String Ascii Bool List Lia.
From Verif Require Import PyBase PyStr FsModel TextSpec ScpModel.
Import ListNotations.

(** ** Shell words.  Only lines without expansions and operators are read: any
    character that could have a special meaning makes the reading fail. *)
Inductive mode := Bare | Single | Double.
Record lex := { l_words : list str; l_cur : option str; l_mode : mode }.
Definition grow (o : option str) (c : ascii) : option str := Some (match o with Some w => w ++ [c] | None => [c] end).
Definition close_word (l : lex) : list str := match l_cur l with Some w => l_words l ++ [w] | None => l_words l end.
(** Metacharacters outside quotes. *)
Definition meta : list ascii := str_of "|&;<>()$`*?[]{}!^\" ++ [nl; nul; chr 13].
(** Active characters inside double quotes. *)
Definition active : list ascii := str_of "$`\!" ++ [nul].
Definition lex_step (l : lex) (c : ascii) : option lex :=
  match l_mode l with
  | Single => if Ascii.eqb c nul then None
              else if Ascii.eqb c "'" then Some {| l_words := l_words l; l_cur := l_cur l; l_mode := Bare |}
              else Some {| l_words := l_words l; l_cur := grow (l_cur l) c; l_mode := Single |}
  | Double => if in_dec ascii_dec c active then None
              else if Ascii.eqb c """" then Some {| l_words := l_words l; l_cur := l_cur l; l_mode := Bare |}
              else Some {| l_words := l_words l; l_cur := grow (l_cur l) c; l_mode := Double |}
  | Bare =>
      if in_dec ascii_dec c meta then None
      else if in_dec ascii_dec c [" "%char; chr 9] then Some {| l_words := close_word l; l_cur := None; l_mode := Bare |}
      else if Ascii.eqb c "'" then Some {| l_words := l_words l; l_cur := Some match l_cur l with Some w => w | None => [] end; l_mode := Single |}
      else if Ascii.eqb c """" then Some {| l_words := l_words l; l_cur := Some match l_cur l with Some w => w | None => [] end; l_mode := Double |}
      else
        match l_cur l with
        | None => if in_dec ascii_dec c ["~"%char; "#"%char] then None     (* home directory, comment *)
                  else Some {| l_words := l_words l; l_cur := Some [c]; l_mode := Bare |}
        | Some w => if (Ascii.eqb c "=" && match l_words l with [] => true | _ => false end)%bool then None  (* assignment *)
                    else Some {| l_words := l_words l; l_cur := Some (w ++ [c]); l_mode := Bare |}
        end
  end.
Fixpoint lex_run (l : lex) (s : str) : option lex :=
  match s with [] => Some l | c :: s' => match lex_step l c with Some l' => lex_run l' s' | None => None end end.
(** The words of a line, if it consists of literal words only. *)
Definition shell_words (line : str) : option (list str) :=
  match lex_run {| l_words := []; l_cur := None; l_mode := Bare |} line with
  | Some l => match l_mode l with Bare => Some (close_word l) | _ => None end
  | None => None
  end.

(** ** One file on the wire *)
Fixpoint upto (c : ascii) (s : str) : option (str * str) :=
  match s with
  | [] => None
  | x :: s' => if Ascii.eqb x c then Some ([], s') else match upto c s' with Some (a, b) => Some (x :: a, b) | None => None end
  end.
(** C<mode> <size> <name>\n<data>\0: the mode, name and data, and what follows. *)
Definition read_file (s : str) : option (str * str * str * str) :=
  match s with
  | c :: s1 =>
      if Ascii.eqb c "C" then
        match upto " " s1 with
        | Some (mode, s2) =>
            match upto " " s2 with
            | Some (size, s3) =>
                match upto nl s3 with
                | Some (name, s4) =>
                    let n := Z.to_nat (digits_value size) in
                    if (Nat.ltb n (List.length s4) && Ascii.eqb (nth n s4 "x"%char) nul)%bool
                    then Some (mode, name, firstn n s4, skipn (S n) s4) else None
                | None => None
                end
            | None => None
            end
        | None => None
        end
      else None
  | [] => None
  end.

(** ** Recursive transfer: what a receiver standing in [here] does; None if
    it is told to leave its top directory.  The result: directories entered,
    files received (with full path), final directory. *)
Fixpoint receive (here : path) (ms : list msg) : option (list path * list (path * str) * path) :=
  match ms with
  | [] => Some ([], [], here)
  | Push n :: ms' =>
      match receive (here ++ [n]) ms' with Some (d, f, e) => Some ((here ++ [n]) :: d, f, e) | None => None end
  | Pop :: ms' => match here with [] => None | _ => receive (removelast here) ms' end
  | SendFile n c :: ms' => match receive here ms' with Some (d, f, e) => Some (d, (here ++ [n], c) :: f, e) | None => None end
  end.

(** ** A path and its last name; what should arrive for a tree called [b] *)
Definition named (base b : str) : Prop := b <> [] /\ ~ In sl b /\ ~ In nl b /\ (base = b \/ exists d, base = d ++ sl :: b).
Definition no_newlines (t : fsn) : Prop := forall rel e, find t rel = Some e -> Forall (fun n => ~ In nl n) rel.
(** [dirs] and [files] are the directories and files of [t], each once, under the name [b]. *)
Definition whole_tree (b : str) (t : fsn) (dirs : list path) (files : list (path * str)) : Prop :=
  NoDup dirs /\ (forall p, In p dirs <-> exists rel, p = b :: rel /\ find t rel <> None /\ forall c, find t rel <> Some (File c)) /\
  NoDup (map fst files) /\ (forall p c, In (p, c) files <-> exists rel, p = b :: rel /\ find t rel = Some (File c)).
