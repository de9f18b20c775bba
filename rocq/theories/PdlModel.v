(** Model of /repo/impactutils/transfer/pdlsender.py.  Values are represented by
    what the command line needs of them: floats by their renderings with four
    and one decimals, times by their strftime text.  Running a command is an
    oracle giving success, output and error output. *)
From Coq Require Import ZArith String Ascii Bool List Lia.
From Verif Require Import PyBase PyStr FsModel SenderModel.
Import ListNotations.

Inductive pval :=
| VStr (s : str)
| VInt (n : Z)
| VNum (four one : str)     (* f'{x:.4f}' and f'{x:.1f}' *)
| VTime (full : str)        (* strftime(DATE_TIME_FMT) *)
| VOther (text : str).      (* str(x) *)

Record pdl := {
  p_props : list (str * pval);               (* self._properties *)
  p_product : option (list (str * pval));    (* self._product_properties, if set *)
  p_files : list str;                        (* self._local_files *)
  p_dir : option str                         (* self._local_directory *)
}.

(** str.upper on ASCII letters. *)
Definition upper1 (c : ascii) : ascii :=
  let n := nat_of_ascii c in if (Nat.leb 97 n && Nat.leb n 122)%bool then ascii_of_nat (n - 32) else c.
Definition upper (s : str) : str := map upper1 s.

(** ' '.join *)
Fixpoint join_sp (l : list str) : str :=
  match l with [] => [] | [x] => x | x :: l' => x ++ str_of " " ++ join_sp l' end.

(** pdlsender.py:52-57 *)
Definition pdlcmd : str := join_sp (map str_of
  ["[JAVA] -jar [JARFILE] --send --status=[STATUS]";
   "--source=[SOURCE] --type=[TYPE] --code=[CODE]";
   "--eventsource=[EVENTSOURCE] --eventsourcecode=[EVENTSOURCECODE]";
   "[PRODUCT_PROPERTIES] [OPTIONAL_PROPERTIES]";
   "--privateKey=[PRIVATEKEY]  --configFile=[CONFIGFILE] [FILE] [DIRECTORY]"]%string).

(** pdlsender.py:98-102  _replace_required_properties *)
Fixpoint replace_required (keys : list str) (props : list (str * pval)) (cmd : str) : res str :=
  match keys with
  | [] => Ok cmd
  | k :: keys' =>
      match aget k props with
      | None => Err KeyError
      | Some (VStr v) => replace_required keys' props (py_replace cmd (str_of "[" ++ upper k ++ str_of "]") v)
      | Some _ => Err TypeError
      end
  end.

(** pdlsender.py:107-121 *)
Definition product_nugget (kv : str * pval) : str :=
  let (k, v) := kv in
  str_of "--property-" ++ k ++ str_of "=" ++
  match v with
  | VNum four _ => four
  | VInt n => str_of_Z n
  | VTime full => firstn 23 full
  | VStr s => str_of """" ++ s ++ str_of """"
  | VOther t => t
  end.
(** pdlsender.py:104-125  _replace_product_properties *)
Definition replace_product (s : pdl) (cmd : str) : str :=
  py_replace cmd (str_of "[PRODUCT_PROPERTIES]")
    match p_product s with Some l => join_sp (map product_nugget l) | None => [] end.

(** pdlsender.py:127-138  _replace_files *)
Definition replace_files (s : pdl) (cmd : str) : str :=
  let cmd := py_replace cmd (str_of "[FILE]") match p_files s with f :: _ => str_of "--file=" ++ f | [] => [] end in
  py_replace cmd (str_of "[DIRECTORY]") match p_dir s with Some (c :: d) => str_of "--directory=" ++ c :: d | _ => [] end.

(** pdlsender.py:62-68: the names and their formats *)
Inductive ofmt := Four | One | Stamp.
Definition optional_properties : list (str * ofmt) :=
  [(str_of "latitude", Four); (str_of "longitude", Four); (str_of "depth", One); (str_of "magnitude", One); (str_of "eventtime", Stamp)].
(** pdlsender.py:149-156; other types cannot be formatted.  Integers are
    assumed to be small enough to be floats. *)
Definition optional_value (f : ofmt) (v : pval) : res str :=
  match f, v with
  | Stamp, VTime full => Ok (firstn 23 full ++ str_of "Z")
  | Stamp, _ => Err AttributeError
  | Four, VNum four _ => Ok four
  | One, VNum _ one => Ok one
  | Four, VInt n => Ok (str_of_Z n ++ str_of ".0000")
  | One, VInt n => Ok (str_of_Z n ++ str_of ".0")
  | _, _ => Err TypeError
  end.
Fixpoint optional_nuggets (l : list (str * ofmt)) (props : list (str * pval)) : res (list str) :=
  match l with
  | [] => Ok []
  | (k, f) :: l' =>
      match aget k props with
      | None => optional_nuggets l' props
      | Some v =>
          match optional_value f v with
          | Err e => Err e
          | Ok t =>
              match optional_nuggets l' props with
              | Err e => Err e
              | Ok r => Ok ((str_of "--" ++ k ++ str_of "=" ++ t) :: r)
              end
          end
      end
  end.
(** pdlsender.py:140-161  _replace_optional_properties (the join of no nuggets
    is empty, as in the other branch). *)
Definition replace_optional (s : pdl) (cmd : str) : res str :=
  match optional_nuggets optional_properties (p_props s) with
  | Err e => Err e
  | Ok l => Ok (py_replace cmd (str_of "[OPTIONAL_PROPERTIES]") (join_sp l))
  end.

(** pdlsender.py:181-196 and 230-245: the command line *)
Definition build (status : str) (s : pdl) : res str :=
  match replace_required (required_properties KPdl) (p_props s) (py_replace pdlcmd (str_of "[STATUS]") status) with
  | Err e => Err e
  | Ok cmd => replace_optional s (replace_product s (replace_files s cmd))
  end.

Record ran := { success : bool; out : str; err : str }.

(** pdlsender.py:163-215  send: the commands run, and the number of files with
    the output, or the exception.  [decodes] is bytes.decode('utf-8'); [count]
    the number of files below a directory. *)
Definition pdl_send (run : str -> ran) (decodes : str -> option str) (count : str -> nat) (s : pdl) : list str * res (nat * str) :=
  if Nat.ltb 1 (List.length (p_files s)) then ([], Err PDLError)                    (* 177-178 *)
  else
    match build (str_of "UPDATE") s with
    | Err e => ([], Err e)
    | Ok cmd =>
        if success (run cmd) then
          match decodes (out (run cmd)) with
          | None => ([cmd], Err UnicodeErr)                                          (* 213 *)
          | Some text =>
              ([cmd], Ok (((match p_files s with [] => 0 | _ => 1 end) +
                           (match p_dir s with Some (c :: d) => count (c :: d) | _ => 0 end))%nat, text))
          end
        else ([cmd], Err PDLError)
    end.

(** pdlsender.py:217-254  cancel: also sets the properties 'file' and
    'directory', which are not used in the command. *)
Definition pdl_cancel (run : str -> ran) (s : pdl) : list str * res str * pdl :=
  let s' := {| p_props := aset (str_of "directory") (VStr []) (aset (str_of "file") (VStr []) (p_props s));
               p_product := p_product s; p_files := p_files s; p_dir := p_dir s |} in
  match build (str_of "DELETE") s' with
  | Err e => ([], Err e, s')
  | Ok cmd => ([cmd], (if success (run cmd) then Ok (out (run cmd)) else Err PDLError), s')
  end.
