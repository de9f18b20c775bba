(** Model of /repo/versioneer.py: the version file that is put into distributions, the
    version used by setup.py, and the files changed by "versioneer.py setup".  Texts are of
    latin-1 characters; what is printed is left out. *)
From Coq Require Import ZArith String Ascii Bool List.
From Verif Require Import PyBase PyStr PolyModel VersionModel.
Import ListNotations.
Open Scope nat_scope.

(** ** JSON *)
(** The values of the dictionaries of versions. *)
Inductive jval := JText (s : str) | JTruth (b : bool) | JNone.
Definition jdict := list (str * jval).
(** json.dumps of a text: everything but printable ASCII is escaped *)
Definition hex_digit (n : nat) : ascii := nth n (str_of "0123456789abcdef") "0"%char.
Definition escape (c : ascii) : str :=
  let n := nat_of_ascii c in
  if n =? 34 then [backslash; quote] else if n =? 92 then [backslash; backslash]
  else if n =? 10 then backslash :: str_of "n" else if n =? 13 then backslash :: str_of "r" else if n =? 9 then backslash :: str_of "t"
  else if n =? 12 then backslash :: str_of "f" else if n =? 8 then backslash :: str_of "b"
  else if (32 <=? n) && (n <=? 126) then [c]
  else backslash :: str_of "u00" ++ [hex_digit (n / 16); hex_digit (n mod 16)].
Definition dumps_text (s : str) : str := quote :: flat_map escape s ++ [quote].
Definition dumps_value (v : jval) : str := match v with JText s => dumps_text s | JTruth b => str_of (if b then "true" else "false") | JNone => str_of "null" end.
(** json.dumps(d, sort_keys=True, indent=1, separators=(",", ": ")) of a dictionary that is
    not empty, whose keys are sorted already *)
Definition dumps (d : jdict) : str :=
  str_of "{" ++ [newline] ++ join (str_of "," ++ [newline]) (map (fun kv => str_of " " ++ dumps_text (fst kv) ++ str_of ": " ++ dumps_value (snd kv)) d) ++ [newline] ++ str_of "}".
(** The dictionary, with its keys in the order of sort_keys. *)
Definition opt_text (o : option str) : jval := match o with Some s => JText s | None => JNone end.
Definition to_dict (v : versions) : jdict :=
  [(str_of "date", opt_text (v_date v)); (str_of "dirty", match v_dirty v with Some b => JTruth b | None => JNone end); (str_of "error", opt_text (v_error v));
   (str_of "full-revisionid", opt_text (v_full v)); (str_of "version", JText (v_version v))].

(** json.loads, for dictionaries of texts, truth values and None; numbers, lists and
    dictionaries inside, other documents and characters beyond latin-1 are NotModelled.
    JSONDecodeError is a ValueError. *)
Definition json_space (c : ascii) : bool := let n := nat_of_ascii c in (n =? 32) || (n =? 9) || (n =? 10) || (n =? 13).
Definition skip_spaces (s : str) : str := snd (span json_space s).
Definition hex_value (c : ascii) : option nat :=
  let n := nat_of_ascii c in
  if (48 <=? n) && (n <=? 57) then Some (n - 48) else if (97 <=? n) && (n <=? 102) then Some (n - 87) else if (65 <=? n) && (n <=? 70) then Some (n - 55) else None.
Definition unescape (c : ascii) : option ascii :=
  let n := nat_of_ascii c in
  if n =? 34 then Some quote else if n =? 92 then Some backslash else if n =? 47 then Some (chr 47) else if n =? 98 then Some (chr 8)
  else if n =? 102 then Some (chr 12) else if n =? 110 then Some (chr 10) else if n =? 114 then Some (chr 13) else if n =? 116 then Some (chr 9) else None.
(** The text up to the closing quote, and what follows; texts are strict (no control characters). *)
Fixpoint read_text (s : str) : res (str * str) :=
  let cons c r := bind r (fun p => Ok (c :: fst p, snd p)) in
  match s with
  | [] => Err ValueError
  | c :: s' =>
      if Ascii.eqb c quote then Ok ([], s')
      else if Ascii.eqb c backslash then
        match s' with
        | [] => Err ValueError
        | e :: s' =>
            if Ascii.eqb e "u"%char then
              match s' with
              | h1 :: h2 :: h3 :: h4 :: s' =>
                  match hex_value h1, hex_value h2, hex_value h3, hex_value h4 with
                  | Some a, Some b, Some c, Some d => if (a =? 0) && (b =? 0) then cons (chr (16 * c + d)) (read_text s') else Err NotModelled
                  | _, _, _, _ => Err ValueError
                  end
              | _ => Err ValueError
              end
            else match unescape e with Some c => cons c (read_text s') | None => Err ValueError end
        end
      else if nat_of_ascii c <? 32 then Err ValueError
      else cons c (read_text s')
  end.
Definition read_value (s : str) : res (jval * str) :=
  match s with
  | [] => Err ValueError
  | c :: s' =>
      if Ascii.eqb c quote then bind (read_text s') (fun p => Ok (JText (fst p), snd p))
      else if starts_with (str_of "null") s then Ok (JNone, skipn 4 s)
      else if starts_with (str_of "true") s then Ok (JTruth true, skipn 4 s)
      else if starts_with (str_of "false") s then Ok (JTruth false, skipn 5 s)
      else if existsb (Ascii.eqb c) (str_of "{[-0123456789NI") then Err NotModelled
      else Err ValueError
  end.
(** Members after the opening brace or a comma; one piece of fuel per member. *)
Fixpoint read_members (fuel : nat) (s : str) : res (jdict * str) :=
  match fuel with
  | O => Err ValueError
  | S fuel =>
      match s with
      | [] => Err ValueError
      | q :: s =>
          if negb (Ascii.eqb q quote) then Err ValueError
          else bind (read_text s) (fun p =>
            match skip_spaces (snd p) with
            | [] => Err ValueError
            | c :: s =>
                if negb (Ascii.eqb c ":"%char) then Err ValueError
                else bind (read_value (skip_spaces s)) (fun w =>
                  match skip_spaces (snd w) with
                  | [] => Err ValueError
                  | c :: s =>
                      if Ascii.eqb c "}"%char then Ok ([(fst p, fst w)], s)
                      else if Ascii.eqb c ","%char then bind (read_members fuel (skip_spaces s)) (fun r => Ok ((fst p, fst w) :: fst r, snd r))
                      else Err ValueError
                  end)
            end)
      end
  end.
(** The members in the order of the document; of two with the same key the later one counts. *)
Definition loads (s : str) : res jdict :=
  let finish (p : jdict * str) := match skip_spaces (snd p) with [] => Ok (fst p) | _ => Err ValueError end in
  match skip_spaces s with
  | c :: s' =>
      if Ascii.eqb c "{"%char then
        match skip_spaces s' with
        | c :: s'' => if Ascii.eqb c "}"%char then finish ([], s'') else bind (read_members (length s') (skip_spaces s')) finish
        | [] => Err ValueError
        end
      else if existsb (Ascii.eqb c) (quote :: str_of "[-0123456789NItfn") then Err NotModelled else Err ValueError
  | [] => Err ValueError
  end.

(** ** The version file *)
Definition q3 : str := str_of "'''".
(** versioneer.py:1183-1198  SHORT_VERSION_PY, before and after the dictionary *)
Definition nl : str := [newline].
Definition file_start : str :=
  nl ++ str_of "# This file was generated by 'versioneer.py' (0.18) from" ++ nl ++ str_of "# revision-control system data, or from the parent directory name of an" ++ nl
  ++ str_of "# unpacked source archive. Distribution tarballs contain a pre-generated copy" ++ nl ++ str_of "# of this file." ++ nl ++ nl ++ str_of "import json" ++ nl ++ nl.
Definition json_start : str := str_of "version_json = " ++ q3.
Definition json_end : str := q3 ++ str_of "  # END VERSION_JSON".
Definition file_end : str := nl ++ nl ++ nl ++ str_of "def get_versions():" ++ nl ++ str_of "    return json.loads(version_json)" ++ nl.
Definition version_text (v : versions) : str := file_start ++ json_start ++ nl ++ dumps (to_dict v) ++ nl ++ json_end ++ file_end.
(** versioneer.py:1218-1226  write_to_version_file: what the file is before (None: no such
    file) and after *)
Definition write_to_version_file (file : option str) (v : versions) : res (option str) :=
  match file with None => Err FileNotFoundError | Some _ => Ok (Some (version_text v)) end.
(** Reading in text mode: universal newlines. *)
Fixpoint universal (s : str) : str :=
  match s with
  | [] => []
  | c :: r => if Ascii.eqb c (chr 13) then match r with d :: r' => if Ascii.eqb d newline then newline :: universal r' else newline :: universal r | [] => [newline] end
              else c :: universal r
  end.
(** What follows the first p in s, and what precedes the last one. *)
Fixpoint after_first (p s : str) : option str :=
  if starts_with p s then Some (skipn (length p) s) else match s with [] => None | _ :: s' => after_first p s' end.
Definition before_last (p s : str) : option str := match after_first (rev p) (rev s) with Some r => Some (rev r) | None => None end.
(** re.search with re.M and re.S for start, anything, stop: the leftmost start, and as much as
    possible up to a stop *)
Definition search (start stop s : str) : option str := match after_first start s with Some r => before_last stop r | None => None end.
(** versioneer.py:1201-1215  versions_from_file; [None]: the file can not be read.  The second
    search never finds anything, as carriage returns do not survive reading. *)
Definition versions_from_file (file : option str) : attempt jdict :=
  match file with
  | None => NotThis
  | Some bytes =>
      let contents := universal bytes in
      let found := match search (json_start ++ [newline]) json_end contents with
                   | Some t => Some t
                   | None => search (json_start ++ [chr 13; newline]) json_end contents
                   end in
      match found with
      | None => NotThis
      | Some t => match loads t with Ok d => Got d | Err e => Raised e end
      end
  end.

(** ** Importing the file *)
(** The value of the characters between triple quotes, as Python reads them; [None]: the text
    ends before (three quotes), or is not a text (a backslash at the end or a broken escape).
    Octal escapes, named characters, eight digits and characters beyond latin-1 are NotModelled. *)
Fixpoint literal (s : str) : res str :=
  let cons c r := bind r (fun t => Ok (c :: t)) in
  match s with
  | [] => Ok []
  | c :: s' =>
      if starts_with q3 s then Err NotModelled
      else if Ascii.eqb c backslash then
        match s' with
        | [] => Err NotModelled
        | e :: s' =>
            let n := nat_of_ascii e in
            if n =? 10 then literal s'
            else if n =? 92 then cons backslash (literal s') else if n =? 39 then cons (chr 39) (literal s') else if n =? 34 then cons quote (literal s')
            else if n =? 97 then cons (chr 7) (literal s') else if n =? 98 then cons (chr 8) (literal s') else if n =? 102 then cons (chr 12) (literal s')
            else if n =? 110 then cons (chr 10) (literal s') else if n =? 114 then cons (chr 13) (literal s') else if n =? 116 then cons (chr 9) (literal s')
            else if n =? 118 then cons (chr 11) (literal s')
            else if n =? 117 then
              match s' with
              | h1 :: h2 :: h3 :: h4 :: s' =>
                  match hex_value h1, hex_value h2, hex_value h3, hex_value h4 with
                  | Some a, Some b, Some c, Some d => if (a =? 0) && (b =? 0) then cons (chr (16 * c + d)) (literal s') else Err NotModelled
                  | _, _, _, _ => Err NotModelled
                  end
              | _ => Err NotModelled
              end
            else if existsb (Ascii.eqb e) (str_of "01234567xNU") then Err NotModelled
            else cons backslash (cons e (literal s'))
        end
      else cons c (literal s')
  end.
(** SHORT_VERSION_PY: importing the written file and calling get_versions() *)
Definition imported (v : versions) : res jdict := bind (literal (nl ++ dumps (to_dict v) ++ nl)) loads.

(** ** The version for setup.py *)
Record config := mkconfig { c_vcs : str; c_style : str; c_source : option str; c_tag_prefix : option str; c_parent : option str }.
(** versioneer.py:347-361: the options of the section, by name; [None]: no such option *)
Definition config_of (get : string -> option str) : option config :=
  match get "VCS"%string with
  | None => None
  | Some vcs => Some (mkconfig vcs (match get "style"%string with Some s => s | None => [] end) (get "versionfile_source"%string)
      (match get "tag_prefix"%string with Some p => if str_eqb p (str_of "''") || str_eqb p [quote; quote] then Some [] else Some p | None => None end)
      (get "parentdir_prefix"%string))
  end.
Section Setup.
Variable popen : str -> str -> list str -> launch.
Variable iparse : str -> option Z.
Variable exists_ : str -> bool.                 (* os.path.exists *)
Variable content : str -> option str.           (* the text of a file *)
(** versioneer.py:296-332  get_root: the working directory, or that of the script; both
    without links *)
Definition get_root (cwd script : str) : res str :=
  let is_root r := exists_ (os_join r (str_of "setup.py")) || exists_ (os_join r (str_of "versioneer.py")) in
  if is_root cwd then Ok cwd else if is_root (dirname script) then Ok (dirname script) else Err Generic.
(** lines with universal newlines *)
Fixpoint lines_from (cur s : str) : list str :=
  match s with
  | [] => match cur with [] => [] | _ => [rev cur] end
  | c :: s' => if Ascii.eqb c newline then rev (c :: cur) :: lines_from [] s' else lines_from (c :: cur) s'
  end.
Definition lines (s : str) : list str := lines_from [] (universal s).
(** versioneer.py:1402-1475  get_versions.  The functions before the file and after it are
    the same as those of _version.py (945-1118, 1158-1180, 1229-1395). *)
Definition get_versions (cfg : config) (root : str) : res jdict :=
  if negb (str_eqb (c_vcs cfg) (str_of "git")) then Err AssertionError else
  match c_source cfg, c_tag_prefix cfg with
  | Some source, Some prefix =>
      let file := content (os_join root source) in
      let got (v : versions) : res jdict := Ok (to_dict v) in
      match from_keywords (git_get_keywords (option_map lines file)) prefix with
      | Got v => got v
      | Raised e => Err e
      | NotThis =>
          match versions_from_file file with
          | Got d => Ok d
          | Raised e => Err e
          | NotThis =>
              match git_pieces popen iparse prefix root with
              | Got p => bind (render p (Some (c_style cfg))) got
              | Raised e => Err e
              | NotThis =>
                  match match c_parent cfg with Some ((_ :: _) as pp) => from_parentdir 3 pp root | _ => NotThis end with
                  | Got v => got v
                  | Raised e => Err e
                  | NotThis => got (mkversions (str_of "0+unknown") None None (Some (str_of "unable to compute version")) None)
                  end
              end
          end
      end
  | _, _ => Err AssertionError
  end.
(** d[key]: of two members the later one counts *)
Definition item (k : str) (d : jdict) : res jval :=
  match find (fun kv => str_eqb k (fst kv)) (rev d) with Some kv => Ok (snd kv) | None => Err KeyError end.
(** versioneer.py:1478-1480  get_version *)
Definition get_version (cfg : config) (root : str) : res jval := bind (get_versions cfg root) (item (str_of "version")).
End Setup.

(** ** "versioneer.py setup" *)
(** p in s, of texts *)
Fixpoint has_text (p s : str) : bool := starts_with p s || match s with [] => false | _ :: s' => has_text p s' end.
Definition text_of (o : option str) : str := match o with Some s => s | None => [] end.
(** Text files are read with universal newlines and appended to as they are. *)
Definition append (o : option str) (t : str) : option str := Some (text_of o ++ t).
(** versioneer.py:1139-1154  do_vcs_install on .gitattributes ([None]: no such file) *)
Definition marked_line (source line : str) : bool :=
  starts_with source (strip line) && existsb (str_eqb (str_of "export-subst")) (tl (split_blanks (strip line))).
Definition set_attributes (source : str) (file : option str) : option str :=
  if existsb (marked_line source) (lines (text_of file)) then file else append file (source ++ str_of " export-subst" ++ nl).
(** versioneer.py:1741-1770  do_setup on MANIFEST.in *)
Definition includes (s : str) : list str := flat_map (fun l => if starts_with (str_of "include ") l then tl (split_blanks l) else []) (lines s).
Definition set_manifest (source : str) (file : option str) : option str :=
  let found := includes (text_of file) in
  let file := if existsb (str_eqb (str_of "versioneer.py")) found then file else append file (str_of "include versioneer.py" ++ nl) in
  if existsb (str_eqb source) found then file else append file (str_of "include " ++ source ++ nl).
(** versioneer.py:1690-1694, 1721-1736  do_setup on __init__.py *)
Definition snippet : str := nl ++ str_of "from ._version import get_versions" ++ nl ++ str_of "__version__ = get_versions()['version']" ++ nl ++ str_of "del get_versions" ++ nl.
Definition set_init (file : option str) : option str :=
  match file with None => None | Some s => if has_text snippet (universal s) then file else append file snippet end.
(** versioneer.py:1779-1813  scan_setup_py: the number of complaints *)
Definition scan_setup (s : str) : nat :=
  let says t := existsb (has_text (str_of t)) (lines s) in
  (if says "import versioneer"%string && says "versioneer.get_cmdclass()"%string && says "versioneer.get_version()"%string then 0 else 1)
  + (if says "versioneer.VCS"%string || says "versioneer.versionfile_source"%string then 1 else 0).
