(** Model of /repo/impactutils/_version.py.  Texts are of latin-1 characters.
    What is printed when verbose is left out. *)
From Coq Require Import ZArith String Ascii Bool List.
From Verif Require Import PyBase PyStr PolyModel.
Import ListNotations.
Open Scope nat_scope.

(** How a way of finding the version ends: with an answer, with NotThisMethod,
    or with another exception. *)
Inductive attempt (A : Type) := Got (a : A) | NotThis | Raised (e : exn).
Arguments Got {A} a. Arguments NotThis {A}. Arguments Raised {A} e.
(** The dictionaries returned. *)
Record versions := mkversions { v_version : str; v_full : option str; v_dirty : option bool; v_error : option str; v_date : option str }.
(** _version.py:250-305: the dictionary of pieces; [None] for the last three
    means that the key is missing. *)
Record pieces := mkpieces { p_long : str; p_short : str; p_error : option str; p_dirty : bool;
  p_tag : option (option str); p_distance : option Z; p_date : option str }.

(** ** Text *)
(** bytes.strip() *)
Definition ascii_space (c : ascii) : bool := let n := nat_of_ascii c in ((9 <=? n) && (n <=? 13)) || (n =? 32).
Definition strip_by (p : ascii -> bool) (s : str) : str := rev (snd (span p (rev (snd (span p s))))).
Definition newline : ascii := chr 10.
Definition dash : ascii := chr 45.
Definition plus : ascii := chr 43.
Definition quote : ascii := chr 34.
Definition has_char (c : ascii) (s : str) : bool := existsb (Ascii.eqb c) s.
(** s.replace(old, new, 1) for one character *)
Fixpoint replace_first (old : ascii) (new : str) (s : str) : str :=
  match s with [] => [] | c :: s' => if Ascii.eqb c old then new ++ s' else c :: replace_first old new s' end.
(** _version.py:174, 303: date.strip().replace(" ", "T", 1).replace(" ", "", 1) *)
Definition iso_date (s : str) : str := replace_first (chr 32) [] (replace_first (chr 32) (str_of "T") (strip s)).
(** s.endswith(t) *)
Definition ends_with (t s : str) : bool := starts_with (rev t) (rev s).
Definition is_hex (c : ascii) : bool := let n := nat_of_ascii c in is_digit c || ((97 <=? n) && (n <=? 102)).
Definition int_of_digits (s : str) : Z := fold_left (fun a c => (10 * a + (Z.of_nat (nat_of_ascii c) - 48))%Z) s 0%Z.
(** a dollar sign at the end of a pattern also matches before a last newline *)
Definition chomp (s : str) : str := match rev s with c :: r => if Ascii.eqb c newline then rev r else s | [] => s end.
(** re.search(r'^(.+)-(\d+)-g([0-9a-f]+)$', s), read from the end: neither hexadecimal
    digits nor digits contain what must come before them *)
Definition match_describe (s : str) : option (str * str * str) :=
  let (h, r) := span is_hex (rev (chomp s)) in
  match h, r with
  | _ :: _, g :: m :: r =>
      if Ascii.eqb g (chr 103) && Ascii.eqb m dash then
        let (d, r) := span is_digit r in
        match d, r with
        | _ :: _, m :: (_ :: _) as t => if Ascii.eqb m dash && negb (has_char newline t) then Some (rev t, rev d, rev h) else None
        | _, _ => None
        end
      else None
  | _, _ => None
  end.

(** ** Commands *)
(** subprocess.Popen and communicate: the output, decoded, and the return code; no such
    command; or any other OSError *)
Inductive launch := Ran (out : str) (rc : Z) | NoSuch | Refused.
Section Git.
(** working directory, command, arguments *)
Variable popen : str -> str -> list str -> launch.
(** int() of a text *)
Variable iparse : str -> option Z.
(** _version.py:70-104  run_command *)
Fixpoint run_command (commands : list str) (args : list str) (cwd : str) : option str * option Z :=
  match commands with
  | [] => (None, None)
  | c :: commands' =>
      match popen cwd c args with
      | NoSuch => run_command commands' args cwd
      | Refused => (None, None)
      | Ran out rc => if Z.eqb rc 0 then (Some (strip_by ascii_space out), Some rc) else (None, Some rc)
      end
  end.
Definition GITS : list str := [str_of "git"].
Definition describe_args (prefix : str) : list str := map str_of ["describe"; "--tags"; "--dirty"; "--always"; "--long"; "--match"]%string ++ [prefix ++ str_of "*"].
(** _version.py:217-305  git_pieces_from_vcs *)
Definition git_pieces (prefix root : str) : attempt pieces :=
  let '(_, rc) := run_command GITS (map str_of ["rev-parse"; "--git-dir"]%string) root in
  match rc with
  | Some 0%Z =>
      match fst (run_command GITS (describe_args prefix) root) with
      | None => NotThis
      | Some out =>
          let out := strip out in
          match fst (run_command GITS (map str_of ["rev-parse"; "HEAD"]%string) root) with
          | None => NotThis
          | Some full =>
              let full := strip full in
              let dirty := ends_with (str_of "-dirty") out in
              let git_describe := if dirty then firstn (length out - 6) out else out in
              let finish (p : pieces) : attempt pieces :=
                match fst (run_command GITS (map str_of ["show"; "-s"; "--format=%ci"; "HEAD"]%string) root) with
                | None => Raised AttributeError
                | Some date => Got (mkpieces (p_long p) (p_short p) (p_error p) (p_dirty p) (p_tag p) (p_distance p) (Some (iso_date date)))
                end in
              if has_char dash git_describe then
                match match_describe git_describe with
                | None => Got (mkpieces full (firstn 7 full) (Some (str_of "unable to parse git-describe output: '" ++ out ++ str_of "'")) dirty None None None)
                | Some (tag, num, hex) =>
                    if negb (starts_with prefix tag) then
                      Got (mkpieces full (firstn 7 full) (Some (str_of "tag '" ++ tag ++ str_of "' doesn't start with prefix '" ++ prefix ++ str_of "'")) dirty None None None)
                    else finish (mkpieces full hex None dirty (Some (Some (skipn (length prefix) tag))) (Some (int_of_digits num)) None)
                end
              else
                match fst (run_command GITS (map str_of ["rev-list"; "HEAD"; "--count"]%string) root) with
                | None => Raised TypeError
                | Some count => match iparse count with None => Raised ValueError | Some n => finish (mkpieces full (firstn 7 full) None dirty (Some None) (Some n) None) end
                end
          end
      end
  | _ => NotThis
  end.

(** ** Rendering *)
(** pieces[key] *)
Definition tag_of (p : pieces) : res (option str) := match p_tag p with Some t => Ok t | None => Err KeyError end.
Definition distance_of (p : pieces) : res Z := match p_distance p with Some n => Ok n | None => Err KeyError end.
(** _version.py:308-312  plus_or_dot, of the tag *)
Definition plus_or_dot (tag : str) : str := if has_char plus tag then str_of "." else str_of "+".
Definition when (b : bool) (s : str) : str := if b then s else [].
(** The renderings begin alike: whether there is a tag, which must not be empty, and the
    distance, which is not always looked at *)
Definition by_tag (p : pieces) (tagged : str -> res str) (untagged : res str) : res str :=
  bind (tag_of p) (fun t => match t with Some ((_ :: _) as t) => tagged t | _ => untagged end).
(** _version.py:315-337  render_pep440 *)
Definition render_pep440 (p : pieces) : res str :=
  by_tag p (fun t => bind (distance_of p) (fun n =>
      if negb (Z.eqb n 0) || p_dirty p then Ok (t ++ plus_or_dot t ++ str_of_Z n ++ str_of ".g" ++ p_short p ++ when (p_dirty p) (str_of ".dirty")) else Ok t))
    (bind (distance_of p) (fun n => Ok (str_of "0+untagged." ++ str_of_Z n ++ str_of ".g" ++ p_short p ++ when (p_dirty p) (str_of ".dirty")))).
(** _version.py:340-353  render_pep440_pre *)
Definition render_pep440_pre (p : pieces) : res str :=
  by_tag p (fun t => bind (distance_of p) (fun n => if negb (Z.eqb n 0) then Ok (t ++ str_of ".post.dev" ++ str_of_Z n) else Ok t))
    (bind (distance_of p) (fun n => Ok (str_of "0.post.dev" ++ str_of_Z n))).
(** _version.py:356-380  render_pep440_post *)
Definition render_pep440_post (p : pieces) : res str :=
  by_tag p (fun t => bind (distance_of p) (fun n =>
      if negb (Z.eqb n 0) || p_dirty p then Ok (t ++ str_of ".post" ++ str_of_Z n ++ when (p_dirty p) (str_of ".dev0") ++ plus_or_dot t ++ str_of "g" ++ p_short p) else Ok t))
    (bind (distance_of p) (fun n => Ok (str_of "0.post" ++ str_of_Z n ++ when (p_dirty p) (str_of ".dev0") ++ str_of "+g" ++ p_short p))).
(** _version.py:383-402  render_pep440_old *)
Definition render_pep440_old (p : pieces) : res str :=
  by_tag p (fun t => bind (distance_of p) (fun n =>
      if negb (Z.eqb n 0) || p_dirty p then Ok (t ++ str_of ".post" ++ str_of_Z n ++ when (p_dirty p) (str_of ".dev0")) else Ok t))
    (bind (distance_of p) (fun n => Ok (str_of "0.post" ++ str_of_Z n ++ when (p_dirty p) (str_of ".dev0")))).
(** _version.py:405-422  render_git_describe *)
Definition render_git_describe (p : pieces) : res str :=
  by_tag p (fun t => bind (distance_of p) (fun n => Ok ((if negb (Z.eqb n 0) then t ++ str_of "-" ++ str_of_Z n ++ str_of "-g" ++ p_short p else t) ++ when (p_dirty p) (str_of "-dirty"))))
    (Ok (p_short p ++ when (p_dirty p) (str_of "-dirty"))).
(** _version.py:425-442  render_git_describe_long *)
Definition render_git_describe_long (p : pieces) : res str :=
  by_tag p (fun t => bind (distance_of p) (fun n => Ok (t ++ str_of "-" ++ str_of_Z n ++ str_of "-g" ++ p_short p ++ when (p_dirty p) (str_of "-dirty"))))
    (Ok (p_short p ++ when (p_dirty p) (str_of "-dirty"))).
(** _version.py:445-474  render *)
Definition render (p : pieces) (style : option str) : res versions :=
  match p_error p with
  | Some ((_ :: _) as e) => Ok (mkversions (str_of "unknown") (Some (p_long p)) None (Some e) None)
  | _ =>
      let style := match style with None | Some [] => str_of "pep440" | Some s => if str_eqb s (str_of "default") then str_of "pep440" else s end in
      bind (if str_eqb style (str_of "pep440") then render_pep440 p
            else if str_eqb style (str_of "pep440-pre") then render_pep440_pre p
            else if str_eqb style (str_of "pep440-post") then render_pep440_post p
            else if str_eqb style (str_of "pep440-old") then render_pep440_old p
            else if str_eqb style (str_of "git-describe") then render_git_describe p
            else if str_eqb style (str_of "git-describe-long") then render_git_describe_long p
            else Err ValueError)
           (fun rendered => Ok (mkversions rendered (Some (p_long p)) (Some (p_dirty p)) None (p_date p)))
  end.

(** ** Keywords *)
(** sorted() of texts, by code points *)
Fixpoint str_leb (a b : str) : bool :=
  match a, b with
  | [], _ => true
  | _ :: _, [] => false
  | x :: a', y :: b' => if Ascii.eqb x y then str_leb a' b' else nat_of_ascii x <? nat_of_ascii y
  end.
Fixpoint insert (x : str) (l : list str) : list str := match l with [] => [x] | y :: l' => if str_leb x y then x :: l else y :: insert x l' end.
Definition sorted (l : list str) : list str := fold_right insert [] l.
Definition parens (c : ascii) : bool := Ascii.eqb c (chr 40) || Ascii.eqb c (chr 41).
(** keywords[key] in a dictionary of texts *)
Fixpoint lookup (k : str) (d : list (str * str)) : option str := match d with [] => None | (k', v) :: d' => if str_eqb k k' then Some v else lookup k d' end.
(** _version.py:162-213  git_versions_from_keywords *)
Definition from_keywords (keywords : list (str * str)) (prefix : str) : attempt versions :=
  match keywords with
  | [] => NotThis
  | _ =>
      let date := match lookup (str_of "date") keywords with Some d => Some (iso_date d) | None => None end in
      match lookup (str_of "refnames") keywords with
      | None => Raised KeyError
      | Some refnames =>
          let refnames := strip refnames in
          if starts_with (str_of "$Format") refnames then NotThis else
          let refs := map strip (split_at comma (strip_by parens refnames)) in
          let TAG := str_of "tag: " in
          let tags := map (skipn (length TAG)) (filter (starts_with TAG) refs) in
          let tags := match tags with [] => filter (existsb is_digit) refs | _ => tags end in
          match filter (starts_with prefix) (sorted tags), lookup (str_of "full") keywords with
          | _, None => Raised KeyError
          | ref :: _, Some full => Got (mkversions (skipn (length prefix) ref) (Some (strip full)) (Some false) None date)
          | [], Some full => Got (mkversions (str_of "0+unknown") (Some (strip full)) (Some false) (Some (str_of "no suitable tags")) None)
          end
      end
  end.
(** _version.py:144, 148, 152: the text in quotes after the leftmost equals sign that
    works, up to the last quote of the line *)
Definition up_to_last_quote (s : str) : option str :=
  let line := fst (span (fun c => negb (Ascii.eqb c newline)) s) in
  match snd (span (fun c => negb (Ascii.eqb c quote)) (rev line)) with [] => None | _ :: r => Some (rev r) end.
Fixpoint quoted (s : str) : option str :=
  match s with
  | [] => None
  | c :: s' =>
      if Ascii.eqb c (chr 61) then
        match snd (span is_space s') with
        | q :: r => if Ascii.eqb q quote then match up_to_last_quote r with Some v => Some v | None => quoted s' end else quoted s'
        | [] => quoted s'
        end
      else quoted s'
  end.
(** _version.py:133-159  git_get_keywords; [None] when the file cannot be read.  A later
    line overwrites an earlier one. *)
Definition put (k v : str) (d : list (str * str)) : list (str * str) := (k, v) :: filter (fun kv => negb (str_eqb k (fst kv))) d.
Definition keyword_line (d : list (str * str)) (line : str) : list (str * str) :=
  let look name key d := if starts_with (str_of name) (strip line) then match quoted line with Some v => put (str_of key) v d | None => d end else d in
  look "git_date ="%string "date"%string (look "git_full ="%string "full"%string (look "git_refnames ="%string "refnames"%string d)).
Definition git_get_keywords (lines : option (list str)) : list (str * str) :=
  match lines with None => [] | Some lines => fold_left keyword_line lines [] end.

(** ** All together *)
(** os.path.basename and os.path.dirname *)
Definition basename (p : str) : str := snd (os_split p).
Definition dirname (p : str) : str := fst (os_split p).
(** _version.py:107-128  versions_from_parentdir *)
Fixpoint from_parentdir (levels : nat) (prefix root : str) : attempt versions :=
  match levels with
  | O => NotThis
  | S levels' =>
      if starts_with prefix (basename root) then Got (mkversions (skipn (length prefix) (basename root)) None (Some false) None None)
      else from_parentdir levels' prefix (dirname root)
  end.
(** _version.py:20-30  get_keywords, before git-archive *)
Definition get_keywords : list (str * str) := [(str_of "refnames", str_of "$Format:%d$"); (str_of "full", str_of "$Format:%H$"); (str_of "date", str_of "$Format:%ci$")].
(** _version.py:477-520  get_versions with get_config; [file] is the path of _version.py
    without links, if known *)
Definition tag_prefix : str := [].
Definition parentdir_prefix : str := str_of "impactutils-".
Definition get_versions (keywords : list (str * str)) (file : option str) : res versions :=
  match from_keywords keywords tag_prefix with
  | Got v => Ok v
  | Raised e => Err e
  | NotThis =>
      match file with
      | None => Ok (mkversions (str_of "0+unknown") None None (Some (str_of "unable to find root of source tree")) None)
      | Some file =>
          let root := dirname (dirname file) in
          match match git_pieces tag_prefix root with Got p => match render p (Some (str_of "pep440")) with Ok v => Got v | Err e => Raised e end | NotThis => NotThis | Raised e => Raised e end with
          | Got v => Ok v
          | Raised e => Err e
          | NotThis =>
              match from_parentdir 3 parentdir_prefix root with
              | Got v => Ok v
              | Raised e => Err e
              | NotThis => Ok (mkversions (str_of "0+unknown") None None (Some (str_of "unable to compute version")) None)
              end
          end
      end
  end.
End Git.
