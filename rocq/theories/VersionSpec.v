(** Vocabulary for C95 to C99: what git says, and version texts. *)
From Coq Require Import ZArith String Ascii Bool List.
From Verif Require Import PyBase TextSpec PolySpec VersionModel.
Import ListNotations.
Open Scope nat_scope.

(** [t] is [s] without the characters of one kind around it. *)
Definition without (P : ascii -> Prop) (s t : str) : Prop :=
  exists a b, s = a ++ t ++ b /\ Forall P a /\ Forall P b /\ forall c r, (t = c :: r \/ t = r ++ [c]) -> ~ P c.
Definition ascii_blank (c : ascii) : Prop := In (nat_of_ascii c) [9; 10; 11; 12; 13; 32].
Definition hexdigit (c : ascii) : Prop := In c (str_of "0123456789abcdef").
Definition decimal (d : str) : Prop := d <> [] /\ all_digits d.

(** The long form of a description, and the mark of changed files. *)
Definition describes (T tag d h : str) : Prop :=
  (T = tag ++ str_of "-" ++ d ++ str_of "-g" ++ h \/ T = tag ++ str_of "-" ++ d ++ str_of "-g" ++ h ++ [chr 10]) /\
  tag <> [] /\ ~ In (chr 10) tag /\ decimal d /\ h <> [] /\ Forall hexdigit h.
Inductive marked : str -> bool -> str -> Prop :=
| mark_clean T : (forall u, T <> u ++ str_of "-dirty") -> marked T false T
| mark_dirty T : marked (T ++ str_of "-dirty") true T.
(** The first blank of a date becomes a T, the second one goes. *)
Inductive dated (s : str) : str -> Prop :=
| date_whole u : trimmed s u -> ~ In (chr 32) u -> dated s u
| date_one a b : trimmed s (a ++ str_of " " ++ b) -> ~ In (chr 32) a -> ~ In (chr 32) b -> dated s (a ++ str_of "T" ++ b)
| date_two a b c : trimmed s (a ++ str_of " " ++ b ++ str_of " " ++ c) -> ~ In (chr 32) a -> ~ In (chr 32) b -> dated s (a ++ str_of "T" ++ b ++ c).

Section Git.
Variable popen : str -> str -> list str -> launch.
Variable iparse : str -> option Z.
Variables prefix root : str.
Definition answers (args : list str) (out : str) : Prop := popen root (str_of "git") args = Ran out 0.
Definition silent (args : list str) : Prop := forall out, ~ answers args out.
Definition ask_dir : list str := [str_of "rev-parse"; str_of "--git-dir"].
Definition ask_head : list str := [str_of "rev-parse"; str_of "HEAD"].
Definition ask_count : list str := [str_of "rev-list"; str_of "HEAD"; str_of "--count"].
Definition ask_date : list str := [str_of "show"; str_of "-s"; str_of "--format=%ci"; str_of "HEAD"].
Definition ask_tags : list str := [str_of "describe"; str_of "--tags"; str_of "--dirty"; str_of "--always"; str_of "--long"; str_of "--match"; prefix ++ str_of "*"].
(** The commit [F], the description [D] and, without the mark, [T]. *)
Definition told (F D : str) (dirty : bool) (T : str) : Prop :=
  exists o1 o2 o3, answers ask_dir o1 /\ answers ask_tags o2 /\ trimmed o2 D /\ marked D dirty T /\ answers ask_head o3 /\ trimmed o3 F.
Inductive pieces_from : attempt pieces -> Prop :=
| no_git : silent ask_dir -> pieces_from NotThis
| no_description : silent ask_tags -> pieces_from NotThis
| no_commit : silent ask_head -> pieces_from NotThis
| tagged F D dirty T tag d h t o date : told F D dirty T -> describes T tag d h -> tag = prefix ++ t -> answers ask_date o -> dated o date ->
    pieces_from (Got (mkpieces F h None dirty (Some (Some t)) (Some (digits_value d)) (Some date)))
| tagged_undated F D dirty T tag d h t : told F D dirty T -> describes T tag d h -> tag = prefix ++ t -> silent ask_date -> pieces_from (Raised AttributeError)
| other_tag F D dirty T tag d h : told F D dirty T -> describes T tag d h -> (forall t, tag <> prefix ++ t) ->
    pieces_from (Got (mkpieces F (firstn 7 F) (Some (str_of "tag '" ++ tag ++ str_of "' doesn't start with prefix '" ++ prefix ++ str_of "'")) dirty None None None))
| strange F D dirty T : told F D dirty T -> In (chr 45) T -> (forall tag d h, ~ describes T tag d h) ->
    pieces_from (Got (mkpieces F (firstn 7 F) (Some (str_of "unable to parse git-describe output: '" ++ D ++ str_of "'")) dirty None None None))
| untagged F D dirty T o c n o' date : told F D dirty T -> ~ In (chr 45) T -> answers ask_count o -> without ascii_blank o c -> iparse c = Some n -> answers ask_date o' -> dated o' date ->
    pieces_from (Got (mkpieces F (firstn 7 F) None dirty (Some None) (Some n) (Some date)))
| untagged_undated F D dirty T o c n : told F D dirty T -> ~ In (chr 45) T -> answers ask_count o -> without ascii_blank o c -> iparse c = Some n -> silent ask_date -> pieces_from (Raised AttributeError)
| uncounted F D dirty T : told F D dirty T -> ~ In (chr 45) T -> silent ask_count -> pieces_from (Raised TypeError)
| miscounted F D dirty T o c : told F D dirty T -> ~ In (chr 45) T -> answers ask_count o -> without ascii_blank o c -> iparse c = None -> pieces_from (Raised ValueError).
End Git.

(** ** Version texts, as documented *)
Inductive style := pep440 | pre | post | old | describe | describe_long.
Definition style_name (s : style) : str :=
  str_of match s with pep440 => "pep440" | pre => "pep440-pre" | post => "pep440-post" | old => "pep440-old" | describe => "git-describe" | describe_long => "git-describe-long" end.
Definition mark (dirty : bool) (s : string) : str := if dirty then str_of s else [].
Definition at_tag (n : Z) (dirty : bool) : Prop := n = 0%Z /\ dirty = false.
(** What comes before a local version, and between its parts. *)
Definition local_sep (t sep : str) : Prop := (~ In (chr 43) t /\ sep = str_of "+") \/ (In (chr 43) t /\ sep = str_of ".").
Inductive shown (n : Z) (h : str) (dirty : bool) : option str -> style -> str -> Prop :=
| at_the_tag s t : at_tag n dirty -> s <> describe_long -> shown n h dirty (Some t) s t
| pep440_later t sep : ~ at_tag n dirty -> local_sep t sep -> shown n h dirty (Some t) pep440 (t ++ sep ++ str_of_Z n ++ str_of ".g" ++ h ++ mark dirty ".dirty")
| pre_later t : n <> 0%Z -> shown n h dirty (Some t) pre (t ++ str_of ".post.dev" ++ str_of_Z n)
| pre_dirty t : n = 0%Z -> dirty = true -> shown n h dirty (Some t) pre t
| post_later t sep : ~ at_tag n dirty -> local_sep t sep -> shown n h dirty (Some t) post (t ++ str_of ".post" ++ str_of_Z n ++ mark dirty ".dev0" ++ sep ++ str_of "g" ++ h)
| old_later t : ~ at_tag n dirty -> shown n h dirty (Some t) old (t ++ str_of ".post" ++ str_of_Z n ++ mark dirty ".dev0")
| describe_later t : n <> 0%Z -> shown n h dirty (Some t) describe (t ++ str_of "-" ++ str_of_Z n ++ str_of "-g" ++ h ++ mark dirty "-dirty")
| describe_dirty t : n = 0%Z -> dirty = true -> shown n h dirty (Some t) describe (t ++ str_of "-dirty")
| long_any t : shown n h dirty (Some t) describe_long (t ++ str_of "-" ++ str_of_Z n ++ str_of "-g" ++ h ++ mark dirty "-dirty")
| pep440_none : shown n h dirty None pep440 (str_of "0+untagged." ++ str_of_Z n ++ str_of ".g" ++ h ++ mark dirty ".dirty")
| pre_none : shown n h dirty None pre (str_of "0.post.dev" ++ str_of_Z n)
| post_none : shown n h dirty None post (str_of "0.post" ++ str_of_Z n ++ mark dirty ".dev0" ++ str_of "+g" ++ h)
| old_none : shown n h dirty None old (str_of "0.post" ++ str_of_Z n ++ mark dirty ".dev0")
| describe_none s : s = describe \/ s = describe_long -> shown n h dirty None s (h ++ mark dirty "-dirty").

(** ** PEP 440 *)
Inductive release : str -> Prop :=
| release_one d : decimal d -> release d
| release_more d r : decimal d -> release r -> release (d ++ str_of "." ++ r).
Inductive pre_part : str -> Prop :=
| pre_no : pre_part []
| pre_yes l d : l = "a"%string \/ l = "b"%string \/ l = "rc"%string -> decimal d -> pre_part (str_of l ++ d).
Inductive numbered (w : string) : str -> Prop :=
| numbered_no : numbered w []
| numbered_bare : numbered w (str_of w)
| numbered_yes d : decimal d -> numbered w (str_of w ++ d).
Definition alnum (c : ascii) : Prop := is_digit c = true \/ 97 <= nat_of_ascii c <= 122.
Inductive segments : str -> Prop :=
| segment_one x : x <> [] -> Forall alnum x -> segments x
| segment_more x r : x <> [] -> Forall alnum x -> segments r -> segments (x ++ str_of "." ++ r).
Inductive local_part : str -> Prop :=
| local_no : local_part []
| local_yes x : segments x -> local_part (str_of "+" ++ x).
(** N(.N)*[{a|b|rc}N][.post[N]][.dev[N]][+local] *)
Definition valid_version (v : str) : Prop :=
  exists r p po d l, v = r ++ p ++ po ++ d ++ l /\ release r /\ pre_part p /\ numbered ".post" po /\ numbered ".dev" d /\ local_part l.
(** A tag that names a release or a candidate for one. *)
Definition release_tag (t : str) : Prop := exists r p, t = r ++ p /\ release r /\ pre_part p.

(** ** Keywords *)
(** Order of texts by their characters. *)
Inductive upto : str -> str -> Prop :=
| upto_nil b : upto [] b
| upto_less x y a b : nat_of_ascii x < nat_of_ascii y -> upto (x :: a) (y :: b)
| upto_same x a b : upto a b -> upto (x :: a) (x :: b).
Definition paren (c : ascii) : Prop := c = chr 40 \/ c = chr 41.
(** The names git puts in place of %d. *)
Definition ref_of (refnames r : str) : Prop :=
  exists u w ps p, trimmed refnames u /\ without paren u w /\ parts (chr 44) w ps /\ In p ps /\ trimmed p r.
Definition tag_ref (refnames t : str) : Prop := ref_of refnames (str_of "tag: " ++ t).
Inductive candidate (refnames : str) : str -> Prop :=
| tag_candidate t : tag_ref refnames t -> candidate refnames t
| other_candidate r : (forall t, ~ tag_ref refnames t) -> ref_of refnames r -> (exists c, In c r /\ is_digit c = true) -> candidate refnames r.
Definition least_with (prefix refnames t : str) : Prop :=
  candidate refnames (prefix ++ t) /\ forall t', candidate refnames (prefix ++ t') -> upto (prefix ++ t) (prefix ++ t').
Definition unexpanded (refnames : str) : Prop := exists u, trimmed refnames (str_of "$Format" ++ u).
(** An entry of a dictionary, and a missing one. *)
Definition entry (d : list (str * str)) (k : string) (v : str) : Prop := exists a b, d = a ++ (str_of k, v) :: b /\ ~ In (str_of k) (map fst a).
Definition missing (d : list (str * str)) (k : string) : Prop := ~ In (str_of k) (map fst d).
Inductive date_of (d : list (str * str)) : option str -> Prop :=
| date_missing : missing d "date" -> date_of d None
| date_there s t : entry d "date" s -> dated s t -> date_of d (Some t).
Inductive keyword_versions (d : list (str * str)) (prefix : str) : attempt versions -> Prop :=
| nothing_at_all : d = [] -> keyword_versions d prefix NotThis
| not_expanded r : entry d "refnames" r -> unexpanded r -> keyword_versions d prefix NotThis
| no_names : d <> [] -> missing d "refnames" -> keyword_versions d prefix (Raised KeyError)
| no_full r : entry d "refnames" r -> ~ unexpanded r -> missing d "full" -> keyword_versions d prefix (Raised KeyError)
| version_found r f F t date : entry d "refnames" r -> ~ unexpanded r -> entry d "full" f -> trimmed f F -> least_with prefix r t -> date_of d date ->
    keyword_versions d prefix (Got (mkversions t (Some F) (Some false) None date))
| version_unknown r f F : entry d "refnames" r -> ~ unexpanded r -> entry d "full" f -> trimmed f F -> (forall t, ~ candidate r (prefix ++ t)) ->
    keyword_versions d prefix (Got (mkversions (str_of "0+unknown") (Some F) (Some false) (Some (str_of "no suitable tags")) None)).
(** An assignment in a file, and a line that begins one. *)
Definition assignment (indent : str) (name : string) (v : str) : str := indent ++ str_of name ++ str_of " = """ ++ v ++ str_of """" ++ [chr 10].
Definition begins (name : string) (line : str) : Prop := exists u, trimmed line (str_of name ++ str_of " =" ++ u).

(** ** Tags and paths *)
(** An empty tag is none. *)
Inductive real_tag : option str -> option str -> Prop :=
| real_none : real_tag None None
| real_empty : real_tag (Some []) None
| real_some c t : real_tag (Some (c :: t)) (Some (c :: t)).
Definition plain_tag (t : option str) : Prop := forall s, t = Some s -> ~ In (chr 43) s.
(** An absolute path of plain names. *)
Definition plain_names (ps : list str) : Prop := Forall (fun c => c <> [] /\ ~ In (chr 47) c) ps.
Definition path_text (ps : list str) : str := match ps with [] => str_of "/" | _ => concat (map (fun c => str_of "/" ++ c) ps) end.
(** The nearest of the last three names that begins like this. *)
Definition nearest (prefix : str) (ps : list str) (v : str) : Prop :=
  exists a b, ps = a ++ [prefix ++ v] ++ b /\ length b < 3 /\ forall c w, In c b -> c <> prefix ++ w.
