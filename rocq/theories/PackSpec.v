(** Vocabulary for C126 to C129: version files, and the files changed by "versioneer.py setup". *)
From Coq Require Import ZArith String Ascii Bool List Permutation.
From Verif Require Import PyBase VersionModel PackModel.
Import ListNotations.
Open Scope nat_scope.

(** The dictionary has the five keys, once each, with the values of [v]. *)
Definition optional (o : option str) (j : jval) : Prop := match o with Some s => j = JText s | None => j = JNone end.
Definition shows (d : jdict) (v : versions) : Prop :=
  Permutation (map fst d) (map str_of ["version"; "full-revisionid"; "dirty"; "error"; "date"]%string) /\
  In (str_of "version", JText (v_version v)) d /\
  (forall j, In (str_of "full-revisionid", j) d -> optional (v_full v) j) /\
  (forall j, In (str_of "dirty", j) d -> match v_dirty v with Some b => j = JTruth b | None => j = JNone end) /\
  (forall j, In (str_of "error", j) d -> optional (v_error v) j) /\
  (forall j, In (str_of "date", j) d -> optional (v_date v) j).
(** The texts of a dictionary. *)
Definition texts (v : versions) : list str :=
  v_version v :: flat_map (fun o => match o with Some s => [s] | None => [] end) [v_full v; v_error v; v_date v].
Definition occurs (p s : str) : Prop := exists a b, s = a ++ p ++ b.
(** Texts that can stand between triple quotes. *)
Definition plain (s : str) : Prop :=
  (forall c, In c s -> c <> chr 34 /\ c <> chr 92 /\ 32 <= nat_of_ascii c) /\ ~ occurs (str_of "'''") s.
Definition ascii_text (s : str) : Prop := forall c, In c s -> c = chr 10 \/ 32 <= nat_of_ascii c <= 126.
(** The same file with the line ends of another system. *)
Definition crlf (s : str) : str := flat_map (fun c => if Ascii.eqb c (chr 10) then [chr 13; chr 10] else [c]) s.

(** A line of a text, with its newline if it has one. *)
Inductive line_of : str -> str -> Prop :=
| line_full a l b : (a = [] \/ exists a', a = a' ++ [chr 10]) -> ~ In (chr 10) l -> line_of (a ++ l ++ chr 10 :: b) (l ++ [chr 10])
| line_last a l : (a = [] \/ exists a', a = a' ++ [chr 10]) -> ~ In (chr 10) l -> l <> [] -> line_of (a ++ l) l.
Definition unix (s : str) : Prop := ~ In (chr 13) s.
(** Nothing stands on the last line. *)
Definition complete (s : str) : Prop := s = [] \/ exists a, s = a ++ [chr 10].
(** A name without blanks. *)
Definition name_ok (s : str) : Prop := s <> [] /\ forall c, In c s -> PolyModel.is_space c = false.
