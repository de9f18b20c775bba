(** Vocabulary for polygons and rupture files. *)
From Coq Require Import Reals Ascii List.
From Verif Require Import PyBase.
Import ListNotations.
Open Scope R_scope.

(** Longitude, latitude, depth. *)
Notation vertex := (R * R * R)%type.
(** A closed outline: along the top edge and back along the bottom edge to the start. *)
Definition outline_of_edges (top bottom : list vertex) (p : list vertex) : Prop :=
  exists first rest, top = first :: rest /\ length bottom = length top /\ p = top ++ rev bottom ++ [first].
(** Every vertex of the top edge is shallower than the one below it. *)
Definition shallower (t b : vertex) : Prop := snd t < snd b.
Definition well_ordered (p : list vertex) : Prop :=
  (exists v, p = [v]) \/ exists top bottom, outline_of_edges top bottom p /\ Forall2 shallower top bottom.
(** A closed polygon; the same one starting [k] vertices later. *)
Definition closed (p : list vertex) : Prop := exists v body, p = v :: body ++ [v].
Definition started_at (k : nat) (p p' : list vertex) : Prop :=
  exists v body a b w r, p = v :: body ++ [v] /\ v :: body = a ++ b /\ length a = k /\ b ++ a = w :: r /\ p' = (w :: r) ++ [w].
(** [f] holds of the first position at which [ok] holds, counting from 0 and below [n]. *)
Definition first_start (ok : list vertex -> Prop) (p p' : list vertex) : Prop :=
  exists k, (k < length p - 1)%nat /\ started_at k p p' /\ ok p' /\ forall j q, (j < k)%nat -> started_at j p q -> ~ ok q.

(** The blank characters of latin-1. *)
Definition blank (c : ascii) : bool := existsb (Nat.eqb (nat_of_ascii c)) [9; 10; 11; 12; 13; 28; 29; 30; 31; 32; 133; 160]%nat.
Section Lines.
  Variable number : str -> option R.   (* the value of a numeral *)
  Definition blanks (s : str) : Prop := Forall (fun c => blank c = true) s.
  (** Words of a line; parts of a line between separators; a line without the blanks around it. *)
  Inductive words : str -> list str -> Prop :=
  | words_none : forall s, blanks s -> words s []
  | words_more : forall s w rest ws, blanks s -> w <> [] -> Forall (fun c => blank c = false) w ->
      (rest = [] \/ exists c r, rest = c :: r /\ blank c = true) -> words rest ws -> words (s ++ w ++ rest) (w :: ws).
  Definition parts (sep : ascii) (s : str) (ps : list str) : Prop :=
    ps <> [] /\ Forall (fun p => ~ In sep p) ps /\ s = join [sep] ps.
  Definition trimmed (s t : str) : Prop :=
    exists a b, s = a ++ t ++ b /\ blanks a /\ blanks b /\ forall c r, (t = c :: r \/ t = r ++ [c]) -> blank c = false.
  (** What a line of a rupture file says. *)
  Inductive item := IBlank | IComment (text : str) | ISeparator | IVertex (v : vertex).
  (** The three fields of a vertex: words, or in the old format one word with commas. *)
  Definition fields (new_format : bool) (line : str) (a b c : str) : Prop :=
    words line [a; b; c] \/
    (new_format = false /\ (exists w, words line [w]) /\ parts "," line [a; b; c]).
  Inductive says (new_format : bool) (line : str) : item -> Prop :=
  | says_blank : blanks line -> says new_format line IBlank
  | says_comment : forall t, trimmed line ("#"%char :: t) -> says new_format line (IComment (filter (fun c => negb (Ascii.eqb c "#"%char)) t))
  | says_separator : forall t, trimmed line (">"%char :: t) -> says new_format line ISeparator
  | says_vertex : forall h t a b c x y z, trimmed line (h :: t) -> h <> "#"%char -> h <> ">"%char ->
      fields new_format line a b c -> number a = Some x -> number b = Some y -> number c = Some z ->
      says new_format line (IVertex (if new_format then (x, y, z) else (y, x, z))).
End Lines.
(** The comments of a file, joined; its runs of vertices between separators. *)
Definition reference_of (l : list item) : str := flat_map (fun i => match i with IComment t => t | _ => [] end) l.
Definition vertices_of (l : list item) : list (option vertex) :=
  flat_map (fun i => match i with IVertex v => [Some v] | ISeparator => [None] | _ => [] end) l.
Inductive groups : list (option vertex) -> list (list vertex) -> Prop :=
| groups_none : groups [] []
| groups_sep : forall l g, groups l g -> groups (None :: l) g
| groups_run : forall r l gs, r <> [] -> (l = [] \/ exists l', l = None :: l') -> groups l gs -> groups (map Some r ++ l) (r :: gs).

(** ** Patches between two edges *)
Record patch := mkpatch { p_tl : vertex; p_tr : vertex; p_br : vertex; p_bl : vertex }.
Inductive patches : list vertex -> list vertex -> list patch -> Prop :=
| patches_end : forall t b, patches [t] [b] []
| patches_next : forall t t' ts b b' bs ps, patches (t' :: ts) (b' :: bs) ps ->
    patches (t :: t' :: ts) (b :: b' :: bs) (mkpatch t t' b' b :: ps).
(** Nearly the same vertex: what a round trip through earth-centred coordinates keeps. *)
Definition nearly (v w : vertex) : Prop :=
  let '(lon, lat, dep) := w in let '(lon', lat', dep') := v in
  -180 < lon <= 180 -> -90 < lat < 90 -> Rabs dep <= 1000 -> lon' = lon /\ Rabs (lat' - lat) <= 0.0000003 /\ Rabs (dep' - dep) <= 0.0001.
(** Acceptable coordinates. *)
Definition on_earth (v : vertex) : Prop := let '(lon, lat, dep) := v in -180 <= lon <= 180 /\ -90 <= lat <= 90 /\ -8.848 < dep < 6371.
(** Group numbers: as many copies of each as there are members. *)
Fixpoint numbered {A} (i : nat) (l : list (list A)) : list nat := match l with [] => [] | x :: r => repeat i (length x) ++ numbered (S i) r end.
(** The members of group [g], in their order. *)
Inductive picks {A} (g : nat) : list nat -> list A -> list A -> Prop :=
| picks_nil : picks g [] [] []
| picks_in : forall gs l r x, picks g gs l r -> picks g (g :: gs) (x :: l) (x :: r)
| picks_out : forall g' gs l r x, g' <> g -> picks g gs l r -> picks g (g' :: gs) (x :: l) r.
(** The groups that occur, in increasing order. *)
Inductive increasing : list nat -> Prop :=
| inc_nil : increasing []
| inc_one : forall g, increasing [g]
| inc_more : forall g h l, (g < h)%nat -> increasing (h :: l) -> increasing (g :: h :: l).
Definition groups_of (gi ids : list nat) : Prop := increasing ids /\ forall g, In g ids <-> In g gi.
(** Never decreasing. *)
Inductive ascending : list nat -> Prop :=
| asc_nil : ascending []
| asc_one : forall g, ascending [g]
| asc_more : forall g h l, (g <= h)%nat -> ascending (h :: l) -> ascending (g :: h :: l).
