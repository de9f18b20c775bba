(** Vocabulary for C115 to C117: downloading the time zone data. *)
From Coq Require Import ZArith String Ascii Bool List.
From Verif Require Import PyBase PyStr FsModel FsSpec.
Import ListNotations.

(** A text inside another, at the end of another. *)
Definition inside (a s : str) : Prop := exists u v, s = u ++ a ++ v.
Definition closes (a s : str) : Prop := exists u, s = u ++ a.
Definition wanted : str := str_of "timezones.shapefile.zip".

(** The first link whose address has the wanted text; no link has it; there is no link. *)
Definition first_link (l : list (option str)) (h : str) : Prop :=
  exists pre post, l = pre ++ Some h :: post /\ inside wanted h /\ forall h', In (Some h') pre -> ~ inside wanted h'.
Definition only_others (l : list (option str)) (h : str) : Prop :=
  (exists pre post, l = pre ++ Some h :: post /\ forall x, In x post -> x = None) /\ forall h', In (Some h') l -> ~ inside wanted h'.

(** An archive of files in one folder. *)
Definition in_folder (folder : str) (files : list (str * str)) : list (str * str) := map (fun f => (folder ++ sl :: fst f, snd f)) files.
(** The last file whose name ends in .shp. *)
Definition last_shape (files : list (str * str)) (n : str) : Prop :=
  exists pre c post, files = pre ++ (n, c) :: post /\ closes (str_of ".shp") n /\ forall f, In f post -> ~ closes (str_of ".shp") (fst f).

(** The folder and the name in the name of an entry: before the last slashes and after
    them; if there is nothing before them the slashes are the folder. *)
Inductive entry : str -> str -> str -> Prop :=
| entry_plain n : ~ In sl n -> entry n [] n
| entry_root k n : ~ In sl n -> entry (repeat sl (S k) ++ n) (repeat sl (S k)) n
| entry_in d k n : ~ In sl n -> ends_sl d = false -> d <> [] -> entry (d ++ repeat sl (S k) ++ n) d n.
(** A name with at least one proper part. *)
Definition proper (f : str) : Prop := exists x, In x (split_sl f) /\ fname_ok x.
(** A relative name without "..", with at least one proper part. *)
Definition honest (f : str) : Prop := starts_sl f = false /\ ~ In (str_of "..") (split_sl f) /\ proper f.
