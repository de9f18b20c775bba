(** Vocabulary for ComCat and GeoServe answers. *)
From Coq Require Import ZArith Ascii List.
From Verif Require Import PyBase OriginModel JsonModel PolySpec.
Import ListNotations.

(** [at_path d ks v]: following the keys [ks] from [d] one arrives at [v].  The first
    entry for a key is the one that counts. *)
Inductive at_path : json -> list str -> json -> Prop :=
| at_here : forall d, at_path d [] d
| at_key : forall before k v after ks w, ~ In k (map fst before) -> at_path v ks w -> at_path (JObj (before ++ (k, v) :: after)) (k :: ks) w.

Definition comma : ascii := ascii_of_nat 44.
(** [t] is [s] without the commas around it. *)
Definition core (s t : str) : Prop :=
  exists a b, s = a ++ t ++ b /\ Forall (eq comma) a /\ Forall (eq comma) b /\ forall c r, (t = c :: r \/ t = r ++ [c]) -> c <> comma.
(** The items of a list in a text. *)
Definition items (s : str) (l : list str) : Prop := exists t, core s t /\ parts comma t l.
(** [rest] is [l] without the first [x]. *)
Definition without (x : str) (l rest : list str) : Prop :=
  exists before after, l = before ++ x :: after /\ ~ In x before /\ rest = before ++ after.
Definition prefix (p s : str) : Prop := exists r, s = p ++ r.
(** The source belonging to an id: the longest one that begins the id, and of equals the
    first; if none begins it, the first of all. *)
Definition belongs (sources : list str) (id s : str) : Prop :=
  (exists before after, sources = before ++ s :: after /\ prefix s id /\ s <> [] /\
     (forall t, In t sources -> prefix t id -> length t <= length s)) \/
  ((forall t, In t sources -> prefix t id -> t = []) /\ exists rest, sources = s :: rest).
