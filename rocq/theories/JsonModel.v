(** JSON documents as json.load returns them, and what Python does with them.

    Simplifications: strings are latin-1; a dictionary is an association list of which
    the first entry for a key counts; floats are exact numbers, infinities or NaN. *)
From Coq Require Import ZArith Reals String Ascii Bool List.
From Verif Require Import PyBase OriginModel.
Import ListNotations.

Inductive json := JNull | JBool (b : bool) | JInt (z : Z) | JFloat (x : num) | JStr (s : str) | JArr (l : list json) | JObj (d : dict json).
(** d[key] for a string: a list or a string wants an integer *)
Definition jkey (k : str) (d : json) : res json :=
  match d with
  | JObj d => match dget k d with Some v => Ok v | None => Err KeyError end
  | _ => Err TypeError
  end.
(** d[i] for an integer i >= 0; the keys of a dictionary are strings *)
Definition jindex (i : nat) (d : json) : res json :=
  match d with
  | JArr l => match nth_error l i with Some v => Ok v | None => Err IndexError end
  | JStr s => match nth_error s i with Some c => Ok (JStr [c]) | None => Err IndexError end
  | JObj _ => Err KeyError
  | _ => Err TypeError
  end.
(** len(d) *)
Definition jlen (d : json) : res nat :=
  match d with
  | JArr l => Ok (List.length l)
  | JStr s => Ok (List.length s)
  | JObj d => Ok (List.length d)
  | _ => Err TypeError
  end.
(** key in d.keys() *)
Definition jhas_key (k : str) (d : json) : res bool := match d with JObj d => Ok (dhas k d) | _ => Err AttributeError end.
(** d == 'text' *)
Definition jeq (d : json) (s : str) : bool := match d with JStr t => str_eqb t s | _ => false end.
(** d[k1][k2]... *)
Fixpoint jpath (ks : list str) (d : json) : res json :=
  match ks with [] => Ok d | k :: ks' => bind (jkey k d) (jpath ks') end.
