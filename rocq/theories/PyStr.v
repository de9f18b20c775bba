(** Python string methods and os.path functions used by the transfer code
    (POSIX, no symbolic links).  Nothing here models a function of /repo. *)
From Coq Require Import ZArith String Ascii Bool List Lia.
From Verif Require Import PyBase.
Import ListNotations.

Definition sl : ascii := chr 47.

(** [s.replace(old, new)] for non-empty [old]: leftmost, non-overlapping. *)
Fixpoint replace_skip (old new : str) (skip : nat) (s : str) : str :=
  match s with
  | [] => []
  | c :: s' =>
      match skip with
      | S k => replace_skip old new k s'
      | O => if starts_with old s then new ++ replace_skip old new (List.length old - 1) s'
             else c :: replace_skip old new 0 s'
      end
  end.
Definition py_replace (s old new : str) : str :=
  match old with [] => s | _ => replace_skip old new 0 s end.

(** [s.strip('/')]. *)
Fixpoint lstrip_sl (s : str) : str :=
  match s with c :: s' => if Ascii.eqb c sl then lstrip_sl s' else s | [] => [] end.
Definition rstrip_sl (s : str) : str := rev (lstrip_sl (rev s)).
Definition strip_sl (s : str) : str := rstrip_sl (lstrip_sl s).

(** [s.split('/')]. *)
Fixpoint split_sl (s : str) : list str :=
  match s with
  | [] => [[]]
  | c :: s' =>
      if Ascii.eqb c sl then [] :: split_sl s'
      else match split_sl s' with x :: r => (c :: x) :: r | [] => [[c]] end
  end.

Definition ends_sl (s : str) : bool := match rev s with c :: _ => Ascii.eqb c sl | [] => false end.
Definition starts_sl (s : str) : bool := match s with c :: _ => Ascii.eqb c sl | [] => false end.

(** [os.path.join(a, b)] and with more arguments. *)
Definition os_join (a b : str) : str :=
  if starts_sl b then b
  else match a with
       | [] => b
       | _ => if ends_sl a then a ++ b else a ++ sl :: b
       end.
Definition os_join_all (a : str) (l : list str) : str := fold_left os_join l a.

(** [os.path.split(p)]: up to and including the last slash, and the rest; the
    head loses trailing slashes unless it consists of slashes only. *)
Fixpoint tail_part (s : str) : str :=   (* on the reversed string *)
  match s with c :: s' => if Ascii.eqb c sl then [] else c :: tail_part s' | [] => [] end.
Fixpoint head_part (s : str) : str :=
  match s with c :: s' => if Ascii.eqb c sl then s else head_part s' | [] => [] end.
Definition os_split (p : str) : str * str :=
  let h := rev (head_part (rev p)) in
  let t := rev (tail_part (rev p)) in
  (if forallb (Ascii.eqb sl) h then h else rstrip_sl h, t).

(** Path resolution: split at slashes, skip empty and "." parts, ".." goes up. *)
Definition path := list str.
Fixpoint walk_parts (base : path) (parts : list str) : path :=
  match parts with
  | [] => base
  | x :: r =>
      if str_eqb x [] || str_eqb x (str_of ".") then walk_parts base r
      else if str_eqb x (str_of "..") then walk_parts (removelast base) r
      else walk_parts (base ++ [x]) r
  end.
Definition resolve (cwd : path) (s : str) : path :=
  walk_parts (if starts_sl s then [] else cwd) (split_sl s).
