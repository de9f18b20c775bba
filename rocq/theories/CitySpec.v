(** Vocabulary for the city properties: rows selected by a predicate, the most
    populous rows of a list. *)
From Coq Require Import ZArith Reals String Ascii Bool List Lia Lra Permutation Sorted.
From Verif Require Import PyBase PyStr CityModel.
Import ListNotations.
Open Scope R_scope.

(** [l'] is [l] without the rows that do not satisfy [P]. *)
Inductive selects (P : city -> Prop) : list city -> list city -> Prop :=
| sel_nil : selects P [] []
| sel_yes : forall r l l', P r -> selects P l l' -> selects P (r :: l) (r :: l')
| sel_no : forall r l l', ~ P r -> selects P l l' -> selects P (r :: l) l'.

(** The required columns are there. *)
Definition complete (f : frame) : Prop := In (str_of "name") (f_cols f) /\ In (str_of "lat") (f_cols f) /\ In (str_of "lon") (f_cols f).

(** Number comparisons that are false for NaN. *)
Definition within (lo v hi : fl) : Prop := exists a x b, lo = Some a /\ v = Some x /\ hi = Some b /\ a < x <= b.
Definition at_most (v w : fl) : Prop := exists x y, v = Some x /\ w = Some y /\ x <= y.

(** The filters as calls. *)
Inductive fcall :=
| ByBounds (xmin xmax ymin ymax : fl) | ByRadius (dist : city -> fl) (radius : fl) | ByPopulation (pop minpop : fl) | ByName (matches : str -> bool).
Definition fapply (o : fcall) (f : frame) : res frame :=
  match o with
  | ByBounds a b c d => limit_by_bounds a b c d f
  | ByRadius d r => limit_by_radius d r f
  | ByPopulation p m => limit_by_population p m f
  | ByName m => limit_by_name m f
  end.
Fixpoint fapply_all (l : list fcall) (f : frame) : res frame :=
  match l with [] => Ok f | o :: l' => match fapply o f with Ok g => fapply_all l' g | Err e => Err e end end.
Definition keeps (o : fcall) (r : city) : Prop :=
  match o with
  | ByBounds a b c d => within a (c_lon r) b /\ within c (c_lat r) d
  | ByRadius d rad => at_most (d r) rad
  | ByPopulation p _ => at_most p (c_pop r)
  | ByName m => m (c_other r (str_of "name")) = true
  end.

(** ** The most populous *)
Definition pop_ge (k d : city) : Prop :=
  match c_pop d with None => True | Some y => exists x, c_pop k = Some x /\ y <= x end.
(** Any sort in descending order, NaN last; the order of equals is free. *)
Definition sorts (s : list city -> list city) : Prop := forall l, Permutation (s l) l /\ StronglySorted pop_ge (s l).
Definition most_populous (n : nat) (l kept : list city) : Prop :=
  exists dropped, Permutation (kept ++ dropped) l /\ List.length kept = Nat.min n (List.length l) /\
    forall k d, In k kept -> In d dropped -> pop_ge k d.

(** Extreme values of a column. *)
Definition least (v : city -> fl) (l : list city) (m : R) : Prop :=
  (exists r, In r l /\ v r = Some m) /\ forall r x, In r l -> v r = Some x -> m <= x.
Definition greatest (v : city -> fl) (l : list city) (m : R) : Prop :=
  (exists r, In r l /\ v r = Some m) /\ forall r x, In r l -> v r = Some x -> x <= m.
