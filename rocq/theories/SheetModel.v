(** Model of the parts of /repo/impactutils/mapping/city.py and mapcity.py that work on the columns
    of the table: construction, getColumns, len, sortByColumns, project, getCities, MapCities.
    A data frame is its columns in order, with different names and equally many values; the type
    of the values is left open.  The index of the rows is left out. *)
From Coq Require Import ZArith String Ascii Bool List.
From Verif Require Import PyBase PyStr.
Import ListNotations.

(** a < b and a <= b for str: by code points *)
Fixpoint str_leb (a b : str) : bool :=
  match a, b with
  | [], _ => true
  | _ :: _, [] => false
  | x :: a', y :: b' => if Nat.ltb (nat_of_ascii x) (nat_of_ascii y) then true else if Nat.ltb (nat_of_ascii y) (nat_of_ascii x) then false else str_leb a' b'
  end.
(** list.sort() *)
Fixpoint insert (x : str) (l : list str) : list str := match l with [] => [x] | y :: l' => if str_leb x y then x :: l else y :: insert x l' end.
Definition sort (l : list str) : list str := fold_right insert [] l.
Section Sheet.
Context {A : Type}.
Definition sheet := list (str * list A).
Definition columns (d : sheet) : list str := map fst d.
(** d[name] *)
Fixpoint column (name : str) (d : sheet) : option (list A) := match d with [] => None | (k, v) :: d' => if str_eqb name k then Some v else column name d' end.
(** d[name] = values: a column of that name is replaced, otherwise one is added on the right *)
Fixpoint put_column (name : str) (vals : list A) (d : sheet) : sheet :=
  match d with [] => [(name, vals)] | (k, v) :: d' => if str_eqb name k then (k, vals) :: d' else (k, v) :: put_column name vals d' end.
(** len(d) *)
Definition rows (d : sheet) : nat := match d with [] => O | (_, v) :: _ => length v end.
(** numpy arrays of another length are refused *)
Definition assign (name : str) (vals : list A) (d : sheet) : res sheet := if Nat.eqb (length vals) (rows d) then Ok (put_column name vals d) else Err ValueError.
(** city.py:40 *)
Definition REQFIELDS : list str := [str_of "name"; str_of "lat"; str_of "lon"].
(** city.py:66-69, mapcity.py:44-46  __init__: the size of the intersection of the two sets *)
Definition new_cities (d : sheet) : res sheet :=
  if Nat.ltb (length (filter (fun f => existsb (str_eqb f) (columns d)) REQFIELDS)) 3 then Err KeyError else Ok d.
(** city.py:169-175, 211-217  len, getColumns *)
Definition get_columns (d : sheet) : list str := columns d.
(** d.columns(): an Index is not callable *)
Definition call_columns (d : sheet) : res (list str) := Err TypeError.
(** city.py:187-209  sortByColumns; [sort_values] is that of pandas *)
Definition sort_by_columns (sort_values : list str -> bool -> sheet -> sheet) (wanted : list str) (ascending : bool) (d : sheet) : res sheet :=
  bind (call_columns d) (fun cols =>
  match filter (fun c => negb (existsb (str_eqb c) cols)) wanted with
  | _ :: _ => Err KeyError
  | [] => Ok (sort_values wanted ascending d)
  end).
(** city.py:366-375  getCities *)
Definition get_cities (d : sheet) : res (list A * list A * list A) :=
  match column (str_of "lat") d, column (str_of "lon") d, column (str_of "name") d with
  | Some lat, Some lon, Some names => Ok (lat, lon, names)
  | _, _, _ => Err KeyError
  end.
(** city.py:377-386  project; [mbasemap] gives two arrays *)
Definition project (mbasemap : list A -> list A -> res (list A * list A)) (d : sheet) : res sheet :=
  match column (str_of "lon") d, column (str_of "lat") d with
  | Some lon, Some lat => bind (mbasemap lon lat) (fun xy => bind (assign (str_of "x") (fst xy) d) (fun d' => assign (str_of "y") (snd xy) d'))
  | _, _ => Err KeyError
  end.
(** d[mask]: the rows for which the mask is true *)
Definition masked (mask : list bool) (v : list A) : list A := map snd (filter fst (combine mask v)).
Definition limit (mask : list bool) (d : sheet) : res sheet := new_cities (map (fun kv => (fst kv, masked mask (snd kv))) d).
(** mapcity.py:40-49  MapCities.__init__: the table and the names of the fonts *)
Definition new_map_cities (fonts : list str) (d : sheet) : res (sheet * list str) := bind (new_cities d) (fun d' => Ok (d', sort fonts)).
(** mapcity.py:51-59  limitByMapCollision *)
Definition limit_by_map_collision (d : sheet) : res sheet := Err NotImplementedErr.
End Sheet.
Arguments sheet : clear implicits.
