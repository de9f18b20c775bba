(** Model of /repo/impactutils/mapping/city.py.  Coordinates and populations are
    finite floats or NaN (None); the other columns are text.  Arithmetic is done
    by [rd], a rounding applied after each operation. *)
From Coq Require Import ZArith Reals String Ascii Bool List Lia Lra.
From Verif Require Import PyBase PyStr.
Import ListNotations.
Open Scope R_scope.

Definition fl := option R.
(** Comparisons with NaN are false. *)
Definition flt (a b : fl) : bool := match a, b with Some x, Some y => if Rlt_dec x y then true else false | _, _ => false end.
Definition fle (a b : fl) : bool := match a, b with Some x, Some y => if Rle_dec x y then true else false | _, _ => false end.

(** A row: the numeric columns and the text of the others. *)
Record city := { c_lat : fl; c_lon : fl; c_pop : fl; c_other : str -> str }.
Record frame := { f_cols : list str; f_rows : list city }.

Definition col_in (c : str) (l : list str) : bool := existsb (str_eqb c) l.
Definition reqfields : list str := map str_of ["name"; "lat"; "lon"]%string.

(** city.py:67-69  Cities.__init__: at least three of the three required columns. *)
Definition make (f : frame) : res frame :=
  if Nat.ltb (List.length (filter (fun c => col_in c (f_cols f)) reqfields)) 3 then Err KeyError else Ok f.

(** city.py:220-234  limitByBounds; bounds are (xmin, xmax, ymin, ymax) *)
Definition in_bounds (xmin xmax ymin ymax : fl) (r : city) : bool :=
  flt ymin (c_lat r) && fle (c_lat r) ymax && flt xmin (c_lon r) && fle (c_lon r) xmax.
Definition limit_by_bounds (xmin xmax ymin ymax : fl) (f : frame) : res frame :=
  make {| f_cols := f_cols f; f_rows := filter (in_bounds xmin xmax ymin ymax) (f_rows f) |}.

(** city.py:236-255  limitByRadius; [dist] is the geodetic distance to the
    centre.  The column 'dist' is set (lines 252) and deleted (line 254). *)
Definition limit_by_radius (dist : city -> fl) (radius : fl) (f : frame) : res frame :=
  make {| f_cols := filter (fun c => negb (str_eqb (str_of "dist") c)) (f_cols f);
          f_rows := filter (fun r => fle (dist r) radius) (f_rows f) |}.

(** city.py:257-279  limitByPopulation *)
Definition limit_by_population (pop minpop : fl) (f : frame) : res frame :=
  if negb (col_in (str_of "pop") (f_cols f)) then Err KeyError
  else if fle pop minpop then Err ValueError
  else make {| f_cols := f_cols f; f_rows := filter (fun r => fle pop (c_pop r)) (f_rows f) |}.

(** city.py:332-343  limitByName; [matches] is Series.str.contains *)
Definition limit_by_name (matches : str -> bool) (f : frame) : res frame :=
  make {| f_cols := f_cols f; f_rows := filter (fun r => matches (c_other r (str_of "name"))) (f_rows f) |}.

(** Series.min and max skip NaN and are NaN when nothing is left. *)
Fixpoint series_min (l : list fl) : fl :=
  match l with
  | [] => None
  | None :: l' => series_min l'
  | Some x :: l' => match series_min l' with None => Some x | Some y => Some (Rmin x y) end
  end.
Fixpoint series_max (l : list fl) : fl :=
  match l with
  | [] => None
  | None :: l' => series_max l'
  | Some x :: l' => match series_max l' with None => Some x | Some y => Some (Rmax x y) end
  end.
(** city.py:353-364  getBounds *)
Definition get_bounds (f : frame) : fl * fl * fl * fl :=
  (series_min (map c_lon (f_rows f)), series_max (map c_lon (f_rows f)),
   series_min (map c_lat (f_rows f)), series_max (map c_lat (f_rows f))).

(** df[0:n] *)
Definition head_rows (n : Z) (l : list city) : list city :=
  firstn (Z.to_nat (if (n <? 0)%Z then Z.max 0 (n + Z.of_nat (List.length l)) else n)) l.

Section Grid.
(** float rounding, and sort_values(by='pop', ascending=False) *)
Variable rd : R -> R.
Variable sort_pop : list city -> list city.

Definition fop (op : R -> R -> R) (a b : fl) : fl := match a, b with Some x, Some y => Some (rd (op x y)) | _, _ => None end.
(** city.py:307-316: lower and upper edge of the k-th of n cells *)
Definition cell_lo (lo hi : fl) (n k : nat) : fl := fop Rplus lo (fop Rmult (Some (INR k)) (fop Rdiv (fop Rminus hi lo) (Some (INR n)))).
Definition cell_hi (lo hi : fl) (n k : nat) : fl := fop Rplus (cell_lo lo hi n k) (fop Rdiv (fop Rminus hi lo) (Some (INR n))).

(** city.py:317-328: the cities kept of one cell *)
Definition cell_part (f : frame) (nx ny : nat) (per : Z) (i j : nat) : res (list city) :=
  let '(xmin, xmax, ymin, ymax) := get_bounds f in
  match limit_by_bounds (cell_lo xmin xmax nx j) (cell_hi xmin xmax nx j) (cell_lo ymin ymax ny i) (cell_hi ymin ymax ny i) f with
  | Err e => Err e
  | Ok t => Ok (head_rows per (sort_pop (f_rows t)))
  end.
Fixpoint all_parts (f : frame) (nx ny : nat) (per : Z) (ijs : list (nat * nat)) : res (list city) :=
  match ijs with
  | [] => Ok []
  | (i, j) :: ijs' =>
      match cell_part f nx ny per i j with
      | Err e => Err e
      | Ok p => match all_parts f nx ny per ijs' with Err e => Err e | Ok ps => Ok (p ++ ps) end
      end
  end.
(** The cells in the order of the loops (lines 308-312). *)
Definition cells (nx ny : nat) : list (nat * nat) := flat_map (fun i => map (fun j => (i, j)) (seq 0 nx)) (seq 0 ny).

(** city.py:281-330  limitByGrid; without any cell the DataFrame is None and
    its columns are asked for. *)
Definition limit_by_grid (nx ny : Z) (per : Z) (f : frame) : res frame :=
  if negb (col_in (str_of "pop") (f_cols f)) then Err KeyError
  else match cells (Z.to_nat nx) (Z.to_nat ny) with
       | [] => Err AttributeError
       | ijs => match all_parts f (Z.to_nat nx) (Z.to_nat ny) per ijs with
                | Err e => Err e
                | Ok rows => make {| f_cols := f_cols f; f_rows := rows |}
                end
       end.
End Grid.
