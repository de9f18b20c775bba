(** Model of fromGeoNames of /repo/impactutils/mapping/city.py.  A file is the text
    open() gives for latin-1; float() and int() are parameters (None: ValueError), and
    not-a-number is None.  Infinite coordinates are left out. *)
From Coq Require Import ZArith Reals String Ascii Bool List.
From Verif Require Import PyBase PyStr CityModel VecModel RuptModel PolyModel OriginModel JsonModel FactoryModel.
Import ListNotations.

Section Geonames.
Variable to_float : str -> option fl.
Variable to_int : str -> option Z.
(** city.py:121-126: one entry of each of the six lists *)
Record place_row := mkrow { r_name : str; r_ccode : str; r_lat : fl; r_lon : fl; r_iscap : bool; r_pop : Z }.
(** parts[i] *)
Definition part (i : nat) (parts : list str) : res str := match nth_error parts i with Some s => Ok s | None => Err IndexError end.
Definition parsed {A} (f : str -> option A) (s : str) : res A := match f (strip s) with Some x => Ok x | None => Err ValueError end.
(** city.py:129-143: one line; None: it is skipped *)
Definition geo_line (line : str) : res (option place_row) :=
  let parts := split_at (chr 9) line in
  bind (part 2 parts) (fun p2 =>
  let tname := strip p2 in
  match tname with
  | [] => Ok None
  | _ =>
    if existsb (fun c => Nat.ltb 127 (nat_of_ascii c)) tname then Ok None else
    bind (part 8 parts) (fun p8 =>
    bind (part 4 parts) (fun p4 => bind (parsed to_float p4) (fun lat =>
    bind (part 5 parts) (fun p5 => bind (parsed to_float p5) (fun lon =>
    bind (part 7 parts) (fun p7 => let capfield := strip p7 in
    let iscap := str_eqb capfield (str_of "PPLC") || str_eqb capfield (str_of "PPLA") in
    bind (part 14 parts) (fun p14 => bind (parsed to_int p14) (fun pop =>
    Ok (Some (mkrow tname (strip p8) lat lon iscap pop))))))))))
  end).
(** city.py:128-143: the loop *)
Fixpoint geo_lines (lines : list str) : res (list place_row) :=
  match lines with
  | [] => Ok []
  | l :: r => bind (geo_line l) (fun o => bind (geo_lines r) (fun rs => Ok (match o with Some x => x :: rs | None => rs end)))
  end.
(** city.py:149-150: the DataFrame, and the constructor *)
Definition bool_text (b : bool) : str := if b then str_of "True" else str_of "False".
Definition city_of (r : place_row) : city :=
  {| c_lat := r_lat r; c_lon := r_lon r; c_pop := Some (IZR (r_pop r));
     c_other := fun c => if str_eqb c (str_of "name") then r_name r else if str_eqb c (str_of "ccode") then r_ccode r
                         else if str_eqb c (str_of "iscap") then bool_text (r_iscap r) else [] |}.
Definition geo_columns : list str := map str_of ["name"; "ccode"; "lat"; "lon"; "iscap"; "pop"]%string.
(** city.py:104-150  fromGeoNames of a file with this text *)
Definition from_geonames (text : str) : res frame :=
  bind (geo_lines (lines_from [] text)) (fun rs => make {| f_cols := geo_columns; f_rows := map city_of rs |}).
(** city.py:117-119, 144-148: with no file given, a folder with the file is made first and
    removed at the end; the second component tells whether it is left behind.  [fetched]:
    the text of the file downloaded (None: an exception before the folder is made). *)
Definition from_geonames_web (fetched : option str) : res frame * bool :=
  match fetched with
  | None => (Err Generic, false)
  | Some text =>
      match geo_lines (lines_from [] text) with
      | Err e => (Err e, true)
      | Ok rs => (make {| f_cols := geo_columns; f_rows := map city_of rs |}, false)
      end
  end.
End Geonames.
(** city.py:366-375  getCities *)
Definition get_cities (f : frame) : list fl * list fl * list str :=
  (map c_lat (f_rows f), map c_lon (f_rows f), map (fun r => c_other r (str_of "name")) (f_rows f)).
