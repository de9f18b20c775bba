(** Vocabulary for GeoNames files. *)
From Coq Require Import ZArith Reals String Ascii Bool List.
From Verif Require Import PyBase CityModel PolySpec.
Import ListNotations.

Section Entries.
Variable to_float : str -> option fl.
Variable to_int : str -> option Z.
(** The columns of a line, separated by tabs; the text of the i-th, counted from 0, without blanks around it. *)
Definition columns (line : str) (ps : list str) : Prop := parts (chr 9) line ps.
Definition field (i : nat) (ps : list str) (t : str) : Prop := exists s, nth_error ps i = Some s /\ trimmed s t.
(** A name that is kept: not empty, and in ASCII. *)
Definition ascii_name (n : str) : Prop := n <> [] /\ Forall (fun c => (nat_of_ascii c < 128)%nat) n.
(** name, country, latitude, longitude, capital, population *)
Definition entry : Type := str * str * fl * fl * bool * Z.
Inductive line_says (line : str) : option entry -> Prop :=
| says_nothing : forall ps n, columns line ps -> field 2 ps n -> ~ ascii_name n -> line_says line None
| says_entry : forall ps n cc tlat tlon cf tpop lat lon (cap : bool) pop, columns line ps -> field 2 ps n -> ascii_name n -> field 8 ps cc ->
    field 4 ps tlat -> to_float tlat = Some lat -> field 5 ps tlon -> to_float tlon = Some lon ->
    field 7 ps cf -> (cap = true <-> cf = str_of "PPLC" \/ cf = str_of "PPLA") ->
    field 14 ps tpop -> to_int tpop = Some pop -> line_says line (Some (n, cc, lat, lon, cap, pop)).
(** What is wrong with a line. *)
Inductive line_fails (line : str) : exn -> Prop :=
| fails_short : forall ps, columns line ps -> (length ps < 3)%nat -> line_fails line IndexError
| fails_country : forall ps n, columns line ps -> field 2 ps n -> ascii_name n -> (length ps < 9)%nat -> line_fails line IndexError
| fails_place : forall ps n t, columns line ps -> field 2 ps n -> ascii_name n -> (9 <= length ps)%nat ->
    (field 4 ps t \/ field 5 ps t) -> to_float t = None -> line_fails line ValueError
| fails_people : forall ps n t u x y, columns line ps -> field 2 ps n -> ascii_name n -> field 4 ps t -> to_float t = Some x -> field 5 ps u -> to_float u = Some y ->
    (9 <= length ps < 15)%nat -> line_fails line IndexError
| fails_count : forall ps n t u v x y, columns line ps -> field 2 ps n -> ascii_name n -> field 4 ps t -> to_float t = Some x -> field 5 ps u -> to_float u = Some y ->
    field 14 ps v -> to_int v = None -> line_fails line ValueError.
(** The entries of a list of lines, in order. *)
Inductive entries : list str -> list entry -> Prop :=
| entries_none : entries [] []
| entries_skip : forall l ls es, line_says l None -> entries ls es -> entries (l :: ls) es
| entries_take : forall l ls e es, line_says l (Some e) -> entries ls es -> entries (l :: ls) (e :: es).
End Entries.
(** A row of the table as an entry. *)
Definition as_entry (r : city) (e : entry) : Prop :=
  let '(n, cc, lat, lon, cap, pop) := e in
  c_other r (str_of "name") = n /\ c_other r (str_of "ccode") = cc /\ c_lat r = lat /\ c_lon r = lon /\ c_pop r = Some (IZR pop) /\
  c_other r (str_of "iscap") = (if cap then str_of "True" else str_of "False").
