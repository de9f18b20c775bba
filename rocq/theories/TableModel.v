(** Model of save and fromCSV of /repo/impactutils/mapping/city.py, with what they use of
    pandas (to_csv and read_csv without options).  A DataFrame is its row labels and its
    columns, a file its text.  Numbers are shown and read by parameters. *)
From Coq Require Import ZArith Reals String Ascii Bool List.
From Verif Require Import PyBase PyStr CityModel VecModel RuptModel PolyModel OriginModel JsonModel FactoryModel.
Import ListNotations.

(** Columns are of integers, floats (None: not a number), truth values or texts (None: missing). *)
Inductive column := CInts (l : list Z) | CFloats (l : list fl) | CBools (l : list bool) | CTexts (l : list (option str)).
Record table := mktable { t_index : list Z; t_columns : list (str * column) }.
Definition clen (c : column) : nat := match c with CInts l => length l | CFloats l => length l | CBools l => length l | CTexts l => length l end.

(** city.py:67-69  the constructor *)
Definition make_table (t : table) : res table :=
  if Nat.ltb (length (filter (fun c => col_in c (map fst (t_columns t))) reqfields)) 3 then Err KeyError else Ok t.

Section Csv.
Variable show : R -> str.                     (* repr of a float *)
Variable number : str -> option fl.           (* read_csv: a text that is a number (Some None: not a number, as "nan" is missing) *)
Variable integer : str -> option Z.           (* read_csv: a text that is an integer *)

(** ** DataFrame.to_csv *)
Definition show_float (x : fl) : str := match x with Some r => show r | None => [] end.
Definition show_bool (b : bool) : str := if b then str_of "True" else str_of "False".
Definition show_text (s : option str) : str := match s with Some t => t | None => [] end.
Definition cells (c : column) : list str :=
  match c with CInts l => map str_of_Z l | CFloats l => map show_float l | CBools l => map show_bool l | CTexts l => map show_text l end.
(** csv.writer with QUOTE_MINIMAL: what holds a comma or a quotation mark is quoted *)
Definition quot : ascii := chr 34.
Definition special (c : ascii) : bool := Ascii.eqb c ","%char || Ascii.eqb c quot.
Definition double_quotes (s : str) : str := flat_map (fun c => if Ascii.eqb c quot then [quot; quot] else [c]) s.
Definition csv_field (s : str) : str := if existsb special s then quot :: double_quotes s ++ [quot] else s.
Definition csv_row (fs : list str) : str := join [","%char] (map csv_field fs).
(** The rows: the i-th cells of all columns. *)
Fixpoint rows_of (n : nat) (cols : list (list str)) : list (list str) :=
  match n with
  | O => []
  | S n' => map (hd []) cols :: rows_of n' (map (@tl str) cols)
  end.
(** city.py:167-176  save: the text of the file; the labels are a column without a name.  A text with a line break
    would be quoted as well: it is left out. *)
Definition save (t : table) : str :=
  flat_map (fun l => l ++ [chr 10]) (csv_row ([] :: map fst (t_columns t)) :: map csv_row (rows_of (length (t_index t)) (map str_of_Z (t_index t) :: map (fun p => cells (snd p)) (t_columns t)))).

(** ** pandas.read_csv *)
(** The fields of a line; the tokenizer of pandas: a quotation mark at the start of a field
    opens it, a doubled one inside stands for itself, and after the closing one the rest is
    taken as it is.  None: the line ends within quotation marks. *)
Inductive state := Start | Plain | Quoted | Closing.
Fixpoint fields_from (st : state) (cur : str) (s : str) : option (list str) :=      (* cur: the field being read, reversed *)
  match s with
  | [] => match st with Quoted => None | _ => Some [rev cur] end
  | c :: s' =>
      match st with
      | Start => if Ascii.eqb c quot then fields_from Quoted [] s'
                 else if Ascii.eqb c ","%char then option_map (cons []) (fields_from Start [] s') else fields_from Plain [c] s'
      | Plain => if Ascii.eqb c ","%char then option_map (cons (rev cur)) (fields_from Start [] s') else fields_from Plain (c :: cur) s'
      | Quoted => if Ascii.eqb c quot then fields_from Closing cur s' else fields_from Quoted (c :: cur) s'
      | Closing => if Ascii.eqb c quot then fields_from Quoted (c :: cur) s'
                   else if Ascii.eqb c ","%char then option_map (cons (rev cur)) (fields_from Start [] s') else fields_from Plain (c :: cur) s'
      end
  end.
Definition fields (s : str) : option (list str) := fields_from Start [] s.
(** The texts read as missing (pandas' STR_NA_VALUES) *)
Definition na_texts : list str := [] :: map str_of ["#N/A"; "#N/A N/A"; "#NA"; "-1.#IND"; "-1.#QNAN"; "-NaN"; "-nan"; "1.#IND"; "1.#QNAN"; "<NA>"; "N/A"; "NA"; "NULL"; "NaN"; "n/a"; "nan"; "null"]%string.
Definition is_na (s : str) : bool := existsb (str_eqb s) na_texts.
Definition bool_of (s : str) : option bool :=
  if existsb (str_eqb s) (map str_of ["True"; "TRUE"; "true"]%string) then Some true
  else if existsb (str_eqb s) (map str_of ["False"; "FALSE"; "false"]%string) then Some false else None.
Fixpoint all_some {A B} (f : A -> option B) (l : list A) : option (list B) :=
  match l with
  | [] => Some []
  | a :: r => match f a, all_some f r with Some b, Some bs => Some (b :: bs) | _, _ => None end
  end.
(** The type of a column: integers if nothing is missing and all are, else floats, else truth values, else texts.
    A mixture of truth values and missing ones is left out. *)
Definition read_column (l : list str) : res column :=
  match all_some (fun s => if is_na s then None else integer s) l with
  | Some zs => match l with [] => Ok (CTexts []) | _ => Ok (CInts zs) end
  | None =>
    match all_some (fun s => if is_na s then Some None else number s) l with
    | Some xs => Ok (CFloats xs)
    | None =>
      match all_some bool_of l with
      | Some bs => Ok (CBools bs)
      | None => match all_some (fun s => if is_na s then Some true else bool_of s) l with
                | Some _ => Err NotModelled
                | None => Ok (CTexts (map (fun s => if is_na s then None else Some s) l))
                end
      end
    end
  end.
Fixpoint all_ok {A B} (f : A -> res B) (l : list A) : res (list B) :=
  match l with [] => Ok [] | a :: r => bind (f a) (fun b => bind (all_ok f r) (fun bs => Ok (b :: bs))) end.
(** Names: a missing one is numbered; a name twice is left out. *)
Definition digit (n : nat) : str := str_of_Z (Z.of_nat n).
Fixpoint header_names (i : nat) (h : list str) : list str :=
  match h with [] => [] | s :: r => (match s with [] => str_of "Unnamed: " ++ digit i | _ => s end) :: header_names (S i) r end.
Fixpoint has_twice (l : list str) : bool := match l with [] => false | s :: r => col_in s r || has_twice r end.
(** The columns of rows of the same length *)
Fixpoint columns_of (n : nat) (rows : list (list str)) : list (list str) :=
  match n with
  | O => []
  | S n' => map (hd []) rows :: columns_of n' (map (@tl str) rows)
  end.
(** The lines of a text without their ends; those of blanks are passed over. *)
Definition body (l : str) : str := match rev l with c :: r => if Ascii.eqb c (chr 10) then rev r else l | [] => [] end.
Definition is_blank (c : ascii) : bool := Ascii.eqb c " "%char || Ascii.eqb c (chr 9).
Definition csv_lines (text : str) : list str := filter (fun l => negb (forallb is_blank l)) (map body (lines_from [] text)).
(** city.py:152-164  fromCSV of a file with this text.
    Rows shorter or longer than the first, names twice and fields that go over lines are left out. *)
Definition from_csv (text : str) : res table :=
  match all_some fields (csv_lines text) with
  | None => Err NotModelled
  | Some [] => Err ValueError
  | Some (h :: rows) =>
      let names := header_names 0 h in
      if has_twice names || negb (forallb (fun r => Nat.eqb (length r) (length h)) rows) then Err NotModelled else
      bind (all_ok read_column (columns_of (length h) rows)) (fun cs =>
      make_table (mktable (map Z.of_nat (seq 0 (length rows))) (combine names cs)))
  end.
End Csv.
