(** Vocabulary for tables of cities in files. *)
From Coq Require Import ZArith Reals String Ascii Bool List.
From Verif Require Import PyBase CityModel TableModel.
Import ListNotations.

(** What pandas takes for missing, and for a truth value. *)
Definition missing_text (s : str) : Prop :=
  In s (map str_of [""; "#N/A"; "#N/A N/A"; "#NA"; "-1.#IND"; "-1.#QNAN"; "-NaN"; "-nan"; "1.#IND"; "1.#QNAN"; "<NA>"; "N/A"; "NA"; "NULL"; "NaN"; "n/a"; "nan"; "null"]%string).
Definition truth_text (s : str) : Prop := In s (map str_of ["True"; "TRUE"; "true"; "False"; "FALSE"; "false"]%string).
Definition unbroken (s : str) : Prop := Forall (fun c => c <> chr 10 /\ c <> chr 13) s.

Section Files.
Variable show : R -> str.
Variable number : str -> option fl.
Variable integer : str -> option Z.
(** Numbers are shown as numbers: floats never as integers, and nothing else. *)
Definition shows_numbers : Prop :=
  (forall z, integer (str_of_Z z) = Some z) /\
  (forall x, integer (show x) = None /\ number (show x) <> None /\ ~ missing_text (show x) /\ Forall (fun c => c <> ","%char /\ c <> chr 34 /\ c <> chr 10 /\ c <> chr 13) (show x)) /\
  (forall s, truth_text s -> integer s = None /\ number s = None).
(** A text that can only be a text. *)
Definition word (s : str) : Prop := ~ missing_text s /\ ~ truth_text s /\ integer s = None /\ number s = None.
(** Tables that are well made: columns as long as the list of labels, names different and not empty. *)
Definition savable (t : table) : Prop :=
  t_index t <> [] /\ NoDup (map fst (t_columns t)) /\
  Forall (fun p => fst p <> [] /\ fst p <> str_of "Unnamed: 0" /\ unbroken (fst p) /\
    match snd p with
    | CInts l => length l = length (t_index t)
    | CFloats l => length l = length (t_index t)
    | CBools l => length l = length (t_index t)
    | CTexts l => length l = length (t_index t) /\ Forall (fun o => match o with Some s => unbroken s | None => True end) l
    end) (t_columns t) /\
  (forall n, In n (map str_of ["name"; "lat"; "lon"]%string) -> In n (map fst (t_columns t))).
(** What a column is after it has been saved and loaded. *)
Inductive comes_back : column -> column -> Prop :=
| back_ints : forall l, comes_back (CInts l) (CInts l)
| back_bools : forall l, comes_back (CBools l) (CBools l)
| back_floats : forall l l', Forall2 (fun x y => match x with None => y = None | Some r => number (show r) = Some y end) l l' -> comes_back (CFloats l) (CFloats l')
| back_texts : forall l l', (exists s, In (Some s) l /\ word s) ->
    Forall2 (fun a b => match a with Some s => (missing_text s /\ b = None) \/ (~ missing_text s /\ b = Some s) | None => b = None end) l l' -> comes_back (CTexts l) (CTexts l').
(** Columns of texts with at least one word. *)
Definition wordy (t : table) : Prop := Forall (fun p => match snd p with CTexts l => exists s, In (Some s) l /\ word s | _ => True end) (t_columns t).
End Files.
