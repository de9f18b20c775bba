(** Model of palette files, ranges and arrays of values in
    /repo/impactutils/colors/cpalette.py; the rest is in ColorModel. *)
From Coq Require Import ZArith Reals String Ascii Bool List.
From Verif Require Import PyBase PyStr ColorModel PolyModel.
Import ListNotations.
Open Scope R_scope.

Section Palette.
Variable rd : R -> R.
(** int(text), float(text) and the number pandas reads from a field; [None] is
    ValueError, or for a field a text or a missing value *)
Variable int_of : str -> option Z.
Variables float_of field_of : str -> option R.

(** ** The definitions at the head *)
Record header := mkheader { h_nan : list Z; h_name : str; h_resolution : option R }.
Fixpoint starts (a s : str) : bool := match a, s with [], _ => true | x :: a', y :: s' => Ascii.eqb x y && starts a' s' | _, _ => false end.
Fixpoint all_ints (l : list str) : option (list Z) :=
  match l with [] => Some [] | x :: l' => match int_of x, all_ints l' with Some n, Some ns => Some (n :: ns) | _, _ => None end end.
(** cpalette.py:241-254: one line *)
Definition head_line (h : header) (line : str) : res header :=
  let tline := strip line in
  if starts (str_of "#$nan_color") tline then
    match split_at ":" (skipn 2 tline) with
    | _ :: v :: _ => match all_ints (split_at "," v) with Some l => Ok (mkheader l (h_name h) (h_resolution h)) | None => Err ValueError end
    | _ => Err IndexError
    end
  else if starts (str_of "#$name") tline then
    match split_at ":" (skipn 2 tline) with
    | _ :: v :: _ => Ok (mkheader (h_nan h) (strip v) (h_resolution h))
    | _ => Err IndexError
    end
  else if starts (str_of "#$resolution") tline then
    match split_at ":" (skipn 2 tline) with
    | _ :: v :: _ => match float_of (strip v) with Some x => Ok (mkheader (h_nan h) (h_name h) (Some x)) | None => Err ValueError end
    | _ => Err IndexError
    end
  else Ok h.
(** cpalette.py:235-254 *)
Definition read_head (lines : list str) : res header :=
  fold_left (fun acc line => bind acc (fun h => head_line h line)) lines (Ok (mkheader [0; 0; 0; 0]%Z (str_of "generic") None)).

(** ** The table *)
(** pandas.read_csv with comment='#' and blanks as separators: what follows a number sign
    is left out, as are lines without anything else.  A number sign after nothing but blanks,
    rows with too many or too few fields, quotes and columns that are no numbers are
    NotModelled; all blanks count as separators. *)
Definition data_of (line : str) : str := fst (span (fun c => negb (Ascii.eqb c hash)) line).
Definition indented (line : str) : bool :=
  match line, strip line with c :: _, x :: _ => is_space c && Ascii.eqb x hash | _, _ => false end.
Definition quoted (line : str) : bool := existsb (fun c => Nat.eqb (nat_of_ascii c) 34) (data_of line).
Definition table_rows (lines : list str) : list (list str) := filter (fun r => match r with [] => false | _ => true end) (map (fun l => split_blanks (data_of l)) lines).
(** the fields of a column, by its name in the first row *)
Fixpoint position (name : str) (hs : list str) : option nat :=
  match hs with [] => None | h :: hs' => if str_eqb h name then Some 0%nat else option_map S (position name hs') end.
Fixpoint all_fields (l : list (option str)) : option (list R) :=
  match l with [] => Some [] | Some x :: l' => match field_of x, all_fields l' with Some v, Some vs => Some (v :: vs) | _, _ => None end | None :: _ => None end.
Definition column (hs : list str) (rs : list (list str)) (name : str) : res (list R) :=
  match position name hs with
  | None => Err AttributeError
  | Some i => match all_fields (map (fun r => nth_error r i) rs) with Some vs => Ok vs | None => Err NotModelled end
  end.
Definition read_table (lines : list str) : res (list str * list (list str)) :=
  if existsb indented lines || existsb quoted lines then Err NotModelled
  else match table_rows lines with
       | [] => Err ValueError          (* pandas.errors.EmptyDataError *)
       | hs :: rs => if forallb (fun r => Nat.eqb (List.length r) (List.length hs)) rs then Ok (hs, rs) else Err NotModelled
       end.
Fixpoint zip3 (a b c : list R) : list rgb := match a, b, c with x :: a', y :: b', z :: c' => (x, y, z) :: zip3 a' b' c' | _, _, _ => [] end.

(** cpalette.py:206-260  fromFile: name and palette *)
Definition from_file (lines : list str) : (str * palette) + perr :=
  match read_head lines with
  | Err e => inr (Raised e)
  | Ok h =>
      let got := bind (read_table lines) (fun t => let (hs, rs) := t in
        bind (column hs rs (str_of "R0")) (fun r0 => bind (column hs rs (str_of "G0")) (fun g0 => bind (column hs rs (str_of "B0")) (fun b0 =>
        bind (column hs rs (str_of "R1")) (fun r1 => bind (column hs rs (str_of "G1")) (fun g1 => bind (column hs rs (str_of "B1")) (fun b1 =>
        bind (column hs rs (str_of "Z0")) (fun z0 => bind (column hs rs (str_of "Z1")) (fun z1 => Ok (z0, z1, zip3 r0 g0 b0, zip3 r1 g1 b1)))))))))) in
      match got with
      | Err e => inr (Raised e)
      | Ok (z0, z1, rgb0, rgb1) =>
          match new_palette rd z0 z1 rgb0 rgb1 (h_resolution h) (NanSeq (map IZR (h_nan h))) false with
          | inl p => inl (h_name h, p)
          | inr e => inr e
          end
      end
  end.

(** ** Setting the range *)
(** cpalette.py:304-338  vmin, vmax; the table of colours stays as it is *)
Definition set_vmin (v : R) (p : palette) : palette := {| p_log := p_log p; p_vmin := v; p_vmax := p_vmax p; p_bad := p_bad p; p_rows := p_rows p; p_n := p_n p |}.
Definition set_vmax (v : R) (p : palette) : palette := {| p_log := p_log p; p_vmin := p_vmin p; p_vmax := v; p_bad := p_bad p; p_rows := p_rows p; p_n := p_n p |}.
(** getDataColor with the range as it was set: [color] takes an empty range for one the
    palette was made with, so this is left out. *)
Variable ln : R -> R.
Definition color_in (p : palette) (v : num) (format : str) : res answer :=
  if reqb (rd (p_vmax p - p_vmin p)) 0 then Err NotModelled else get_data_color rd ln p v format.

(** ** Arrays *)
Inductive answers := MlabArray (l : list (R * R * R * R)) | Bytes (l : list (Z * Z * Z * Z)) | NoColors.
(** cpalette.py:349-387  getDataColor for an array of one dimension: int() of a row of
    four raises TypeError.  As for [color], the range is not an empty one set later. *)
Definition get_data_colors (p : palette) (vs : list num) (format : str) : res answers :=
  if negb (lut_checks rd p) then Err ValueError else
  bind (fold_right (fun v acc => bind (color rd ln p v) (fun c => bind acc (fun l => Ok (c :: l)))) (Ok []) vs) (fun cs =>
  if str_eqb format (str_of "mlab") then Ok (MlabArray cs)
  else if str_eqb format (str_of "255") then match cs with [] => Ok NoColors | _ => Err TypeError end
  else if str_eqb format (str_of "array") then Ok (Bytes (map (fun c => let '(r, g, b, a) := c in (to255 rd r, to255 rd g, to255 rd b, to255 rd a)) cs))
  else if str_eqb format (str_of "hex") then match cs with [] => Err IndexError | _ => Err TypeError end
  else Err AttributeError).
End Palette.
