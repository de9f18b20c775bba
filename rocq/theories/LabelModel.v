(** Model of the labels of /repo/impactutils/mapping/mercatormap.py: where renderRow puts the text
    of a city, its box as measured on the hidden axes, and the attributes behind the getters.
    Exact reals; axes take data units to pixels by a scale and an offset in each direction; a text
    is a box of pixels, whose size is a parameter. *)
From Coq Require Import Reals String Ascii Bool List.
From Verif Require Import PyBase PyStr CityModel CollideModel.
Import ListNotations.
Open Scope R_scope.

Record axes := mkaxes { x_scale : R; x_offset : R; y_scale : R; y_offset : R }.
(** ax.transData.transform and its inverse *)
Definition to_display (a : axes) (p : R * R) : R * R := (x_offset a + x_scale a * fst p, y_offset a + y_scale a * snd p).
Definition to_data (a : axes) (p : R * R) : R * R := ((fst p - x_offset a) / x_scale a, (snd p - y_offset a) / y_scale a).
(** mercatormap.py:15 *)
Definition XOFFSET : R := 4.
Section Labels.
Variable proj : R -> R -> R * R.        (* pyproj.Proj of the axes' projection *)
Variables wide high : city -> R.        (* the size of the text in pixels *)
(** mercatormap.py:386-398  renderRow: where the text is put, in data units; ha='left', va='center' *)
Definition render_row (a : axes) (r : city) : option (R * R) :=
  match c_lon r, c_lat r with
  | Some lon, Some lat =>
      let data1 := to_data a (1, 1) in
      let data2 := to_data a (1 + XOFFSET, 1) in
      let data_x_offset := fst data2 - fst data1 in
      let '(tx, ty) := proj lon lat in
      Some (tx + data_x_offset, ty)
  | _, _ => None
  end.
(** get_window_extent: left, bottom, right, top of the text in pixels *)
Definition window_extent (a : axes) (r : city) : option (R * R * (R * R)) :=
  match render_row a r with
  | Some p => let '(px, py) := to_display a p in Some ((px, py - high r / 2), (px + wide r, py + high r / 2))
  | None => None
  end.
(** mercatormap.py:354-357  getCityEdges before the padding; missing coordinates give not-a-number *)
Definition label_extents (clone : axes) (r : city) : box :=
  match window_extent clone r with
  | Some (lb, rt) =>
      let '(x0, y0) := to_data clone lb in
      let '(x1, y1) := to_data clone rt in
      {| b_left := Some x0; b_right := Some x1; b_bottom := Some y0; b_top := Some y1 |}
  | None => nan_box
  end.
End Labels.
(** mercatormap.py:66-112: the attributes set by the constructor *)
Definition attributes : list str := map str_of ["_cities"; "_proj"; "_geoproj"; "_figure"; "_ax"; "_figure_clone"; "_ax_clone"; "_fontlist"; "_padding"]%string.
(** self.name *)
Definition attribute (name : string) : res str := if existsb (str_eqb (str_of name)) attributes then Ok (str_of name) else Err AttributeError.
(** mercatormap.py:114-183  the getters: the attribute that is given *)
Definition getter (name : string) : res str :=
  if String.eqb name "figure" then attribute "_figure" else if String.eqb name "axes" then attribute "_ax" else if String.eqb name "proj" then attribute "_proj"
  else if String.eqb name "geoproj" then attribute "_geoproj" else if String.eqb name "getFigureClone" then attribute "_figure_clone"
  else if String.eqb name "getAxesClone" then attribute "_axes_clone" else if String.eqb name "getFonts" then attribute "_fontlist" else Err AttributeError.
