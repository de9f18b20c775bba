(** Model of draw_scale in /repo/impactutils/mapping/scalebar.py.  Given by the
    axes: their limits, the projection's units, the transform from axes to data
    units and the heights of the bar, ticks and gaps in data units. *)
From Coq Require Import ZArith Reals String Ascii Bool List.
From Flocq Require Import Core.
From Verif Require Import PyBase PyStr NpModel.
Import ListNotations.
Open Scope R_scope.

(** scalebar.py:23-50  LENGTHS *)
Definition lengths : list (Z * Z) :=
  [(4, 4); (10, 2); (12, 4); (15, 3); (20, 4); (30, 3); (40, 4); (75, 3); (100, 4); (120, 4); (150, 3); (200, 4); (240, 6); (300, 6);
   (400, 4); (600, 6); (750, 3); (1000, 4); (2000, 4); (4000, 4); (6000, 6); (10000, 4); (20000, 4); (40000, 4); (60000, 6);
   (75000, 3); (100000, 4); (200000, 4)]%Z.

(** scalebar.py:53-73  UNITS, in metres *)
Definition units_table : list (string * R) :=
  [("km", 1000); ("m", 1); ("dm", 1 / 10); ("cm", 1 / 100); ("mm", 1 / 1000); ("kmi", 1852); ("in", 0.0254); ("ft", 0.3048); ("yd", 0.9144);
   ("mi", 1609.344); ("fath", 1.8288); ("ch", 20.1168); ("link", 0.201168); ("us-in", 1 / 39.37); ("us-ft", 0.304800609601219);
   ("us-yd", 0.914401828803658); ("us-ch", 20.11684023368047); ("us-mi", 1609.347218694437); ("ind-yd", 0.91439523);
   ("ind-ft", 0.30479841); ("ind-ch", 20.11669506)]%string.

(** isinstance(ax.projection, PlateCarree), and otherwise the units of the
    projection's parameters *)
Inductive proj := PlateCarree | Projected (units : option str).

Record axes := { a_geo : bool; a_proj : proj; a_xmin : R; a_xmax : R; a_ymin : R; a_ymax : R;
                 a_to_data : R * R -> R * R; a_bar_height : R; a_tick : R; a_gap : R }.
Record scale := { s_length : Z; s_divisions : Z; s_data : R; s_left_axes : R; s_right_axes : R; s_bottom_axes : R; s_top_axes : R; s_left : R; s_bottom : R;
                  s_bars : list (R * R * bool); s_labels : list (R * str) }.

Section Scale.
Variable rd : R -> R.
(** np.cos(np.radians(x)) *)
Variable cosd : R -> R.
(** the module's LENGTHS, which is [lengths] above *)
Variable table : list (Z * Z).

Fixpoint unit_in (u : str) (t : list (string * R)) : option R :=
  match t with [] => None | (n, v) :: t' => if str_eqb u (str_of n) then Some (rd v) else unit_in u t' end.
Definition unit_of (u : str) : option R := unit_in u units_table.

(** scalebar.py:167-181: the number of metres in a data unit *)
Definition data_to_meters (ax : axes) : res R :=
  match a_proj ax with
  | Projected (Some u) => match unit_of u with Some v => Ok v | None => Err KeyError end
  | Projected None => match unit_of (str_of "m") with Some v => Ok v | None => Err KeyError end
  | PlateCarree => let clat := rd (a_ymin ax + rd (rd (a_ymax ax - a_ymin ax) / 2)) in Ok (rd (111191 * cosd clat))
  end.

(** scalebar.py:228-236: the automatic length and its divisions *)
Definition quarter_width (ax : axes) (meters unit : R) : R :=
  rd (rd (rd (rd (rd (a_xmax ax - a_xmin ax) * meters) * 1) / unit) * 0.25).
Definition choose (q : R) : res (Z * Z) :=
  match nth_error table (argmin (map (fun l => Rabs (rd (q - IZR (fst l)))) table)) with
  | Some l => Ok l
  | None => Err IndexError
  end.

(** scalebar.py:281-312: bars (left edge, right edge, black) and labels *)
Definition bar_left_edge (left data : R) (d : Z) (i : nat) : R := rd (left + rd (rd (data / IZR d) * INR i)).
Definition bars (left data : R) (d : Z) : list (R * R * bool) :=
  map (fun i => (bar_left_edge left data d i, rd (bar_left_edge left data d i + rd (data / IZR d)), Nat.odd i)) (seq 0 (Z.to_nat d)).
Definition tick_label (len : R) (d : Z) (i : nat) : Z := Ztrunc (rd (INR i * rd (len / IZR d))).
Definition labels (left data len : R) (d : Z) : list (R * str) :=
  flat_map (fun i => if Nat.even i && (Z.even d || Nat.eqb i 0) then [(bar_left_edge left data d i, str_of_Z (tick_label len d i))] else []) (seq 0 (Z.to_nat d))
    ++ [(rd (left + data), str_of_Z (Ztrunc len))].

(** scalebar.py:76-317  draw_scale *)
Definition draw_scale (ax : axes) (pos : str) (padx pady : R) (units : str) (bar_length : option R) (divisions : option Z) : res scale :=
  let hasbar := match bar_length with None => false | _ => true end in
  let hasdiv := match divisions with None => false | _ => true end in
  if xorb hasbar hasdiv then Err RequiredArgumentError
  else if match divisions with Some d => negb (existsb (Z.eqb d) [2; 3; 4; 5; 6]%Z) | None => false end then Err ValueError
  else match unit_of units with
  | None => Err ValueError
  | Some unit =>
      if negb (existsb (str_eqb pos) (map str_of ["ll"; "lr"; "ul"; "ur"]%string)) then Err ValueError
      else if negb (a_geo ax) then Err ValueError
      else match data_to_meters ax with
      | Err e => Err e
      | Ok meters =>
          match bar_length with
          | Some _ => Err Unbound          (* map_width_data, line 239 *)
          | None =>
              match choose (quarter_width ax meters unit) with
              | Err e => Err e
              | Ok (len, d) =>
                  let data := rd (rd (IZR len * unit) * rd (1 / meters)) in
                  let len_axes := rd (data / rd (a_xmax ax - a_xmin ax)) in
                  let height_axes := rd (a_bar_height ax / rd (a_ymax ax - a_ymin ax)) in
                  let top_pos := str_eqb pos (str_of "ul") || str_eqb pos (str_of "ur") in
                  let left_pos := str_eqb pos (str_of "ul") || str_eqb pos (str_of "ll") in
                  let left_axes := if left_pos then padx else rd (rd (1 - padx) - len_axes) in
                  let right_axes := if left_pos then rd (padx + len_axes) else rd (1 - padx) in
                  let bottom_axes := if top_pos then rd (rd (1 - pady) - height_axes) else pady in
                  let top_axes := if top_pos then rd (1 - pady) else rd (pady + height_axes) in
                  let '(lft, bottom) := a_to_data ax (left_axes, bottom_axes) in
                  Ok {| s_length := len; s_divisions := d; s_data := data; s_left_axes := left_axes; s_right_axes := right_axes;
                        s_bottom_axes := bottom_axes; s_top_axes := top_axes; s_left := lft; s_bottom := bottom;
                        s_bars := bars lft data d; s_labels := labels lft data (IZR len) d |}
              end
          end
      end
  end.
End Scale.
