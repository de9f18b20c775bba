(** Model of /repo/impactutils/colors/cpalette.py, together with the parts of
    matplotlib.colors it is built on: the look-up table of a
    LinearSegmentedColormap, which is made when a colour is first asked for, and
    Colormap.__call__ for one number. *)
From Coq Require Import ZArith Reals String Ascii Bool List.
From Flocq Require Import Core.
From Verif Require Import PyBase PyStr.
Import ListNotations.
Open Scope R_scope.

(** A number given to numpy. *)
Inductive num := Fin (x : R) | PosInf | NegInf | NaN.
Notation rgb := (R * R * R)%type.
Inductive channel := Red | Green | Blue.
Definition chan (c : channel) (p : rgb) : R := let '(r, g, b) := p in match c with Red => r | Green => g | Blue => b end.

(** The constructor's exceptions: its own, or any other. *)
Inductive perr := ConsistentLength | Raised (e : exn).
(** nan_color: an integer or a sequence *)
Inductive nan_spec := NanInt (z : Z) | NanSeq (l : list R).

Record palette := { p_log : bool; p_vmin : R; p_vmax : R; p_bad : R * R * R * R;
                    p_rows : channel -> list (R * R * R); p_n : Z }.

Definition rlt (x y : R) : bool := if Rlt_dec x y then true else false.
Definition rle (x y : R) : bool := if Rle_dec x y then true else false.
Definition reqb (x y : R) : bool := if Req_EM_T x y then true else false.

Section Colors.
Variable rd : R -> R.

(** ndarray.min and max; an empty array raises ValueError *)
Definition amin (l : list R) : option R := match l with [] => None | x :: l' => Some (fold_left Rmin l' x) end.
Definition amax (l : list R) : option R := match l with [] => None | x :: l' => Some (fold_left Rmax l' x) end.

(** matplotlib.colors.to_rgba of an array: three or four numbers between 0 and 1 *)
Definition to_rgba (l : list R) : option (R * R * R * R) :=
  if forallb (fun c => rle 0 c && rle c 1) l
  then match l with [r; g; b] => Some (r, g, b, 1) | [r; g; b; a] => Some (r, g, b, a) | _ => None end
  else None.
Definition nan_list (s : nan_spec) : list R :=
  map (fun c => rd (c / 255)) match s with NanInt z => repeat (IZR z) 4 | NanSeq l => l end.

(** cpalette.py:144-156: row [i] pairs rgb1_t[i] with rgb0_t[i] *)
Definition rows (xs : list R) (rgb0_t rgb1_t : list rgb) (c : channel) : option (list (R * R * R)) :=
  fold_right (fun i acc => match acc, nth_error xs i, nth_error rgb1_t i, nth_error rgb0_t i with
                           | Some l, Some x, Some a, Some b => Some ((x, rd (chan c a / 255), rd (chan c b / 255)) :: l)
                           | _, _, _, _ => None
                           end) (Some []) (seq 0 (List.length xs)).

(** (z - vmin) / (vmax - vmin); when vmax is vmin numpy gives nan and infinities
    and the look-up table can not be made *)
Definition adjust (vmin vmax z : R) : R := rd (rd (z - vmin) / rd (vmax - vmin)).

(** cpalette.py:92-173  ColorPalette.__init__ *)
Definition new_palette (z0 z1 : list R) (rgb0 rgb1 : list rgb) (resolution : option R) (nan : nan_spec) (is_log : bool) : palette + perr :=
  if negb (Nat.eqb (List.length z0) (List.length z1)) && negb (Nat.eqb (List.length z1) (List.length rgb0)) && negb (Nat.eqb (List.length rgb0) (List.length rgb1))
  then inr ConsistentLength                                                                   (* 111-113 *)
  else match amin z0, amax z1 with
  | Some vmin, Some vmax =>
      let dark := -0.999 * 255 in
      let light := 0.999 * 255 in
      let rgb0_t := rgb0 ++ [(light, light, light)] in
      let rgb1_t := (dark, dark, dark) :: rgb1 in
      let xs := map (adjust vmin vmax) z0 ++ [adjust vmin vmax (last z1 0)] in
      match rows xs rgb0_t rgb1_t Red, rows xs rgb0_t rgb1_t Green, rows xs rgb0_t rgb1_t Blue with
      | Some r, Some g, Some b =>
          let n := match resolution with
                   | None => Ok 256%Z
                   | Some s => if reqb s 0 then if rlt 0 (rd (vmax - vmin)) then Err OverflowError else Ok 256%Z    (* int(inf); max(256, nan) *)
                               else Ok (Z.max 256 (Zceil (rd (rd (vmax - vmin) / s))))
                   end in
          match n with
          | Err e => inr (Raised e)
          | Ok n => match to_rgba (nan_list nan) with
                    | None => inr (Raised ValueError)
                    | Some bad => inl {| p_log := is_log; p_vmin := vmin; p_vmax := vmax; p_bad := bad;
                                         p_rows := fun c => match c with Red => r | Green => g | Blue => b end; p_n := n |}
                    end
          end
      | _, _, _ => inr (Raised IndexError)
      end
  | _, _ => inr (Raised ValueError)
  end.

(** numpy.searchsorted for a sorted array: the first index not below [v] *)
Fixpoint searchsorted (l : list R) (v : R) : nat := match l with [] => 0%nat | x :: l' => if rlt x v then S (searchsorted l' v) else 0%nat end.
Definition clip01 (x : R) : R := Rmin (Rmax x 0) 1.

(** matplotlib.colors._create_lookup_table, entry [i] of [n] *)
Definition x_of (row : R * R * R) : R := fst (fst row).
Definition lut_checks (p : palette) : bool :=
  let xs := map x_of (p_rows p Red) in
  negb (reqb (rd (p_vmax p - p_vmin p)) 0) && reqb (hd 1 xs) 0 && reqb (last xs 0) 1
  && forallb (fun ab => rle (fst ab) (snd ab)) (combine xs (tl xs)).
(** N - 1 times element i of linspace(0, 1, N) *)
Definition xind (n i : Z) : R := rd (IZR (n - 1) * rd (IZR i * rd (1 / IZR (n - 1)))).
Definition lut (n : Z) (rows : list (R * R * R)) (i : Z) : res R :=
  if (i =? 0)%Z then match rows with (_, _, y1) :: _ => Ok (clip01 y1) | [] => Err IndexError end
  else if (i =? n - 1)%Z then Ok (clip01 (let '(_, y0, _) := last rows (0, 0, 0) in y0))
  else
    let xs := map (fun r => rd (x_of r * IZR (n - 1))) rows in
    let v := xind n i in
    match searchsorted xs v with
    | O => Err NotModelled                          (* index -1: the last row *)
    | S k =>
        match nth_error xs k, nth_error rows k, nth_error xs (S k), nth_error rows (S k) with
        | Some xa, Some (_, _, a), Some xb, Some (_, b, _) =>
            let distance := rd (rd (v - xa) / rd (xb - xa)) in
            Ok (clip01 (rd (rd (distance * rd (b - a)) + a)))
        | _, _, _, _ => Err IndexError
        end
    end.

(** Colormap.__call__: the entry used for a number; [None] is the colour for
    bad values *)
Definition lut_index (n : Z) (x : num) : option Z :=
  match x with
  | NaN => None
  | PosInf => Some (n - 1)%Z
  | NegInf => Some 0%Z
  | Fin x => let xa := rd (x * IZR n) in
             if rlt xa 0 then Some 0%Z else if rle (IZR n) xa then Some (n - 1)%Z else Some (Ztrunc xa)
  end.

(** np.log of a number; [ln] stands for the logarithm of a positive one *)
Variable ln : R -> R.
Definition np_log (x : num) : num :=
  match x with Fin x => if rlt 0 x then Fin (ln x) else if reqb x 0 then NegInf else NaN | PosInf => PosInf | _ => NaN end.

Definition norm (p : palette) (v : num) : num :=
  match v with
  | Fin x => Fin (adjust (p_vmin p) (p_vmax p) x)
  | PosInf => if rlt (rd (p_vmax p - p_vmin p)) 0 then NegInf else PosInf
  | NegInf => if rlt (rd (p_vmax p - p_vmin p)) 0 then PosInf else NegInf
  | NaN => NaN
  end.

Definition color (p : palette) (v : num) : res (R * R * R * R) :=
  if negb (lut_checks p) then Err ValueError
  else match lut_index (p_n p) (norm p (if p_log p then np_log v else v)) with
  | None => Ok (p_bad p)
  | Some i => bind (lut (p_n p) (p_rows p Red) i) (fun r =>
              bind (lut (p_n p) (p_rows p Green) i) (fun g =>
              bind (lut (p_n p) (p_rows p Blue) i) (fun b => Ok (r, g, b, 1))))
  end.

Definition hex_digit (n : Z) : ascii := chr (Z.to_nat (if n <? 10 then 48 + n else 55 + n))%Z.
(** f'{n:02x}'.upper() for a number below 256 *)
Definition hex2 (n : Z) : str := [hex_digit (n / 16); hex_digit (n mod 16)]%Z.
Definition to255 (c : R) : Z := Ztrunc (rd (c * 255)).

Inductive answer := Mlab (c : R * R * R * R) | C255 (r g b a : Z) | Hex (s : str) | Array (l : list Z).
(** cpalette.py:349-387  getDataColor for one number.  Then the colour is a tuple,
    so that in line 379 [color * 255] repeats it. *)
Definition get_data_color (p : palette) (v : num) (format : str) : res answer :=
  bind (color p v) (fun c => let '(r, g, b, a) := c in
  if str_eqb format (str_of "mlab") then Ok (Mlab c)
  else if str_eqb format (str_of "255") then Ok (C255 (to255 r) (to255 g) (to255 b) (to255 a))
  else if str_eqb format (str_of "array") then Ok (Array (concat (repeat (map Ztrunc [r; g; b; a]) 255)))
  else if str_eqb format (str_of "hex") then Ok (Hex (chr 35 :: hex2 (to255 r) ++ hex2 (to255 g) ++ hex2 (to255 b)))
  else Err AttributeError).

(** cpalette.py:266-300  fromColorMap; [cmap] gives the first three channels *)
Definition from_color_map (z0 z1 : list R) (cmap : R -> rgb) (resolution : option R) (nan : nan_spec) (is_log : bool) : palette + perr :=
  if negb (Nat.eqb (List.length z0) (List.length z1)) then inr ConsistentLength
  else match amin z0, amax z1 with
  | Some zmin, Some zmax =>
      let at_z z := let '(r, g, b) := cmap (adjust zmin zmax z) in
                    (IZR (ZnearestE (rd (r * 255))), IZR (ZnearestE (rd (g * 255))), IZR (ZnearestE (rd (b * 255)))) in
      new_palette z0 z1 (map at_z z0) (map at_z z1) resolution nan is_log
  | _, _ => inr (Raised ValueError)
  end.
End Colors.

(** cpalette.py:10-86  the presets *)
Definition z_rgb (p : Z * Z * Z) : rgb := let '(r, g, b) := p in (IZR r, IZR g, IZR b).
Record preset := { t_z0 : list Z; t_z1 : list Z; t_rgb0 : list (Z * Z * Z); t_rgb1 : list (Z * Z * Z); t_nan : list Z; t_resolution : R }.
Definition mmi : preset := {|
  t_z0 := [0; 1; 2; 3; 4; 5; 6; 7; 8; 9]%Z; t_z1 := [1; 2; 3; 4; 5; 6; 7; 8; 9; 10]%Z;
  t_rgb0 := [(255, 255, 255); (255, 255, 255); (191, 204, 255); (160, 230, 255); (128, 255, 255); (122, 255, 147); (255, 255, 0); (255, 200, 0); (255, 145, 0); (255, 0, 0)]%Z;
  t_rgb1 := [(255, 255, 255); (191, 204, 255); (160, 230, 255); (128, 255, 255); (122, 255, 147); (255, 255, 0); (255, 200, 0); (255, 145, 0); (255, 0, 0); (200, 0, 0)]%Z;
  t_nan := [0; 0; 0; 0]%Z; t_resolution := 0.1 |}.
Definition grays : list (Z * Z * Z) := map (fun g => (g, g, g)) [255; 191; 159; 127; 95; 63; 31; 0]%Z.
Definition pop : preset := {|
  t_z0 := [0; 4; 49; 99; 499; 999; 4999; 9999]%Z; t_z1 := [4; 49; 99; 499; 999; 4999; 9999; 50000]%Z;
  t_rgb0 := grays; t_rgb1 := grays; t_nan := [0; 0; 0; 0]%Z; t_resolution := 1 |}.
Definition topo : preset := {|
  t_z0 := [-100; 0; 50; 350; 1000; 1800; 2300; 2600; 4000; 9000; 9100]%Z; t_z1 := [0; 50; 350; 1000; 1800; 2300; 2600; 4000; 9000; 9200]%Z;
  t_rgb0 := [(195, 255, 193); (110, 135, 80); (120, 160, 90); (230, 220, 110); (210, 170, 80); (195, 140, 100); (100, 80, 70); (60, 60, 60); (255, 255, 255); (255, 255, 255); (255, 128, 0)]%Z;
  t_rgb1 := [(110, 135, 80); (120, 160, 90); (230, 220, 110); (210, 170, 80); (195, 140, 100); (100, 80, 70); (60, 60, 60); (255, 255, 255); (255, 255, 255); (255, 128, 0); (255, 0, 0)]%Z;
  t_nan := [128; 128; 128; 0]%Z; t_resolution := 1 |}.
(** cpalette.py:175-198  fromPreset *)
Definition from_preset (rd : R -> R) (name : str) : palette + perr :=
  let build t := new_palette rd (map IZR (t_z0 t)) (map IZR (t_z1 t)) (map z_rgb (t_rgb0 t)) (map z_rgb (t_rgb1 t)) (Some (rd (t_resolution t))) (NanSeq (map IZR (t_nan t))) false in
  if str_eqb name (str_of "mmi") then build mmi
  else if str_eqb name (str_of "pop") then build pop
  else if str_eqb name (str_of "shaketopo") then build topo
  else inr (Raised UnsupportedArgumentError).
