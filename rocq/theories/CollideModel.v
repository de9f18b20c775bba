(** Model of the choice of city labels in /repo/impactutils/mapping/mercatormap.py.
    [extents] is what matplotlib reports for a city's label, in data units. *)
From Coq Require Import ZArith Reals String Ascii Bool List Lia Lra.
From Verif Require Import PyBase PyStr CityModel.
Import ListNotations.
Open Scope R_scope.

Record box := { b_left : fl; b_right : fl; b_bottom : fl; b_top : fl }.
Definition nan_box : box := {| b_left := None; b_right := None; b_bottom := None; b_top := None |}.

Section Collide.
Variable rd : R -> R.
Variable sort_pop : list city -> list city.
Variable extents : city -> box.
Variable padding : fl.
(** get_extent() of the axes *)
Variables axmin axmax aymin aymax : fl.

(** mercatormap.py:339-364  getCityEdges *)
Definition city_edges (r : city) : box :=
  let b := extents r in
  let xpad := fop rd Rmult (fop rd Rminus (b_right b) (b_left b)) padding in
  let ypad := fop rd Rmult (fop rd Rminus (b_top b) (b_bottom b)) padding in
  {| b_left := fop rd Rminus (b_left b) xpad; b_right := fop rd Rplus (b_right b) xpad;
     b_bottom := fop rd Rminus (b_bottom b) ypad; b_top := fop rd Rplus (b_top b) ypad |}.

(** mercatormap.py:331: some part is off the map *)
Definition off_map (b : box) : bool := flt (b_left b) axmin || flt axmax (b_right b) || flt (b_bottom b) aymin || flt aymax (b_top b).

(** mercatormap.py:291-337  getCityBoundingBoxes; the first city is not checked *)
Definition bounding_boxes (rows : list city) : res (list (city * box)) :=
  match rows with
  | [] => Err IndexError
  | r :: rs => Ok ((r, city_edges r) :: map (fun q => (q, if off_map (city_edges q) then nan_box else city_edges q)) rs)
  end.

(** mercatormap.py:276-278 *)
Definition clear_of (b b' : box) : bool :=
  (flt (b_right b') (b_left b) || flt (b_right b) (b_left b')) || (flt (b_top b) (b_bottom b') || flt (b_top b') (b_bottom b)).
(** mercatormap.py:262-280; [larger] are the boxes [0:i] *)
Fixpoint keep_clear (larger : list box) (l : list (city * box)) : list (city * box) :=
  match l with
  | [] => []
  | (r, b) :: l' => if forallb (clear_of b) larger then (r, b) :: keep_clear (larger ++ [b]) l' else keep_clear (larger ++ [b]) l'
  end.

(** Setting a column adds it at the end unless it is there. *)
Definition add_col (cols : list str) (c : str) : list str := if col_in c cols then cols else cols ++ [c].
Definition box_cols : list str := map str_of ["top"; "bottom"; "left"; "right"]%string.

(** mercatormap.py:229-289  limitByMapCollision: the new table and the values of
    its last four columns; index 0 of an empty table is an error. *)
Definition limit_by_collision (f : frame) : res (frame * list box) :=
  match bounding_boxes (sort_pop (f_rows f)) with
  | Err e => Err e
  | Ok bs =>
      match filter (fun rb => match b_left (snd rb) with None => false | Some _ => true end) bs with
      | [] => Err IndexError
      | x :: l =>
          let kept := x :: keep_clear [snd x] l in
          match make {| f_cols := fold_left add_col box_cols (f_cols f); f_rows := map fst kept |} with
          | Err e => Err e
          | Ok g => Ok (g, map snd kept)
          end
      end
  end.

(** mercatormap.py:185-227  drawCities: the cities that are rendered *)
Definition draw_cities (f : frame) : res frame :=
  match limit_by_grid rd sort_pop 2 2 15 f with
  | Err e => Err e
  | Ok g =>
      match f_rows g with
      | [] => make g
      | _ => match limit_by_collision g with Err e => Err e | Ok (h, _) => make h end
      end
  end.
End Collide.
