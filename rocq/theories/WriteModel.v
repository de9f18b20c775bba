(** Model of writeTextFile of /repo/impactutils/rupture/quad_rupture.py and of
    the outline of an EdgeRupture (/repo/impactutils/rupture/edge_rupture.py).

    Simplifications: coordinates are exact finite reals without a negative zero;
    the characters of the reference are those of latin-1 and the file is written
    in UTF-8; the file is there and can be written. *)
From Coq Require Import ZArith Reals String Ascii Bool List.
From Flocq Require Import Core.
From Verif Require Import PyBase VecModel GeoModel RuptModel PolyModel.
Import ListNotations.
Open Scope R_scope.

(** f"{x:.4f}": the nearest multiple of 1/10000, a tie to the even one *)
Definition digit_char (n : Z) : ascii := chr (48 + Z.to_nat n).
Definition fixed4 (x : R) : str :=
  let n := ZnearestE (Rabs x * 10000) in
  let w := (n / 10000)%Z in let r := (n mod 10000)%Z in
  (if Rlt_dec x 0 then str_of "-" else []) ++ str_of_Z w ++ str_of "." ++
  [digit_char (r / 1000); digit_char (r / 100 mod 10); digit_char (r / 10 mod 10); digit_char (r mod 10)].
(** quad_rupture.py:415: one vertex *)
Definition vertex_line (p : point) : str :=
  let '(lon, lat, dep) := p in
  fixed4 lat ++ str_of " " ++ fixed4 lon ++ str_of " " ++ fixed4 dep ++ [chr 10].
(** quad_rupture.py:413-420 *)
Definition quad_text (q : quad) : str :=
  vertex_line (q0 q) ++ vertex_line (q1 q) ++ vertex_line (q2 q) ++ vertex_line (q3 q) ++ vertex_line (q0 q) ++ str_of ">" ++ [chr 10].
(** quad_rupture.py:394-422  writeTextFile: the text *)
Definition rupture_text (reference : str) (quads : list quad) : str :=
  str_of "#" ++ reference ++ [chr 10] ++ flat_map quad_text quads.
(** quad_rupture.py:408  open(rupturefile, 'wt'): the text as UTF-8 *)
Definition utf8_char (c : ascii) : str :=
  let n := nat_of_ascii c in
  if (n <? 128)%nat then [c] else [chr (192 + n / 64); chr (128 + n mod 64)].
Definition file_bytes (text : str) : str := flat_map utf8_char text.

(** edge_rupture.py:296-363  lons, lats, depths together; a[groups == g] *)
Definition pick (groups : list nat) (g : nat) (a : list point) : list point :=
  map snd (filter (fun gp => (fst gp =? g)%nat) (combine groups a)).
Fixpoint edge_rings (e : edges) (gs : list nat) : res (list (option point)) :=
  match gs with
  | [] => Ok []
  | g :: gs' =>
      let top := pick (e_group e) g (e_top e) in let bot := pick (e_group e) g (e_bot e) in
      match top with
      | [] => Err IndexError
      | f :: _ => bind (edge_rings e gs') (fun r => Ok (map Some (top ++ rev bot ++ [f]) ++ [None] ++ r))
      end
  end.
Definition edge_outline (e : edges) : res (list (option point)) := edge_rings e (unique (e_group e)).
