(** Colour vocabulary: what a palette is meant to show. *)
From Coq Require Import ZArith Reals String Ascii Bool List Sorted.
From Verif Require Import PyBase PyStr.
Import ListNotations.
Open Scope R_scope.

(** A band of values painted from one colour to another. *)
Record band := { b_from : R; b_to : R; b_first : R * R * R; b_last : R * R * R }.
Definition red (c : R * R * R) : R := fst (fst c).
Definition green (c : R * R * R) : R := snd (fst c).
Definition blue (c : R * R * R) : R := snd c.

(** Band [i] starts at the [i]th value and ends at the next one, the last band at [top]. *)
Definition bands (z0 : list R) (top : R) (first last : list (R * R * R)) (i : nat) (b : band) : Prop :=
  nth_error z0 i = Some (b_from b) /\ nth_error (z0 ++ [top]) (S i) = Some (b_to b) /\
  nth_error first i = Some (b_first b) /\ nth_error last i = Some (b_last b).

(** The colour of value [z] in a band, channels from 0 to 255. *)
Definition mix (b : band) (z : R) (c : R * R * R) : Prop :=
  let t := (z - b_from b) / (b_to b - b_from b) in
  red c = (1 - t) * red (b_first b) + t * red (b_last b) /\
  green c = (1 - t) * green (b_first b) + t * green (b_last b) /\
  blue c = (1 - t) * blue (b_first b) + t * blue (b_last b).
(** The band of a value is the one it is in or at the upper end of; the lowest
    value belongs to the first band. *)
Definition painted (z0 : list R) (top : R) (first last : list (R * R * R)) (z : R) (c : R * R * R) : Prop :=
  (exists i b, bands z0 top first last i b /\ b_from b < z <= b_to b /\ mix b z c) \/
  (nth_error z0 0 = Some z /\ nth_error first 0 = Some c).

Definition increasing (l : list R) : Prop := forall i a b, nth_error l i = Some a -> nth_error l (S i) = Some b -> a <= b.
Definition color_ok (c : R * R * R) : Prop := 0 <= red c <= 255 /\ 0 <= green c <= 255 /\ 0 <= blue c <= 255.

(** What a palette needs to be drawn. *)
Record valid (z0 z1 : list R) (rgb0 rgb1 : list (R * R * R)) (bot top : R) : Prop := {
  v_inc : increasing z0; v_bot : nth_error z0 0 = Some bot; v_ne : z1 <> []; v_top : last z1 0 = top; v_max : forall y, In y z1 -> y <= top;
  v_under : forall z, In z z0 -> z < top;
  v_rgb0 : (List.length z0 <= List.length rgb0)%nat; v_rgb1 : (List.length z0 <= List.length rgb1)%nat }.
Definition lengths_pass (z0 z1 : list R) (rgb0 rgb1 : list (R * R * R)) : Prop :=
  List.length z0 = List.length z1 \/ List.length z1 = List.length rgb0 \/ List.length rgb0 = List.length rgb1.

(** A hexadecimal digit and its value. *)
Definition hexval (c : ascii) (v : Z) : Prop :=
  exists s, nth_error ["0"; "1"; "2"; "3"; "4"; "5"; "6"; "7"; "8"; "9"; "A"; "B"; "C"; "D"; "E"; "F"]%string (Z.to_nat v) = Some s /\ str_of s = [c] /\ (0 <= v)%Z.
