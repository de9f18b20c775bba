(** Vocabulary for written rupture files. *)
From Coq Require Import ZArith Reals String Ascii Bool List.
From Verif Require Import PyBase PolySpec TextSpec RuptModel.
Import ListNotations.
Open Scope R_scope.

(** [r] is [x] to four decimal places: the nearest one, a tie going to the even one. *)
Definition four_places (x r : R) : Prop :=
  exists n : Z, r = IZR n / 10000 /\ Rabs (x - r) <= 1 / 20000 /\ (Rabs (x - r) = 1 / 20000 -> Z.even n = true).
Definition vertex_places (v w : vertex) : Prop :=
  let '(lon, lat, dep) := v in let '(lon', lat', dep') := w in
  four_places lon lon' /\ four_places lat lat' /\ four_places dep dep'.
(** The closed outline of a quadrilateral, to four places; [f] tells which number comes first. *)
Definition ring_places (f : vertex -> vertex) (q : quad) (p : list vertex) : Prop :=
  exists a b c d, vertex_places (q0 q) a /\ vertex_places (q1 q) b /\ vertex_places (q2 q) c /\ vertex_places (q3 q) d /\
  p = [f a; f b; f c; f d; f a].
Definition as_is (v : vertex) : vertex := v.
Definition lat_first (v : vertex) : vertex := let '(lon, lat, dep) := v in (lat, lon, dep).
(** [number] gives decimal numerals their value. *)
Definition reads_decimals (number : str -> option R) : Prop :=
  forall w f, all_digits w -> w <> [] -> all_digits f -> f <> [] ->
  let x := IZR (digits_value w) + IZR (digits_value f) / 10 ^ length f in
  number (w ++ str_of "." ++ f) = Some x /\ number (str_of "-" ++ w ++ str_of "." ++ f) = Some (- x).
(** A text on one line; its bytes in UTF-8; what is left of bytes without the blanks at their end and without number signs. *)
Definition one_line (s : str) : Prop := Forall (fun c => c <> chr 10 /\ c <> chr 13) s.
Inductive utf8 : str -> str -> Prop :=
| utf8_nil : utf8 [] []
| utf8_one : forall c s b, (nat_of_ascii c < 128)%nat -> utf8 s b -> utf8 (c :: s) (c :: b)
| utf8_two : forall c x y s b, (128 <= nat_of_ascii c)%nat -> (192 <= nat_of_ascii x < 224)%nat -> (128 <= nat_of_ascii y < 192)%nat ->
    nat_of_ascii c = ((nat_of_ascii x - 192) * 64 + (nat_of_ascii y - 128))%nat -> utf8 s b -> utf8 (c :: s) (x :: y :: b).
Definition kept (s k : str) : Prop :=
  exists t b, s = t ++ b /\ blanks b /\ (forall r c, t = r ++ [c] -> blank c = false) /\ k = filter (fun c => negb (Ascii.eqb c "#"%char)) t.
