(** Vocabulary for label boxes. *)
From Coq Require Import ZArith Reals String Ascii Bool List Lia Lra Permutation.
From Verif Require Import PyBase PyStr CityModel CitySpec CollideModel.
Import ListNotations.
Open Scope R_scope.

(** The point (x, y) lies in the closed box. *)
Definition covers (b : box) (x y : R) : Prop :=
  exists l r bt t, b_left b = Some l /\ b_right b = Some r /\ b_bottom b = Some bt /\ b_top b = Some t /\ l <= x <= r /\ bt <= y <= t.
Definition overlap (b b' : box) : Prop := exists x y, covers b x y /\ covers b' x y.
(** A box with numbers for edges and a point in it. *)
Definition solid (b : box) : Prop := exists x y, covers b x y.
(** The whole box lies on the map. *)
Definition on_map (x0 x1 y0 y1 : R) (b : box) : Prop :=
  exists l r bt t, b_left b = Some l /\ b_right b = Some r /\ b_bottom b = Some bt /\ b_top b = Some t /\ x0 <= l /\ r <= x1 /\ y0 <= bt /\ t <= y1.

(** The elements of [l] whose flag is set. *)
Inductive flagged {A} : list A -> list bool -> list A -> Prop :=
| fl_nil : flagged [] [] []
| fl_yes : forall x l bs l', flagged l bs l' -> flagged (x :: l) (true :: bs) (x :: l')
| fl_no : forall x l bs l', flagged l bs l' -> flagged (x :: l) (false :: bs) l'.
