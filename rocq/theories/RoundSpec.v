(** Independent vocabulary for the rounding properties. *)
From Coq Require Import ZArith Reals String Ascii Bool List.
From Flocq Require Import Core.
From Verif Require Import PyBase TextSpec.
Import ListNotations.
Open Scope Z_scope.

(** [m] is the multiple of [r] nearest to [v]; on a tie, the even multiple. *)
Definition nearest_multiple (v r m : Z) : Prop :=
  exists k, m = k * r /\ 2 * Z.abs (m - v) <= r /\ (2 * Z.abs (m - v) = r -> Z.even k = true).

(** Greatest multiple of [r] not above [v]; least multiple not below [v]. *)
Definition floor_multiple (v r m : Z) : Prop := (exists k, m = k * r) /\ m <= v < m + r.
Definition ceil_multiple (v r m : Z) : Prop := (exists k, m = k * r) /\ m - r < v <= m.

(** [d] is a decimal with [p] significant digits nearest to [x] (no tie rule). *)
Definition sig_digits (p : Z) (x d : R) : Prop :=
  exists m e : Z, (d = IZR m * powerRZ 10 e)%R /\
    10 ^ (p - 1) <= Z.abs m <= 10 ^ p /\
    (Rabs (d - x) <= powerRZ 10 e / 2)%R.

(** [s] is the comma-grouped decimal text of [m]. *)
Definition comma_text (m : Z) (s : str) : Prop :=
  exists out, s = sign_text m ++ out /\ grouped (str_of ",") (str_of_Z (Z.abs m)) out.
