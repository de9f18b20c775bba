(** numpy's argmin: the index of the first smallest element (no NaN). *)
From Coq Require Import Reals List.
Import ListNotations.
Open Scope R_scope.

Fixpoint argmin_from (bi : nat) (b : R) (i : nat) (l : list R) : nat :=
  match l with [] => bi | x :: l' => if Rlt_dec x b then argmin_from i x (S i) l' else argmin_from bi b (S i) l' end.
Definition argmin (l : list R) : nat := match l with [] => 0%nat | x :: l' => argmin_from 0 x 1 l' end.
