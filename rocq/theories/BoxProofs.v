(** The box of a quadrilateral in the model. *)
From Coq Require Import Reals Lra.
From Verif Require Import RuptModel SizeModel BoxSpec.
Open Scope R_scope.

Lemma lowest_min f q m : lowest_corner f q m -> rmin4 (f (q0 q)) (f (q1 q)) (f (q2 q)) (f (q3 q)) = m.
Proof.
  intros (H & H0 & H1 & H2 & H3). unfold rmin4. apply Rle_antisym.
  - pose proof (Rmin_l (Rmin (f (q0 q)) (f (q1 q))) (Rmin (f (q2 q)) (f (q3 q)))). pose proof (Rmin_r (Rmin (f (q0 q)) (f (q1 q))) (Rmin (f (q2 q)) (f (q3 q)))).
    pose proof (Rmin_l (f (q0 q)) (f (q1 q))). pose proof (Rmin_r (f (q0 q)) (f (q1 q))). pose proof (Rmin_l (f (q2 q)) (f (q3 q))). pose proof (Rmin_r (f (q2 q)) (f (q3 q))). destruct H as [->|[->|[->| ->]]]; lra.
  - repeat apply Rmin_glb; assumption.
Qed.
Lemma highest_max f q m : highest_corner f q m -> rmax4 (f (q0 q)) (f (q1 q)) (f (q2 q)) (f (q3 q)) = m.
Proof.
  intros (H & H0 & H1 & H2 & H3). unfold rmax4. apply Rle_antisym; [repeat apply Rmax_lub; assumption|].
  pose proof (Rmax_l (Rmax (f (q0 q)) (f (q1 q))) (Rmax (f (q2 q)) (f (q3 q)))). pose proof (Rmax_r (Rmax (f (q0 q)) (f (q1 q))) (Rmax (f (q2 q)) (f (q3 q)))).
  pose proof (Rmax_l (f (q0 q)) (f (q1 q))). pose proof (Rmax_r (f (q0 q)) (f (q1 q))). pose proof (Rmax_l (f (q2 q)) (f (q3 q))). pose proof (Rmax_r (f (q2 q)) (f (q3 q))). destruct H as [->|[->|[->| ->]]]; lra.
Qed.
