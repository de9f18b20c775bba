(** Vector algebra over the reals. *)
From Coq Require Import ZArith Reals Lra Psatz List.
From Verif Require Import PyBase VecModel.
Open Scope R_scope.

Lemma vec_ext : forall u w, vx u = vx w -> vy u = vy w -> vz u = vz w -> u = w.
Proof. intros [a b c] [d e f]. cbn. intros -> -> ->. reflexivity. Qed.
Ltac vec := repeat match goal with v : vec |- _ => destruct v end; unfold vadd, vsub, vscale, vdot, vcross; cbn [vx vy vz].
Ltac vring := vec; try apply vec_ext; cbn [vx vy vz]; ring.
Definition v0 : vec := mkvec 0 0 0.

Lemma mag_dot : forall u, mag u = sqrt (vdot u u).
Proof. intros [x y z]. unfold mag, vdot. cbn. f_equal. ring. Qed.
Lemma dot_pos : forall u, 0 <= vdot u u.
Proof. intros [x y z]. unfold vdot. cbn. nra. Qed.
Lemma dot_zero : forall u, vdot u u = 0 -> u = v0.
Proof. intros [x y z] H. unfold vdot in H. cbn in H. unfold v0. f_equal; nra. Qed.
Lemma mag_nonneg : forall u, 0 <= mag u. Proof. intro u. apply sqrt_pos. Qed.
Lemma mag_sq : forall u, mag u * mag u = vdot u u.
Proof. intro u. rewrite mag_dot. apply sqrt_sqrt, dot_pos. Qed.
Lemma mag_zero : forall u, mag u = 0 <-> u = v0.
Proof.
  intro u. split; intro H.
  - apply dot_zero. rewrite <- mag_sq, H. ring.
  - subst u. rewrite mag_dot. unfold vdot, v0. cbn. replace (0 * 0 + 0 * 0 + 0 * 0) with 0 by ring. apply sqrt_0.
Qed.
Lemma lagrange : forall u w, vdot (vcross u w) (vcross u w) = vdot u u * vdot w w - vdot u w * vdot u w.
Proof. intros. vring. Qed.
Lemma cauchy : forall u w, Rabs (vdot u w) <= mag u * mag w.
Proof.
  intros u w. apply Rsqr_incr_0_var; [|apply Rmult_le_pos; apply mag_nonneg]. rewrite <- Rsqr_abs. unfold Rsqr.
  replace (mag u * mag w * (mag u * mag w)) with ((mag u * mag u) * (mag w * mag w)) by ring. rewrite !mag_sq.
  pose proof (lagrange u w). pose proof (dot_pos (vcross u w)). lra.
Qed.
Lemma triangle : forall u w, mag (vadd u w) <= mag u + mag w.
Proof.
  intros u w. apply Rsqr_incr_0_var; [|pose proof (mag_nonneg u); pose proof (mag_nonneg w); lra]. unfold Rsqr. rewrite mag_sq.
  replace (vdot (vadd u w) (vadd u w)) with (vdot u u + 2 * vdot u w + vdot w w) by vring.
  replace ((mag u + mag w) * (mag u + mag w)) with (mag u * mag u + 2 * (mag u * mag w) + mag w * mag w) by ring. rewrite !mag_sq.
  pose proof (cauchy u w). pose proof (Rle_abs (vdot u w)). lra.
Qed.
Lemma mag_scale : forall k u, mag (vscale k u) = Rabs k * mag u.
Proof.
  intros k u. apply Rsqr_inj; [apply mag_nonneg|apply Rmult_le_pos; [apply Rabs_pos|apply mag_nonneg]|].
  unfold Rsqr. rewrite mag_sq. replace (Rabs k * mag u * (Rabs k * mag u)) with ((Rabs k * Rabs k) * (mag u * mag u)) by ring. rewrite mag_sq.
  replace (Rabs k * Rabs k) with (k * k) by (exact (Rsqr_abs k)). vring.
Qed.
Lemma dist_mag : forall u w, distance u (OVec w) = Ok (mag (vsub u w)).
Proof. intros. reflexivity. Qed.
Lemma dist_triangle : forall u v w, mag (vsub u w) <= mag (vsub u v) + mag (vsub v w).
Proof. intros u v w. replace (vsub u w) with (vadd (vsub u v) (vsub v w)) by vring. apply triangle. Qed.
Lemma mag_opp : forall u w, mag (vsub u w) = mag (vsub w u).
Proof. intros u w. rewrite !mag_dot. f_equal. vring. Qed.
Lemma reqd_iff : forall x y, reqd x y = true <-> x = y.
Proof. intros. unfold reqd. destruct Req_EM_T; split; congruence || auto. Qed.
