(** IEEE binary64 arithmetic as Flocq's rounding on the reals.  Overflow to
    infinity is not represented; conversions of integers beyond the largest
    double raise OverflowError explicitly (see [py_float] in RoundModel.v). *)
From Coq Require Import ZArith Reals Lia Lra Psatz.
From Flocq Require Import Core Relative.
Open Scope R_scope.

Definition fexp64 : Z -> Z := FLT_exp (-1074) 53.

(** Round to nearest double, ties to even. *)
Definition rnd (x : R) : R := round radix2 fexp64 ZnearestE x.

(** [x] is a (finite, unbounded-exponent) binary64 number. *)
Definition is_double (x : R) : Prop := generic_format radix2 fexp64 x.

Global Instance fexp64_valid : Valid_exp fexp64.
Proof. apply FLT_exp_valid. reflexivity. Qed.

Lemma rnd_le : forall x y, x <= y -> rnd x <= rnd y.
Proof. intros; apply round_le; auto with typeclass_instances. Qed.

Lemma rnd_double : forall x, is_double (rnd x).
Proof. intro x. apply generic_format_round; auto with typeclass_instances. Qed.

Lemma rnd_id : forall x, is_double x -> rnd x = x.
Proof. intros x H. apply round_generic; auto with typeclass_instances. Qed.

Lemma rnd_opp : forall x, rnd (- x) = - rnd x.
Proof. intro x. unfold rnd. apply round_NE_opp. Qed.

Lemma double_F2R : forall m e, (-1074 <= e)%Z -> (Z.abs m < 2 ^ 53)%Z ->
  is_double (IZR m * bpow radix2 e).
Proof.
  intros m e He Hm. change (IZR m * bpow radix2 e) with (F2R (Float radix2 m e)).
  apply generic_format_FLT. apply FLT_spec with (Float radix2 m e); simpl; auto.
Qed.

Lemma double_int : forall m, (Z.abs m < 2 ^ 53)%Z -> is_double (IZR m).
Proof.
  intros m Hm. rewrite <- (Rmult_1_r (IZR m)). change 1 with (bpow radix2 0).
  apply double_F2R; lia.
Qed.

Lemma double_int_le : forall m, (Z.abs m <= 2 ^ 53)%Z -> is_double (IZR m).
Proof.
  intros m Hm. destruct (Z_lt_dec (Z.abs m) (2 ^ 53)) as [H|H]; [apply double_int; assumption|].
  assert (E : (m = 2 ^ 53 \/ m = - 2 ^ 53)%Z) by lia.
  destruct E as [-> | ->].
  - replace (IZR (2 ^ 53)) with (IZR 1 * bpow radix2 53) by (simpl; lra). apply double_F2R; lia.
  - replace (IZR (- 2 ^ 53)) with (IZR (-1) * bpow radix2 53) by (simpl; lra). apply double_F2R; lia.
Qed.

Lemma double_half : forall m, (Z.abs m < 2 ^ 53)%Z -> is_double (IZR m / 2).
Proof.
  intros m Hm. replace (IZR m / 2) with (IZR m * bpow radix2 (-1)) by (simpl; lra).
  apply double_F2R; lia.
Qed.

Lemma rnd_int : forall m, (Z.abs m <= 2 ^ 53)%Z -> rnd (IZR m) = IZR m.
Proof. intros; apply rnd_id, double_int_le; assumption. Qed.

Lemma rnd_0 : rnd 0 = 0.
Proof. apply (rnd_int 0). lia. Qed.

(** The half-ulp relative error bound away from the subnormals. *)
Lemma rnd_rel_err : forall x, bpow radix2 (-1022) <= Rabs x ->
  Rabs (rnd x - x) <= bpow radix2 (-53) * Rabs x.
Proof.
  intros x Hx. unfold rnd, fexp64.
  pose proof (relative_error_N_FLT radix2 (-1074) 53 ltac:(reflexivity) (fun z => negb (Z.even z)) x) as H.
  replace (bpow radix2 (-53)) with (/ 2 * bpow radix2 (-53 + 1)).
  - apply H. exact Hx.
  - simpl. lra.
Qed.

Lemma bpow_m53 : bpow radix2 (-53) = / IZR (2 ^ 53).
Proof. reflexivity. Qed.

Lemma bpow_m1022_small : bpow radix2 (-1022) <= / IZR (2 ^ 53).
Proof. rewrite <- bpow_m53. apply bpow_le. lia. Qed.

(** ZnearestE facts. *)
Lemma nearest_half : forall x, Rabs (IZR (ZnearestE x) - x) <= / 2.
Proof. intro x. rewrite Rabs_minus_sym. apply Znearest_half. Qed.

Lemma nearest_int : forall n, ZnearestE (IZR n) = n.
Proof. intro n. apply Zrnd_IZR; auto with typeclass_instances. Qed.

(** On a half-way point the even neighbour is chosen. *)
Lemma nearest_tie_even : forall x k, ZnearestE x = k -> Rabs (IZR k - x) = / 2 -> Z.even k = true.
Proof.
  intros x k Hk Ht. subst k.
  unfold Znearest in *.
  pose proof (Zfloor_lb x) as Hlb. pose proof (Zfloor_ub x) as Hub.
  destruct (Rcompare_spec (x - IZR (Zfloor x)) (/ 2)) as [H|H|H].
  - exfalso. rewrite Rabs_left1 in Ht by lra. lra.
  - destruct (Z.even (Zfloor x)) eqn:E; simpl in *; [assumption|].
    rewrite Zceil_floor_neq by lra. rewrite Z.even_add, E. reflexivity.
  - exfalso. rewrite Zceil_floor_neq in Ht by lra. rewrite plus_IZR in Ht.
    rewrite Rabs_pos_eq in Ht by lra. lra.
Qed.

Lemma nearest_ge : forall n x, IZR n <= x -> (n <= ZnearestE x)%Z.
Proof.
  intros n x H. rewrite <- (nearest_int n). apply Zrnd_le; auto with typeclass_instances.
Qed.

Lemma nearest_le : forall n x, x <= IZR n -> (ZnearestE x <= n)%Z.
Proof.
  intros n x H. rewrite <- (nearest_int n). apply Zrnd_le; auto with typeclass_instances.
Qed.

(** Absolute error of one rounding for a bounded argument. *)
Lemma rnd_abs_err : forall x e, (-1000 <= e)%Z -> Rabs x <= bpow radix2 e ->
  Rabs (rnd x - x) <= bpow radix2 (e - 53).
Proof.
  intros x e He Hx. unfold rnd.
  eapply Rle_trans; [apply error_le_half_ulp; auto with typeclass_instances|].
  assert (Hu : ulp radix2 fexp64 x <= ulp radix2 fexp64 (bpow radix2 e)).
  { apply ulp_le; auto with typeclass_instances.
    - apply FLT_exp_monotone.
    - rewrite (Rabs_pos_eq (bpow radix2 e)) by apply bpow_ge_0. assumption. }
  rewrite ulp_bpow in Hu.
  replace (fexp64 (e + 1)) with (e - 52)%Z in Hu by (unfold fexp64, FLT_exp; lia).
  assert (Hb : bpow radix2 (e - 52) = 2 * bpow radix2 (e - 53)).
  { replace (e - 52)%Z with (1 + (e - 53))%Z by lia. rewrite bpow_plus. reflexivity. }
  rewrite Hb in Hu. lra.
Qed.
