(** A colour value from 0 to 255 survives the division by 255 and the
    multiplication and truncation that undo it. *)
From Coq Require Import ZArith Reals Bool List Lia Lra Psatz.
From Flocq Require Import Core.
From Verif Require Import FloatBase FloatEval.
Import ListNotations.
Open Scope R_scope.

Lemma rnd_ratio : forall k d s q, (0 < d)%Z -> (0 <= s <= 1074)%Z -> (2 ^ 52 * d <= k * 2 ^ s < 2 ^ 53 * d)%Z -> (2 * Z.abs (k * 2 ^ s - q * d) < d)%Z ->
  rnd (IZR k / IZR d) = IZR q * bpow radix2 (- s).
Proof.
  intros k d s q Hd Hs Hk Hq. unfold rnd, round, F2R, scaled_mantissa, cexp. cbn [Fnum Fexp].
  assert (Pd : 0 < IZR d) by (apply IZR_lt; assumption).
  assert (P2 : bpow radix2 s = IZR (2 ^ s)) by (rewrite (IZR_Zpower radix2) by lia; reflexivity).
  assert (Pp : 0 < bpow radix2 s) by apply bpow_gt_0.
  assert (Kb : IZR (2 ^ 52) * IZR d <= IZR k * bpow radix2 s < IZR (2 ^ 53) * IZR d) by (rewrite P2, <- !mult_IZR; split; [apply IZR_le|apply IZR_lt]; lia).
  assert (Pk : 0 < IZR k) by (assert (0 < IZR (2 ^ 52)) by (apply IZR_lt; reflexivity); nra).
  assert (X : IZR k / IZR d = IZR k * bpow radix2 s / IZR d * bpow radix2 (- s)) by (rewrite bpow_opp; field; split; lra).
  assert (Xb : IZR (2 ^ 52) <= IZR k * bpow radix2 s / IZR d < IZR (2 ^ 53)).
  { split; [apply Rmult_le_reg_r with (IZR d)|apply Rmult_lt_reg_r with (IZR d)]; try assumption; unfold Rdiv; rewrite Rmult_assoc, Rinv_l by lra; lra. }
  assert (M : mag radix2 (IZR k / IZR d) = (53 - s)%Z :> Z).
  { apply mag_unique. rewrite Rabs_pos_eq by (left; apply Rdiv_lt_0_compat; lra). rewrite X. replace (53 - s - 1)%Z with (52 + - s)%Z by lia. replace (53 - s)%Z with (53 + - s)%Z by lia.
    rewrite !bpow_plus. pose proof (bpow_gt_0 radix2 (- s)). change (bpow radix2 52) with (IZR (2 ^ 52)). change (bpow radix2 53) with (IZR (2 ^ 53)). split; [apply Rmult_le_compat_r|apply Rmult_lt_compat_r]; lra. }
  unfold fexp64, FLT_exp. rewrite M. replace (Z.max (53 - s - 53) (-1074)) with (- s)%Z by lia. f_equal. f_equal. rewrite Z.opp_involutive.
  replace (IZR k / IZR d * bpow radix2 s) with (IZR (k * 2 ^ s) / IZR d) by (rewrite mult_IZR, <- P2; field; lra). apply nearest_eval; [assumption|left; assumption].
Qed.
Definition byte_ok (k : Z) : bool :=
  let s := (112 - Z.log2 (k * 2 ^ 60 / 255))%Z in
  let q := ((2 * k * 2 ^ s + 255) / 510)%Z in
  let t := (Z.log2 (q * 255) - 52)%Z in
  let r := (k * 2 ^ (s - t))%Z in
  ((0 <=? s) && (s <=? 1074) && (2 ^ 52 * 255 <=? k * 2 ^ s) && (k * 2 ^ s <? 2 ^ 53 * 255) && (2 * Z.abs (k * 2 ^ s - q * 255) <? 255)
   && (0 <=? t) && (2 ^ (52 + t) <=? q * 255) && (q * 255 <? 2 ^ (53 + t)) && (t <=? s)
   && ((2 * Z.abs (q * 255 - r * 2 ^ t) <? 2 ^ t) || ((2 * Z.abs (q * 255 - r * 2 ^ t) =? 2 ^ t) && Z.even r)))%Z.
Lemma bytes_ok : forallb (fun i => byte_ok (Z.of_nat i)) (seq 1 255) = true.
Proof. vm_compute. reflexivity. Qed.
Lemma byte_back : forall k, (0 <= k <= 255)%Z -> rnd (rnd (IZR k / 255) * 255) = IZR k.
Proof.
  intros k Hk. destruct (Z.eq_dec k 0) as [->|Hz]; [unfold Rdiv; rewrite Rmult_0_l, rnd_0, Rmult_0_l; apply rnd_0|].
  pose proof bytes_ok as B. rewrite forallb_forall in B. specialize (B (Z.to_nat k)). rewrite Z2Nat.id in B by lia. specialize (B ltac:(apply in_seq; lia)).
  unfold byte_ok in B. set (s := (112 - Z.log2 (k * 2 ^ 60 / 255))%Z) in *. set (q := ((2 * k * 2 ^ s + 255) / 510)%Z) in *. set (t := (Z.log2 (q * 255) - 52)%Z) in *. set (r := (k * 2 ^ (s - t))%Z) in *.
  rewrite !andb_true_iff, orb_true_iff, andb_true_iff, !Z.leb_le, !Z.ltb_lt, Z.eqb_eq in B. destruct B as (((((((((B1 & B2) & B3) & B4) & B5) & B6) & B7) & B8) & B9) & B10).
  rewrite (rnd_ratio k 255 s q) by (lia || assumption).
  replace (IZR q * bpow radix2 (- s) * 255) with (IZR (q * 255) * bpow radix2 (- s)) by (rewrite mult_IZR; ring).
  assert (Pq : (0 <= q * 255)%Z) by (clear - B7; pose proof (Z.pow_nonneg 2 (52 + t) ltac:(lia)); lia).
  rewrite (rnd_eval (q * 255) (- s) t r) by (rewrite ?Z.abs_eq by assumption; (lia || assumption)).
  unfold r. rewrite mult_IZR. change 2%Z with (radix_val radix2). rewrite (IZR_Zpower radix2) by lia. rewrite Rmult_assoc, <- bpow_plus. replace (s - t + (- s + t))%Z with 0%Z by lia. cbn. ring.
Qed.
