(** Rounding of concrete numbers. *)
From Coq Require Import ZArith Reals Lia Lra Psatz.
From Flocq Require Import Core.
From Verif Require Import FloatBase.
Open Scope R_scope.

Lemma nearest_eval : forall z d q, (0 < d)%Z ->
  (2 * Z.abs (z - q * d) < d \/ (2 * Z.abs (z - q * d) = d /\ Z.even q = true))%Z -> ZnearestE (IZR z / IZR d) = q.
Proof.
  intros z d q Hd H.
  assert (Hd' : 0 < IZR d) by (apply (IZR_lt 0); assumption).
  assert (E : IZR z / IZR d - IZR q = IZR (z - q * d) / IZR d) by (rewrite minus_IZR, mult_IZR; field; lra).
  destruct H as [H|[H Hq]].
  - apply Znearest_imp. rewrite E. unfold Rdiv. rewrite Rabs_mult, (Rabs_pos_eq (/ IZR d)) by (left; apply Rinv_0_lt_compat; assumption).
    rewrite <- abs_IZR. apply Rmult_lt_reg_r with (IZR d); [assumption|]. rewrite Rmult_assoc, Rinv_l by lra. rewrite Rmult_1_r.
    apply IZR_lt in H. rewrite mult_IZR in H. lra.
  - set (x := IZR z / IZR d) in *. pose proof (nearest_half x) as Hn.
    assert (Hx : Rabs (x - IZR q) = / 2).
    { rewrite E. unfold Rdiv. rewrite Rabs_mult, (Rabs_pos_eq (/ IZR d)) by (left; apply Rinv_0_lt_compat; assumption). rewrite <- abs_IZR.
      apply (f_equal IZR) in H. rewrite mult_IZR in H. replace (IZR (Z.abs (z - q * d))) with (IZR d / 2) by lra. field. lra. }
    set (k := ZnearestE x) in *.
    assert (D : (Z.abs (k - q) <= 1)%Z).
    { apply le_IZR. rewrite abs_IZR, minus_IZR. replace (IZR k - IZR q) with ((IZR k - x) + (x - IZR q)) by ring. eapply Rle_trans; [apply Rabs_triang|]. lra. }
    destruct (Z.eq_dec k q) as [|Hne]; [assumption|exfalso].
    assert (Hk : Rabs (IZR k - x) = / 2).
    { assert (D' : k = (q + 1)%Z \/ k = (q - 1)%Z) by lia.
      destruct D' as [Ek|Ek]; rewrite Ek, ?plus_IZR, ?minus_IZR in *; revert Hx Hn; unfold Rabs; repeat destruct Rcase_abs; lra. }
    pose proof (nearest_tie_even x k eq_refl Hk) as Ev.
    assert (D' : k = (q + 1)%Z \/ k = (q - 1)%Z) by lia. destruct D' as [Ek|Ek]; rewrite Ek, ?Z.even_add, ?Z.even_sub, Hq in Ev; discriminate.
Qed.

(** [z * 2^e] with [53 + s] digits. *)
Lemma rnd_eval : forall z e s q, (0 <= s)%Z -> (2 ^ (52 + s) <= Z.abs z < 2 ^ (53 + s))%Z -> (-1074 <= e + s)%Z ->
  (2 * Z.abs (z - q * 2 ^ s) < 2 ^ s \/ (2 * Z.abs (z - q * 2 ^ s) = 2 ^ s /\ Z.even q = true))%Z ->
  rnd (IZR z * bpow radix2 e) = IZR q * bpow radix2 (e + s).
Proof.
  intros z e s q Hs Hz He Hq. unfold rnd, round, F2R, scaled_mantissa, cexp. cbn [Fnum Fexp].
  assert (M : mag radix2 (IZR z * bpow radix2 e) = (53 + s + e)%Z :> Z).
  { apply mag_unique. rewrite Rabs_mult, (Rabs_pos_eq (bpow radix2 e)), <- abs_IZR by apply bpow_ge_0.
    replace (53 + s + e - 1)%Z with ((52 + s) + e)%Z by lia. rewrite !bpow_plus.
    split; [apply Rmult_le_compat_r; [apply bpow_ge_0|]|apply Rmult_lt_compat_r; [apply bpow_gt_0|]].
    - rewrite <- bpow_plus. rewrite <- (IZR_Zpower radix2) by lia. apply IZR_le. apply Hz.
    - rewrite <- bpow_plus. rewrite <- (IZR_Zpower radix2) by lia. apply IZR_lt. apply Hz. }
  rewrite M. assert (F : fexp64 (53 + s + e) = (e + s)%Z) by (unfold fexp64, FLT_exp; lia). rewrite F.
  f_equal. f_equal. rewrite Rmult_assoc, <- bpow_plus. replace (e + - (e + s))%Z with (- s)%Z by lia.
  assert (P : bpow radix2 (- s) = / IZR (2 ^ s)) by (rewrite bpow_opp, <- (IZR_Zpower radix2) by assumption; reflexivity).
  rewrite P. apply nearest_eval; [apply Z.pow_pos_nonneg; lia|assumption].
Qed.
