(** Proofs about rounding to multiples and to significant digits. *)
From Coq Require Import ZArith Reals String Ascii Bool List Lia Lra Psatz.
From Flocq Require Import Core.
From Verif Require Import PyBase FloatBase TextModel TextSpec TextProofs RoundModel RoundSpec.
Import ListNotations.
Open Scope Z_scope.

Lemma Rlt_bool_int_ge : forall z, 1 <= z -> Rlt_bool (IZR z) 1 = false.
Proof. intros z H. apply Rlt_bool_false. apply (IZR_le 1). assumption. Qed.

Lemma big_overflow : 2 ^ 53 < 2 ^ 1024 - 2 ^ 970.
Proof. reflexivity. Qed.

Lemma py_float_small : forall z, Z.abs z <= 2 ^ 53 -> py_float (PInt z) = Ok (IZR z).
Proof.
  intros z H. unfold py_float. pose proof big_overflow.
  destruct (2 ^ 1024 - 2 ^ 970 <=? Z.abs z) eqn:E; [apply Z.leb_le in E; lia|].
  rewrite rnd_int by assumption. reflexivity.
Qed.

(** The integer-step branch in closed form. *)
Lemma to_nearest_int : forall f v r ds, Z.abs v <= 2 ^ 53 -> 1 <= r <= 2 ^ 53 ->
  to_nearest f (PInt v) (PInt r) ds = Ok (PInt (r * f (rnd (IZR v / IZR r)))).
Proof.
  intros f v r ds Hv Hr. unfold to_nearest. cbn [num_val].
  rewrite Rlt_bool_int_ge by lia. rewrite py_float_small by assumption. cbn [bind].
  unfold py_truediv. rewrite py_float_small by lia. cbn [bind].
  rewrite Req_bool_false by (apply IZR_neq; lia). reflexivity.
Qed.

Lemma to_nearest_flt : forall f x r ds, 1 <= r <= 2 ^ 53 ->
  to_nearest f (PFlt x) (PInt r) ds = Ok (PInt (r * f (rnd (x / IZR r)))).
Proof.
  intros f x r ds Hr. unfold to_nearest. cbn [num_val].
  rewrite Rlt_bool_int_ge by lia. cbn [bind py_float].
  unfold py_truediv. rewrite py_float_small by lia. cbn [bind].
  rewrite Req_bool_false by (apply IZR_neq; lia). reflexivity.
Qed.

Section Quotient.
Variables v r : Z.
Hypothesis Hr : 1 <= r <= 2 ^ 53.
Let x := (IZR v / IZR r)%R.

Lemma r_pos : (0 < IZR r)%R.
Proof. apply (IZR_lt 0). lia. Qed.

Lemma x_times_r : (x * IZR r = IZR v)%R.
Proof. unfold x. field. apply Rgt_not_eq. apply r_pos. Qed.

Lemma quot_big : v <> 0 -> (bpow radix2 (-1022) <= Rabs x)%R.
Proof.
  intro Hv. eapply Rle_trans; [apply bpow_m1022_small|].
  unfold x, Rdiv. rewrite Rabs_mult. rewrite <- abs_IZR.
  rewrite Rabs_inv. rewrite <- abs_IZR. rewrite (Z.abs_eq r) by lia.
  assert (H1 : (1 <= IZR (Z.abs v))%R) by (apply (IZR_le 1); lia).
  assert (H2 : (/ IZR (2 ^ 53) <= / IZR r)%R).
  { apply Rinv_le; [apply r_pos|]. apply IZR_le. lia. }
  assert (0 < / IZR r)%R by (apply Rinv_0_lt_compat, r_pos).
  apply Rle_trans with (1 * / IZR r)%R; [rewrite Rmult_1_l; assumption|].
  apply Rmult_le_compat_r; [left|]; assumption.
Qed.

(** |rnd x - x| * r <= |v| * 2^-53 *)
Lemma quot_err : (Rabs (rnd x - x) * IZR r <= IZR (Z.abs v) * / IZR (2 ^ 53))%R.
Proof.
  destruct (Z.eq_dec v 0) as [E|E].
  - assert (Hx : x = 0%R) by (unfold x; rewrite E; unfold Rdiv; ring).
    rewrite Hx, rnd_0. rewrite Rminus_0_r, Rabs_R0. rewrite E. simpl. lra.
  - pose proof (rnd_rel_err x (quot_big E)) as H. rewrite bpow_m53 in H.
    assert (Hx : (Rabs x * IZR r = IZR (Z.abs v))%R).
    { rewrite abs_IZR. rewrite <- x_times_r. rewrite Rabs_mult. f_equal.
      symmetry. apply Rabs_pos_eq. left. apply r_pos. }
    pose proof r_pos as Hp.
    apply (Rmult_le_compat_r (IZR r)) in H; [|lra]. rewrite Rmult_assoc, Hx in H. lra.
Qed.

Lemma quot_err_strict : Z.abs v < 2 ^ 53 -> (Rabs (rnd x - x) * IZR r < 1)%R.
Proof.
  intro Hv. eapply Rle_lt_trans; [apply quot_err|].
  apply IZR_lt in Hv. assert (0 < IZR (2 ^ 53))%R by (apply (IZR_lt 0); reflexivity).
  apply (Rmult_lt_reg_r (IZR (2 ^ 53))); [assumption|]. rewrite Rmult_assoc, Rinv_l by lra. lra.
Qed.

Lemma quot_nearest : Z.abs v < 2 ^ 52 -> nearest_multiple v r (r * ZnearestE (rnd x)).
Proof.
  intro Hv. set (k := ZnearestE (rnd x)). exists k.
  assert (Hk : (Rabs (IZR k - rnd x) <= / 2)%R) by apply nearest_half.
  assert (He : (Rabs (rnd x - x) * IZR r < / 2)%R).
  { eapply Rle_lt_trans; [apply quot_err|]. apply IZR_lt in Hv.
    assert (0 < IZR (2 ^ 53))%R by (apply (IZR_lt 0); reflexivity).
    apply (Rmult_lt_reg_r (IZR (2 ^ 53))); [assumption|]. rewrite Rmult_assoc, Rinv_l by lra.
    replace (IZR (2 ^ 53)) with (2 * IZR (2 ^ 52))%R by (rewrite <- mult_IZR; reflexivity). lra. }
  pose proof r_pos as Hp.
  assert (Hd : (Rabs (IZR k - x) * IZR r < IZR r / 2 + / 2)%R).
  { replace (IZR k - x)%R with ((IZR k - rnd x) + (rnd x - x))%R by ring.
    pose proof (Rabs_triang (IZR k - rnd x) (rnd x - x)). nra. }
  assert (Hz : (Rabs (IZR k - x) * IZR r = IZR (Z.abs (r * k - v)))%R).
  { rewrite abs_IZR, minus_IZR, mult_IZR. rewrite <- x_times_r.
    replace (IZR r * IZR k - x * IZR r)%R with ((IZR k - x) * IZR r)%R by ring.
    rewrite Rabs_mult. f_equal. symmetry. apply Rabs_pos_eq. lra. }
  assert (Hle : 2 * Z.abs (r * k - v) <= r).
  { rewrite Hz in Hd. apply Z.lt_succ_r. apply lt_IZR. rewrite succ_IZR, mult_IZR. lra. }
  split; [ring|]. split; [assumption|].
  intro Ht.
  (* an exact tie: x is a half-integer, hence a double, hence not rounded *)
  assert (Hxk : (Rabs (IZR k - x) = / 2)%R).
  { assert (Ht' : (2 * IZR (Z.abs (r * k - v)) = IZR r)%R) by (rewrite <- mult_IZR; f_equal; assumption).
    rewrite <- Hz in Ht'. nra. }
  assert (Hdx : exists n, (x = IZR n / 2)%R).
  { destruct (Rle_dec 0 (IZR k - x)) as [H0|H0].
    - rewrite Rabs_pos_eq in Hxk by lra. exists (2 * k - 1). rewrite minus_IZR, mult_IZR. lra.
    - rewrite Rabs_left in Hxk by lra. exists (2 * k + 1). rewrite plus_IZR, mult_IZR. lra. }
  destruct Hdx as (n & Hn).
  assert (Hnb : Z.abs n < 2 ^ 53).
  { apply lt_IZR. rewrite abs_IZR.
    assert (Hx2 : (Rabs (IZR n) = 2 * Rabs x)%R).
    { rewrite Hn. unfold Rdiv. rewrite Rabs_mult. rewrite (Rabs_pos_eq (/ 2)) by lra. lra. }
    rewrite Hx2.
    assert (Hxr : (Rabs x <= IZR (Z.abs v))%R).
    { rewrite abs_IZR, <- x_times_r, Rabs_mult. rewrite (Rabs_pos_eq (IZR r)) by lra.
      assert (1 <= IZR r)%R by (apply (IZR_le 1); lia). pose proof (Rabs_pos x). nra. }
    apply IZR_lt in Hv.
    replace (IZR (2 ^ 53)) with (2 * IZR (2 ^ 52))%R by (rewrite <- mult_IZR; reflexivity). lra. }
  assert (Hrx : rnd x = x). { apply rnd_id. rewrite Hn. apply double_half. assumption. }
  apply (nearest_tie_even x k); [unfold k; rewrite Hrx; reflexivity | assumption].
Qed.

Lemma quot_floor : Z.abs v < 2 ^ 53 -> Zfloor (rnd x) = v / r.
Proof.
  intro Hv. pose proof r_pos as Hp.
  assert (Hfl : v / r * r <= v < v / r * r + r).
  { pose proof (Z.mul_div_le v r ltac:(lia)). pose proof (Z.mul_succ_div_gt v r ltac:(lia)). lia. }
  assert (Hm : Z.abs (v / r) <= 2 ^ 53).
  { assert (- 2 ^ 53 <= v / r <= 2 ^ 53); [|lia]. split; nia. }
  apply Zfloor_imp. split.
  - rewrite <- (rnd_int (v / r)) by assumption. apply rnd_le.
    apply (Rmult_le_reg_r (IZR r)); [assumption|]. rewrite x_times_r, <- mult_IZR. apply IZR_le. lia.
  - pose proof (quot_err_strict Hv) as He.
    apply (Rmult_lt_reg_r (IZR r)); [assumption|].
    assert (Hx1 : (x * IZR r + 1 <= IZR (v / r + 1) * IZR r)%R).
    { rewrite x_times_r, <- mult_IZR, <- plus_IZR. apply IZR_le. lia. }
    pose proof (Rle_abs (rnd x - x)). nra.
Qed.

Lemma quot_ceil : Z.abs v < 2 ^ 53 -> Zceil (rnd x) = - (- v / r).
Proof.
  intro Hv. pose proof r_pos as Hp.
  assert (Hfl : - v / r * r <= - v < - v / r * r + r).
  { pose proof (Z.mul_div_le (- v) r ltac:(lia)). pose proof (Z.mul_succ_div_gt (- v) r ltac:(lia)). lia. }
  assert (Hm : Z.abs (- (- v / r)) <= 2 ^ 53).
  { assert (- 2 ^ 53 <= - v / r <= 2 ^ 53); [|lia]. split; nia. }
  apply Zceil_imp. split.
  - pose proof (quot_err_strict Hv) as He.
    apply (Rmult_lt_reg_r (IZR r)); [assumption|].
    assert (Hx1 : (IZR (- (- v / r) - 1) * IZR r <= x * IZR r - 1)%R).
    { rewrite x_times_r, <- mult_IZR, <- minus_IZR. apply IZR_le. lia. }
    pose proof (Rabs_minus_sym (rnd x) x) as Hs. pose proof (Rle_abs (x - rnd x)). rewrite <- Hs in *. nra.
  - rewrite <- (rnd_int (- (- v / r))) by assumption. apply rnd_le.
    apply (Rmult_le_reg_r (IZR r)); [assumption|]. rewrite x_times_r, <- mult_IZR. apply IZR_le. lia.
Qed.
End Quotient.

(** ** C04, C05 *)
Lemma round_to_nearest_correct : forall v r ds, Z.abs v < 2 ^ 52 -> 1 <= r <= 2 ^ 53 ->
  exists m, round_to_nearest (PInt v) (PInt r) ds = Ok (PInt m) /\ nearest_multiple v r m.
Proof.
  intros v r ds Hv Hr. eexists. split.
  - apply to_nearest_int; lia.
  - apply quot_nearest; assumption.
Qed.

Lemma floor_to_nearest_correct : forall v r ds, Z.abs v < 2 ^ 53 -> 1 <= r <= 2 ^ 53 ->
  exists m, floor_to_nearest (PInt v) (PInt r) ds = Ok (PInt m) /\ floor_multiple v r m.
Proof.
  intros v r ds Hv Hr. eexists. split.
  - apply to_nearest_int; lia.
  - rewrite quot_floor by assumption. split; [exists (v / r); ring|].
    pose proof (Z.mul_div_le v r ltac:(lia)). pose proof (Z.mul_succ_div_gt v r ltac:(lia)). lia.
Qed.

Lemma ceil_to_nearest_correct : forall v r ds, Z.abs v < 2 ^ 53 -> 1 <= r <= 2 ^ 53 ->
  exists m, ceil_to_nearest (PInt v) (PInt r) ds = Ok (PInt m) /\ ceil_multiple v r m.
Proof.
  intros v r ds Hv Hr. eexists. split.
  - apply to_nearest_int; lia.
  - rewrite quot_ceil by assumption. split; [exists (- (- v / r)); ring|].
    pose proof (Z.mul_div_le (- v) r ltac:(lia)). pose proof (Z.mul_succ_div_gt (- v) r ltac:(lia)). lia.
Qed.

Lemma nearest_multiple_unique : forall v r m m', 1 <= r ->
  nearest_multiple v r m -> nearest_multiple v r m' -> m = m'.
Proof.
  intros v r m m' Hr (k & -> & Hd & Ht) (k' & -> & Hd' & Ht').
  destruct (Z.eq_dec k k') as [->|Hk]; [reflexivity|exfalso].
  assert (Hc : Z.abs (k - k') = 1) by nia.
  assert (2 * Z.abs (k * r - v) = r) by nia.
  assert (2 * Z.abs (k' * r - v) = r) by nia.
  specialize (Ht H). specialize (Ht' H0).
  assert (E : k = k' + 1 \/ k' = k + 1) by lia.
  destruct E as [-> | ->]; rewrite Z.even_add in *; simpl in *;
    [rewrite Ht' in Ht | rewrite Ht in Ht']; discriminate.
Qed.

(** A double value: the error is at most half a step plus one rounding. *)
Lemma round_float_bound : forall x r ds, 1 <= r <= 2 ^ 53 -> x = 0%R \/ (bpow radix2 (-900) <= Rabs x)%R ->
  exists m k, round_to_nearest (PFlt x) (PInt r) ds = Ok (PInt m) /\ m = k * r /\
  (2 * Rabs (IZR m - x) <= IZR r + bpow radix2 (-52) * Rabs x)%R.
Proof.
  intros x r ds Hr Hx. exists (r * ZnearestE (rnd (x / IZR r))), (ZnearestE (rnd (x / IZR r))). split.
  - apply to_nearest_flt. assumption.
  - split; [ring|]. set (q := (x / IZR r)%R). set (k := ZnearestE (rnd q)).
    assert (Hp : (0 < IZR r)%R) by (apply (IZR_lt 0); lia).
    assert (Hq : (q * IZR r = x)%R) by (unfold q; field; lra).
    assert (Hk : (Rabs (IZR k - rnd q) <= / 2)%R) by apply nearest_half.
    assert (He : (Rabs (rnd q - q) <= bpow radix2 (-53) * Rabs q)%R).
    { destruct Hx as [->|Hx].
      - unfold q. replace (0 / IZR r)%R with 0%R by (unfold Rdiv; ring). rewrite rnd_0, Rminus_0_r, Rabs_R0. lra.
      - apply rnd_rel_err. unfold q, Rdiv. rewrite Rabs_mult, Rabs_inv, <- abs_IZR, Z.abs_eq by lia.
        assert (H2 : (bpow radix2 (-53) <= / IZR r)%R).
        { rewrite bpow_m53. apply Rinv_le; [assumption|]. apply IZR_le. lia. }
        apply Rle_trans with (bpow radix2 (-900) * bpow radix2 (-53))%R.
        + rewrite <- bpow_plus. apply bpow_le. lia.
        + apply Rmult_le_compat; auto using bpow_ge_0. }
    assert (Hqr : (Rabs q * IZR r = Rabs x)%R).
    { rewrite <- Hq, Rabs_mult. f_equal. symmetry. apply Rabs_pos_eq. lra. }
    rewrite mult_IZR. rewrite <- Hq at 1.
    replace (IZR r * IZR k - q * IZR r)%R with ((IZR k - q) * IZR r)%R by ring.
    rewrite Rabs_mult, (Rabs_pos_eq (IZR r)) by lra.
    replace (IZR k - q)%R with ((IZR k - rnd q) + (rnd q - q))%R by ring.
    pose proof (Rabs_triang (IZR k - rnd q) (rnd q - q)) as Ht.
    rewrite <- Hqr. replace (bpow radix2 (-52)) with (2 * bpow radix2 (-53))%R by (simpl; lra).
    assert (0 < bpow radix2 (-53))%R by apply bpow_gt_0. nra.
Qed.

(** ** C06 *)
Lemma plain_comma : plain_sep comma.
Proof. split; [reflexivity|]. vm_compute. intuition discriminate. Qed.

Lemma pop_round_correct : forall fuel v m, Z.abs v < 2 ^ 52 -> nearest_multiple v 1000 m ->
  (List.length (str_of_Z (Z.abs m)) < fuel)%nat ->
  exists s, pop_round fuel v = Some (Ok s) /\ comma_text m s.
Proof.
  intros fuel v m Hv Hm Hf. unfold pop_round.
  destruct (round_to_nearest_correct v 1000 default_ds Hv ltac:(lia)) as (m' & E & Hm').
  rewrite E. assert (m' = m) by (eapply nearest_multiple_unique; [|eassumption|eassumption]; lia). subst m'.
  destruct (commify_int m comma fuel plain_comma Hf) as (out & Ho & Hg).
  eexists. split; [eassumption|]. exists out. auto.
Qed.

Lemma pop_short_small : forall fuel v um, v < 1000 -> pop_round_short fuel v um = Some (Ok (str_of_Z v)).
Proof. intros fuel v um H. unfold pop_round_short. destruct (v <? 1000) eqn:E; [reflexivity|lia]. Qed.

Lemma pop_short_big : forall fuel v um m, 1000 <= v < 2 ^ 52 -> nearest_multiple v 1000 m ->
  let unit := if um && (1000000 <=? v) then 1000000 else 1000 in
  let suffix := if um && (1000000 <=? v) then str_of "m" else str_of "k" in
  (List.length (str_of_Z (m / unit)) < fuel)%nat ->
  1 <= m / unit /\
  exists s, pop_round_short fuel v um = Some (Ok (s ++ suffix)) /\ comma_text (m / unit) s.
Proof.
  intros fuel v um m Hv Hm unit suffix Hf. unfold pop_round_short.
  destruct (v <? 1000) eqn:E0; [lia|].
  assert (Eu : (1000000 <=? v) && um = um && (1000000 <=? v)) by apply andb_comm.
  rewrite Eu. fold unit. fold suffix.
  destruct (round_to_nearest_correct v 1000 default_ds) as (m' & E & Hm'); try lia.
  rewrite E. assert (m' = m) by (eapply nearest_multiple_unique; [|eassumption|eassumption]; lia). subst m'.
  assert (Hpos : 1 <= m / unit).
  { destruct Hm as (k & -> & Hd & _). apply Z.div_le_lower_bound.
    - unfold unit. destruct (um && (1000000 <=? v)); lia.
    - unfold unit. destruct um; simpl; [destruct (1000000 <=? v) eqn:E1|]; lia. }
  split; [assumption|].
  destruct (m / unit =? 0) eqn:E1; [lia|].
  destruct (commify_int (m / unit) comma fuel plain_comma) as (out & Ho & Hg).
  { rewrite Z.abs_eq by lia. assumption. }
  rewrite Ho. eexists. split; [reflexivity|]. exists out. auto.
Qed.

(** ** C07: significant digits *)
Lemma bpow10_powerRZ : forall e, bpow radix10 e = powerRZ 10 e.
Proof. intro e. rewrite bpow_powerRZ. reflexivity. Qed.

Lemma IZR_pow10 : forall n, 0 <= n -> IZR (10 ^ n) = bpow radix10 n.
Proof. intros n H. rewrite <- IZR_Zpower by assumption. reflexivity. Qed.

Lemma dec_rnd_spec : forall p q, 1 <= p -> (0 < q)%R ->
  let e := mag radix10 q - p in
  exists m, dec_rnd p q = (IZR m * bpow radix10 e)%R /\ 10 ^ (p - 1) <= m <= 10 ^ p /\
            (Rabs (IZR m - q * bpow radix10 (- e)) <= / 2)%R.
Proof.
  intros p q Hp Hq e. exists (ZnearestE (q * bpow radix10 (- e))). split; [reflexivity|].
  assert (Hpos : (0 < bpow radix10 (- e))%R) by apply bpow_gt_0.
  assert (Hmag : (bpow radix10 (mag radix10 q - 1) <= q < bpow radix10 (mag radix10 q))%R).
  { pose proof (bpow_mag_le radix10 q ltac:(lra)) as H1. pose proof (bpow_mag_gt radix10 q) as H2.
    rewrite Rabs_pos_eq in H1, H2 by lra. auto. }
  assert (Hb : (bpow radix10 (p - 1) <= q * bpow radix10 (- e) < bpow radix10 p)%R).
  { split.
    - replace (p - 1) with ((mag radix10 q - 1) + - e) by (unfold e; lia). rewrite bpow_plus.
      apply Rmult_le_compat_r; lra.
    - replace (bpow radix10 p) with (bpow radix10 (mag radix10 q) * bpow radix10 (- e))%R
        by (rewrite <- bpow_plus; f_equal; unfold e; lia).
      apply Rmult_lt_compat_r; lra. }
  rewrite <- (IZR_pow10 (p - 1)), <- (IZR_pow10 p) in Hb by lia.
  split.
  - split; [apply nearest_ge; exact (proj1 Hb) | apply nearest_le, Rlt_le; exact (proj2 Hb)].
  - apply nearest_half.
Qed.

(** Rounding a double quotient to [p <= 15] digits is rounding the exact
    quotient. *)
Lemma sig_digits_quot : forall v u p, 0 <= u <= 9 -> 1 <= p <= 15 -> 0 < v < 2 ^ 52 ->
  sig_digits p (IZR v / IZR (10 ^ u)) (dec_rnd p (rnd (IZR v / IZR (10 ^ u)))).
Proof.
  intros v u p Hu Hp Hv.
  assert (HD1 : 1 <= 10 ^ u <= 10 ^ 9).
  { split; [apply (Z.pow_le_mono_r 10 0 u)|apply Z.pow_le_mono_r]; lia. }
  assert (HD2 : 10 ^ 9 <= 2 ^ 53) by (vm_compute; discriminate).
  set (x := (IZR v / IZR (10 ^ u))%R).
  assert (HDp : (0 < IZR (10 ^ u))%R) by (apply (IZR_lt 0); lia).
  assert (Hvp : (0 < IZR v)%R) by (apply (IZR_lt 0); lia).
  assert (Hxp : (0 < x)%R) by (unfold x; apply Rdiv_lt_0_compat; assumption).
  assert (HxD : (x * IZR (10 ^ u) = IZR v)%R) by (unfold x; field; lra).
  assert (Herr : (Rabs (rnd x - x) <= / IZR (2 ^ 53) * x)%R).
  { rewrite <- bpow_m53. rewrite <- (Rabs_pos_eq x) at 3 by lra. apply rnd_rel_err.
    unfold x. apply quot_big; lia. }
  assert (H53 : (IZR (2 ^ 53) = 2 * IZR (2 ^ 52))%R) by (rewrite <- mult_IZR; reflexivity).
  assert (H52 : (0 < IZR (2 ^ 52))%R) by (apply (IZR_lt 0); reflexivity).
  set (q := rnd x) in *.
  assert (Hi : (0 < / IZR (2 ^ 53) <= / 4)%R).
  { split; [apply Rinv_0_lt_compat; lra|]. apply Rinv_le; [lra|]. apply (IZR_le 4). vm_compute. discriminate. }
  assert (Hqx : (x <= 2 * q)%R).
  { pose proof (Rle_abs (- (q - x))). rewrite Rabs_Ropp in *. nra. }
  assert (Hqp : (0 < q)%R) by lra.
  destruct (dec_rnd_spec p q) as (m & Hd & Hm & Hn); [lia|assumption|].
  set (e := mag radix10 q - p) in *.
  exists m, e. rewrite <- bpow10_powerRZ. split; [assumption|]. split; [lia|].
  rewrite Hd.
  assert (He0 : (0 < bpow radix10 e)%R) by apply bpow_gt_0.
  assert (Hee : (bpow radix10 (- e) * bpow radix10 e = 1)%R).
  { rewrite <- bpow_plus. replace (- e + e) with 0 by lia. reflexivity. }
  assert (Hmq : (Rabs (IZR m * bpow radix10 e - q) <= bpow radix10 e / 2)%R).
  { replace (IZR m * bpow radix10 e - q)%R with ((IZR m - q * bpow radix10 (- e)) * bpow radix10 e)%R.
    - rewrite Rabs_mult, (Rabs_pos_eq (bpow radix10 e)) by lra. nra.
    - rewrite Rmult_minus_distr_r, Rmult_assoc, Hee. ring. }
  destruct (Z_le_dec (- u) e) as [Hc|Hc].
  - (* the unit in the last place is a multiple of 10^-u *)
    set (A := 10 ^ (e + u)).
    assert (HA : (bpow radix10 e * IZR (10 ^ u) = IZR A)%R).
    { unfold A. rewrite !IZR_pow10 by lia. rewrite <- bpow_plus. reflexivity. }
    assert (Hq2 : (Rabs (q - x) * IZR (10 ^ u) < / 2)%R).
    { apply Rle_lt_trans with (/ IZR (2 ^ 53) * (x * IZR (10 ^ u)))%R.
      - rewrite <- Rmult_assoc. apply Rmult_le_compat_r; lra.
      - rewrite HxD. destruct Hv as [_ Hv]. apply IZR_lt in Hv.
        apply (Rmult_lt_reg_l (IZR (2 ^ 53))); [lra|]. rewrite <- Rmult_assoc, Rinv_r by lra. lra. }
    apply (Rmult_le_reg_r (IZR (10 ^ u))); [assumption|].
    replace (Rabs (IZR m * bpow radix10 e - x) * IZR (10 ^ u))%R with (IZR (Z.abs (m * A - v))).
    2:{ rewrite abs_IZR, minus_IZR, mult_IZR, <- HA, <- HxD.
        rewrite <- (Rabs_pos_eq (IZR (10 ^ u))) at 3 by lra. rewrite <- Rabs_mult. f_equal. ring. }
    replace (bpow radix10 e / 2 * IZR (10 ^ u))%R with (IZR A / 2)%R by (rewrite <- HA; field).
    assert (Hz : 2 * Z.abs (m * A - v) < A + 1).
    { apply lt_IZR. rewrite mult_IZR, plus_IZR, abs_IZR, minus_IZR, mult_IZR, <- HA, <- HxD.
      replace (IZR m * (bpow radix10 e * IZR (10 ^ u)) - x * IZR (10 ^ u))%R
        with (((IZR m * bpow radix10 e - q) + (q - x)) * IZR (10 ^ u))%R by ring.
      rewrite Rabs_mult, (Rabs_pos_eq (IZR (10 ^ u))) by lra.
      pose proof (Rabs_triang (IZR m * bpow radix10 e - q) (q - x)). nra. }
    assert (Hz' : 2 * Z.abs (m * A - v) <= A) by lia. apply IZR_le in Hz'. rewrite mult_IZR in Hz'. lra.
  - (* the exact quotient is itself a multiple of 10^e *)
    set (n := v * 10 ^ (- u - e)).
    assert (Hx : (x = IZR n * bpow radix10 e)%R).
    { unfold x, n. rewrite mult_IZR, (IZR_pow10 (- u - e)), (IZR_pow10 u) by lia. rewrite Rmult_assoc, <- bpow_plus.
      replace (- u - e + e) with (- u) by lia. rewrite bpow_opp. reflexivity. }
    assert (Hbig : (q < bpow radix10 (e + p))%R).
    { replace (e + p) with (mag radix10 q : Z) by (unfold e; lia).
      pose proof (bpow_mag_gt radix10 q) as H2. rewrite Rabs_pos_eq in H2 by lra. exact H2. }
    rewrite bpow_plus in Hbig.
    assert (H15 : (bpow radix10 p <= bpow radix10 15)%R) by (apply bpow_le; lia).
    assert (Hq2 : (Rabs (q - x) < bpow radix10 e * / 2)%R).
    { apply Rle_lt_trans with (/ IZR (2 ^ 53) * (2 * (bpow radix10 e * bpow radix10 15)))%R.
      - eapply Rle_trans; [exact Herr|]. apply Rmult_le_compat_l; [lra|].
        apply Rle_trans with (2 * q)%R; [lra|]. nra.
      - rewrite <- (IZR_pow10 15) by lia.
        apply (Rmult_lt_reg_l (IZR (2 ^ 53))); [lra|]. rewrite <- Rmult_assoc, Rinv_r by lra.
        assert (H1 : (4 * IZR (10 ^ 15) < IZR (2 ^ 53))%R).
        { rewrite <- mult_IZR. apply IZR_lt. vm_compute. reflexivity. }
        nra. }
    assert (Hmn : m = n).
    { assert (Hlt : (Rabs (IZR (m - n)) < 1)%R).
      { rewrite minus_IZR. apply (Rmult_lt_reg_r (bpow radix10 e)); [assumption|].
        rewrite <- (Rabs_pos_eq (bpow radix10 e)) at 1 by lra. rewrite <- Rabs_mult.
        replace ((IZR m - IZR n) * bpow radix10 e)%R
          with ((IZR m * bpow radix10 e - q) + (q - x))%R by (rewrite Hx; ring).
        pose proof (Rabs_triang (IZR m * bpow radix10 e - q) (q - x)). lra. }
      rewrite <- abs_IZR in Hlt. apply (lt_IZR _ 1) in Hlt. lia. }
    rewrite Hmn, <- Hx. rewrite Rminus_diag_eq, Rabs_R0 by reflexivity. lra.
Qed.

(** The scaled branches of dollar_round in closed form. *)
Lemma scaled_closed : forall v d p u, Z.abs v <= 2 ^ 53 -> d <> 0 -> 1 <= p ->
  bind (py_float (PInt v)) (fun fv =>
  bind (py_truediv fv (PFlt (IZR d))) (fun q =>
  bind (set_num_precision_float (PFlt q) p) (fun x => Ok (DUnit x u)))) =
  Ok (DUnit (rnd (dec_rnd p (rnd (IZR v / IZR d)))) u).
Proof.
  intros v d p u Hv Hd Hp. rewrite py_float_small by assumption. cbn [bind].
  unfold py_truediv. cbn [py_float bind]. rewrite Req_bool_false by (apply IZR_neq; assumption). cbn [bind].
  unfold set_num_precision_float. destruct (p <? 1) eqn:E; [lia|]. cbn [py_float bind]. reflexivity.
Qed.

Lemma dollar_short : forall v p, 1000 <= v < 2 ^ 52 -> 1 <= p <= 15 ->
  exists d, sig_digits p (IZR v / IZR (if v <? 10 ^ 6 then 10 ^ 3 else if v <? 10 ^ 9 then 10 ^ 6 else 10 ^ 9)) d /\
  dollar_round v p true =
    Ok (DUnit (rnd d) (if v <? 10 ^ 6 then UK else if v <? 10 ^ 9 then UM else UB)).
Proof.
  intros v p Hv Hp. unfold dollar_round.
  change (10 ^ 6) with 1000000. change (10 ^ 9) with 1000000000. change (10 ^ 3) with 1000.
  destruct (v <? 1000) eqn:E0; [lia|].
  assert (E1 : (1000 <=? v) = true) by lia. rewrite E1. cbn [andb].
  destruct (v <? 1000000) eqn:E2.
  - eexists. split; [|apply scaled_closed; lia].
    apply (sig_digits_quot v 3 p); lia.
  - assert (E3 : (1000000 <=? v) = true) by lia. rewrite E3. cbn [andb].
    destruct (v <? 1000000000) eqn:E4.
    + eexists. split; [|apply scaled_closed; lia]. apply (sig_digits_quot v 6 p); lia.
    + eexists. split; [|apply scaled_closed; lia]. apply (sig_digits_quot v 9 p); lia.
Qed.

Lemma dollar_long : forall v p, 1000 <= v < 2 ^ 52 -> 1 <= p <= 15 -> v <> 10 ^ 6 ->
  exists d, sig_digits p (IZR v / IZR (if v <? 10 ^ 6 then 10 ^ 3 else if v <? 10 ^ 9 then 10 ^ 6 else 10 ^ 9)) d /\
  dollar_round v p false =
    Ok (DUnit (rnd d) (if v <? 10 ^ 6 then UThousand else if v <? 10 ^ 9 then UMillion else UBillion)).
Proof.
  intros v p Hv Hp Hn. unfold dollar_round.
  change (10 ^ 6) with 1000000 in *. change (10 ^ 9) with 1000000000. change (10 ^ 3) with 1000.
  destruct (v <? 1000) eqn:E0; [lia|].
  assert (E1 : (1000 <=? v) = true) by lia. rewrite E1. cbn [andb].
  destruct (v <? 1000000) eqn:E2.
  - eexists. split; [|apply scaled_closed; lia].
    apply (sig_digits_quot v 3 p); lia.
  - assert (E3 : (1000000 <? v) = true) by lia. rewrite E3. cbn [andb].
    destruct (v <? 1000000000) eqn:E4.
    + eexists. split; [|apply scaled_closed; lia]. apply (sig_digits_quot v 6 p); lia.
    + eexists. split; [|apply scaled_closed; lia]. apply (sig_digits_quot v 9 p); lia.
Qed.

(** A power of ten has only itself as a nearest decimal. *)
Lemma sig_digits_pow10 : forall p j d, 1 <= p -> sig_digits p (powerRZ 10 j) d -> d = powerRZ 10 j.
Proof.
  intros p j d Hp (m & e & Hd & Hm & Hn). rewrite <- !bpow10_powerRZ in *. rewrite Hd in *.
  assert (He0 : (0 < bpow radix10 e)%R) by apply bpow_gt_0.
  assert (Hm1 : 1 <= Z.abs m).
  { assert (0 < 10 ^ (p - 1)) by (apply Z.pow_pos_nonneg; lia). lia. }
  assert (Hj : bpow radix10 j = (bpow radix10 (j - e) * bpow radix10 e)%R).
  { rewrite <- bpow_plus. f_equal. lia. }
  assert (Hmj : (Rabs (IZR m - bpow radix10 (j - e)) <= / 2)%R).
  { apply (Rmult_le_reg_r (bpow radix10 e)); [assumption|].
    rewrite <- (Rabs_pos_eq (bpow radix10 e)) at 1 by lra. rewrite <- Rabs_mult.
    replace ((IZR m - bpow radix10 (j - e)) * bpow radix10 e)%R with (IZR m * bpow radix10 e - bpow radix10 j)%R
      by (rewrite Hj; ring). lra. }
  destruct (Z_le_dec e j) as [H|H].
  - rewrite Hj. f_equal. rewrite <- (IZR_pow10 (j - e)) in * by lia.
    f_equal. rewrite <- minus_IZR, <- abs_IZR in Hmj.
    assert (Z.abs (m - 10 ^ (j - e)) < 1); [|lia]. apply lt_IZR. lra.
  - exfalso.
    assert (Hs : (0 < bpow radix10 (j - e) <= bpow radix10 (-1))%R).
    { split; [apply bpow_gt_0|apply bpow_le; lia]. }
    assert (Hs1 : bpow radix10 (-1) = (/ 10)%R) by reflexivity. rewrite Hs1 in Hs.
    assert (Hma : (1 <= Rabs (IZR m))%R) by (rewrite <- abs_IZR; apply (IZR_le 1); assumption).
    pose proof (Rabs_triang_inv (IZR m) (bpow radix10 (j - e))) as Ht.
    rewrite (Rabs_pos_eq (bpow radix10 (j - e))) in Ht by lra. lra.
Qed.

Lemma dollar_long_million : forall p, 1 <= p <= 15 ->
  dollar_round (10 ^ 6) p false = Ok (DUnit (rnd (1 / 1000)) UBillion).
Proof.
  intros p Hp. unfold dollar_round. change (10 ^ 6) with 1000000. cbn [Z.ltb Z.leb Z.compare Pos.compare Pos.compare_cont andb].
  rewrite scaled_closed by lia. f_equal. f_equal. f_equal.
  pose proof (sig_digits_quot 1000000 9 p ltac:(lia) Hp ltac:(lia)) as H.
  change (10 ^ 9) with 1000000000 in H.
  assert (Hx : (1000000 / 1000000000 = powerRZ 10 (-3))%R) by (simpl; field).
  rewrite Hx in *. apply sig_digits_pow10 in H; [|lia]. rewrite H. simpl. field.
Qed.

(** Just below a million: 1000 of the smaller unit. *)
Lemma dollar_saturates : forall w p, 0 < w -> 1 <= p -> 2 * w * 10 ^ p < 10 ^ 6 ->
  dollar_round (10 ^ 6 - w) p true = Ok (DUnit 1000 UK).
Proof.
  intros w p Hw Hp Hg.
  assert (Hp5 : p <= 5).
  { destruct (Z_le_dec p 5); [assumption|]. exfalso.
    assert (10 ^ 6 <= 10 ^ p) by (apply Z.pow_le_mono_r; lia). nia. }
  assert (Hp10 : 10 <= 10 ^ p) by (change 10 with (10 ^ 1) at 1; apply Z.pow_le_mono_r; lia).
  change (10 ^ 6) with 1000000 in *.
  assert (Hw5 : w < 50000) by nia.
  unfold dollar_round.
  destruct (1000000 - w <? 1000) eqn:E0; [lia|].
  assert (E1 : (1000 <=? 1000000 - w) = true) by lia. rewrite E1.
  assert (E2 : (1000000 - w <? 1000000) = true) by lia. rewrite E2. cbn [andb].
  rewrite scaled_closed by lia. f_equal. f_equal.
  set (v := 1000000 - w). set (x := (IZR v / 1000)%R).
  assert (Hv : (IZR v = 1000000 - IZR w)%R) by (unfold v; rewrite minus_IZR; reflexivity).
  assert (Hwr : (1 <= IZR w < 50000)%R) by (split; [apply (IZR_le 1)|apply IZR_lt]; lia).
  assert (Herr : (Rabs (rnd x - x) * 1000 <= IZR (Z.abs v) * / IZR (2 ^ 53))%R).
  { apply (quot_err v 1000). lia. }
  assert (Herr2 : (Rabs (rnd x - x) <= / 8000000000)%R).
  { assert (H1 : (IZR (Z.abs v) <= 1000000)%R) by (apply IZR_le; lia).
    assert (H2 : (/ IZR (2 ^ 53) <= / 8000000000000)%R).
    { apply Rinv_le; [lra|]. apply IZR_le. vm_compute. discriminate. }
    assert (0 < / IZR (2 ^ 53))%R by (apply Rinv_0_lt_compat, (IZR_lt 0); reflexivity).
    assert (0 <= IZR (Z.abs v))%R by (apply (IZR_le 0); lia).
    assert (IZR (Z.abs v) * / IZR (2 ^ 53) <= 1000000 * / 8000000000000)%R by (apply Rmult_le_compat; lra).
    lra. }
  set (q := rnd x) in *.
  assert (Hx : (949 <= x <= 1000 - / 1000)%R) by (unfold x; lra).
  assert (Hq : (100 <= q < 1000)%R).
  { pose proof (Rle_abs (q - x)). pose proof (Rle_abs (- (q - x))). rewrite Rabs_Ropp in *. lra. }
  assert (Hmag : mag radix10 q = 3 :> Z).
  { apply mag_unique. rewrite Rabs_pos_eq by lra. simpl. lra. }
  destruct (dec_rnd_spec p q Hp) as (m & Hd & Hm & Hn); [lra|]. rewrite Hmag in *.
  assert (Em : m = 10 ^ p).
  { assert (Hk : (0 < bpow radix10 (- (3 - p)) <= 100)%R).
    { split; [apply bpow_gt_0|]. change 100%R with (bpow radix10 2). apply bpow_le. lia. }
    assert (Hk3 : (1000 * bpow radix10 (- (3 - p)) = IZR (10 ^ p))%R).
    { rewrite IZR_pow10 by lia. change 1000%R with (bpow radix10 3). rewrite <- bpow_plus. f_equal. lia. }
    assert (Hgap : (IZR w * IZR (10 ^ p) <= (1000000 - 1) / 2)%R).
    { assert (H : 2 * w * 10 ^ p <= 999999) by lia. apply IZR_le in H. rewrite !mult_IZR in H. lra. }
    assert (H : (Rabs (IZR (10 ^ p - m)) < 1)%R).
    { rewrite minus_IZR. rewrite <- Hk3 in *.
      set (k := bpow radix10 (- (3 - p))) in *.
      replace (1000 * k - IZR m)%R with ((1000 - x) * k + (x - q) * k + - (IZR m - q * k))%R by ring.
      assert (Hxk : ((1000 - x) * k <= 1 / 2 - / 2000000)%R) by (unfold x; rewrite Hv; nra).
      assert (Hxk0 : (0 <= (1000 - x) * k)%R) by (apply Rmult_le_pos; lra).
      assert (Hqk : (Rabs ((x - q) * k) <= / 8000000000 * 100)%R).
      { rewrite Rabs_mult, Rabs_minus_sym. apply Rmult_le_compat; try apply Rabs_pos; try assumption.
        rewrite Rabs_pos_eq; lra. }
      pose proof (Rabs_triang ((1000 - x) * k + (x - q) * k) (- (IZR m - q * k))) as T1.
      pose proof (Rabs_triang ((1000 - x) * k) ((x - q) * k)) as T2.
      rewrite Rabs_Ropp in T1. rewrite (Rabs_pos_eq ((1000 - x) * k)) in T2 by assumption. lra. }
    rewrite <- abs_IZR in H. apply (lt_IZR _ 1) in H. lia. }
  rewrite Hd, Em. rewrite IZR_pow10 by lia. rewrite <- bpow_plus. replace (p + (3 - p)) with 3 by lia.
  change (bpow radix10 3) with (IZR 1000). apply rnd_int. lia.
Qed.

(** Below a thousand: an integer rounded to the requested digits. *)
Lemma dollar_small : forall v p, 0 < v < 1000 -> 1 <= p <= 15 ->
  forall short, exists n, dollar_round v p short = Ok (DPlain n) /\ sig_digits p (IZR v) (IZR n).
Proof.
  intros v p Hv Hp short. unfold dollar_round. destruct (v <? 1000) eqn:E; [|lia].
  unfold set_num_precision_int, set_num_precision_float. destruct (p <? 1) eqn:E1; [lia|].
  rewrite py_float_small by lia. cbn [bind]. eexists. split; [reflexivity|].
  pose proof (sig_digits_quot v 0 p ltac:(lia) Hp ltac:(lia)) as H.
  replace (IZR v / IZR (10 ^ 0))%R with (IZR v) in H by (change (10 ^ 0) with 1; field).
  rewrite rnd_int in H by lia.
  assert (Hint : exists n, dec_rnd p (IZR v) = IZR n /\ Z.abs n <= 2000).
  { destruct H as (m & e & Hd & Hm & Hn). rewrite <- bpow10_powerRZ in *.
    assert (He0 : (0 < bpow radix10 e)%R) by apply bpow_gt_0.
    assert (Hm1 : 1 <= Z.abs m).
    { assert (0 < 10 ^ (p - 1)) by (apply Z.pow_pos_nonneg; lia). lia. }
    assert (Hvr : (0 < IZR v < 1000)%R) by (split; [apply (IZR_lt 0)|apply IZR_lt]; lia).
    destruct (Z_le_dec 0 e) as [H0|H0].
    - exists (m * 10 ^ e). rewrite mult_IZR, IZR_pow10 by assumption. split; [assumption|].
      assert (Hmr : (1 <= Rabs (IZR m))%R) by (rewrite <- abs_IZR; apply (IZR_le 1); assumption).
      apply le_IZR. rewrite abs_IZR, mult_IZR, IZR_pow10, <- Hd by assumption.
      assert (Hdd : (bpow radix10 e <= Rabs (dec_rnd p (IZR v)))%R).
      { rewrite Hd, Rabs_mult, (Rabs_pos_eq (bpow radix10 e)) by lra. nra. }
      pose proof (Rabs_triang_inv (dec_rnd p (IZR v)) (IZR v)) as Ht.
      rewrite (Rabs_pos_eq (IZR v)) in Ht by lra. lra.
    - exists v. split; [|lia]. rewrite Hd.
      assert (Hve : (IZR v = IZR (v * 10 ^ (- e)) * bpow radix10 e)%R).
      { rewrite mult_IZR, IZR_pow10 by lia. rewrite Rmult_assoc, <- bpow_plus.
        replace (- e + e) with 0 by lia. simpl. ring. }
      rewrite Hve. f_equal. f_equal. rewrite Hd, Hve in Hn.
      rewrite <- Rmult_minus_distr_r, Rabs_mult, (Rabs_pos_eq (bpow radix10 e)) in Hn by lra.
      rewrite <- minus_IZR, <- abs_IZR in Hn.
      assert (Z.abs (m - v * 10 ^ (- e)) < 1); [|lia]. apply lt_IZR. nra. }
  destruct Hint as (n & En & Hn). rewrite En in *. rewrite rnd_int by lia. rewrite Ztrunc_IZR. assumption.
Qed.

(** ** Fractional steps: the product can be truncated one unit too low *)
Lemma step_029 : rnd (29 / 100) = (IZR 5224175567749775 * bpow radix2 (-54))%R.
Proof.
  unfold rnd, round, scaled_mantissa, cexp.
  assert (Hm : mag radix2 (29 / 100) = (-1) :> Z).
  { apply mag_unique. rewrite Rabs_pos_eq by lra. simpl. lra. }
  rewrite Hm. change (fexp64 (-1)) with (-54). unfold F2R. cbn [Fnum Fexp]. f_equal. f_equal.
  apply Znearest_imp. simpl. apply Rabs_def1; lra.
Qed.

Lemma prod_029 : (28 <= rnd (rnd (29 / 100) * 100) < 29)%R.
Proof.
  rewrite step_029. set (y := (IZR 5224175567749775 * bpow radix2 (-54) * 100)%R).
  assert (Hy : (28 <= y < 29 - bpow radix2 (-49))%R) by (unfold y; simpl; lra).
  assert (Herr : (Rabs (rnd y - y) <= bpow radix2 (-49))%R).
  { unfold rnd. eapply Rle_trans; [apply error_le_half_ulp; auto with typeclass_instances|].
    rewrite ulp_neq_0 by lra. unfold cexp.
    assert (Hm : mag radix2 y = 5 :> Z). { apply mag_unique. rewrite Rabs_pos_eq by lra. simpl in *. lra. }
    rewrite Hm. change (fexp64 5) with (-48). simpl. lra. }
  split.
  - rewrite <- (rnd_int 28) by lia. apply rnd_le. lra.
  - pose proof (Rle_abs (rnd y - y)). lra.
Qed.

Lemma round_029 :
  let a := rnd (29 / 100) in
  round_to_nearest (PFlt a) (PFlt a) (str_of "0.29") = Ok (PFlt (rnd (28 / 100))).
Proof.
  intro a. unfold round_to_nearest, to_nearest. cbn [num_val].
  assert (Ha : (0 < a < 1)%R) by (unfold a; rewrite step_029; simpl; lra).
  rewrite Rlt_bool_true by lra.
  change (Z.of_nat (List.length (str_of "0.29")) - (find_dot (str_of "0.29") + 1)) with 2.
  change (10 ^ 2) with 100. unfold py_mul_int at 1 2.
  rewrite py_float_small by lia. cbn [bind].
  pose proof prod_029 as Hp. fold a in Hp. set (y := rnd (a * 100)) in *.
  change (py_float (PFlt y)) with (@Ok R y). cbn [bind]. unfold py_truediv at 1.
  change (py_float (PFlt y)) with (@Ok R y). cbn [bind].
  rewrite Req_bool_false by lra. cbn [bind].
  replace (y / y)%R with (IZR 1) by (field; lra). rewrite rnd_int by lia. rewrite nearest_int.
  unfold py_mul_int. rewrite py_float_small by lia. cbn [bind].
  rewrite Rmult_1_r. rewrite (rnd_id y) by apply rnd_double.
  cbn [py_int]. rewrite (Ztrunc_floor y) by lra. rewrite (Zfloor_imp 28 y) by (change (28 + 1) with 29; lra).
  rewrite py_float_small by lia. cbn [bind]. unfold py_truediv. rewrite py_float_small by lia. cbn [bind].
  rewrite Req_bool_false by lra. reflexivity.
Qed.

Lemma lower_028 : (rnd (28 / 100) < rnd (29 / 100))%R.
Proof.
  rewrite step_029. 
  assert (H : (rnd (28 / 100) <= 2802 / 10000)%R).
  { assert (Herr := rnd_rel_err (28 / 100)). rewrite Rabs_pos_eq in Herr by lra.
    assert (Hb : (bpow radix2 (-1022) <= 28 / 100)%R).
    { apply Rle_trans with (bpow radix2 (-2)); [apply bpow_le; lia|simpl; lra]. }
    specialize (Herr Hb). pose proof (Rle_abs (rnd (28 / 100) - 28 / 100)). simpl in Herr. lra. }
  simpl. lra.
Qed.

(** Steps whose decimal scaling is exact behave: if [step*10^nd] rounds to the
    integer [s], the result is a multiple of [s] divided by [10^nd]. *)
Lemma round_fraction_exact : forall f x st ds nd s,
  nd = Z.of_nat (List.length ds) - (find_dot ds + 1) -> 0 <= nd <= 15 ->
  (st < 1)%R -> rnd (st * IZR (10 ^ nd)) = IZR s -> 1 <= s <= 10 ^ 15 ->
  let y := rnd (x * IZR (10 ^ nd)) in
  let k := f (rnd (y / IZR s)) in
  Z.abs (k * s) <= 2 ^ 53 -> Z.abs k <= 2 ^ 53 ->
  to_nearest f (PFlt x) (PFlt st) ds = Ok (PFlt (rnd (IZR (k * s) / IZR (10 ^ nd)))).
Proof.
  intros f x st ds nd s Hnd Hn Hst Hs Hs1 y k Hks Hk. unfold to_nearest. cbn [num_val].
  rewrite Rlt_bool_true by assumption. cbv zeta. rewrite <- Hnd.
  assert (H10 : 0 < 10 ^ nd <= 10 ^ 15).
  { split; [apply Z.pow_pos_nonneg; lia|apply Z.pow_le_mono_r; lia]. }
  assert (H15 : 10 ^ 15 <= 2 ^ 53) by (vm_compute; discriminate).
  unfold py_mul_int at 1 2. rewrite py_float_small by lia. cbn [bind]. fold y. rewrite Hs.
  change (py_float (PFlt y)) with (@Ok R y). cbn [bind]. unfold py_truediv at 1.
  change (py_float (PFlt (IZR s))) with (@Ok R (IZR s)). cbn [bind].
  rewrite Req_bool_false by (apply IZR_neq; lia). cbn [bind]. fold k.
  unfold py_mul_int. rewrite (py_float_small k) by assumption. cbn [bind].
  rewrite <- mult_IZR, (Z.mul_comm s k). rewrite rnd_int by assumption. cbn [py_int]. rewrite Ztrunc_IZR.
  rewrite py_float_small by assumption. cbn [bind].
  unfold py_truediv. rewrite py_float_small by lia. cbn [bind].
  rewrite Req_bool_false by (apply IZR_neq; lia). reflexivity.
Qed.
