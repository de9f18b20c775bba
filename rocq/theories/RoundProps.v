(** Property theorems C04-C07 and C59: rounding to multiples and digits. *)
From Coq Require Import ZArith Reals String Ascii Bool List Lia Lra.
From Flocq Require Import Core.
From Verif Require Import PyBase FloatBase TextModel TextSpec TextProofs RoundModel RoundSpec RoundProofs.
Import ListNotations.
Open Scope Z_scope.

(** C04.  Integer value below 2^52, integer step up to 2^53: the binary64
    computation returns the nearest multiple, ties to the even multiple. *)
Theorem C04_round_to_nearest : forall v r ds, Z.abs v < 2 ^ 52 -> 1 <= r <= 2 ^ 53 ->
  exists m, round_to_nearest (PInt v) (PInt r) ds = Ok (PInt m) /\ nearest_multiple v r m.
Proof. exact round_to_nearest_correct. Qed.
Print Assumptions C04_round_to_nearest.

(** C04.  The specification leaves no freedom. *)
Theorem C04_nearest_unique : forall v r m m', 1 <= r ->
  nearest_multiple v r m -> nearest_multiple v r m' -> m = m'.
Proof. exact nearest_multiple_unique. Qed.
Print Assumptions C04_nearest_unique.

Example C04_ex1 : nearest_multiple 2500 1000 2000 /\ nearest_multiple 3500 1000 4000 /\ ~ nearest_multiple 2500 1000 3000.
Proof.
  split; [exists 2; simpl; intuition lia|]. split; [exists 4; simpl; intuition lia|].
  intros (k & E & _ & H). assert (k = 3) by lia. subst. specialize (H eq_refl). discriminate.
Qed.
Example C04_ex2 : exists m, round_to_nearest (PInt 4503599627370495) (PInt 3) default_ds = Ok (PInt m)
  /\ nearest_multiple 4503599627370495 3 m.
Proof. apply C04_round_to_nearest; lia. Qed.

(** C04.  For a double value the distance exceeds half a step by at most one
    rounding of the value. *)
Theorem C04_round_double : forall x r ds, 1 <= r <= 2 ^ 53 -> x = 0%R \/ (bpow radix2 (-900) <= Rabs x)%R ->
  exists m k, round_to_nearest (PFlt x) (PInt r) ds = Ok (PInt m) /\ m = k * r /\
  (2 * Rabs (IZR m - x) <= IZR r + bpow radix2 (-52) * Rabs x)%R.
Proof. exact round_float_bound. Qed.
Print Assumptions C04_round_double.

Example C04_ex3 : (bpow radix2 (-900) <= Rabs (3 / 2))%R.
Proof. rewrite Rabs_pos_eq by lra. apply Rle_trans with (bpow radix2 0); [apply bpow_le; lia|simpl; lra]. Qed.

(** C05.  Floor and ceiling to a multiple. *)
Theorem C05_floor_to_nearest : forall v r ds, Z.abs v < 2 ^ 53 -> 1 <= r <= 2 ^ 53 ->
  exists m, floor_to_nearest (PInt v) (PInt r) ds = Ok (PInt m) /\ floor_multiple v r m.
Proof. exact floor_to_nearest_correct. Qed.
Print Assumptions C05_floor_to_nearest.

Theorem C05_ceil_to_nearest : forall v r ds, Z.abs v < 2 ^ 53 -> 1 <= r <= 2 ^ 53 ->
  exists m, ceil_to_nearest (PInt v) (PInt r) ds = Ok (PInt m) /\ ceil_multiple v r m.
Proof. exact ceil_to_nearest_correct. Qed.
Print Assumptions C05_ceil_to_nearest.

Example C05_ex : floor_multiple (-7) 3 (-9) /\ ceil_multiple (-7) 3 (-6) /\ Z.abs (2 ^ 53 - 1) < 2 ^ 53.
Proof. repeat split; try lia; [exists (-3)|exists (-2)]; reflexivity. Qed.

(** C06.  pop_round shows the comma-grouped nearest thousand. *)
Theorem C06_pop_round : forall fuel v m, Z.abs v < 2 ^ 52 -> nearest_multiple v 1000 m ->
  (List.length (str_of_Z (Z.abs m)) < fuel)%nat ->
  exists s, pop_round fuel v = Some (Ok s) /\ comma_text m s.
Proof. exact pop_round_correct. Qed.
Print Assumptions C06_pop_round.

Example C06_ex1 : nearest_multiple 1234567 1000 1235000 /\
  comma_text 1235000 (str_of "1,235,000") /\ (List.length (str_of_Z (Z.abs 1235000)) < 20)%nat.
Proof.
  split; [exists 1235; simpl; intuition lia|]. split.
  - exists (str_of "1,235,000"). split; [reflexivity|].
    exists (str_of "1"), [str_of "235"; str_of "000"]. repeat split; try (simpl; lia). repeat constructor.
  - vm_compute. lia.
Qed.

(** C06.  pop_round_short: plain below a thousand, otherwise whole thousands
    (or whole millions) of the rounded value, at least one. *)
Theorem C06_pop_round_short_small : forall fuel v um, v < 1000 ->
  pop_round_short fuel v um = Some (Ok (str_of_Z v)).
Proof. exact pop_short_small. Qed.
Print Assumptions C06_pop_round_short_small.

Theorem C06_pop_round_short_big : forall fuel v um m, 1000 <= v < 2 ^ 52 -> nearest_multiple v 1000 m ->
  let unit := if um && (1000000 <=? v) then 1000000 else 1000 in
  let suffix := if um && (1000000 <=? v) then str_of "m" else str_of "k" in
  (List.length (str_of_Z (m / unit)) < fuel)%nat ->
  1 <= m / unit /\
  exists s, pop_round_short fuel v um = Some (Ok (s ++ suffix)) /\ comma_text (m / unit) s.
Proof. exact pop_short_big. Qed.
Print Assumptions C06_pop_round_short_big.

Example C06_ex2 : nearest_multiple 1999400 1000 1999000 /\ 1999000 / 1000000 = 1.
Proof. split; [exists 1999; simpl; intuition lia|reflexivity]. Qed.

(** C07.  Short mode: unit by magnitude, mantissa correctly rounded (to the
    nearest decimal; the tie rule depends on the binary quotient). *)
Theorem C07_dollar_short : forall v p, 1000 <= v < 2 ^ 52 -> 1 <= p <= 15 ->
  exists d, sig_digits p (IZR v / IZR (if v <? 10 ^ 6 then 10 ^ 3 else if v <? 10 ^ 9 then 10 ^ 6 else 10 ^ 9)) d /\
  dollar_round v p true =
    Ok (DUnit (rnd d) (if v <? 10 ^ 6 then UK else if v <? 10 ^ 9 then UM else UB)).
Proof. exact dollar_short. Qed.
Print Assumptions C07_dollar_short.

(** C07.  Long mode: the same, except at exactly one million, *)
Theorem C07_dollar_long : forall v p, 1000 <= v < 2 ^ 52 -> 1 <= p <= 15 -> v <> 10 ^ 6 ->
  exists d, sig_digits p (IZR v / IZR (if v <? 10 ^ 6 then 10 ^ 3 else if v <? 10 ^ 9 then 10 ^ 6 else 10 ^ 9)) d /\
  dollar_round v p false =
    Ok (DUnit (rnd d) (if v <? 10 ^ 6 then UThousand else if v <? 10 ^ 9 then UMillion else UBillion)).
Proof. exact dollar_long. Qed.
Print Assumptions C07_dollar_long.

(** ... which is shown as 0.001 billion. *)
Theorem C07_dollar_long_million : forall p, 1 <= p <= 15 ->
  dollar_round (10 ^ 6) p false = Ok (DUnit (rnd (1 / 1000)) UBillion).
Proof. exact dollar_long_million. Qed.
Print Assumptions C07_dollar_long_million.

(** C07.  Within half a unit in the last place of a million: 1000 K. *)
Theorem C07_dollar_saturates : forall w p, 0 < w -> 1 <= p -> 2 * w * 10 ^ p < 10 ^ 6 ->
  dollar_round (10 ^ 6 - w) p true = Ok (DUnit 1000 UK).
Proof. exact dollar_saturates. Qed.
Print Assumptions C07_dollar_saturates.

(** C07.  Below a thousand: an integer correctly rounded to the digits. *)
Theorem C07_dollar_small : forall v p, 0 < v < 1000 -> 1 <= p <= 15 ->
  forall short, exists n, dollar_round v p short = Ok (DPlain n) /\ sig_digits p (IZR v) (IZR n).
Proof. exact dollar_small. Qed.
Print Assumptions C07_dollar_small.

Example C07_ex1 : dollar_round 999999 2 true = Ok (DUnit 1000 UK).
Proof. apply (C07_dollar_saturates 1 2); lia. Qed.
Example C07_ex2 : sig_digits 2 (IZR 1234 / IZR (10 ^ 3)) (12 / 10).
Proof.
  exists 12, (-1). simpl. split; [lra|]. split; [lia|]. rewrite Rabs_left; lra.
Qed.

(** C59.  A step below one whose decimal scaling is exact (0.1, 0.5, 0.25 ...)
    gives a multiple of the step, correctly rounded; *)
Theorem C59_fraction_exact : forall f x st ds nd s,
  nd = Z.of_nat (List.length ds) - (find_dot ds + 1) -> 0 <= nd <= 15 ->
  (st < 1)%R -> rnd (st * IZR (10 ^ nd)) = IZR s -> 1 <= s <= 10 ^ 15 ->
  let y := rnd (x * IZR (10 ^ nd)) in
  let k := f (rnd (y / IZR s)) in
  Z.abs (k * s) <= 2 ^ 53 -> Z.abs k <= 2 ^ 53 ->
  to_nearest f (PFlt x) (PFlt st) ds = Ok (PFlt (rnd (IZR (k * s) / IZR (10 ^ nd)))).
Proof. exact round_fraction_exact. Qed.
Print Assumptions C59_fraction_exact.

Example C59_ex : let ds := str_of "0.25" in
  2 = Z.of_nat (List.length ds) - (find_dot ds + 1) /\ rnd (/ 4 * IZR (10 ^ 2)) = IZR 25.
Proof.
  split; [reflexivity|]. replace (/ 4 * IZR (10 ^ 2))%R with (IZR 25) by (simpl; lra). apply rnd_int. lia.
Qed.

(** ... but the step 0.29 does not even round to itself: the result is 0.28. *)
Theorem C59_fraction_refuted :
  let a := rnd (29 / 100) in
  round_to_nearest (PFlt a) (PFlt a) (str_of "0.29") = Ok (PFlt (rnd (28 / 100))) /\
  (rnd (28 / 100) < a)%R.
Proof. exact (conj round_029 lower_028). Qed.
Print Assumptions C59_fraction_refuted.
