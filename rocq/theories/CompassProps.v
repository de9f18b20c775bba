(** Compass directions. *)
From Coq Require Import ZArith Reals String Ascii Bool List Lia Lra Psatz Sorted.
From Flocq Require Import Core.
From Verif Require Import PyBase PyStr FloatBase CityModel NpModel NpProofs CompassModel CompassSpec CompassProofs.
Import ListNotations.
Open Scope R_scope.

Lemma bearing_S : forall m k, bearing (m * S k) = bearing (m * k) + 22.5 * INR m.
Proof. intros m k. unfold bearing. rewrite Nat.mul_succ_r, plus_INR. ring. Qed.
Lemma bearing_le : forall i j, (i <= j)%nat -> bearing i <= bearing j.
Proof. intros i j H. unfold bearing. apply Rmult_le_compat_r; [lra|]. apply le_INR. assumption. Qed.
Lemma bearing_16 : bearing 16 = 360.
Proof. unfold bearing. cbn [INR]. lra. Qed.
(** ** C37: the sector of each direction, in double arithmetic
    From halfway behind it, exclusive, to halfway ahead, inclusive; north also
    has the last half sector. *)
Theorem C37_sector : forall res m fmt az k, every res m -> fmt = str_of "short" \/ fmt = str_of "long" -> is_double az -> 0 <= az <= 360 ->
  (k <= 16 / m)%nat -> (k = 0%nat \/ bearing (m * k) - 11.25 * INR m < az) -> az <= bearing (m * k) + 11.25 * INR m ->
  exists name, compass_dir_azimuth rnd (Some az) res fmt = Ok name /\ name_of ((m * k) mod 16) fmt name.
Proof.
  intros res m fmt az k He Hf Hd Hz Hk Lo Hi. destruct (zpts_ok _ _ He) as (_ & _ & Hm & Pm).
  assert (Bz : 360 <= IZR (2 ^ 40)) by (apply IZR_le; lia).
  destruct (core res m fmt az He Hf Hd ltac:(lra)) as (k' & name & E & Hk' & Hn & Hmin).
  exists name. split; [assumption|]. assert (k' = k); [|subst; assumption].
  assert (Pi : 1 <= INR m) by (change 1 with (INR 1); apply le_INR; lia).
  destruct (Nat.lt_trichotomy k' k) as [L|[L|L]]; [exfalso|assumption|exfalso].
  - destruct (Hmin k Hk) as [A _]. destruct Lo as [->|Lo]; [lia|].
    assert (B : bearing (m * k') + 22.5 * INR m <= bearing (m * k)) by (rewrite <- bearing_S; apply bearing_le; nia).
    revert A. unfold Rabs. repeat destruct Rcase_abs; lra.
  - destruct (Hmin k Hk) as [_ A]. specialize (A L).
    assert (B : bearing (m * k) + 22.5 * INR m <= bearing (m * k')) by (rewrite <- bearing_S; apply bearing_le; nia).
    revert A. unfold Rabs. repeat destruct Rcase_abs; lra.
Qed.
Print Assumptions C37_sector.
(** The name is that of the nearest of the points, at most half a sector away. *)
Theorem C37_nearest : forall res m fmt az, every res m -> fmt = str_of "short" \/ fmt = str_of "long" -> is_double az -> 0 <= az <= 360 ->
  exists i name, compass_dir_azimuth rnd (Some az) res fmt = Ok name /\ name_of i fmt name /\ (i < 16)%nat /\ (i mod m = 0)%nat /\
    angle az (bearing i) <= 11.25 * INR m /\ forall j, (j < 16)%nat -> (j mod m = 0)%nat -> angle az (bearing i) <= angle az (bearing j).
Proof.
  intros res m fmt az He Hf Hd Hz. destruct (zpts_ok _ _ He) as (_ & _ & Hm & Pm).
  assert (Bz : 360 <= IZR (2 ^ 40)) by (apply IZR_le; lia).
  destruct (core res m fmt az He Hf Hd ltac:(lra)) as (k & name & E & Hk & Hn & Hmin). exists ((m * k) mod 16)%nat, name.
  assert (Pi : 1 <= INR m) by (change 1 with (INR 1); apply le_INR; lia).
  assert (Bk : 0 <= bearing (m * k) <= 360) by (split; [unfold bearing; pose proof (pos_INR (m * k)); lra|rewrite <- bearing_16; apply bearing_le; nia]).
  (* the angle to point number m*k mod 16 is at most the distance found *)
  assert (An : angle az (bearing ((m * k) mod 16)) <= Rabs (az - bearing (m * k))).
  { destruct (Nat.eq_dec (m * k) 16) as [E16|N16].
    - rewrite E16. cbn [Nat.modulo Nat.divmod fst snd Nat.sub]. unfold angle. rewrite bearing_16. change (bearing 0) with (0 * 22.5). eapply Rle_trans; [apply Rmin_r|].
      rewrite Rmult_0_l, Rminus_0_r, (Rabs_pos_eq az) by lra. rewrite Rabs_minus_sym, Rabs_pos_eq by lra. lra.
    - rewrite Nat.mod_small by nia. apply Rmin_l. }
  (* and no point is nearer *)
  assert (Near : forall j, (j < 16)%nat -> (j mod m = 0)%nat -> Rabs (az - bearing (m * k)) <= angle az (bearing j)).
  { intros j Hj Dj. assert (Ej : j = (m * (j / m))%nat) by (rewrite (Nat.div_mod_eq j m) at 1; lia). unfold angle. apply Rmin_glb.
    - rewrite Ej. apply Hmin. apply Nat.div_le_mono; lia.
    - assert (Bj : 0 <= bearing j <= 360) by (split; [unfold bearing; pose proof (pos_INR j); lra|rewrite <- bearing_16; apply bearing_le; lia]).
      destruct (Hmin 0%nat ltac:(lia)) as [A0 _]. destruct (Hmin (16 / m)%nat ltac:(lia)) as [A1 _]. rewrite Hm, bearing_16 in A1. rewrite Nat.mul_0_r in A0. change (bearing 0) with (0 * 22.5) in A0. rewrite Rmult_0_l, Rminus_0_r in A0.
      rewrite (Rabs_pos_eq az) in A0 by lra. rewrite (Rabs_left1 (az - 360)) in A1 by lra. clear - A0 A1 Bj. revert A0 A1. generalize (Rabs (az - bearing (m * k))). intros v A0 A1. unfold Rabs. destruct Rcase_abs; lra. }
  split; [assumption|]. split; [assumption|]. split; [apply Nat.mod_upper_bound; lia|]. split; [|split].
  - rewrite <- Hm, Nat.mul_mod_distr_l by lia. rewrite Nat.mul_comm. apply Nat.mod_mul. lia.
  - eapply Rle_trans; [exact An|].
    destruct (Rle_dec (Rabs (az - bearing (m * k))) (11.25 * INR m)) as [|C]; [assumption|exfalso]. apply Rnot_le_lt in C.
    destruct (Rle_dec az (bearing (m * k))) as [L|L].
    + destruct k as [|k]; [rewrite Nat.mul_0_r in *; change (bearing 0) with (0 * 22.5) in *; revert C; unfold Rabs; destruct Rcase_abs; lra|].
      destruct (Hmin k ltac:(lia)) as [A _]. pose proof (bearing_S m k). revert A C. unfold Rabs. repeat destruct Rcase_abs; lra.
    + destruct (Nat.eq_dec k (16 / m)) as [->|Nk]; [rewrite Hm, bearing_16 in *; revert C; unfold Rabs; destruct Rcase_abs; lra|].
      destruct (Hmin (S k) ltac:(lia)) as [A _]. pose proof (bearing_S m k). revert A C. unfold Rabs. repeat destruct Rcase_abs; lra.
  - intros j Hj Dj. eapply Rle_trans; [exact An|]. auto.
Qed.
Print Assumptions C37_nearest.
(** Azimuths beyond 360 are not wrapped: they are all north. *)
Theorem C37_beyond : forall res m fmt az, every res m -> fmt = str_of "short" \/ fmt = str_of "long" -> is_double az -> 360 <= az <= IZR (2 ^ 40) ->
  exists name, compass_dir_azimuth rnd (Some az) res fmt = Ok name /\ name_of 0 fmt name.
Proof.
  intros res m fmt az He Hf Hd Hz. destruct (zpts_ok _ _ He) as (_ & _ & Hm & Pm). destruct (core res m fmt az He Hf Hd ltac:(lra)) as (k & name & E & Hk & Hn & Hmin). exists name. split; [assumption|].
  assert (Pi : 1 <= INR m) by (change 1 with (INR 1); apply le_INR; lia).
  assert (k = (16 / m)%nat).
  { destruct (Nat.eq_dec k (16 / m)) as [|N]; [assumption|exfalso]. destruct (Hmin (S k) ltac:(lia)) as [A _]. pose proof (bearing_S m k) as Sb.
    assert (B : bearing (m * S k) <= 360) by (rewrite <- bearing_16; apply bearing_le; nia). revert A. unfold Rabs. repeat destruct Rcase_abs; lra. }
  subst k. rewrite Hm in Hn. exact Hn.
Qed.
Print Assumptions C37_beyond.
Ltac nm N := inversion N; subst; cbn in *; try discriminate; match goal with X : Some _ = Some _ |- _ => injection X as <- <- end; reflexivity.
Theorem C37_wrap_refuted : exists az, 0 <= az - 360 <= 360 /\ is_double az /\
  compass_dir_azimuth rnd (Some az) (str_of "cardinal") (str_of "short") = Ok (str_of "N") /\
  compass_dir_azimuth rnd (Some (az - 360)) (str_of "cardinal") (str_of "short") = Ok (str_of "E").
Proof.
  exists 450. assert (Bz : 450 <= IZR (2 ^ 40)) by (apply IZR_le; lia).
  assert (D : is_double 450) by (apply (double_int 450); lia). assert (D' : is_double (450 - 360)) by (replace (450 - 360) with 90 by lra; apply (double_int 90); lia).
  split; [lra|]. split; [assumption|]. split.
  - destruct (C37_beyond _ _ (str_of "short") 450 every4 (or_introl eq_refl) D ltac:(lra)) as (n & E & N). rewrite E. nm N.
  - destruct (C37_sector _ _ (str_of "short") (450 - 360) 1 every4 (or_introl eq_refl) D' ltac:(lra)) as (n & E & N); [cbn; lia|right; unfold bearing; cbn; lra|unfold bearing; cbn; lra|].
    rewrite E. nm N.
Qed.
Print Assumptions C37_wrap_refuted.
(** Negative azimuths are turned by 360 first. *)
Theorem C37_negative : forall res fmt az, -360 <= az < 0 -> compass_dir_azimuth rnd (Some az) res fmt = compass_dir_azimuth rnd (Some (rnd (az + 360))) res fmt /\ 0 <= rnd (az + 360) <= 360.
Proof.
  intros res fmt az H. assert (B : 0 <= rnd (az + 360) <= 360).
  { split; [rewrite <- rnd_0 at 1; apply rnd_le; lra|]. rewrite <- (rnd_int 360) at 2 by lia. apply rnd_le. lra. }
  split; [|assumption]. unfold compass_dir_azimuth, positive, flt, fop. destruct (Rlt_dec az 0); [|lra]. destruct (Rlt_dec (rnd (az + 360)) 0); [lra|]. reflexivity.
Qed.
Print Assumptions C37_negative.
Ltac evr := first [exists 4%nat; exact every4 | exists 2%nat; exact every2 | exists 1%nat; exact every1].
Theorem C37_errors : forall rd az res fmt, (compass_dir_azimuth rd az res fmt = Err KeyError <->
   (fmt <> str_of "short" /\ fmt <> str_of "long") \/ ~ exists m, every res m).
Proof.
  intros rd az res fmt.
  assert (Rs : (exists m, every res m) \/ (res <> str_of "cardinal" /\ res <> str_of "intercardinal" /\ res <> str_of "meteorological")).
  { destruct (str_eqb_spec res (str_of "cardinal")) as [->|N1]; [left; evr|]. destruct (str_eqb_spec res (str_of "intercardinal")) as [->|N2]; [left; evr|].
    destruct (str_eqb_spec res (str_of "meteorological")) as [->|N3]; [left; evr|]. right. auto. }
  assert (Pk : forall angles points, pick rd (positive rd az) angles points <> Err KeyError) by (intros a p; unfold pick; destruct nth_error; discriminate).
  unfold compass_dir_azimuth. destruct (str_eqb_spec fmt (str_of "short")) as [F1|F1], (str_eqb_spec fmt (str_of "long")) as [F2|F2]; cbn [orb negb].
  4: { split; [intros _; left; auto|reflexivity]. }
  all: destruct (str_eqb_spec res (str_of "cardinal")) as [->|N1]; [split; [intro C; destruct (Pk _ _ C)|intros [[A B]|C]; [contradiction|exfalso; apply C; evr]]|];
    destruct (str_eqb_spec res (str_of "intercardinal")) as [->|N2]; [split; [intro C; destruct (Pk _ _ C)|intros [[A B]|C]; [contradiction|exfalso; apply C; evr]]|];
    destruct (str_eqb_spec res (str_of "meteorological")) as [->|N3]; [split; [intro C; destruct (Pk _ _ C)|intros [[A B]|C]; [contradiction|exfalso; apply C; evr]]|];
    split; [intros _; right; intros (m & He); destruct He; [apply N1|apply N2|apply N3]; reflexivity|reflexivity].
Qed.
Print Assumptions C37_errors.
(** NaN is north. *)
Theorem C37_nan : forall rd res m fmt, every res m -> fmt = str_of "short" \/ fmt = str_of "long" ->
  exists name, compass_dir_azimuth rd None res fmt = Ok name /\ name_of 0 fmt name.
Proof.
  intros rd res m fmt He Hf. destruct (table _ _ _ He Hf) as (points & T1 & T2). destruct (T1 0%nat ltac:(lia)) as (p & Ep & Np). exists p. rewrite T2. unfold positive, flt, pick. rewrite Ep. split; [reflexivity|].
  rewrite Nat.mul_0_r in Np. exact Np.
Qed.
Print Assumptions C37_nan.
(** get_compass_dir returns the short name whatever format is asked for. *)
Theorem C37_between : forall res m az fmt, every res m -> is_double az -> 0 <= az <= 360 ->
  compass_dir rnd (Some az) res fmt = compass_dir_azimuth rnd (Some az) res (str_of "short").
Proof. intros res m az fmt He Hd Hz. unfold compass_dir, positive, flt. destruct (Rlt_dec az 0); [lra|reflexivity]. Qed.
Print Assumptions C37_between.
Theorem C37_format_refuted : exists az res, compass_dir_azimuth rnd (Some az) res (str_of "long") = Ok (str_of "East") /\ compass_dir rnd (Some az) res (str_of "long") = Ok (str_of "E").
Proof.
  exists 90, (str_of "cardinal"). assert (D : is_double 90) by (apply (double_int 90); lia). rewrite (C37_between _ _ _ _ every4 D) by lra. split.
  - destruct (C37_sector _ _ (str_of "long") 90 1 every4 (or_intror eq_refl) D ltac:(lra)) as (n & E & N); [cbn; lia|right; unfold bearing; cbn; lra|unfold bearing; cbn; lra|].
    rewrite E. nm N.
  - destruct (C37_sector _ _ (str_of "short") 90 1 every4 (or_introl eq_refl) D ltac:(lra)) as (n & E & N); [cbn; lia|right; unfold bearing; cbn; lra|unfold bearing; cbn; lra|].
    rewrite E. nm N.
Qed.
Print Assumptions C37_format_refuted.
(** 348.75 is halfway between NNW and N. *)
Example C37_ex_tie : compass_dir_azimuth rnd (Some 348.75) (str_of "meteorological") (str_of "short") = Ok (str_of "NNW").
Proof.
  assert (D : is_double 348.75) by (replace 348.75 with (IZR 1395 * bpow radix2 (-2)) by (cbn; lra); apply double_F2R; lia).
  destruct (C37_sector _ _ (str_of "short") 348.75 15 every1 (or_introl eq_refl) D ltac:(lra)) as (n & E & N); [cbn; lia|right; unfold bearing; cbn; lra|unfold bearing; cbn; lra|].
  rewrite E. nm N.
Qed.
