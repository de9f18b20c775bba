From Coq Require Import ZArith Reals String Ascii Bool List Lia Lra Psatz Sorted.
From Flocq Require Import Core.
From Verif Require Import PyBase PyStr FloatBase CityModel NpModel NpProofs CompassModel CompassSpec.
Import ListNotations.
Open Scope R_scope.

Definition zpts (m : nat) : list Z := map (fun k => (Z.of_nat k * Z.of_nat (90 * m))%Z) (seq 0 (S (16 / m))).
Lemma table : forall res m fmt, every res m -> fmt = str_of "short" \/ fmt = str_of "long" -> exists points,
  (forall k, (k <= 16 / m)%nat -> exists p, nth_error points k = Some p /\ name_of ((m * k) mod 16) fmt p) /\
  forall rd az, compass_dir_azimuth rd az res fmt = pick rd (positive rd az) (map q4 (zpts m)) points.
Proof.
  intros res m fmt He Hf. destruct He, Hf as [-> | ->];
  [exists short_cardinal|exists long_cardinal|exists short_intercardinal|exists long_intercardinal|exists short_meteorological|exists long_meteorological];
  (split; [|intros rd az; unfold compass_dir_azimuth; cbn -[pick positive]; reflexivity]);
  intros k Hk; do 17 (try (destruct k as [|k]; [eexists; split; [reflexivity|]; econstructor; reflexivity|])); exfalso; cbn in Hk; lia.
Qed.
Lemma zpts_nth : forall m k, (k <= 16 / m)%nat -> nth_error (zpts m) k = Some (Z.of_nat k * Z.of_nat (90 * m))%Z.
Proof.
  intros m k H. unfold zpts. rewrite nth_error_map.
  assert (E : nth_error (seq 0 (S (16 / m))) k = Some k).
  { rewrite (nth_error_nth' _ 0%nat) by (rewrite seq_length; lia). rewrite seq_nth by lia. reflexivity. }
  rewrite E. reflexivity.
Qed.
Lemma zpts_ok : forall res m, every res m -> StronglySorted (fun a b => a + 4 <= b)%Z (zpts m) /\ Forall (fun z => 0 <= z < 2 ^ 42)%Z (zpts m) /\ (m * (16 / m) = 16)%nat /\ (0 < m)%nat.
Proof. intros res m []; (split; [|split; [|split; [reflexivity|lia]]]); cbv [zpts seq map Nat.div Nat.divmod fst]; cbn; repeat (constructor || lia). Qed.
Lemma q4_pt : forall m k, q4 (Z.of_nat k * Z.of_nat (90 * m)) = bearing (m * k).
Proof. intros m k. unfold q4, bearing. rewrite mult_IZR, <- !INR_IZR_INZ, !mult_INR. replace (INR 90) with 90 by (cbn; lra). lra. Qed.

Lemma core : forall res m fmt az, every res m -> fmt = str_of "short" \/ fmt = str_of "long" -> is_double az -> 0 <= az <= IZR (2 ^ 40) ->
  exists k name, compass_dir_azimuth rnd (Some az) res fmt = Ok name /\ (k <= 16 / m)%nat /\ name_of ((m * k) mod 16) fmt name /\
    forall j, (j <= 16 / m)%nat -> Rabs (az - bearing (m * k)) <= Rabs (az - bearing (m * j)) /\ ((j < k)%nat -> Rabs (az - bearing (m * k)) < Rabs (az - bearing (m * j))).
Proof.
  intros res m fmt az He Hf Hd Hz. destruct (zpts_ok _ _ He) as (Z1 & Z2 & Z3 & Z4). destruct (table _ _ _ He Hf) as (points & T1 & T2).
  assert (Hne : zpts m <> []) by (unfold zpts; discriminate).
  assert (F : first_min (map (fun z => Rabs (az - q4 z)) (zpts m)) (argmin (map (fun z => Rabs (az - q4 z)) (zpts m)))) by (apply argmin_spec; destruct (zpts m); [contradiction|discriminate]).
  pose proof (nearest_pts (zpts m) az Hne Z1 Z2 Hd (proj2 Hz)) as E. set (k := argmin (map (fun z => Rabs (az - q4 z)) (zpts m))) in *. clearbody k. destruct F as (x & Ex & F).
  assert (Hk : (k <= 16 / m)%nat).
  { assert (N : nth_error (map (fun z => Rabs (az - q4 z)) (zpts m)) k <> None) by congruence. apply nth_error_Some in N. rewrite map_length in N. unfold zpts in N. rewrite map_length, seq_length in N. lia. }
  rewrite nth_error_map, zpts_nth in Ex by assumption. cbn [option_map] in Ex. assert (Ex' : x = Rabs (az - q4 (Z.of_nat k * Z.of_nat (90 * m)))) by congruence. subst x. rewrite q4_pt in F.
  destruct (T1 k Hk) as (p & Ep & Np). exists k, p. split; [|split; [assumption|split; [assumption|]]].
  - rewrite T2. unfold positive, flt. destruct (Rlt_dec az 0); [lra|]. unfold pick. rewrite map_map, E, Ep. reflexivity.
  - intros j Hj. rewrite <- (q4_pt m j). apply F. rewrite nth_error_map, zpts_nth by assumption. reflexivity.
Qed.
