From Coq Require Import ZArith Reals List Lia Lra Psatz Sorted.
From Flocq Require Import Core.
From Verif Require Import FloatBase NpModel.
Import ListNotations.
Open Scope R_scope.

Definition first_min (l : list R) (k : nat) : Prop :=
  exists x, nth_error l k = Some x /\ forall j y, nth_error l j = Some y -> x <= y /\ ((j < k)%nat -> x < y).

Lemma first_min_unique : forall l k k', first_min l k -> first_min l k' -> k = k'.
Proof.
  intros l k k' (x & Ex & H) (y & Ey & H'). destruct (Nat.lt_trichotomy k k') as [L|[L|L]]; [|assumption|].
  - destruct (H' _ _ Ex) as [_ A]. destruct (H _ _ Ey) as [B _]. specialize (A L). lra.
  - destruct (H _ _ Ey) as [_ A]. destruct (H' _ _ Ex) as [B _]. specialize (A L). lra.
Qed.
Lemma argmin_from_spec : forall l pre bi b, first_min pre bi -> nth_error pre bi = Some b -> first_min (pre ++ l) (argmin_from bi b (List.length pre) l).
Proof.
  induction l as [|x l IH]; intros pre bi b F Eb; cbn [argmin_from]; [rewrite app_nil_r; assumption|].
  assert (Hb : (bi < List.length pre)%nat) by (apply nth_error_Some; congruence).
  assert (E1 : nth_error (pre ++ [x]) (List.length pre) = Some x) by (rewrite nth_error_app2, Nat.sub_diag by lia; reflexivity).
  assert (Inv : forall j y, nth_error (pre ++ [x]) j = Some y -> (nth_error pre j = Some y /\ (j < List.length pre)%nat) \/ (j = List.length pre /\ y = x)).
  { intros j y H. destruct (Nat.lt_ge_cases j (List.length pre)) as [L|L]; [left; rewrite nth_error_app1 in H by assumption; auto|right].
    rewrite nth_error_app2 in H by assumption. destruct (j - List.length pre)%nat as [|d] eqn:Ed; [cbn in H; split; [lia|congruence]|]. cbn in H. destruct d; discriminate. }
  destruct F as (x' & Ex & H). rewrite Eb in Ex. injection Ex as <-.
  replace (pre ++ x :: l) with ((pre ++ [x]) ++ l) by (rewrite <- app_assoc; reflexivity).
  replace (S (List.length pre)) with (List.length (pre ++ [x])) by (rewrite app_length; cbn; lia).
  destruct (Rlt_dec x b) as [L|L]; apply IH.
  - exists x. split; [assumption|]. intros j y Hj. apply Inv in Hj as [[Hj Lj]|[-> ->]].
    + destruct (H _ _ Hj) as [A _]. split; [lra|]. intros _. lra.
    + split; [lra|]. intro C. lia.
  - assumption.
  - exists b. split; [rewrite nth_error_app1 by assumption; assumption|]. intros j y Hj. apply Inv in Hj as [[Hj Lj]|[-> ->]].
    + exact (H _ _ Hj).
    + split; [lra|]. intro C. lia.
  - rewrite nth_error_app1 by assumption. assumption.
Qed.
Lemma argmin_spec : forall l, l <> [] -> first_min l (argmin l).
Proof.
  intros [|x l] H; [contradiction|]. cbn [argmin]. change (x :: l) with ([x] ++ l). apply (argmin_from_spec l [x] 0%nat x); [|reflexivity].
  exists x. split; [reflexivity|]. intros [|[|j]] y E; cbn in E; try discriminate. injection E as <-. split; [lra|lia].
Qed.
Lemma argmin_eq : forall l k, first_min l k -> argmin l = k.
Proof. intros l k H. eapply first_min_unique; [apply argmin_spec|exact H]. destruct H as (x & E & _). destruct l; [destruct k; discriminate|discriminate]. Qed.

(** ** Nearest of a table of points, in double arithmetic *)
Lemma rnd_abs : forall x, Rabs (rnd x) = rnd (Rabs x).
Proof.
  intro x. unfold Rabs. destruct (Rcase_abs x) as [L|L]; destruct (Rcase_abs (rnd x)) as [L'|L']; try reflexivity.
  - rewrite rnd_opp. reflexivity.
  - rewrite rnd_opp. pose proof (rnd_le x 0 (Rlt_le _ _ L)) as H. rewrite rnd_0 in H. lra.
  - pose proof (rnd_le 0 x (Rge_le _ _ L)) as H. rewrite rnd_0 in H. lra.
Qed.
Definition q4 (z : Z) : R := IZR z / 4.
Lemma nearest_two : forall a b x, (0 <= a)%Z -> (a + 4 <= b)%Z -> (b < 2 ^ 42)%Z -> is_double x -> x <= IZR (2 ^ 40) ->
  Rabs (x - q4 b) < Rabs (x - q4 a) -> rnd (Rabs (x - q4 b)) < rnd (Rabs (x - q4 a)).
Proof.
  intros a b x Ha Hab Hb Hx Hm H. unfold q4 in *.
  assert (Ra : 0 <= IZR a) by (apply IZR_le; assumption). assert (Rab : IZR a + 4 <= IZR b) by (rewrite <- plus_IZR; apply IZR_le; assumption).
  assert (M : (IZR a + IZR b) / 8 < x) by (revert H; unfold Rabs; repeat destruct Rcase_abs; lra).
  rewrite (Rabs_pos_eq (x - IZR a / 4)) by lra.
  destruct (Rlt_le_dec x (IZR b / 4)) as [L|L].
  - rewrite Rabs_left by lra.
    set (h := IZR (b - a) * bpow radix2 (-3)). set (m := IZR (a + b) * bpow radix2 (-3)).
    assert (P3 : bpow radix2 (-3) = / 8) by reflexivity.
    assert (Eh : h = (IZR b - IZR a) / 8) by (unfold h; rewrite minus_IZR, P3; reflexivity).
    assert (Em : m = (IZR a + IZR b) / 8) by (unfold m; rewrite plus_IZR, P3; reflexivity).
    assert (Dh : is_double h) by (apply double_F2R; lia). assert (Dm : is_double m) by (apply double_F2R; lia).
    assert (S1 : succ radix2 fexp64 m <= x) by (apply succ_le_lt; auto with typeclass_instances; lra).
    rewrite succ_eq_pos in S1 by lra.
    assert (U : ulp radix2 fexp64 h <= ulp radix2 fexp64 m) by (apply ulp_le; auto with typeclass_instances; [apply FLT_exp_monotone|rewrite !Rabs_pos_eq; lra]).
    assert (S2 : succ radix2 fexp64 h <= x - IZR a / 4) by (rewrite succ_eq_pos; lra).
    assert (Ds : is_double (succ radix2 fexp64 h)) by (apply generic_format_succ; auto with typeclass_instances).
    apply Rle_lt_trans with h; [|apply Rlt_le_trans with (succ radix2 fexp64 h)].
    + rewrite <- (rnd_id h Dh). apply rnd_le. lra.
    + apply succ_gt_id. lra.
    + rewrite <- (rnd_id _ Ds). apply rnd_le. assumption.
  - rewrite Rabs_pos_eq by lra.
    assert (B : forall v, 0 <= v <= IZR (2 ^ 40) -> Rabs (rnd v - v) <= bpow radix2 (40 - 53)).
    { intros v Hv. eapply Rle_trans; [apply (rnd_abs_err v 40); [lia|rewrite Rabs_pos_eq by lra; change (bpow radix2 40) with (IZR (2 ^ 40)); lra]|]. apply Rle_refl || (apply bpow_le; lia). }
    assert (P : bpow radix2 (40 - 53) = / 8192) by reflexivity. rewrite P in B.
    pose proof (B (x - IZR b / 4) ltac:(lra)) as B1. pose proof (B (x - IZR a / 4) ltac:(lra)) as B2.
    revert B1 B2. unfold Rabs. repeat destruct Rcase_abs; lra.
Qed.
Lemma nearest_pts : forall zl x, zl <> [] -> StronglySorted (fun a b => a + 4 <= b)%Z zl -> Forall (fun z => 0 <= z < 2 ^ 42)%Z zl -> is_double x -> x <= IZR (2 ^ 40) ->
  argmin (map (fun z => Rabs (rnd (x - q4 z))) zl) = argmin (map (fun z => Rabs (x - q4 z)) zl).
Proof.
  intros zl x Hne Hs Hf Hx Hm. assert (F : first_min (map (fun z => Rabs (x - q4 z)) zl) (argmin (map (fun z => Rabs (x - q4 z)) zl))) by (apply argmin_spec; destruct zl; [contradiction|discriminate]).
  set (k := argmin (map (fun z => Rabs (x - q4 z)) zl)) in *. clearbody k. apply argmin_eq. destruct F as (v & Ev & F). rewrite nth_error_map in Ev. destruct (nth_error zl k) as [b|] eqn:Eb; [|discriminate]. injection Ev as <-.
  exists (Rabs (rnd (x - q4 b))). split; [rewrite nth_error_map, Eb; reflexivity|]. intros j y Hy. rewrite nth_error_map in Hy. destruct (nth_error zl j) as [a|] eqn:Ea; [|discriminate]. injection Hy as <-.
  destruct (F j (Rabs (x - q4 a))) as [F1 F2]; [rewrite nth_error_map, Ea; reflexivity|]. rewrite !rnd_abs. split; [apply rnd_le; assumption|]. intro L. specialize (F2 L).
  rewrite Forall_forall in Hf. pose proof (Hf a (nth_error_In _ _ Ea)). pose proof (Hf b (nth_error_In _ _ Eb)).
  assert (O : (a + 4 <= b)%Z).
  { clear - Hs Ea Eb L. revert j k Ea Eb L. induction Hs as [|c zl Hs IH Fc]; intros j k Ea Eb L; [destruct j; discriminate|]. destruct k as [|k]; [lia|]. destruct j as [|j]; cbn in Ea, Eb.
    - injection Ea as <-. rewrite Forall_forall in Fc. apply Fc. exact (nth_error_In _ _ Eb).
    - apply (IH j k); [assumption|assumption|lia]. }
  apply nearest_two; try assumption; lia.
Qed.
