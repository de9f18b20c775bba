From Coq Require Import ZArith Reals String Ascii Bool List Lia Lra Psatz Sorted.
From Flocq Require Import Core.
From Verif Require Import PyBase PyStr FloatBase NpModel NpProofs ScaleModel ScaleSpec.
Import ListNotations.
Open Scope R_scope.

Lemma len4 : forall l : Z, q4 (4 * l) = IZR l.
Proof. intro l. unfold q4. rewrite mult_IZR. field. Qed.
Lemma nearest_in : forall rd L q, L <> [] -> exists l, choose rd L q = Ok l /\ In l L.
Proof.
  intros rd L q Ne. unfold choose. assert (Ne' : map (fun l => Rabs (rd (q - IZR (fst l)))) L <> []) by (destruct L; [contradiction|discriminate]).
  destruct (argmin_spec _ Ne') as (x & Ex & _). rewrite nth_error_map in Ex. destruct nth_error as [l|] eqn:E; [|discriminate]. exists l. split; [reflexivity|]. exact (nth_error_In _ _ E).
Qed.
Lemma lengths_sorted : StronglySorted (fun a b => (fst a + 1 <= fst b)%Z) lengths.
Proof. unfold lengths. repeat (constructor || (cbn [fst]; lia)). Qed.
Lemma lengths_tab : forall l d, In (l, d) lengths <-> tabulated l d.
Proof.
  intros l d. unfold tabulated. split.
  - intro H. cbn in H. repeat (destruct H as [H|H]; [injection H as <- <-; first
      [exists [10]%Z; split; [left; reflexivity|cbn; tauto]
      |exists [15; 30; 75; 150; 750; 75000]%Z; split; [right; left; reflexivity|cbn; tauto]
      |exists [4; 12; 20; 40; 100; 120; 200; 400; 1000; 2000; 4000; 10000; 20000; 40000; 100000; 200000]%Z; split; [right; right; left; reflexivity|cbn; tauto]
      |exists [240; 300; 600; 6000; 60000]%Z; split; [right; right; right; left; reflexivity|cbn; tauto]]|]). destruct H.
  - intros (ls & H & Hl). cbn in H. repeat (destruct H as [H|H]; [injection H as <- <-; cbn in Hl; repeat (destruct Hl as [<-|Hl]; [cbn; tauto|]); destruct Hl|]). destruct H.
Qed.
Lemma first_len : forall (L : list (Z * Z)) f q l, StronglySorted (fun a b => (fst a + 1 <= fst b)%Z) L -> (forall l', f l' = Rabs (q - IZR (fst l'))) -> nth_error L (argmin (map f L)) = Some l ->
  forall l', In l' L -> Rabs (q - IZR (fst l)) <= Rabs (q - IZR (fst l')) /\ ((fst l' < fst l)%Z -> Rabs (q - IZR (fst l)) < Rabs (q - IZR (fst l'))).
Proof.
  intros L f q l Ls Hf E l' Hl'. assert (Ne : map f L <> []) by (destruct L; [destruct Hl'|discriminate]). pose proof (argmin_spec (map f L) Ne) as (x & Ex & H). set (k := argmin (map f L)) in *. clearbody k.
  rewrite nth_error_map, E in Ex. cbn in Ex. injection Ex as <-. apply In_nth_error in Hl' as (j & Hj). destruct (H j (f l')) as [A B]; [rewrite nth_error_map, Hj; reflexivity|].
  rewrite !Hf in *. split; [assumption|]. intro Lt. apply B. destruct (Nat.lt_trichotomy j k) as [G|[G|G]]; [assumption|subst; rewrite E in Hj; injection Hj as <-; lia|exfalso].
  assert (S : forall (m : list (Z * Z)) i j a b, StronglySorted (fun a b => (fst a + 1 <= fst b)%Z) m -> nth_error m i = Some a -> nth_error m j = Some b -> (i < j)%nat -> (fst a + 1 <= fst b)%Z).
  { clear. intros m i j a b S. revert i j. induction S as [|c m S IH F]; intros i j Ea Eb L; [destruct i; discriminate|]. destruct j as [|j]; [lia|]. cbn in Eb. destruct i as [|i]; cbn in Ea.
    - injection Ea as <-. rewrite Forall_forall in F. apply F. exact (nth_error_In _ _ Eb).
    - apply (IH i j); try assumption. lia. }
  pose proof (S _ _ _ _ _ Ls E Hj G). lia.
Qed.
Lemma pts_sorted : StronglySorted (fun a b => a + 4 <= b)%Z (map (fun l => (4 * fst l)%Z) lengths).
Proof. unfold lengths. cbn [map fst]. repeat (constructor || lia). Qed.
Lemma pts_bound : Forall (fun z => 0 <= z < 2 ^ 42)%Z (map (fun l => (4 * fst l)%Z) lengths).
Proof. unfold lengths. cbn [map fst]. repeat (constructor || lia). Qed.
Lemma near_gen : forall (L : list (Z * Z)) q l, StronglySorted (fun a b => (fst a + 1 <= fst b)%Z) L -> StronglySorted (fun a b => a + 4 <= b)%Z (map (fun l => (4 * fst l)%Z) L) -> Forall (fun z => 0 <= z < 2 ^ 42)%Z (map (fun l => (4 * fst l)%Z) L) ->
  is_double q -> q <= IZR (2 ^ 40) -> nth_error L (argmin (map (fun l => Rabs (rnd (q - IZR (fst l)))) L)) = Some l ->
  forall l', In l' L -> Rabs (q - IZR (fst l)) <= Rabs (q - IZR (fst l')) /\ ((fst l' < fst l)%Z -> Rabs (q - IZR (fst l)) < Rabs (q - IZR (fst l'))).
Proof.
  intros L q l S1 S2 S3 Hd Hq E l' Hl'. assert (Ne : map (fun l => (4 * fst l)%Z) L <> []) by (destruct L; [destruct Hl'|discriminate]).
  assert (A := nearest_pts _ q Ne S2 S3 Hd Hq). rewrite !map_map in A.
  assert (X1 : map (fun l => Rabs (rnd (q - q4 (4 * fst l)))) L = map (fun l => Rabs (rnd (q - IZR (fst l)))) L) by (apply map_ext; intro; rewrite len4; reflexivity).
  rewrite X1 in A. rewrite A in E. refine (first_len L _ q l S1 _ E l' Hl'). intro l0. rewrite len4. reflexivity.
Qed.
Lemma nearest_nth : forall rd L q l, choose rd L q = Ok l -> nth_error L (argmin (map (fun l => Rabs (rd (q - IZR (fst l)))) L)) = Some l.
Proof. intros rd L q l E. unfold choose in E. destruct (nth_error L (argmin (map (fun l0 => Rabs (rd (q - IZR (fst l0)))) L))) as [l0|]; [|discriminate]. congruence. Qed.
Lemma choose_nearest : forall q l, is_double q -> q <= IZR (2 ^ 40) -> choose rnd lengths q = Ok l ->
  forall l', In l' lengths -> Rabs (q - IZR (fst l)) <= Rabs (q - IZR (fst l')) /\ ((fst l' < fst l)%Z -> Rabs (q - IZR (fst l)) < Rabs (q - IZR (fst l'))).
Proof. intros q l Hd Hq E. apply nearest_nth in E. exact (near_gen lengths q l lengths_sorted pts_sorted pts_bound Hd Hq E). Qed.
Lemma choose_exact : forall q l, choose (fun x => x) lengths q = Ok l ->
  forall l', In l' lengths -> Rabs (q - IZR (fst l)) <= Rabs (q - IZR (fst l')) /\ ((fst l' < fst l)%Z -> Rabs (q - IZR (fst l)) < Rabs (q - IZR (fst l'))).
Proof. intros q l E. apply nearest_nth in E. exact (first_len lengths _ q l lengths_sorted (fun l' => eq_refl) E). Qed.
Lemma tab_div : forall l d, tabulated l d -> (exists u, l = u * d)%Z /\ (2 <= d <= 6)%Z /\ (4 <= l <= 200000)%Z.
Proof.
  intros l d H. apply lengths_tab in H. cbn in H.
  repeat (destruct H as [H|H]; [injection H as <- <-; split; [match goal with |- exists u, ?a = (u * ?b)%Z => exists (a / b)%Z; reflexivity end|lia]|]). destruct H.
Qed.
Lemma label_exact : forall rd l d i, (forall m, (Z.abs m <= 2 ^ 53)%Z -> rd (IZR m) = IZR m) -> tabulated l d -> (Z.of_nat i < d)%Z -> tick_label rd (IZR l) d i = (Z.of_nat i * (l / d))%Z.
Proof.
  intros rd l d i Hrd H Hi. destruct (tab_div l d H) as ((u & ->) & Hd & Hl). unfold tick_label. rewrite Z.div_mul by lia.
  replace (IZR (u * d) / IZR d) with (IZR u) by (rewrite mult_IZR; field; apply not_0_IZR; lia). rewrite Hrd by nia.
  rewrite INR_IZR_INZ, <- mult_IZR, Hrd by nia. apply Ztrunc_IZR.
Qed.
Lemma unit_in_iff : forall rd u t, unit_in rd u t <> None <-> In u (map (fun p => str_of (fst p)) t).
Proof.
  intros rd u t. induction t as [|[n v] t IH]; cbn [unit_in map fst]; [split; [intro H; exfalso; apply H; reflexivity|intros []]|].
  destruct (str_eqb_spec u (str_of n)) as [E|E]; [split; [intros _; left; symmetry; exact E|discriminate]|].
  rewrite IH. split; [right; assumption|intros [H|H]; [exfalso; apply E; symmetry; exact H|assumption]].
Qed.
Lemma unit_known : forall rd u, unit_of rd u <> None <-> In u known_units.
Proof.
  intros rd u. unfold unit_of. rewrite unit_in_iff. unfold units_table, known_units. cbn [map fst In]. tauto.
Qed.
