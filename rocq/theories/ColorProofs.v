From Coq Require Import ZArith Reals String Ascii Bool List Lia Lra Psatz Sorted.
From Flocq Require Import Core.
From Verif Require Import PyBase PyStr FloatBase FloatEval ColorModel ColorSpec.
Import ListNotations.
Open Scope R_scope.

Lemma rlt_iff : forall x y, rlt x y = true <-> x < y.
Proof. intros. unfold rlt. destruct Rlt_dec; split; congruence || lra || auto. Qed.
Lemma rle_iff : forall x y, rle x y = true <-> x <= y.
Proof. intros. unfold rle. destruct Rle_dec; split; congruence || lra || auto. Qed.
Lemma reqb_iff : forall x y, reqb x y = true <-> x = y.
Proof. intros. unfold reqb. destruct Req_EM_T; split; congruence || lra || auto. Qed.
Lemma rlt_f : forall x y, rlt x y = false <-> y <= x.
Proof. intros. unfold rlt. destruct Rlt_dec; split; congruence || lra || auto. Qed.

(** ** Rows *)
Lemma rows_from : forall (rd : R -> R) (xs : list R) (A B : list rgb) (c : channel) (n s : nat),
  let f := fold_right (fun i acc => match acc, nth_error xs i, nth_error B i, nth_error A i with
                           | Some l, Some x, Some a, Some b => Some ((x, rd (chan c a / 255), rd (chan c b / 255)) :: l)
                           | _, _, _, _ => None end) (Some []) (seq s n) in
  (f = None /\ exists i, (s <= i < s + n)%nat /\ (nth_error xs i = None \/ nth_error B i = None \/ nth_error A i = None)) \/
  (exists l, f = Some l /\ List.length l = n /\ forall j, (j < n)%nat -> exists x a b, nth_error xs (s + j) = Some x /\ nth_error B (s + j) = Some a /\ nth_error A (s + j) = Some b /\
     nth_error l j = Some (x, rd (chan c a / 255), rd (chan c b / 255))).
Proof.
  intros rd xs A B c n. induction n as [|n IH]; intro s; cbn [seq fold_right].
  - right. exists []. split; [reflexivity|]. split; [reflexivity|]. intros j Hj. lia.
  - destruct (IH (S s)) as [(-> & i & Hi & H)|(l & -> & Ll & H)].
    + left. split; [reflexivity|]. exists i. split; [lia|assumption].
    + destruct (nth_error xs s) as [x|] eqn:Ex; [|left; split; [reflexivity|]; exists s; split; [lia|auto]].
      destruct (nth_error B s) as [a|] eqn:Ea; [|left; split; [reflexivity|]; exists s; split; [lia|auto]].
      destruct (nth_error A s) as [b|] eqn:Eb; [|left; split; [reflexivity|]; exists s; split; [lia|auto]].
      right. eexists. split; [reflexivity|]. split; [cbn; congruence|]. intros [|j] Hj.
      * exists x, a, b. rewrite Nat.add_0_r. auto.
      * destruct (H j ltac:(lia)) as (x' & a' & b' & E1 & E2 & E3 & E4). exists x', a', b'. replace (s + S j)%nat with (S s + j)%nat by lia. auto.
Qed.
Lemma rows_ok : forall rd xs A B c, (List.length xs <= List.length A)%nat -> (List.length xs <= List.length B)%nat ->
  exists l, rows rd xs A B c = Some l /\ List.length l = List.length xs /\
    forall i x, nth_error xs i = Some x -> exists a b, nth_error B i = Some a /\ nth_error A i = Some b /\ nth_error l i = Some (x, rd (chan c a / 255), rd (chan c b / 255)).
Proof.
  intros rd xs A B c HA HB. unfold rows. destruct (rows_from rd xs A B c (List.length xs) 0) as [(_ & i & Hi & H)|(l & E & Ll & H)].
  - exfalso. rewrite !nth_error_None in H. lia.
  - exists l. split; [exact E|]. split; [assumption|]. intros i x Ex. destruct (H i) as (x' & a & b & E1 & E2 & E3 & E4); [apply nth_error_Some; congruence|]. cbn [Nat.add] in *. exists a, b. rewrite Ex in E1. injection E1 as <-. auto.
Qed.
Lemma rows_short : forall rd xs A B c, rows rd xs A B c = None <-> (List.length A < List.length xs \/ List.length B < List.length xs)%nat.
Proof.
  intros rd xs A B c. split.
  - intro E. destruct (Nat.lt_ge_cases (List.length A) (List.length xs)) as [?|HA]; [auto|]. destruct (Nat.lt_ge_cases (List.length B) (List.length xs)) as [?|HB]; [auto|].
    destruct (rows_ok rd xs A B c HA HB) as (l & E' & _). congruence.
  - intro H. unfold rows. destruct (rows_from rd xs A B c (List.length xs) 0) as [(E & _)|(l & E & Ll & Hl)]; [exact E|exfalso].
    destruct H as [H|H].
    + destruct (Hl _ H) as (x & a & b & _ & _ & E3 & _). cbn [Nat.add] in E3. assert (nth_error A (List.length A) = None) by (apply nth_error_None; lia). congruence.
    + destruct (Hl _ H) as (x & a & b & _ & E3 & _ & _). cbn [Nat.add] in E3. assert (nth_error B (List.length B) = None) by (apply nth_error_None; lia). congruence.
Qed.

(** ** Smallest and largest *)
Lemma fold_min : forall l x, (forall y, In y l -> x <= y) -> fold_left Rmin l x = x.
Proof. induction l as [|y l IH]; intros x H; cbn; [reflexivity|]. rewrite Rmin_left by (apply H; left; reflexivity). apply IH. intros. apply H. right. assumption. Qed.
Lemma fold_max_ge : forall l x, x <= fold_left Rmax l x /\ (forall y, In y l -> y <= fold_left Rmax l x) /\ (fold_left Rmax l x = x \/ In (fold_left Rmax l x) l).
Proof.
  induction l as [|y l IH]; intro x; cbn.
  - split; [lra|]. split; [intros ? []|auto].
  - destruct (IH (Rmax x y)) as (A & B & C). pose proof (Rmax_l x y). pose proof (Rmax_r x y). split; [lra|]. split.
    + intros z [<-|Hz]; [lra|auto].
    + destruct C as [C|C]; [|auto]. assert (M : Rmax x y = x \/ Rmax x y = y) by (unfold Rmax; destruct (Rle_dec x y); auto). destruct M as [M|M]; [left|right; left]; congruence.
Qed.
Lemma fold_min_le : forall l x, fold_left Rmin l x <= x /\ (forall y, In y l -> fold_left Rmin l x <= y) /\ (fold_left Rmin l x = x \/ In (fold_left Rmin l x) l).
Proof.
  induction l as [|y l IH]; intro x; cbn.
  - split; [lra|]. split; [intros ? []|auto].
  - destruct (IH (Rmin x y)) as (A & B & C). pose proof (Rmin_l x y). pose proof (Rmin_r x y). split; [lra|]. split.
    + intros z [<-|Hz]; [lra|auto].
    + destruct C as [C|C]; [|auto]. assert (M : Rmin x y = x \/ Rmin x y = y) by (unfold Rmin; destruct (Rle_dec x y); auto). destruct M as [M|M]; [left|right; left]; congruence.
Qed.
Definition greatest_of (l : list R) (m : R) : Prop := In m l /\ forall y, In y l -> y <= m.
Definition least_of (l : list R) (m : R) : Prop := In m l /\ forall y, In y l -> m <= y.
Lemma amax_iff : forall l m, amax l = Some m <-> greatest_of l m.
Proof.
  intros [|x l] m; cbn; [split; [discriminate|intros [[] _]]|]. destruct (fold_max_ge l x) as (A & B & C). split.
  - intro E. injection E as <-. split; [destruct C as [->|C]; [left; reflexivity|right; assumption]|]. intros y [<-|Hy]; auto.
  - intros [H1 H2]. f_equal. apply Rle_antisym; [destruct C as [->|C]; [apply H2; left; reflexivity|apply H2; right; assumption]|]. destruct H1 as [<-|H1]; auto.
Qed.
Lemma amin_iff : forall l m, amin l = Some m <-> least_of l m.
Proof.
  intros [|x l] m; cbn; [split; [discriminate|intros [[] _]]|]. destruct (fold_min_le l x) as (A & B & C). split.
  - intro E. injection E as <-. split; [destruct C as [->|C]; [left; reflexivity|right; assumption]|]. intros y [<-|Hy]; auto.
  - intros [H1 H2]. f_equal. apply Rle_antisym; [|destruct C as [->|C]; [apply H2; left; reflexivity|apply H2; right; assumption]]. destruct H1 as [<-|H1]; auto.
Qed.

Lemma inc_le : forall l, increasing l -> forall i j a b, (i <= j)%nat -> nth_error l i = Some a -> nth_error l j = Some b -> a <= b.
Proof.
  intros l H i j a b Hij. revert b. induction Hij as [|j Hij IH]; intros b Ea Eb; [assert (a = b) by congruence; lra|].
  destruct (nth_error l j) as [m|] eqn:Em; [|apply nth_error_None in Em; assert (S j < List.length l)%nat by (apply nth_error_Some; congruence); lia].
  specialize (IH m Ea eq_refl). specialize (H j m b Em Eb). lra.
Qed.
Lemma inc_min : forall z l, increasing (z :: l) -> amin (z :: l) = Some z.
Proof.
  intros z l H. apply amin_iff. split; [left; reflexivity|]. intros y Hy. apply In_nth_error in Hy as (j & Ej). exact (inc_le _ H 0 j z y ltac:(lia) eq_refl Ej).
Qed.
Lemma last_in : forall (l : list R) d, l <> [] -> In (last l d) l.
Proof. intros l d H. destruct (exists_last H) as (l' & x & ->). rewrite last_last. apply in_or_app. right. left. reflexivity. Qed.

(** ** Rounding good enough to build a table *)
Record sound (rd : R -> R) (n : Z) : Prop := {
  so_mono : forall x y, x <= y -> rd x <= rd y; so_0 : rd 0 = 0; so_1 : rd 1 = 1; so_n : rd (IZR (n - 1)) = IZR (n - 1); so_pos : (256 <= n)%Z;
  so_x : forall i, (0 < i < n - 1)%Z -> 0 < xind rd n i <= IZR (n - 1) }.
Lemma sound_exact : forall n, (256 <= n)%Z -> sound (fun x => x) n.
Proof.
  intros n Hn. constructor; auto. intros i Hi. unfold xind.
  assert (P : 0 < IZR (n - 1)) by (apply IZR_lt; lia). assert (0 < IZR i <= IZR (n - 1)) by (split; [apply IZR_lt|apply IZR_le]; lia).
  replace (IZR (n - 1) * (IZR i * (1 / IZR (n - 1)))) with (IZR i) by (field; lra). assumption.
Qed.
Lemma sound_rnd : forall n, (256 <= n <= 2 ^ 50)%Z -> sound rnd n.
Proof.
  intros n Hn. constructor; try lia; [apply rnd_le|apply rnd_0|apply (rnd_int 1); lia|apply rnd_int; lia|].
  intros i Hi. unfold xind. set (N := IZR (n - 1)). assert (PN : 0 < N) by (apply IZR_lt; lia). assert (BN : N <= IZR (2 ^ 50)) by (apply IZR_le; lia).
  assert (E53 : IZR (2 ^ 53) = 8 * IZR (2 ^ 50)) by (rewrite <- mult_IZR; reflexivity). assert (P50 : 0 < IZR (2 ^ 50)) by (apply IZR_lt; reflexivity).
  assert (Inv : / IZR (2 ^ 50) <= 1 / N) by (unfold Rdiv; rewrite Rmult_1_l; apply Rinv_le; lra).
  assert (I53 : / IZR (2 ^ 53) <= / IZR (2 ^ 50)) by (apply Rinv_le; lra). assert (P53 : 0 < / IZR (2 ^ 53)) by (apply Rinv_0_lt_compat; lra).
  pose proof bpow_m1022_small as Sm. assert (Iv : 0 < 1 / N) by (apply Rdiv_lt_0_compat; lra).
  pose proof (rnd_rel_err (1 / N)) as E. rewrite Rabs_pos_eq in E by lra. specialize (E ltac:(lra)). rewrite bpow_m53 in E.
  assert (Li : 1 <= IZR i <= N - 1) by (split; [apply IZR_le; lia|unfold N; rewrite <- minus_IZR; apply IZR_le; lia]).
  set (q := rnd (1 / N)) in *. assert (Q : 1 / N * (1 - / IZR (2 ^ 53)) <= q <= 1 / N * (1 + / IZR (2 ^ 53))) by (revert E; unfold Rabs; destruct Rcase_abs; lra).
  assert (D1 : is_double (bpow radix2 (-53))) by (replace (bpow radix2 (-53)) with (IZR 1 * bpow radix2 (-53)) by ring; apply (double_F2R 1); lia).
  assert (Low : / IZR (2 ^ 53) <= q) by (rewrite <- bpow_m53, <- (rnd_id _ D1); apply rnd_le; rewrite bpow_m53; lra).
  assert (NN : N * (1 / N) = 1) by (field; lra).
  assert (Up : IZR i * q <= 1).
  { apply Rle_trans with ((N - 1) * (1 / N * (1 + / IZR (2 ^ 53)))); [apply Rmult_le_compat; lra|].
    replace ((N - 1) * (1 / N * (1 + / IZR (2 ^ 53)))) with (1 + / IZR (2 ^ 53) - 1 / N * (1 + / IZR (2 ^ 53))) by (rewrite <- NN at 1; field; split; lra).
    assert (/ IZR (2 ^ 53) <= 1 / N * (1 + / IZR (2 ^ 53))) by nra. lra. }
  assert (Lo : / IZR (2 ^ 53) <= IZR i * q) by nra.
  assert (L2 : / IZR (2 ^ 53) <= rnd (IZR i * q) <= 1).
  { split; [rewrite <- bpow_m53, <- (rnd_id _ D1); apply rnd_le; rewrite bpow_m53; lra|]. rewrite <- (rnd_int 1) by lia. apply rnd_le. assumption. }
  assert (N1 : 1 <= N) by (apply IZR_le; lia).
  split.
  - apply Rlt_le_trans with (bpow radix2 (-53)); [apply bpow_gt_0|]. rewrite <- (rnd_id _ D1). apply rnd_le. rewrite bpow_m53. nra.
  - unfold N at 2. rewrite <- (rnd_int (n - 1)) by lia. apply rnd_le. fold N. nra.
Qed.
