From Coq Require Import ZArith Reals String Ascii Bool List Lia Lra Psatz Permutation Sorted.
From Flocq Require Import Core.
From Verif Require Import PyBase PyStr FloatBase FloatEval CityModel CitySpec CityProofs.
Import ListNotations.
Open Scope R_scope.

(** Cell edges. *)
Definition lo_ (rd : R -> R) (lo hi : R) (n k : nat) : R := rd (lo + rd (INR k * rd (rd (hi - lo) / INR n))).
Definition hi_ (rd : R -> R) (lo hi : R) (n k : nat) : R := rd (lo_ rd lo hi n k + rd (rd (hi - lo) / INR n)).

Lemma grid_eq : forall rd s nx ny per f g xmin xmax ymin ymax, complete f ->
  least c_lon (f_rows f) xmin -> greatest c_lon (f_rows f) xmax -> least c_lat (f_rows f) ymin -> greatest c_lat (f_rows f) ymax ->
  limit_by_grid rd s nx ny per f = Ok g ->
  f_rows g = flat_map (fun ij => head_rows per (s (filter (in_bounds
       (Some (lo_ rd xmin xmax (Z.to_nat nx) (snd ij))) (Some (hi_ rd xmin xmax (Z.to_nat nx) (snd ij)))
       (Some (lo_ rd ymin ymax (Z.to_nat ny) (fst ij))) (Some (hi_ rd ymin ymax (Z.to_nat ny) (fst ij)))) (f_rows f)))) (cells (Z.to_nat nx) (Z.to_nat ny)).
Proof.
  intros rd s nx ny per f g xmin xmax ymin ymax H Lx Gx Ly Gy E. unfold limit_by_grid in E. destruct (negb (col_in (str_of "pop") (f_cols f))); [discriminate|].
  destruct (cells (Z.to_nat nx) (Z.to_nat ny)) as [|ij ijs] eqn:Ec; [discriminate|]. rewrite <- Ec in *. clear Ec ij ijs.
  destruct (all_parts rd s f (Z.to_nat nx) (Z.to_nat ny) per (cells (Z.to_nat nx) (Z.to_nat ny))) as [rows|] eqn:E'; [|discriminate].
  apply make_inv in E as [-> _]. apply all_parts_eq in E'; [|assumption]. cbn [f_rows].
  rewrite (least_min _ _ _ Lx), (greatest_max _ _ _ Gx), (least_min _ _ _ Ly), (greatest_max _ _ _ Gy) in E'. exact E'.
Qed.
Lemma grid_gen : forall rd s nx ny per f g, complete f -> limit_by_grid rd s nx ny per f = Ok g -> complete g /\
  exists ts : list (city -> bool), List.length ts = (Z.to_nat nx * Z.to_nat ny)%nat /\ f_rows g = flat_map (fun t => head_rows per (s (filter t (f_rows f)))) ts.
Proof.
  intros rd s nx ny per f g H E. unfold limit_by_grid in E. destruct (negb (col_in (str_of "pop") (f_cols f))); [discriminate|].
  destruct (cells (Z.to_nat nx) (Z.to_nat ny)) as [|ij ijs] eqn:Ec; [discriminate|]. rewrite <- Ec in *. clear Ec ij ijs.
  destruct (all_parts rd s f (Z.to_nat nx) (Z.to_nat ny) per (cells (Z.to_nat nx) (Z.to_nat ny))) as [rows|] eqn:E'; [|discriminate].
  apply make_inv in E as [-> E]. split; [assumption|]. apply all_parts_eq in E'; [|assumption]. cbn [f_rows]. subst rows.
  match goal with |- context [flat_map (fun ij => head_rows per (s (filter (@?T ij) _)))] => exists (map T (cells (Z.to_nat nx) (Z.to_nat ny))) end.
  split; [rewrite map_length, cells_length; reflexivity|]. generalize (cells (Z.to_nat nx) (Z.to_nat ny)). intro l. induction l as [|ij l IH]; [reflexivity|]. cbn [map flat_map]. rewrite IH. reflexivity.
Qed.
Lemma grid_ok : forall rd s nx ny per f, complete f -> In (str_of "pop") (f_cols f) -> (0 < nx)%Z -> (0 < ny)%Z -> exists g, limit_by_grid rd s nx ny per f = Ok g /\ f_cols g = f_cols f.
Proof.
  intros rd s nx ny per f H Hp Hx Hy. unfold limit_by_grid. rewrite (proj2 (col_in_iff _ _) Hp). cbn [negb].
  destruct (cells (Z.to_nat nx) (Z.to_nat ny)) as [|ij ijs] eqn:Ec; [apply (f_equal (@List.length _)) in Ec; rewrite cells_length in Ec; cbn in Ec; nia|].
  rewrite <- Ec. clear Ec ij ijs. destruct (all_parts_ok rd s f (Z.to_nat nx) (Z.to_nat ny) per (cells (Z.to_nat nx) (Z.to_nat ny)) H) as (rows & ->).
  eexists. split; [apply make_ok; exact H|reflexivity].
Qed.

Lemma flat_map_cells : forall {A} (g : nat -> nat -> list A) nx ny, flat_map (fun ij => g (fst ij) (snd ij)) (cells nx ny) = flat_map (fun i => flat_map (g i) (seq 0 nx)) (seq 0 ny).
Proof.
  intros A g nx ny. unfold cells. generalize (seq 0 ny). intro l. induction l as [|i l IH]; [reflexivity|]. cbn [flat_map]. rewrite flat_map_app, IH. f_equal.
  generalize (seq 0 nx). intro l'. induction l' as [|j l' IH']; [reflexivity|]. cbn [map flat_map fst snd]. rewrite IH'. reflexivity.
Qed.

(** Exact arithmetic. *)
Definition id_ (x : R) : R := x.
Lemma lo_id : forall lo hi n k, lo_ id_ lo hi n k = lo + INR k * ((hi - lo) / INR n).
Proof. reflexivity. Qed.
Lemma hi_id : forall lo hi n k, hi_ id_ lo hi n k = lo + INR (S k) * ((hi - lo) / INR n).
Proof. intros. unfold hi_, lo_, id_. rewrite S_INR. ring. Qed.
Lemma step_pos : forall lo hi n, lo <= hi -> (0 < n)%nat -> 0 <= (hi - lo) / INR n.
Proof. intros lo hi n H Hn. apply Rmult_le_pos; [lra|]. left. apply Rinv_0_lt_compat. apply lt_0_INR. assumption. Qed.
Lemma cover1 : forall lo d m x, lo < x -> x <= lo + INR m * d -> exists k, (k < m)%nat /\ lo + INR k * d < x <= lo + INR (S k) * d.
Proof.
  intros lo d m x Hx. induction m as [|m IH]; intro H; [cbn in H; lra|]. destruct (Rle_dec x (lo + INR m * d)) as [Hm|Hm].
  - destruct (IH Hm) as (k & Hk & Hr). exists k. split; [lia|assumption].
  - exists m. split; [lia|]. split; [lra|assumption].
Qed.
Lemma cell_unique : forall lo d k k' x, 0 <= d -> lo + INR k * d < x <= lo + INR (S k) * d -> lo + INR k' * d < x <= lo + INR (S k') * d -> k = k'.
Proof.
  intros lo d k k' x Hd H H'.
  assert (M : forall a b, (S a <= b)%nat -> INR (S a) * d <= INR b * d) by (intros a b L; apply Rmult_le_compat_r; [assumption|apply le_INR; assumption]).
  destruct (Nat.lt_trichotomy k k') as [L|[L|L]]; [|assumption|]; [pose proof (M k k' L)|pose proof (M k' k L)]; lra.
Qed.

(** Disjoint filters. *)
Lemma disjoint_filters : forall (tests : list (city -> bool)) (keep : list city -> list city) (rows : list city), (forall l, exists d, Permutation (keep l ++ d) l) ->
  (forall i j p q r, nth_error tests i = Some p -> nth_error tests j = Some q -> In r rows -> p r = true -> q r = true -> i = j) ->
  exists rest, Permutation (flat_map (fun p => keep (filter p rows)) tests ++ rest) rows.
Proof.
  intros tests keep rows Hk Hd. revert rows Hd. induction tests as [|p tests IH]; intros rows Hd; [exists rows; apply Permutation_refl|].
  destruct (IH (filter (fun r => negb (p r)) rows)) as (rest & Hr).
  { intros i j a b r Ha Hb Hin Ta Tb. apply filter_In in Hin as [Hin _]. pose proof (Hd (S i) (S j) a b r Ha Hb Hin Ta Tb). congruence. }
  assert (E : forall q, In q tests -> filter q (filter (fun r => negb (p r)) rows) = filter q rows).
  { intros q Hq. apply In_nth_error in Hq as (j & Hj). rewrite filter_filter. apply filter_ext_in. intros r Hin. destruct (p r) eqn:Ep; cbn [negb andb]; [|reflexivity].
    destruct (q r) eqn:Eq; [|reflexivity]. pose proof (Hd 0%nat (S j) p q r eq_refl Hj Hin Ep Eq). discriminate. }
  assert (E' : flat_map (fun q => keep (filter q (filter (fun r => negb (p r)) rows))) tests = flat_map (fun q => keep (filter q rows)) tests).
  { clear - E. induction tests as [|q tests IHt]; [reflexivity|]. cbn [flat_map]. rewrite (E q (or_introl eq_refl)), IHt; [reflexivity|]. intros q' H. apply E. right. assumption. }
  rewrite E' in Hr. destruct (Hk (filter p rows)) as (d & Hp). exists (d ++ rest). cbn [flat_map].
  assert (Part : Permutation (filter p rows ++ filter (fun r => negb (p r)) rows) rows).
  { clear. induction rows as [|r rows IH]; [constructor|]. cbn [filter]. destruct (p r); cbn [negb app]; [constructor; assumption|]. eapply Permutation_trans; [symmetry; apply Permutation_middle|]. constructor. assumption. }
  eapply Permutation_trans; [|exact Part]. eapply Permutation_trans; [|apply Permutation_app; [exact Hp|exact Hr]].
  rewrite <- !app_assoc. apply Permutation_app_head. rewrite !app_assoc. apply Permutation_app_tail. apply Permutation_app_comm.
Qed.
Lemma keep_some : forall s per, sorts s -> forall l, exists d, Permutation (head_rows per (s l) ++ d) l.
Proof. intros s per Hs l. destruct (head_rows_top s l per Hs) as (d & H & _). exists d. assumption. Qed.

Lemma flat_map_map : forall {A B C} (f : A -> B) (g : B -> list C) l, flat_map g (map f l) = flat_map (fun x => g (f x)) l.
Proof. intros A B C f g l. induction l as [|x l IH]; [reflexivity|]. cbn [map flat_map]. rewrite IH. reflexivity. Qed.
Lemma cells_nodup : forall nx ny, NoDup (cells nx ny).
Proof.
  intros nx ny. unfold cells. pose proof (seq_NoDup ny 0) as N. revert N. generalize (seq 0 ny). intros l N. induction N as [|i l Hi N IH]; [constructor|]. cbn [flat_map].
  assert (Nd : forall (l1 l2 : list (nat * nat)), NoDup l1 -> NoDup l2 -> (forall x, In x l1 -> ~ In x l2) -> NoDup (l1 ++ l2)).
  { clear. induction l1 as [|x l1 IH1]; intros l2 H1 H2 H; [assumption|]. inversion H1; subst. cbn [app]. constructor.
    - rewrite in_app_iff. intros [C|C]; [contradiction|]. apply (H x); [left; reflexivity|assumption].
    - apply IH1; auto. intros y Hy. apply H. right. assumption. }
  apply Nd; [apply FinFun.Injective_map_NoDup; [intros a b E; congruence|apply seq_NoDup]|assumption|].
  intros [a b] Hx Hy. apply in_map_iff in Hx as (j & E & _). injection E as <- <-. apply in_flat_map in Hy as (i' & Hi' & Hy). apply in_map_iff in Hy as (j' & E & _). injection E as -> _. contradiction.
Qed.
Lemma grid_exact_once : forall s nx ny per f g xmin xmax ymin ymax, sorts s -> complete f ->
  least c_lon (f_rows f) xmin -> greatest c_lon (f_rows f) xmax -> least c_lat (f_rows f) ymin -> greatest c_lat (f_rows f) ymax ->
  limit_by_grid id_ s nx ny per f = Ok g -> exists rest, Permutation (f_rows g ++ rest) (f_rows f).
Proof.
  intros s nx ny per f g xmin xmax ymin ymax Hs H Lx Gx Ly Gy E. rewrite (grid_eq _ _ _ _ _ _ _ _ _ _ _ H Lx Gx Ly Gy E).
  assert (Bx : xmin <= xmax) by (destruct Lx as [(r & Hr & Er) _]; destruct Gx as [_ G]; exact (G _ _ Hr Er)).
  assert (By : ymin <= ymax) by (destruct Ly as [(r & Hr & Er) _]; destruct Gy as [_ G]; exact (G _ _ Hr Er)).
  set (tst := fun ij : nat * nat => in_bounds (Some (lo_ id_ xmin xmax (Z.to_nat nx) (snd ij))) (Some (hi_ id_ xmin xmax (Z.to_nat nx) (snd ij)))
       (Some (lo_ id_ ymin ymax (Z.to_nat ny) (fst ij))) (Some (hi_ id_ ymin ymax (Z.to_nat ny) (fst ij)))).
  change (exists rest, Permutation (flat_map (fun ij => (fun p => head_rows per (s (filter p (f_rows f)))) (tst ij)) (cells (Z.to_nat nx) (Z.to_nat ny)) ++ rest) (f_rows f)).
  rewrite <- (flat_map_map tst (fun p => head_rows per (s (filter p (f_rows f))))).
  apply (disjoint_filters _ (fun l => head_rows per (s l)) _ (keep_some s per Hs)).
  intros i j p q r Hp Hq _ Tp Tq.
  rewrite nth_error_map in Hp, Hq. destruct (nth_error (cells (Z.to_nat nx) (Z.to_nat ny)) i) as [a|] eqn:Ea; [|discriminate]. destruct (nth_error (cells (Z.to_nat nx) (Z.to_nat ny)) j) as [b|] eqn:Eb; [|discriminate].
  cbn in Hp, Hq. injection Hp as <-. injection Hq as <-. unfold tst in Tp, Tq. apply in_bounds_iff in Tp, Tq. rewrite !lo_id, !hi_id in *.
  destruct Tp as [(a1 & x & b1 & E1 & E2 & E3 & P1) (a2 & y & b2 & E4 & E5 & E6 & P2)], Tq as [(a3 & x' & b3 & E1' & E2' & E3' & Q1) (a4 & y' & b4 & E4' & E5' & E6' & Q2)].
  rewrite E2 in E2'. rewrite E5 in E5'. injection E1 as <-. injection E3 as <-. injection E4 as <-. injection E6 as <-. injection E1' as <-. injection E3' as <-. injection E4' as <-. injection E6' as <-.
  injection E2' as <-. injection E5' as <-.
  pose proof (nth_error_In _ _ Ea) as Ia. destruct a as [ai aj], b as [bi bj]. apply cells_in in Ia. cbn [fst snd] in *.
  assert (aj = bj) by (eapply cell_unique; [|exact P1|exact Q1]; apply step_pos; [assumption|lia]).
  assert (ai = bi) by (eapply cell_unique; [|exact P2|exact Q2]; apply step_pos; [assumption|lia]). subst bi bj.
  apply (proj1 (NoDup_nth_error (cells (Z.to_nat nx) (Z.to_nat ny))) (cells_nodup _ _)); [apply nth_error_Some; congruence|congruence].
Qed.

(** Edges. *)
Definition rounding (rd : R -> R) : Prop := (forall x y, x <= y -> rd x <= rd y) /\ rd 0 = 0.
Lemma lo_ge : forall rd lo hi n k, rounding rd -> rd lo = lo -> lo <= hi -> (0 < n)%nat -> lo <= lo_ rd lo hi n k.
Proof.
  intros rd lo hi n k [M Z] E H Hn. unfold lo_. rewrite <- E at 1. apply M.
  assert (A : forall x, 0 <= x -> 0 <= rd x) by (intros x Hx; rewrite <- Z; apply M; assumption).
  assert (0 <= rd (INR k * rd (rd (hi - lo) / INR n))); [|lra]. apply A. apply Rmult_le_pos; [apply pos_INR|]. apply A. apply Rmult_le_pos; [apply A; lra|]. left. apply Rinv_0_lt_compat. apply lt_0_INR. assumption.
Qed.
Lemma grid_edge : forall rd s nx ny per f g xmin xmax ymin ymax, rounding rd -> rd xmin = xmin -> rd ymin = ymin -> sorts s -> complete f ->
  least c_lon (f_rows f) xmin -> greatest c_lon (f_rows f) xmax -> least c_lat (f_rows f) ymin -> greatest c_lat (f_rows f) ymax ->
  limit_by_grid rd s nx ny per f = Ok g -> forall r, In r (f_rows g) -> In r (f_rows f) /\ exists x y, c_lon r = Some x /\ c_lat r = Some y /\ xmin < x /\ ymin < y.
Proof.
  intros rd s nx ny per f g xmin xmax ymin ymax Hrd Ex Ey Hs H Lx Gx Ly Gy E r Hr. rewrite (grid_eq _ _ _ _ _ _ _ _ _ _ _ H Lx Gx Ly Gy E) in Hr.
  assert (Bx : xmin <= xmax) by (destruct Lx as [(q & Hq & Eq) _]; destruct Gx as [_ G]; exact (G _ _ Hq Eq)).
  assert (By : ymin <= ymax) by (destruct Ly as [(q & Hq & Eq) _]; destruct Gy as [_ G]; exact (G _ _ Hq Eq)).
  apply in_flat_map in Hr as ([i j] & Hij & Hr). apply cells_in in Hij. cbn [fst snd] in Hr.
  destruct (keep_some s per Hs (filter (in_bounds (Some (lo_ rd xmin xmax (Z.to_nat nx) j)) (Some (hi_ rd xmin xmax (Z.to_nat nx) j)) (Some (lo_ rd ymin ymax (Z.to_nat ny) i)) (Some (hi_ rd ymin ymax (Z.to_nat ny) i))) (f_rows f))) as (d & Hp).
  assert (Hin : In r (filter (in_bounds (Some (lo_ rd xmin xmax (Z.to_nat nx) j)) (Some (hi_ rd xmin xmax (Z.to_nat nx) j)) (Some (lo_ rd ymin ymax (Z.to_nat ny) i)) (Some (hi_ rd ymin ymax (Z.to_nat ny) i))) (f_rows f))) by (eapply Permutation_in; [exact Hp|]; apply in_app_iff; left; exact Hr).
  apply filter_In in Hin as [Hin T]. split; [assumption|]. apply in_bounds_iff in T as [(a1 & x & b1 & E1 & E2 & E3 & P1) (a2 & y & b2 & E4 & E5 & E6 & P2)].
  injection E1 as <-. injection E4 as <-. exists x, y. split; [assumption|]. split; [assumption|].
  pose proof (lo_ge rd xmin xmax (Z.to_nat nx) j Hrd Ex Bx ltac:(lia)). pose proof (lo_ge rd ymin ymax (Z.to_nat ny) i Hrd Ey By ltac:(lia)). split; lra.
Qed.

(** All other cities are in a cell. *)
Lemma grid_all : forall s nx ny per f g xmin xmax ymin ymax, (0 < nx)%Z -> (0 < ny)%Z -> (Z.of_nat (List.length (f_rows f)) <= per)%Z -> sorts s -> complete f ->
  least c_lon (f_rows f) xmin -> greatest c_lon (f_rows f) xmax -> least c_lat (f_rows f) ymin -> greatest c_lat (f_rows f) ymax ->
  limit_by_grid id_ s nx ny per f = Ok g -> forall r x y, In r (f_rows f) -> c_lon r = Some x -> c_lat r = Some y -> xmin < x -> ymin < y -> In r (f_rows g).
Proof.
  intros s nx ny per f g xmin xmax ymin ymax Hnx Hny Hper Hs H Lx Gx Ly Gy E r x y Hr Ex Ey Px Py. rewrite (grid_eq _ _ _ _ _ _ _ _ _ _ _ H Lx Gx Ly Gy E).
  assert (Bx : x <= xmax) by (destruct Gx as [_ G]; exact (G _ _ Hr Ex)). assert (By : y <= ymax) by (destruct Gy as [_ G]; exact (G _ _ Hr Ey)).
  assert (F : forall lo hi n, (0 < n)%nat -> lo + INR n * ((hi - lo) / INR n) = hi) by (intros lo hi n Hn; field; apply not_0_INR; lia).
  destruct (cover1 xmin ((xmax - xmin) / INR (Z.to_nat nx)) (Z.to_nat nx) x Px) as (j & Hj & Rj); [rewrite F by lia; assumption|].
  destruct (cover1 ymin ((ymax - ymin) / INR (Z.to_nat ny)) (Z.to_nat ny) y Py) as (i & Hi & Ri); [rewrite F by lia; assumption|].
  apply in_flat_map. exists (i, j). split; [apply cells_in; auto|]. cbn [fst snd].
  set (inside := filter _ (f_rows f)). destruct (Hs inside) as [Hp _].
  assert (L : (List.length inside <= List.length (f_rows f))%nat) by (unfold inside; generalize (f_rows f); intro l; induction l as [|q l IH]; cbn; [lia|destruct in_bounds; cbn; lia]).
  unfold head_rows. destruct (per <? 0)%Z eqn:En; [lia|]. rewrite firstn_all2 by (rewrite (Permutation_length Hp); lia).
  eapply Permutation_in; [symmetry; exact Hp|]. unfold inside. apply filter_In. split; [assumption|]. apply in_bounds_iff. rewrite !lo_id, !hi_id. split.
  - exists (xmin + INR j * ((xmax - xmin) / INR (Z.to_nat nx))), x, (xmin + INR (S j) * ((xmax - xmin) / INR (Z.to_nat nx))). auto.
  - exists (ymin + INR i * ((ymax - ymin) / INR (Z.to_nat ny))), y, (ymin + INR (S i) * ((ymax - ymin) / INR (Z.to_nat ny))). auto.
Qed.

(** ** Witnesses in double arithmetic *)
Definition at_lat_lon (y x : R) : city := {| c_lat := Some y; c_lon := Some x; c_pop := Some 1000; c_other := fun _ => [] |}.
Definition p3 : R := IZR 5404319552844595 * bpow radix2 (-54).      (* 0.3 *)
Lemma rd_dbl : forall x m e, x = IZR m * bpow radix2 e -> (-1074 <= e)%Z -> (Z.abs m < 2 ^ 53)%Z -> rnd x = x.
Proof. intros x m e -> He Hm. apply rnd_id. apply double_F2R; assumption. Qed.
Lemma bp : forall k, (0 < k)%Z -> bpow radix2 (- k) = / IZR (2 ^ k).
Proof. intros k Hk. rewrite bpow_opp, <- (IZR_Zpower radix2) by lia. reflexivity. Qed.

(** Two cells over [-2, 0.3]. *)
Lemma y2_hi : hi_ rnd (-2) p3 2 1 < p3 /\ hi_ rnd (-2) p3 2 0 < p3.
Proof.
  assert (P52 : bpow radix2 (-52) = / 4503599627370496) by (exact (bp 52 eq_refl)).
  assert (P51 : bpow radix2 (-51) = / 2251799813685248) by (exact (bp 51 eq_refl)).
  assert (P54 : bpow radix2 (-54) = / 18014398509481984) by (exact (bp 54 eq_refl)).
  assert (D : rnd (p3 - -2) = 5179139571476070 * / 2251799813685248).
  { replace (p3 - -2) with (IZR 41433116571808563 * bpow radix2 (-54)) by (unfold p3; rewrite P54; field).
    rewrite (rnd_eval _ _ 3 5179139571476070) by (try lia; left; reflexivity). change (-54 + 3)%Z with (-51)%Z. rewrite P51. reflexivity. }
  assert (D2 : rnd (rnd (p3 - -2) / INR 2) = 5179139571476070 * / 4503599627370496).
  { rewrite D. replace (5179139571476070 * / 2251799813685248 / INR 2) with (5179139571476070 * / 4503599627370496) by (cbn; field).
    apply (rd_dbl _ 5179139571476070 (-52)); [rewrite P52; reflexivity|lia|reflexivity]. }
  assert (L1 : lo_ rnd (-2) p3 2 1 = -3828059683264922 * / 4503599627370496).
  { unfold lo_. rewrite D2. replace (INR 1 * (5179139571476070 * / 4503599627370496)) with (5179139571476070 * / 4503599627370496) by (cbn; ring).
    rewrite (rd_dbl (5179139571476070 * / 4503599627370496) 5179139571476070 (-52)) by (try lia; rewrite ?P52; reflexivity).
    replace (-2 + 5179139571476070 * / 4503599627370496) with (-3828059683264922 * / 4503599627370496) by field.
    apply (rd_dbl _ (-3828059683264922) (-52)); [rewrite P52; reflexivity|lia|reflexivity]. }
  assert (L0 : lo_ rnd (-2) p3 2 0 = -2).
  { unfold lo_. cbn [INR]. rewrite Rmult_0_l, rnd_0, Rplus_0_r. apply (rnd_int (-2)). lia. }
  unfold hi_. rewrite D2, L1, L0. unfold p3. rewrite P54. split.
  - replace (-3828059683264922 * / 4503599627370496 + 5179139571476070 * / 4503599627370496) with (1351079888211148 * / 4503599627370496) by field.
    rewrite (rd_dbl _ 1351079888211148 (-52)) by (try lia; rewrite ?P52; reflexivity). lra.
  - replace (-2 + 5179139571476070 * / 4503599627370496) with (-3828059683264922 * / 4503599627370496) by field.
    rewrite (rd_dbl _ (-3828059683264922) (-52)) by (try lia; rewrite ?P52; reflexivity). lra.
Qed.

(** Four cells over [-2, -1.6]. *)
Definition m16 : R := IZR (-7205759403792794) * bpow radix2 (-52).
Definition mv : R := IZR (-8106479329266892) * bpow radix2 (-52).
Lemma y4 : lo_ rnd (-2) m16 4 1 < mv <= hi_ rnd (-2) m16 4 1 /\ lo_ rnd (-2) m16 4 2 < mv <= hi_ rnd (-2) m16 4 2 /\ -2 < mv < m16.
Proof.
  assert (P52 : bpow radix2 (-52) = / 4503599627370496) by (exact (bp 52 eq_refl)).
  assert (P53 : bpow radix2 (-53) = / 9007199254740992) by (exact (bp 53 eq_refl)).
  assert (P54 : bpow radix2 (-54) = / 18014398509481984) by (exact (bp 54 eq_refl)).
  set (d := 1801439850948198 * / 18014398509481984).
  assert (D : rnd (rnd (m16 - -2) / INR 4) = d).
  { replace (m16 - -2) with (IZR 1801439850948198 * bpow radix2 (-52)) by (unfold m16; rewrite P52; field).
    rewrite (rd_dbl (IZR 1801439850948198 * bpow radix2 (-52)) 1801439850948198 (-52)) by (try lia; reflexivity). replace (1801439850948198 * bpow radix2 (-52) / INR 4) with d by (unfold d; rewrite P52; cbn; field).
    apply (rd_dbl _ 1801439850948198 (-54)); [unfold d; rewrite P54; reflexivity|lia|reflexivity]. }
  assert (L1 : lo_ rnd (-2) m16 4 1 = -8556839292003942 * / 4503599627370496).
  { unfold lo_. rewrite D. replace (INR 1 * d) with d by (cbn; ring). rewrite (rd_dbl d 1801439850948198 (-54)) by (try lia; unfold d; rewrite ?P54; reflexivity).
    replace (-2 + d) with (IZR (-34227357168015770) * bpow radix2 (-54)) by (unfold d; rewrite P54; field).
    rewrite (rnd_eval _ _ 2 (-8556839292003942)) by (try lia; right; split; reflexivity). change (-54 + 2)%Z with (-52)%Z. rewrite P52. reflexivity. }
  assert (L2 : lo_ rnd (-2) m16 4 2 = -8106479329266893 * / 4503599627370496).
  { unfold lo_. rewrite D. replace (INR 2 * d) with (IZR 1801439850948198 * bpow radix2 (-53)) by (unfold d; rewrite P53; cbn; field).
    rewrite (rd_dbl (IZR 1801439850948198 * bpow radix2 (-53)) 1801439850948198 (-53)) by (try lia; reflexivity).
    replace (-2 + 1801439850948198 * bpow radix2 (-53)) with (IZR (-8106479329266893) * bpow radix2 (-52)) by (rewrite P53, P52; field).
    rewrite (rd_dbl _ (-8106479329266893) (-52)) by (try lia; reflexivity). rewrite P52. reflexivity. }
  assert (H1 : hi_ rnd (-2) m16 4 1 = mv).
  { unfold hi_. rewrite L1, D. replace (-8556839292003942 * / 4503599627370496 + d) with (IZR (-32425917317067570) * bpow radix2 (-54)) by (unfold d; rewrite P54; field).
    rewrite (rnd_eval _ _ 2 (-8106479329266892)) by (try lia; right; split; reflexivity). reflexivity. }
  assert (H2 : mv <= hi_ rnd (-2) m16 4 2).
  { unfold hi_. rewrite L2, D. rewrite <- (rd_dbl mv (-8106479329266892) (-52)) by (try lia; reflexivity). apply rnd_le. unfold mv, d. rewrite P52. lra. }
  rewrite H1, L1, L2. unfold mv, m16 in *. rewrite P52 in *. lra.
Qed.
Lemma x1 : lo_ rnd 0 1 1 0 = 0 /\ hi_ rnd 0 1 1 0 = 1.
Proof.
  assert (E : rnd (rnd (1 - 0) / INR 1) = 1) by (cbn [INR]; rewrite Rminus_0_r; pose proof (rnd_int 1 ltac:(lia)) as E; unfold Rdiv; rewrite E, Rinv_1, Rmult_1_r; assumption).
  assert (L : lo_ rnd 0 1 1 0 = 0) by (unfold lo_; rewrite E; cbn [INR]; rewrite Rmult_0_l, rnd_0, Rplus_0_r; apply rnd_0).
  split; [assumption|]. unfold hi_. rewrite L, E, Rplus_0_l. apply (rnd_int 1). lia.
Qed.
