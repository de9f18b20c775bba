(** Proofs about HistoricTime. *)
From Coq Require Import ZArith String Ascii Bool List Lia.
From Verif Require Import PyBase TextSpec TextProofs HistoricModel HistoricSpec.
Import ListNotations.
Open Scope Z_scope.

(** ** Calendar *)
Lemma leapb_spec : forall y, leapb y = true <-> leap y.
Proof.
  intro y. unfold leapb, leap. rewrite orb_true_iff, andb_true_iff, negb_true_iff, !Z.eqb_eq, Z.eqb_neq.
  rewrite !Z.mod_divide by lia. split.
  - intros [H|[H1 H2]]; split; auto. apply Z.divide_trans with 400; [exists 100; reflexivity|assumption].
  - intros [H1 [H2|H2]]; auto.
Qed.

Lemma py_leap_leapb : forall y, py_leap y = leapb y.
Proof.
  intro y. unfold py_leap, leapb.
  destruct (y mod 4 =? 0) eqn:E1; destruct (y mod 100 =? 0) eqn:E2; destruct (y mod 400 =? 0) eqn:E3;
    try reflexivity; exfalso; Z.to_euclidean_division_equations; lia.
Qed.

Lemma py_days_in_month_length : forall y m, 1 <= m <= 12 -> py_days_in_month y m = month_length y m.
Proof.
  intros y m Hm. unfold py_days_in_month, month_length. rewrite py_leap_leapb.
  assert (E : m = 1 \/ m = 2 \/ m = 3 \/ m = 4 \/ m = 5 \/ m = 6 \/ m = 7 \/ m = 8 \/ m = 9 \/ m = 10 \/ m = 11 \/ m = 12) by lia.
  repeat (destruct E as [->|E]; [reflexivity|]). subst. reflexivity.
Qed.

Lemma leapb_cycle : forall y k, leapb (y + k * 400) = leapb y.
Proof.
  intros y k. unfold leapb.
  rewrite (Z.mod_add y k 400) by lia.
  replace (y + k * 400) with (y + (k * 100) * 4) at 1 by ring. rewrite Z.mod_add by lia.
  replace (y + k * 400) with (y + (k * 4) * 100) by ring. rewrite Z.mod_add by lia. reflexivity.
Qed.

Lemma month_length_cycle : forall y k m, month_length (y + k * 400) m = month_length y m.
Proof. intros. unfold month_length. rewrite leapb_cycle. reflexivity. Qed.

Lemma days_before_month_cycle : forall y k m, days_before_month (y + k * 400) m = days_before_month y m.
Proof.
  intros. unfold days_before_month. generalize 0. generalize (seq 1 (Z.to_nat (m - 1))).
  induction l as [|x l IH]; intro a; simpl; [reflexivity|]. rewrite month_length_cycle. apply IH.
Qed.

Lemma days_before_year_cycle : forall y k, days_before_year (y + k * 400) = days_before_year y + k * 146097.
Proof.
  intros y k. unfold days_before_year.
  replace ((y + k * 400 - 1) / 4) with ((y - 1) / 4 + k * 100)
    by (rewrite <- Z.div_add by lia; f_equal; ring).
  replace ((y + k * 400 - 1) / 100) with ((y - 1) / 100 + k * 4)
    by (rewrite <- Z.div_add by lia; f_equal; ring).
  replace ((y + k * 400 - 1) / 400) with ((y - 1) / 400 + k)
    by (rewrite <- Z.div_add by lia; f_equal; ring). ring.
Qed.

Definition shift_year (d : dt) (k : Z) : dt :=
  {| year := year d + k * 400; month := month d; day := day d; tod := tod d |}.

Lemma day_of_year_cycle : forall d k, day_of_year (shift_year d k) = day_of_year d.
Proof. intros. unfold day_of_year. cbn [year month day shift_year]. rewrite days_before_month_cycle. reflexivity. Qed.

Lemma weekday_cycle : forall d k, weekday (shift_year d k) = weekday d.
Proof.
  intros. unfold weekday, ordinal. rewrite day_of_year_cycle. cbn [year shift_year].
  rewrite days_before_year_cycle.
  replace (days_before_year (year d) + k * 146097 + day_of_year d - 1)
    with (days_before_year (year d) + day_of_year d - 1 + (k * 20871) * 7) by ring.
  apply Z.mod_add. lia.
Qed.

(** The ordinal counts days: consecutive dates have consecutive ordinals. *)
Lemma ordinal_next_year : forall y, days_before_year (y + 1) = days_before_year y + (if leapb y then 366 else 365).
Proof.
  intro y. unfold days_before_year, leapb. replace (y + 1 - 1) with y by ring.
  destruct (y mod 400 =? 0) eqn:E3; destruct (y mod 4 =? 0) eqn:E1; destruct (y mod 100 =? 0) eqn:E2; simpl;
    Z.to_euclidean_division_equations; lia.
Qed.

Definition cycles (y : Z) : Z := (1900 - y - 1) / 400 + 1.

Lemma future_range : forall y, y < 1900 -> 1900 <= y + cycles y * 400 < 2300 /\ 1 <= cycles y.
Proof. intros y H. unfold cycles. Z.to_euclidean_division_equations; lia. Qed.

Lemma future_1900 : forall y, y < 1900 -> (y + cycles y * 400 = 1900 <-> y mod 400 = 300).
Proof. intros y H. unfold cycles. Z.to_euclidean_division_equations; lia. Qed.

Lemma replace_year_ok : forall d k, valid_date d -> 1 <= year d + k * 400 <= 9999 ->
  replace_year d (year d + k * 400) = Ok (shift_year d k).
Proof.
  intros d k (Hy & Hm & Hd) Hr. unfold replace_year.
  rewrite py_days_in_month_length by assumption. rewrite month_length_cycle.
  destruct (1 <=? year d + k * 400) eqn:E1; [|lia]. destruct (year d + k * 400 <=? 9999) eqn:E2; [|lia].
  destruct (1 <=? day d) eqn:E3; [|lia]. destruct (day d <=? month_length (year d) (month d)) eqn:E4; [|lia].
  reflexivity.
Qed.

Lemma mod100_cycle : forall y k, (y + k * 400) mod 100 = y mod 100.
Proof. intros. replace (y + k * 400) with (y + (k * 4) * 100) by ring. apply Z.mod_add. lia. Qed.

Lemma historic_modern : forall sup d f, 1900 <= year d -> historic_strftime sup d f = sup d f.
Proof. intros sup d f H. unfold historic_strftime. destruct (1900 <=? year d) eqn:E; [reflexivity|lia]. Qed.

Lemma historic_assert : forall sup d f, year d < 1900 -> year d mod 400 = 300 ->
  historic_strftime sup d f = Err AssertionError.
Proof.
  intros sup d f H H3. unfold historic_strftime. destruct (1900 <=? year d) eqn:E; [lia|].
  fold (cycles (year d)). apply future_1900 in H3; [|assumption]. rewrite H3. reflexivity.
Qed.

Definition unreliable (f : str) : bool := ispresent_in (chr 99) f || ispresent_in (chr 120) f.

Lemma historic_ancient : forall sup d f, valid_date d -> year d < 1900 -> year d mod 400 <> 300 ->
  let k := cycles (year d) in
  let f' := replace_in f (str_of_Z (year d)) in
  historic_strftime sup d f =
    bind (sup (shift_year d k) f') (fun r => if unreliable f' then Err NameErr else Ok r).
Proof.
  intros sup d f Hv H H3 k f'. unfold historic_strftime. destruct (1900 <=? year d) eqn:E; [lia|].
  fold (cycles (year d)). fold k.
  pose proof (future_range (year d) H) as Hr. fold k in Hr.
  pose proof (future_1900 (year d) H) as Hn. fold k in Hn.
  destruct (1900 <? year d + k * 400) eqn:E1; [|lia]. cbn [negb].
  fold f'. rewrite replace_year_ok by (try assumption; lia). cbn [bind].
  cbn [year shift_year]. destruct (1900 <=? year d + k * 400) eqn:E2; [|lia].
  destruct (sup (shift_year d k) f') as [r|e]; cbn [bind]; [|reflexivity].
  fold (unreliable f'). destruct (unreliable f'); [reflexivity|].
  rewrite mod100_cycle, Z.eqb_refl. reflexivity.
Qed.

(** C10: the replacement year. *)
Lemma historic_equivalent_year : forall sup d f, valid_date d -> year d < 1900 -> year d mod 400 <> 300 ->
  exists d', historic_strftime sup d f =
      bind (sup d' (replace_in f (str_of_Z (year d))))
           (fun r => if unreliable (replace_in f (str_of_Z (year d))) then Err NameErr else Ok r) /\
    1900 < year d' < 2300 /\ valid_date d' /\
    month d' = month d /\ day d' = day d /\ tod d' = tod d /\
    weekday d' = weekday d /\ day_of_year d' = day_of_year d /\
    leapb (year d') = leapb (year d) /\ year d' mod 100 = year d mod 100.
Proof.
  intros sup d f Hv H H3. exists (shift_year d (cycles (year d))).
  split; [apply historic_ancient; assumption|].
  pose proof (future_range (year d) H) as Hr. pose proof (future_1900 (year d) H) as Hn.
  repeat split; try reflexivity; cbn [year month day tod shift_year]; try lia.
  - destruct Hv as (_ & Hm & _). lia.
  - destruct Hv as (_ & Hm & _). lia.
  - destruct Hv as (_ & _ & Hd). lia.
  - rewrite month_length_cycle. destruct Hv as (_ & _ & Hd). lia.
  - apply weekday_cycle.
  - apply day_of_year_cycle.
  - apply leapb_cycle.
  - apply mod100_cycle.
Qed.

(** ** Format strings *)
Lemma tokenize_pairs : forall n s, tokenize (repeat pct (2 * n) ++ s) = repeat (TDir pct) n ++ tokenize s.
Proof.
  induction n as [|n IH]; intro s; [reflexivity|].
  replace (2 * S n)%nat with (S (S (2 * n))) by lia. cbn [repeat app tokenize].
  rewrite Ascii.eqb_refl. rewrite IH. reflexivity.
Qed.

Lemma tokenize_lits : forall y s, no_pct y -> tokenize (y ++ s) = map TLit y ++ tokenize s.
Proof.
  induction y as [|c y IH]; intros s H; [reflexivity|]. cbn [app tokenize map].
  destruct (Ascii.eqb_spec c (chr 37)) as [->|Hc].
  - exfalso. apply H. left. reflexivity.
  - rewrite IH; [reflexivity|]. intro Hi. apply H. right. assumption.
Qed.

Lemma subst_pairs : forall y n l, flat_map (subst_year y) (repeat (TDir pct) n ++ l) =
  repeat (TDir pct) n ++ flat_map (subst_year y) l.
Proof. induction n as [|n IH]; intro l; [reflexivity|]. simpl. rewrite IH. reflexivity. Qed.

Lemma repeat_snoc : forall (n : nat) (s : str), repeat pct n ++ pct :: s = repeat pct (S n) ++ s.
Proof. induction n as [|n IH]; intro s; [reflexivity|]. simpl. rewrite IH. reflexivity. Qed.

Lemma odd_split : forall n, if Nat.odd n then exists m, n = S (2 * m) else exists m, n = (2 * m)%nat.
Proof.
  intro n. destruct (Nat.odd n) eqn:E.
  - apply Nat.odd_spec in E. destruct E as (m & ->). exists m. lia.
  - assert (He : Nat.even n = true) by (rewrite <- Nat.negb_odd, E; reflexivity).
    apply Nat.even_spec in He. destruct He as (m & ->). exists m. lia.
Qed.

Lemma replace_run_tokens : forall y s n, no_pct y ->
  tokenize (replace_run y n s) = flat_map (subst_year y) (tokenize (repeat pct n ++ s)).
Proof.
  intros y s. induction s as [|c s IH]; intros n Hy.
  - cbn [replace_run]. rewrite app_nil_r. pose proof (odd_split n) as Ho.
    destruct (Nat.odd n); destruct Ho as (m & ->).
    + replace (S (2 * m)) with (2 * m + 1)%nat by lia. rewrite repeat_app. cbn [repeat].
      rewrite tokenize_pairs, subst_pairs. reflexivity.
    + rewrite <- (app_nil_r (repeat pct (2 * m))). rewrite tokenize_pairs, subst_pairs. reflexivity.
  - cbn [replace_run]. destruct (Ascii.eqb_spec c pct) as [->|Hc].
    + rewrite IH by assumption. rewrite repeat_snoc. reflexivity.
    + assert (Hgen : forall t, tokenize t = flat_map (subst_year y) (tokenize s) ->
                (Ascii.eqb c chY && (0 <? n)%nat && Nat.odd n)%bool = false ->
                tokenize (repeat pct n ++ c :: t) = flat_map (subst_year y) (tokenize (repeat pct n ++ c :: s))).
      { intros t Ht Hnot. pose proof (odd_split n) as Ho. destruct (Nat.odd n) eqn:En; destruct Ho as (m & ->).
        - replace (S (2 * m)) with (2 * m + 1)%nat by lia. rewrite repeat_app. cbn [repeat].
          rewrite <- !app_assoc. rewrite !tokenize_pairs, subst_pairs. cbn [app tokenize].
          rewrite Ascii.eqb_refl. cbn [flat_map subst_year].
          replace (0 <? S (2 * m))%nat with true in Hnot by reflexivity. rewrite !andb_true_r in Hnot.
          change (chr 89) with chY. rewrite Hnot. rewrite Ht. reflexivity.
        - rewrite !tokenize_pairs, subst_pairs. cbn [tokenize].
          destruct (Ascii.eqb_spec c (chr 37)) as [->|_]; [exfalso; apply Hc; reflexivity|].
          cbn [flat_map subst_year app]. rewrite Ht. reflexivity. }
      destruct (Ascii.eqb c chY && (0 <? n)%nat) eqn:E1.
      * destruct (Nat.odd n) eqn:En.
        -- pose proof (odd_split n) as Ho. rewrite En in Ho. destruct Ho as (m & ->).
           replace (S (2 * m) - 1)%nat with (2 * m)%nat by lia.
           rewrite tokenize_pairs, tokenize_lits by assumption. rewrite IH by assumption.
           replace (S (2 * m)) with (2 * m + 1)%nat by lia. rewrite repeat_app. cbn [repeat].
           rewrite <- app_assoc. rewrite tokenize_pairs, subst_pairs. cbn [app tokenize].
           rewrite Ascii.eqb_refl. cbn [flat_map subst_year].
           apply andb_prop in E1. destruct E1 as [E1 _]. change (chr 89) with chY. rewrite E1. reflexivity.
        -- apply Hgen; [apply IH; assumption|]. rewrite ?E1. reflexivity.
      * apply Hgen; [apply IH; assumption|]. rewrite ?E1. reflexivity.
Qed.

Lemma replace_in_tokens : forall y f, no_pct y ->
  tokenize (replace_in f y) = flat_map (subst_year y) (tokenize f).
Proof. intros y f Hy. unfold replace_in. rewrite replace_run_tokens by assumption. reflexivity. Qed.

Fixpoint untokenize (l : list token) : str :=
  match l with
  | [] => []
  | TLit c :: l' => c :: untokenize l'
  | TDir c :: l' => pct :: c :: untokenize l'
  | TDangling :: l' => pct :: untokenize l'
  end.

Lemma untokenize_tokenize : forall n s, (List.length s <= n)%nat -> untokenize (tokenize s) = s.
Proof.
  induction n as [|n IH]; intros [|c s] H; simpl in *; try reflexivity; try lia.
  change (ascii_eqb c (chr 37)) with (ascii_eqb c pct).
  destruct (Ascii.eqb_spec c (chr 37)) as [->|Hc].
  - destruct s as [|d s]; [reflexivity|]. simpl in *. rewrite IH by lia. reflexivity.
  - simpl. rewrite IH by lia. reflexivity.
Qed.

Lemma replace_in_unchanged : forall y f, no_pct y -> ~ In (TDir chY) (tokenize f) -> replace_in f y = f.
Proof.
  intros y f Hy Hn.
  rewrite <- (untokenize_tokenize (List.length (replace_in f y)) (replace_in f y)) by lia.
  rewrite <- (untokenize_tokenize (List.length f) f) at 2 by lia.
  rewrite replace_in_tokens by assumption. f_equal.
  induction (tokenize f) as [|t l IH]; [reflexivity|]. simpl. rewrite IH.
  - destruct t; try reflexivity. simpl. change (chr 89) with chY.
    destruct (Ascii.eqb_spec c chY) as [->|]; [exfalso; apply Hn; left; reflexivity|reflexivity].
  - intro Hi. apply Hn. right. assumption.
Qed.

Lemma digits_no_pct : forall n, 0 <= n -> no_pct (str_of_Z n).
Proof.
  intros n Hn Hi. destruct (str_of_Z_nonneg n Hn) as (Hd & _). unfold all_digits in Hd. rewrite Forall_forall in Hd.
  specialize (Hd _ Hi). discriminate.
Qed.

(** Putting it together: a token-wise strftime. *)
Lemma historic_sem : forall render dang d f,
  valid_date d -> year d < 1900 -> year d mod 400 <> 300 ->
  (forall c, In (TDir c) (tokenize f) -> c <> chY -> cycle_directive render c) ->
  unreliable (replace_in f (str_of_Z (year d))) = false ->
  historic_strftime (strftime_sem render dang) d f =
  strftime_sem (fun c x => if Ascii.eqb c chY then str_of_Z (year x) else render c x) dang d f.
Proof.
  intros render dang d f Hv H H3 Hc Hu. rewrite historic_ancient by assumption.
  unfold strftime_sem at 1. cbn [bind]. cbv zeta. rewrite Hu. unfold strftime_sem. f_equal.
  rewrite replace_in_tokens by (apply digits_no_pct; destruct Hv; lia).
  set (k := cycles (year d)).
  induction (tokenize f) as [|t l IH]; [reflexivity|]. simpl. rewrite flat_map_app. rewrite IH.
  2:{ intros c Hi. apply Hc. right. assumption. }
  f_equal. destruct t as [c|c|]; simpl; [reflexivity| |rewrite app_nil_r; reflexivity].
  change (chr 89) with chY.
  destruct (Ascii.eqb_spec c chY) as [->|Hn].
  - generalize (str_of_Z (year d)). induction s as [|x s IHs]; [reflexivity|]. simpl. rewrite IHs. reflexivity.
  - cbn [flat_map render_token]. rewrite app_nil_r. apply (Hc c); [left; reflexivity|assumption|..]; try reflexivity.
    + apply weekday_cycle.
    + apply day_of_year_cycle.
    + apply leapb_cycle.
    + apply mod100_cycle.
Qed.

Lemma present_run_token : forall x s n, x <> pct ->
  present_run x n s = true -> In (TDir x) (tokenize (repeat pct n ++ s)).
Proof.
  intros x s. induction s as [|c s IH]; intros n Hx H; [discriminate|].
  cbn [present_run] in H. destruct (Ascii.eqb_spec c pct) as [->|Hc].
  - rewrite repeat_snoc. apply IH; assumption.
  - destruct (Ascii.eqb c x && (0 <? n)%nat) eqn:E.
    + apply andb_prop in E. destruct E as [E _]. apply Ascii.eqb_eq in E. subst c.
      pose proof (odd_split n) as Ho. rewrite H in Ho. destruct Ho as (m & ->).
      replace (S (2 * m)) with (2 * m + 1)%nat by lia. rewrite repeat_app. rewrite <- app_assoc, tokenize_pairs.
      apply in_or_app. right. cbn [repeat app tokenize]. rewrite Ascii.eqb_refl. left. reflexivity.
    + specialize (IH 0%nat Hx H). cbn [repeat app] in IH.
      pose proof (odd_split n) as Ho. destruct (Nat.odd n); destruct Ho as (m & ->).
      * replace (S (2 * m)) with (2 * m + 1)%nat by lia. rewrite repeat_app. rewrite <- app_assoc, tokenize_pairs.
        apply in_or_app. right. cbn [repeat app tokenize]. rewrite Ascii.eqb_refl. right. assumption.
      * rewrite tokenize_pairs. apply in_or_app. right. cbn [tokenize].
        destruct (Ascii.eqb_spec c (chr 37)) as [->|_]; [exfalso; apply Hc; reflexivity|]. right. assumption.
Qed.

Lemma not_unreliable : forall f y, no_pct y ->
  ~ In (TDir (chr 99)) (tokenize f) -> ~ In (TDir (chr 120)) (tokenize f) ->
  unreliable (replace_in f y) = false.
Proof.
  intros f y Hy H1 H2.
  assert (Hs : forall x, x <> chY -> In (TDir x) (flat_map (subst_year y) (tokenize f)) -> In (TDir x) (tokenize f)).
  { intros x Hx Hi. apply in_flat_map in Hi. destruct Hi as (t & Ht & Hi).
    destruct t as [c|c|]; simpl in Hi.
    - destruct Hi as [E|[]]. discriminate.
    - destruct (Ascii.eqb c (chr 89)).
      + apply in_map_iff in Hi. destruct Hi as (z & Hz & _). discriminate.
      + destruct Hi as [E|[]]. inversion E. subst. assumption.
    - destruct Hi as [E|[]]. discriminate. }
  unfold unreliable. apply orb_false_iff. split; apply not_true_is_false; intro Hp;
    apply present_run_token in Hp; try discriminate; cbn [repeat app] in Hp;
    rewrite replace_in_tokens in Hp by assumption; apply Hs in Hp; try discriminate; auto.
Qed.

Lemma historic_sem_plain : forall render dang d f,
  valid_date d -> year d < 1900 -> year d mod 400 <> 300 ->
  ~ In (TDir (chr 99)) (tokenize f) -> ~ In (TDir (chr 120)) (tokenize f) ->
  (forall c, In (TDir c) (tokenize f) -> c <> chr 89 -> cycle_directive render c) ->
  historic_strftime (strftime_sem render dang) d f =
  strftime_sem (fun c x => if Ascii.eqb c (chr 89) then str_of_Z (year x) else render c x) dang d f.
Proof.
  intros render dang d f Hv H H3 H1 H2 Hc. apply historic_sem; auto.
  apply not_unreliable; auto. apply digits_no_pct. destruct Hv; lia.
Qed.

(** The replacement year, for formats without %c and %x. *)
Lemma historic_equivalent_plain : forall sup d f, valid_date d -> year d < 1900 -> year d mod 400 <> 300 ->
  ~ In (TDir (chr 99)) (tokenize f) -> ~ In (TDir (chr 120)) (tokenize f) ->
  exists d' f', historic_strftime sup d f = sup d' f' /\
    tokenize f' = flat_map (subst_year (str_of_Z (year d))) (tokenize f) /\
    1900 < year d' < 2300 /\ valid_date d' /\
    month d' = month d /\ day d' = day d /\ tod d' = tod d /\
    weekday d' = weekday d /\ day_of_year d' = day_of_year d /\
    (leap (year d') <-> leap (year d)) /\ year d' mod 100 = year d mod 100.
Proof.
  intros sup d f Hv H H3 H1 H2.
  destruct (historic_equivalent_year sup d f Hv H H3) as (d' & He & Hrest).
  assert (Hp : no_pct (str_of_Z (year d))) by (apply digits_no_pct; destruct Hv; lia).
  exists d', (replace_in f (str_of_Z (year d))). split.
  - rewrite He. rewrite (not_unreliable f) by auto. destruct (sup d' _); reflexivity.
  - split; [apply replace_in_tokens; assumption|]. rewrite <- !leapb_spec. intuition congruence.
Qed.


(** Locale date formats fail with NameError. *)
Lemma replace_run_prefix : forall y pre s, no_pct pre -> replace_run y 0 (pre ++ s) = pre ++ replace_run y 0 s.
Proof.
  induction pre as [|c pre IH]; intros s H; [reflexivity|]. cbn [app replace_run].
  destruct (Ascii.eqb_spec c pct) as [->|]; [exfalso; apply H; left; reflexivity|].
  replace (0 <? 0)%nat with false by reflexivity. rewrite andb_false_r. cbn [repeat app]. rewrite IH; [reflexivity|].
  intro Hi. apply H. right. assumption.
Qed.

Lemma present_prefix : forall x pre s, no_pct pre -> present_run x 0 (pre ++ s) = present_run x 0 s.
Proof.
  induction pre as [|c pre IH]; intros s H; [reflexivity|]. cbn [app present_run].
  destruct (Ascii.eqb_spec c pct) as [->|]; [exfalso; apply H; left; reflexivity|].
  replace (0 <? 0)%nat with false by reflexivity. rewrite andb_false_r. apply IH.
  intro Hi. apply H. right. assumption.
Qed.

Lemma historic_locale : forall sup d pre post x,
  valid_date d -> year d < 1900 -> year d mod 400 <> 300 -> no_pct pre -> x = chr 99 \/ x = chr 120 ->
  (forall d' f', exists r, sup d' f' = Ok r) ->
  historic_strftime sup d (pre ++ chr 37 :: x :: post) = Err NameErr.
Proof.
  intros sup d pre post x Hv H H3 Hp Hx Hs. rewrite historic_ancient by assumption. cbv zeta.
  destruct (Hs (shift_year d (cycles (year d))) (replace_in (pre ++ chr 37 :: x :: post) (str_of_Z (year d)))) as (r & ->).
  cbn [bind]. unfold unreliable, replace_in, ispresent_in.
  rewrite replace_run_prefix by assumption. rewrite !present_prefix by assumption.
  destruct Hx as [-> | ->]; [reflexivity|].
  replace (present_run (chr 120) 0 _) with true by reflexivity. rewrite orb_true_r. reflexivity.
Qed.
