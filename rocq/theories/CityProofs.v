From Coq Require Import ZArith Reals String Ascii Bool List Lia Lra Permutation Sorted.
From Verif Require Import PyBase PyStr FloatBase FloatEval CityModel CitySpec.
Import ListNotations.
Open Scope R_scope.

Lemma selects_filter : forall P (b : city -> bool) l, (forall r, b r = true <-> P r) -> selects P l (filter b l).
Proof.
  intros P b l H. induction l as [|r l IH]; cbn [filter]; [constructor|]. destruct (b r) eqn:E; constructor; try assumption; [apply H; assumption|].
  intro C. apply H in C. congruence.
Qed.
Lemma col_in_iff : forall c l, col_in c l = true <-> In c l.
Proof.
  intros c l. unfold col_in. rewrite existsb_exists. split.
  - intros (x & Hx & E). destruct (str_eqb_spec c x); [subst; assumption|discriminate].
  - intro H. exists c. split; [assumption|apply str_eqb_refl].
Qed.
Lemma make_ok : forall f, complete f -> make f = Ok f.
Proof.
  intros f (A & B & C). apply col_in_iff in A, B, C. unfold make, reqfields. cbn [map filter]. rewrite A, B, C. reflexivity.
Qed.
Lemma make_err : forall f, ~ complete f -> make f = Err KeyError.
Proof.
  intros f H. unfold make, reqfields. cbn [map filter].
  destruct (col_in (str_of "name") (f_cols f)) eqn:A, (col_in (str_of "lat") (f_cols f)) eqn:B, (col_in (str_of "lon") (f_cols f)) eqn:C; try reflexivity.
  exfalso. apply H. repeat split; apply col_in_iff; assumption.
Qed.
Lemma make_inv : forall f g, make f = Ok g -> g = f /\ complete f.
Proof.
  intros f g H.
  assert (D : complete f \/ ~ complete f).
  { destruct (col_in (str_of "name") (f_cols f)) eqn:A, (col_in (str_of "lat") (f_cols f)) eqn:B, (col_in (str_of "lon") (f_cols f)) eqn:C;
      try (left; repeat split; apply col_in_iff; assumption); right; intros (X & Y & Z); apply col_in_iff in X, Y, Z; congruence. }
  destruct D as [D|D]; [rewrite make_ok in H by assumption; injection H as <-; auto|rewrite make_err in H by assumption; discriminate].
Qed.

Lemma flt_iff : forall a b, flt a b = true <-> exists x y, a = Some x /\ b = Some y /\ x < y.
Proof.
  intros [x|] [y|]; cbn; try (split; [discriminate|intros (? & ? & ? & ? & _); discriminate]). destruct (Rlt_dec x y); split; intro H; try discriminate; try reflexivity; [eauto|].
  destruct H as (x' & y' & E1 & E2 & H). injection E1 as <-. injection E2 as <-. contradiction.
Qed.
Lemma fle_iff : forall a b, fle a b = true <-> at_most a b.
Proof.
  unfold at_most. intros [x|] [y|]; cbn; try (split; [discriminate|intros (? & ? & ? & ? & _); discriminate]). destruct (Rle_dec x y); split; intro H; try discriminate; try reflexivity; [eauto|].
  destruct H as (x' & y' & E1 & E2 & H). injection E1 as <-. injection E2 as <-. contradiction.
Qed.
Lemma within_iff : forall lo v hi, (flt lo v && fle v hi)%bool = true <-> within lo v hi.
Proof.
  intros lo v hi. rewrite andb_true_iff, flt_iff, fle_iff. unfold at_most, within. split.
  - intros [(a & x & -> & -> & H) (x' & b & E & -> & H')]. injection E as <-. exists a, x, b. auto.
  - intros (a & x & b & -> & -> & -> & H1 & H2). split; [exists a, x; auto|exists x, b; auto].
Qed.
Lemma in_bounds_iff : forall a b c d r, in_bounds a b c d r = true <-> within a (c_lon r) b /\ within c (c_lat r) d.
Proof.
  intros a b c d r. unfold in_bounds. rewrite <- !within_iff, !andb_true_iff. tauto.
Qed.

(** Each call as one filter. *)
Definition test (o : fcall) : city -> bool :=
  match o with
  | ByBounds a b c d => in_bounds a b c d
  | ByRadius d rad => fun r => fle (d r) rad
  | ByPopulation p _ => fun r => fle p (c_pop r)
  | ByName m => fun r => m (c_other r (str_of "name"))
  end.
Definition refuse (o : fcall) (f : frame) : option exn :=
  match o with
  | ByPopulation p m => if negb (col_in (str_of "pop") (f_cols f)) then Some KeyError else if fle p m then Some ValueError else None
  | _ => None
  end.
Definition ncols (o : fcall) (l : list str) : list str :=
  match o with ByRadius _ _ => filter (fun c => negb (str_eqb (str_of "dist") c)) l | _ => l end.
Lemma test_iff : forall o r, test o r = true <-> keeps o r.
Proof. intros [a b c d|d rad|p m|m] r; cbn [test keeps]; [apply in_bounds_iff|apply fle_iff|apply fle_iff|tauto]. Qed.
Lemma ncols_in : forall o l c, In c (ncols o l) <-> In c l /\ (forall d r, o = ByRadius d r -> c <> str_of "dist").
Proof.
  intros o l c. destruct o; cbn [ncols]; try (split; [intro; split; [assumption|discriminate]|tauto]). rewrite filter_In. split.
  - intros [H E]. split; [assumption|]. intros _ _ _ ->. rewrite str_eqb_refl in E. discriminate.
  - intros [H E]. split; [assumption|]. specialize (E dist radius eq_refl). destruct (str_eqb_spec (str_of "dist") c); [congruence|reflexivity].
Qed.
Lemma ncols_complete : forall o f rows, complete f -> complete {| f_cols := ncols o (f_cols f); f_rows := rows |}.
Proof. intros o f rows (A & B & C). unfold complete. cbn [f_cols]. rewrite !ncols_in. repeat split; try assumption; intros; vm_compute; discriminate. Qed.
Lemma fapply_eq : forall o f, complete f -> fapply o f =
  match refuse o f with Some e => Err e | None => Ok {| f_cols := ncols o (f_cols f); f_rows := filter (test o) (f_rows f) |} end.
Proof.
  intros o f H. destruct o as [a b c d|d rad|p m|m]; cbn [fapply refuse].
  - unfold limit_by_bounds. rewrite make_ok by exact (ncols_complete (ByBounds a b c d) f _ H). reflexivity.
  - unfold limit_by_radius. rewrite make_ok by exact (ncols_complete (ByRadius d rad) f _ H). reflexivity.
  - unfold limit_by_population. destruct (negb (col_in (str_of "pop") (f_cols f))); [reflexivity|]. destruct (fle p m); [reflexivity|].
    rewrite make_ok by exact (ncols_complete (ByPopulation p m) f _ H). reflexivity.
  - unfold limit_by_name. rewrite make_ok by exact (ncols_complete (ByName m) f _ H). reflexivity.
Qed.
Lemma refuse_cols : forall o o' cols rows rows', refuse o {| f_cols := ncols o' cols; f_rows := rows |} = refuse o {| f_cols := cols; f_rows := rows' |}.
Proof.
  intros o o' cols rows rows'. destruct o; cbn [refuse f_cols]; try reflexivity.
  replace (col_in (str_of "pop") (ncols o' cols)) with (col_in (str_of "pop") cols); [reflexivity|].
  apply eq_true_iff_eq. rewrite !col_in_iff, ncols_in. split; [intro H; split; [assumption|intros; vm_compute; discriminate]|tauto].
Qed.
Lemma filter_filter : forall {A} (p q : A -> bool) l, filter p (filter q l) = filter (fun x => q x && p x)%bool l.
Proof.
  intros A p q l. induction l as [|x l IH]; [reflexivity|]. cbn [filter]. destruct (q x) eqn:E; cbn [filter andb]; [destruct (p x); rewrite IH; reflexivity|assumption].
Qed.
Lemma ncols_comm : forall o o' l, ncols o (ncols o' l) = ncols o' (ncols o l).
Proof. intros [] []; intro l; cbn [ncols]; reflexivity. Qed.
Lemma ncols_idem : forall o l, ncols o (ncols o l) = ncols o l.
Proof. intros [] l; cbn [ncols]; try reflexivity. rewrite filter_filter. apply filter_ext. intro c. destruct (str_eqb (str_of "dist") c); reflexivity. Qed.
Lemma fapply_comm : forall o o' f, complete f ->
  match fapply o f, fapply o' f with
  | Ok g, Ok g' => fapply o' g = fapply o g'
  | _, _ => True
  end.
Proof.
  intros o o' f H. rewrite !fapply_eq by assumption. destruct (refuse o f) eqn:E; [exact I|]. destruct (refuse o' f) eqn:E'; [exact I|].
  rewrite !fapply_eq by (apply ncols_complete; assumption). destruct f as [cols rows]. cbn [f_cols f_rows] in *.
  rewrite (refuse_cols o' o cols _ rows), (refuse_cols o o' cols _ rows), E, E'. f_equal. f_equal; [apply ncols_comm|].
  rewrite !filter_filter. apply filter_ext. intro r. apply andb_comm.
Qed.
Lemma fapply_all_sel : forall l f g, complete f -> fapply_all l f = Ok g ->
  complete g /\ selects (fun r => Forall (fun o => keeps o r) l) (f_rows f) (f_rows g).
Proof.
  intros l f g H E.
  assert (G : complete g /\ f_rows g = filter (fun r => forallb (fun o => test o r) l) (f_rows f)).
  { revert f H E. induction l as [|o l IH]; intros f H E; cbn [fapply_all] in E.
    - injection E as <-. split; [assumption|]. cbn [forallb]. induction (f_rows f) as [|r rows IHr]; [reflexivity|]. cbn [filter]. rewrite <- IHr. reflexivity.
    - rewrite fapply_eq in E by assumption. destruct (refuse o f); [discriminate|]. apply IH in E as [E1 E2]; [|apply ncols_complete; assumption].
      split; [assumption|]. rewrite E2. cbn [f_rows forallb]. apply filter_filter. }
  destruct G as [G1 ->]. split; [assumption|]. apply selects_filter. intro r. rewrite forallb_forall, Forall_forall. split; intros A o Ho; apply test_iff; auto.
Qed.

(** ** Grid *)
Lemma series_min_spec : forall v l m, series_min (map v l) = Some m -> least v l m.
Proof.
  intros v l. induction l as [|r l IH]; intros m H; [discriminate|]. cbn [map series_min] in H. destruct (v r) as [x|] eqn:E.
  - destruct (series_min (map v l)) as [y|] eqn:E'.
    + injection H as <-. destruct (IH y eq_refl) as [(s & Hs & Es) L]. split.
      * unfold Rmin. destruct (Rle_dec x y); [exists r; split; [left; reflexivity|assumption]|exists s; split; [right; assumption|assumption]].
      * intros s' z [<-|Hs'] Ez; [rewrite E in Ez; injection Ez as <-; apply Rmin_l|]. eapply Rle_trans; [apply Rmin_r|]. eauto.
    + injection H as <-. split; [exists r; split; [left; reflexivity|assumption]|]. intros s' z [<-|Hs'] Ez; [rewrite E in Ez; injection Ez as <-; lra|].
      exfalso. clear - E' Hs' Ez. induction l as [|q l IH]; [destruct Hs'|]. cbn [map series_min] in E'. destruct Hs' as [->|Hs'].
      * rewrite Ez in E'. destruct (series_min (map v l)); discriminate.
      * destruct (v q); [destruct (series_min (map v l)); discriminate|auto].
  - destruct (IH m H) as [(s & Hs & Es) L]. split; [exists s; split; [right; assumption|assumption]|]. intros s' z [<-|Hs'] Ez; [congruence|eauto].
Qed.
Lemma series_max_spec : forall v l m, series_max (map v l) = Some m -> greatest v l m.
Proof.
  intros v l. induction l as [|r l IH]; intros m H; [discriminate|]. cbn [map series_max] in H. destruct (v r) as [x|] eqn:E.
  - destruct (series_max (map v l)) as [y|] eqn:E'.
    + injection H as <-. destruct (IH y eq_refl) as [(s & Hs & Es) L]. split.
      * unfold Rmax. destruct (Rle_dec x y); [exists s; split; [right; assumption|assumption]|exists r; split; [left; reflexivity|assumption]].
      * intros s' z [<-|Hs'] Ez; [rewrite E in Ez; injection Ez as <-; apply Rmax_l|]. eapply Rle_trans; [|apply Rmax_r]. eauto.
    + injection H as <-. split; [exists r; split; [left; reflexivity|assumption]|]. intros s' z [<-|Hs'] Ez; [rewrite E in Ez; injection Ez as <-; lra|].
      exfalso. clear - E' Hs' Ez. induction l as [|q l IH]; [destruct Hs'|]. cbn [map series_max] in E'. destruct Hs' as [->|Hs'].
      * rewrite Ez in E'. destruct (series_max (map v l)); discriminate.
      * destruct (v q); [destruct (series_max (map v l)); discriminate|auto].
  - destruct (IH m H) as [(s & Hs & Es) L]. split; [exists s; split; [right; assumption|assumption]|]. intros s' z [<-|Hs'] Ez; [congruence|eauto].
Qed.
Lemma least_unique : forall v l m m', least v l m -> least v l m' -> m = m'.
Proof. intros v l m m' [(r & Hr & Er) H] [(r' & Hr' & Er') H']. pose proof (H _ _ Hr' Er'). pose proof (H' _ _ Hr Er). lra. Qed.
Lemma greatest_unique : forall v l m m', greatest v l m -> greatest v l m' -> m = m'.
Proof. intros v l m m' [(r & Hr & Er) H] [(r' & Hr' & Er') H']. pose proof (H _ _ Hr' Er'). pose proof (H' _ _ Hr Er). lra. Qed.
Lemma least_min : forall v l m, least v l m -> series_min (map v l) = Some m.
Proof.
  intros v l m H. destruct (series_min (map v l)) as [x|] eqn:E; [f_equal; apply series_min_spec in E; eapply least_unique; eassumption|].
  exfalso. destruct H as [(r & Hr & Er) _]. induction l as [|q l IH]; [destruct Hr|]. cbn [map series_min] in E. destruct Hr as [->|Hr].
  - rewrite Er in E. destruct (series_min (map v l)); discriminate.
  - destruct (v q); [destruct (series_min (map v l)); discriminate|auto].
Qed.
Lemma greatest_max : forall v l m, greatest v l m -> series_max (map v l) = Some m.
Proof.
  intros v l m H. destruct (series_max (map v l)) as [x|] eqn:E; [f_equal; apply series_max_spec in E; eapply greatest_unique; eassumption|].
  exfalso. destruct H as [(r & Hr & Er) _]. induction l as [|q l IH]; [destruct Hr|]. cbn [map series_max] in E. destruct Hr as [->|Hr].
  - rewrite Er in E. destruct (series_max (map v l)); discriminate.
  - destruct (v q); [destruct (series_max (map v l)); discriminate|auto].
Qed.

Definition head_count (n : Z) (len : nat) : nat := Z.to_nat (if (n <? 0)%Z then Z.max 0 (n + Z.of_nat len) else n).
Lemma head_rows_top : forall s l n, sorts s -> most_populous (head_count n (List.length l)) l (head_rows n (s l)).
Proof.
  intros s l n Hs. destruct (Hs l) as [Hp Hd]. unfold head_rows. rewrite (Permutation_length Hp). fold (head_count n (List.length l)).
  set (k := head_count n (List.length l)). exists (skipn k (s l)). split; [rewrite firstn_skipn; assumption|]. split; [rewrite firstn_length, (Permutation_length Hp); reflexivity|].
  intros a d Ha Hb. rewrite <- (firstn_skipn k (s l)) in Hd. revert Ha Hd. generalize (firstn k (s l)). intro l1. induction l1 as [|x l1 IH]; intros Ha Hd; [destruct Ha|].
  inversion Hd as [|? ? S F]; subst. destruct Ha as [->|Ha]; [|auto]. rewrite Forall_forall in F. apply F. apply in_app_iff. right. assumption.
Qed.

Section Grid.
Variable rd : R -> R.
Variable s : list city -> list city.
Lemma all_parts_eq : forall f nx ny per ijs rows, complete f -> all_parts rd s f nx ny per ijs = Ok rows ->
  rows = flat_map (fun ij => head_rows per (s (filter (in_bounds (cell_lo rd (series_min (map c_lon (f_rows f))) (series_max (map c_lon (f_rows f))) nx (snd ij))
       (cell_hi rd (series_min (map c_lon (f_rows f))) (series_max (map c_lon (f_rows f))) nx (snd ij))
       (cell_lo rd (series_min (map c_lat (f_rows f))) (series_max (map c_lat (f_rows f))) ny (fst ij))
       (cell_hi rd (series_min (map c_lat (f_rows f))) (series_max (map c_lat (f_rows f))) ny (fst ij))) (f_rows f)))) ijs.
Proof.
  intros f nx ny per ijs. induction ijs as [|[i j] ijs IH]; intros rows H E; cbn [all_parts] in E; [injection E as <-; reflexivity|].
  unfold cell_part in E. cbn [get_bounds] in E. cbv beta iota zeta in E. unfold limit_by_bounds in E. rewrite make_ok in E by assumption. cbn [f_rows] in E.
  destruct (all_parts rd s f nx ny per ijs) as [ps|] eqn:E'; [|discriminate]. injection E as <-. cbn [flat_map fst snd]. rewrite <- (IH ps H eq_refl). reflexivity.
Qed.
Lemma all_parts_ok : forall f nx ny per ijs, complete f -> exists rows, all_parts rd s f nx ny per ijs = Ok rows.
Proof.
  intros f nx ny per ijs H. induction ijs as [|[i j] ijs (rows & IH)]; cbn [all_parts]; [eexists; reflexivity|].
  unfold cell_part. cbn [get_bounds]. cbv beta iota zeta. unfold limit_by_bounds. rewrite make_ok by assumption. rewrite IH. eexists; reflexivity.
Qed.
End Grid.

Lemma cells_in : forall nx ny i j, In (i, j) (cells nx ny) <-> (i < ny /\ j < nx)%nat.
Proof.
  intros nx ny i j. unfold cells. rewrite in_flat_map. split.
  - intros (i' & Hi & Hj). apply in_map_iff in Hj as (j' & E & Hj). injection E as <- <-. apply in_seq in Hi, Hj. lia.
  - intros [Hi Hj]. exists i. split; [apply in_seq; lia|]. apply in_map_iff. exists j. split; [reflexivity|apply in_seq; lia].
Qed.
Lemma cells_length : forall nx ny, List.length (cells nx ny) = (nx * ny)%nat.
Proof.
  intros nx ny. unfold cells. rewrite <- (seq_length ny 0) at 2. generalize (seq 0 ny). intro l. induction l as [|i l IH]; [cbn; lia|].
  cbn [flat_map List.length]. rewrite app_length, map_length, seq_length, IH. lia.
Qed.
