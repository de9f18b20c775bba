From Coq Require Import ZArith Reals String Ascii Bool List Lia Lra Permutation Sorted.
From Verif Require Import PyBase PyStr CityModel CitySpec CityProofs CollideModel CollideSpec.
Import ListNotations.
Open Scope R_scope.

Lemma clear_apart : forall b b', clear_of b b' = true -> ~ overlap b b'.
Proof.
  intros b b' H (x & y & (l & r & bt & t & E1 & E2 & E3 & E4 & Hx & Hy) & (l' & r' & bt' & t' & F1 & F2 & F3 & F4 & Hx' & Hy')).
  unfold clear_of in H. rewrite E1, E2, E3, E4, F1, F2, F3, F4 in H. cbn in H.
  repeat (destruct Rlt_dec in H; [lra|]). discriminate.
Qed.
Lemma solid_edges : forall b, solid b -> exists l r bt t, b_left b = Some l /\ b_right b = Some r /\ b_bottom b = Some bt /\ b_top b = Some t /\ l <= r /\ bt <= t.
Proof. intros b (x & y & l & r & bt & t & E1 & E2 & E3 & E4 & Hx & Hy). exists l, r, bt, t. repeat split; try assumption; lra. Qed.
Lemma not_clear : forall b b', solid b -> solid b' -> clear_of b b' = false -> overlap b b'.
Proof.
  intros b b' S S' H. apply solid_edges in S as (l & r & bt & t & E1 & E2 & E3 & E4 & Hx & Hy). apply solid_edges in S' as (l' & r' & bt' & t' & F1 & F2 & F3 & F4 & Hx' & Hy').
  unfold clear_of in H. rewrite E1, E2, E3, E4, F1, F2, F3, F4 in H. cbn in H.
  repeat (destruct Rlt_dec in H; [discriminate|]). exists (Rmax l l'), (Rmax bt bt').
  pose proof (Rmax_l l l'). pose proof (Rmax_r l l'). pose proof (Rmax_l bt bt'). pose proof (Rmax_r bt bt').
  assert (Rmax l l' <= r /\ Rmax l l' <= r') by (split; apply Rmax_lub; lra). assert (Rmax bt bt' <= t /\ Rmax bt bt' <= t') by (split; apply Rmax_lub; lra).
  split; [exists l, r, bt, t|exists l', r', bt', t']; repeat split; try assumption; lra.
Qed.

Lemma nth_error_firstn_lt : forall {A} (l : list A) i j, (j < i)%nat -> nth_error (firstn i l) j = nth_error l j.
Proof. intros A l. induction l as [|x l IH]; intros [|i] [|j] H; try lia; try reflexivity. cbn. apply IH. lia. Qed.
(** Survivors are apart from everything before them. *)
Lemma keep_spec : forall l larger, (forall x, In x (keep_clear larger l) -> In x l /\ forall b, In b larger -> ~ overlap (snd x) b) /\
  ForallOrdPairs (fun a b => ~ overlap (snd b) (snd a)) (keep_clear larger l).
Proof.
  induction l as [|[r b] l IH]; intro larger; cbn [keep_clear]; [split; [intros x []|constructor]|].
  destruct (IH (larger ++ [b])) as [I1 I2]. destruct (forallb (clear_of b) larger) eqn:E.
  - rewrite forallb_forall in E. split.
    + intros x [<-|Hx]; [split; [left; reflexivity|]; intros b' Hb'; apply clear_apart; auto|]. destruct (I1 x Hx) as [Hi Ho]. split; [right; assumption|]. intros b' Hb'. apply Ho. apply in_app_iff. auto.
    + constructor; [|assumption]. apply Forall_forall. intros x Hx. apply (I1 x Hx). apply in_app_iff. right. left. reflexivity.
  - split; [|assumption]. intros x Hx. destruct (I1 x Hx) as [Hi Ho]. split; [right; assumption|]. intros b' Hb'. apply Ho. apply in_app_iff. auto.
Qed.

(** Flags over the whole list: position by position. *)
Fixpoint flags (larger : list box) (l : list (city * box)) : list bool :=
  match l with [] => [] | (r, b) :: l' => forallb (clear_of b) larger :: flags (larger ++ [b]) l' end.
Lemma keep_flagged : forall l larger, flagged l (flags larger l) (keep_clear larger l).
Proof. induction l as [|[r b] l IH]; intro larger; cbn [flags keep_clear]; [constructor|]. destruct (forallb (clear_of b) larger); constructor; apply IH. Qed.
Lemma flags_nth : forall l larger i r b, nth_error l i = Some (r, b) -> nth_error (flags larger l) i = Some (forallb (clear_of b) (larger ++ map snd (firstn i l))).
Proof.
  induction l as [|[r0 b0] l IH]; intros larger i r b H; [destruct i; discriminate|]. destruct i as [|i]; cbn [flags nth_error firstn map snd].
  - cbn in H. injection H as <- <-. rewrite app_nil_r. reflexivity.
  - cbn in H. rewrite (IH _ _ _ _ H), <- app_assoc. reflexivity.
Qed.
Lemma forallb_false : forall {A} (p : A -> bool) l, forallb p l = false -> exists x, In x l /\ p x = false.
Proof. intros A p l H. induction l as [|x l IH]; [discriminate|]. cbn in H. destruct (p x) eqn:E; [destruct (IH H) as (y & Hy & Ey); exists y; split; [right|]; assumption|exists x; split; [left; reflexivity|assumption]]. Qed.

Section Run.
Variable e : city -> box.
Variable on : city -> bool.
Fixpoint keep2 (larger : list box) (l : list city) : list city :=
  match l with
  | [] => []
  | r :: l' => if on r then if forallb (clear_of (e r)) larger then r :: keep2 (larger ++ [e r]) l' else keep2 (larger ++ [e r]) l' else keep2 larger l'
  end.
Fixpoint flags2 (larger : list box) (l : list city) : list bool :=
  match l with
  | [] => []
  | r :: l' => if on r then forallb (clear_of (e r)) larger :: flags2 (larger ++ [e r]) l' else false :: flags2 larger l'
  end.
Lemma keep2_eq : forall l larger, keep_clear larger (map (fun q => (q, e q)) (filter on l)) = map (fun q => (q, e q)) (keep2 larger l).
Proof.
  induction l as [|r l IH]; intro larger; [reflexivity|]. cbn [filter keep2]. destruct (on r); [|apply IH]. cbn [map keep_clear]. destruct (forallb (clear_of (e r)) larger); cbn [map]; rewrite IH; reflexivity.
Qed.
Lemma flags2_flagged : forall l larger, flagged l (flags2 larger l) (keep2 larger l).
Proof. induction l as [|r l IH]; intro larger; cbn [flags2 keep2]; [constructor|]. destruct (on r); [destruct (forallb (clear_of (e r)) larger)|]; constructor; apply IH. Qed.
Lemma flags2_nth : forall l larger i r, nth_error l i = Some r ->
  nth_error (flags2 larger l) i = Some (on r && forallb (clear_of (e r)) (larger ++ map e (filter on (firstn i l)))).
Proof.
  induction l as [|r0 l IH]; intros larger i r H; [destruct i; discriminate|]. destruct i as [|i].
  - cbn in H. injection H as <-. cbn [flags2]. destruct (on r0); cbn [nth_error firstn filter map]; rewrite ?app_nil_r; reflexivity.
  - cbn [nth_error] in H. cbn [flags2 firstn filter]. destruct (on r0); cbn [nth_error map]; rewrite (IH _ _ _ H); [|reflexivity]. rewrite <- app_assoc. reflexivity.
Qed.
End Run.

Section Main.
Variable rd : R -> R.
Variable s : list city -> list city.
Variable ext : city -> box.
Variable pad : fl.
Variables x0 x1 y0 y1 : R.
Notation e := (city_edges rd ext pad).
Notation off := (off_map (Some x0) (Some x1) (Some y0) (Some y1)).
Lemma off_iff : forall b, solid b -> (off b = false <-> on_map x0 x1 y0 y1 b).
Proof.
  intros b S. apply solid_edges in S as (l & r & bt & t & E1 & E2 & E3 & E4 & Hx & Hy). unfold off_map. rewrite E1, E2, E3, E4. cbn. split.
  - intro H. exists l, r, bt, t. repeat (destruct Rlt_dec in H; [discriminate|]). repeat split; try assumption; lra.
  - intros (l' & r' & bt' & t' & F1 & F2 & F3 & F4 & H). rewrite F1 in E1. rewrite F2 in E2. rewrite F3 in E3. rewrite F4 in E4. injection E1 as ->. injection E2 as ->. injection E3 as ->. injection E4 as ->.
    repeat (destruct Rlt_dec; [lra|]). reflexivity.
Qed.
Lemma filter_boxes : forall l, (forall r, In r l -> solid (e r)) ->
  filter (fun rb => match b_left (snd rb) with None => false | Some _ => true end) (map (fun q => (q, if off (e q) then nan_box else e q)) l) = map (fun q => (q, e q)) (filter (fun q => negb (off (e q))) l).
Proof.
  induction l as [|r l IH]; intro H; [reflexivity|]. cbn [map filter snd]. rewrite IH by (intros; apply H; right; assumption).
  destruct (solid_edges _ (H r (or_introl eq_refl))) as (a & b & c & d & E & _). destruct (off (e r)); cbn [negb nan_box b_left map]; [reflexivity|]. rewrite E. reflexivity.
Qed.
Lemma limit_eq : forall f g bs, sorts s -> (forall r, In r (f_rows f) -> solid (e r)) -> limit_by_collision rd s ext pad (Some x0) (Some x1) (Some y0) (Some y1) f = Ok (g, bs) ->
  exists r l, s (f_rows f) = r :: l /\ f_rows g = r :: keep2 e (fun q => negb (off (e q))) [e r] l /\ bs = map e (f_rows g) /\ f_cols g = fold_left add_col box_cols (f_cols f).
Proof.
  intros f g bs Hs Hr E. unfold limit_by_collision in E. destruct (Hs (f_rows f)) as [Hp _].
  destruct (s (f_rows f)) as [|r l] eqn:Es; [discriminate|]. cbn [bounding_boxes] in E. exists r, l. split; [reflexivity|].
  assert (Hr' : forall q, In q (r :: l) -> solid (e q)) by (intros q Hq; apply Hr; eapply Permutation_in; [exact Hp|exact Hq]).
  cbn [filter snd] in E. destruct (solid_edges _ (Hr' r (or_introl eq_refl))) as (a & b & c & d & El & _). rewrite El in E. rewrite filter_boxes in E by (intros q Hq; apply Hr'; right; assumption).
  cbn [snd] in E. match type of E with match ?M with _ => _ end = _ => destruct M as [g'|] eqn:Em; [|discriminate] end. injection E as <- <-.
  apply make_inv in Em as [-> _]. cbn [f_rows f_cols]. rewrite keep2_eq. cbn [map fst snd]. rewrite !map_map. cbn [fst snd]. rewrite map_id. auto.
Qed.
Lemma limit_ok : forall f, sorts s -> complete f -> f_rows f <> [] -> (forall r, In r (f_rows f) -> solid (e r)) -> exists g bs, limit_by_collision rd s ext pad (Some x0) (Some x1) (Some y0) (Some y1) f = Ok (g, bs).
Proof.
  intros f Hs Hc Hne Hr. unfold limit_by_collision. destruct (Hs (f_rows f)) as [Hp _].
  destruct (s (f_rows f)) as [|r l] eqn:Es; [apply Permutation_nil in Hp; contradiction|]. cbn [bounding_boxes filter snd].
  assert (Hr' : solid (e r)) by (apply Hr; eapply Permutation_in; [exact Hp|left; reflexivity]). destruct (solid_edges _ Hr') as (a & b & c & d & El & _). rewrite El.
  rewrite make_ok; [eauto|]. destruct Hc as (A & B & C).
  assert (K : forall c cols, In c (f_cols f) -> In c (fold_left add_col cols (f_cols f))).
  { intros c0 cols. generalize (f_cols f). induction cols as [|k cols IH]; intros fc H; cbn [fold_left]; [assumption|]. apply IH. unfold add_col. destruct (col_in k fc); [assumption|apply in_app_iff; auto]. }
  repeat split; apply K; assumption.
Qed.
End Main.
