(** Lemmas about path strings. *)
From Coq Require Import ZArith String Ascii Bool List Lia.
From Verif Require Import PyBase PyStr FsModel FsSpec FsProofs.
Import ListNotations.

Lemma walk_parts_app : forall l1 l2 base, walk_parts base (l1 ++ l2) = walk_parts (walk_parts base l1) l2.
Proof.
  induction l1 as [|x l1 IH]; intros l2 base; [reflexivity|]. cbn [app walk_parts].
  destruct (str_eqb x [] || str_eqb x (str_of ".")); [apply IH|]. destruct (str_eqb x (str_of "..")); apply IH.
Qed.
Lemma walk_parts_empty : forall base, walk_parts base [[]] = base.
Proof. reflexivity. Qed.
Lemma walk_parts_good : forall l base, Forall fname_ok l -> walk_parts base l = base ++ l.
Proof.
  induction l as [|x l IH]; intros base H; cbn [walk_parts]; [symmetry; apply app_nil_r|]. inversion H; subst.
  destruct H2 as (h1 & h2 & h3 & _).
  destruct (str_eqb_spec x []); [contradiction|]. destruct (str_eqb_spec x (str_of ".")); [contradiction|]. cbn [orb].
  destruct (str_eqb_spec x (str_of "..")); [contradiction|]. rewrite IH by assumption. rewrite <- app_assoc. reflexivity.
Qed.

Lemma split_sl_nonempty : forall s, split_sl s <> [].
Proof. destruct s as [|c s]; cbn [split_sl]; [discriminate|]. destruct (Ascii.eqb c sl); [discriminate|]. destruct (split_sl s); discriminate. Qed.
Lemma split_sl_app : forall a b, split_sl (a ++ sl :: b) = split_sl a ++ split_sl b.
Proof.
  induction a as [|c a IH]; intro b; cbn [app split_sl].
  - rewrite Ascii.eqb_refl. reflexivity.
  - rewrite IH. destruct (Ascii.eqb c sl); [reflexivity|]. pose proof (split_sl_nonempty a). destruct (split_sl a); [congruence|reflexivity].
Qed.
Lemma split_sl_plain : forall s, ~ In sl s -> split_sl s = [s].
Proof.
  induction s as [|c s IH]; intro H; [reflexivity|]. cbn [split_sl]. destruct (Ascii.eqb_spec c sl) as [->|]; [exfalso; apply H; left; reflexivity|].
  rewrite IH by (intro Hx; apply H; right; assumption). reflexivity.
Qed.
Lemma split_sl_parts : forall s x, In x (split_sl s) -> ~ In sl x.
Proof.
  induction s as [|c s IH]; intros x H; cbn [split_sl] in H; [destruct H as [<-|[]]; intros []|].
  destruct (Ascii.eqb_spec c sl) as [->|Hn].
  - destruct H as [<-|H]; [intros []|auto].
  - destruct (split_sl s) as [|y r] eqn:E; [exfalso; apply (split_sl_nonempty s E)|]. destruct H as [<-|H].
    + intros [Hc|Hy]; [congruence|]. apply (IH y); [left; reflexivity|assumption].
    + apply IH. right. assumption.
Qed.

Lemma ends_sl_snoc : forall s, ends_sl s = true <-> exists r, s = r ++ [sl].
Proof.
  intro s. unfold ends_sl. destruct (rev s) as [|c r] eqn:E.
  - split; [discriminate|]. intros (r & ->). rewrite rev_app_distr in E. discriminate.
  - apply (f_equal (@rev _)) in E. rewrite rev_involutive in E. cbn [rev] in E. subst s. split.
    + intro H. apply Ascii.eqb_eq in H. subst c. eauto.
    + intros (r' & H). apply app_inj_tail in H as [_ ->]. apply Ascii.eqb_refl.
Qed.
Lemma plain_ends : forall s, ~ In sl s -> ends_sl s = false.
Proof.
  intros s H. destruct (ends_sl s) eqn:E; [|reflexivity]. apply ends_sl_snoc in E as (r & ->). exfalso. apply H. apply in_or_app. right. left. reflexivity.
Qed.
Lemma plain_starts : forall s, ~ In sl s -> starts_sl s = false.
Proof. intros [|c s] H; [reflexivity|]. cbn [starts_sl]. destruct (Ascii.eqb_spec c sl) as [->|]; [exfalso; apply H; left; reflexivity|reflexivity]. Qed.
Lemma starts_sl_app : forall a b, a <> [] -> starts_sl (a ++ b) = starts_sl a.
Proof. intros [|c a] b H; [congruence|reflexivity]. Qed.

(** A path string before its last part. *)
Definition dirpart (a : str) : str := match a with [] => [] | _ => if ends_sl a then a else a ++ [sl] end.
Lemma os_join_dir : forall a b, starts_sl b = false -> os_join a b = dirpart a ++ b.
Proof.
  intros a b H. unfold os_join, dirpart. rewrite H. destruct a as [|c a]; [reflexivity|]. destruct (ends_sl (c :: a)); [reflexivity|].
  rewrite <- app_assoc. reflexivity.
Qed.

Lemma resolve_join : forall cwd a b, starts_sl b = false -> resolve cwd (os_join a b) = walk_parts (resolve cwd a) (split_sl b).
Proof.
  intros cwd a b H. rewrite os_join_dir by assumption. unfold resolve, dirpart. destruct a as [|c a].
  - cbn [app]. rewrite H. reflexivity.
  - destruct (ends_sl (c :: a)) eqn:E.
    + rewrite starts_sl_app by discriminate. apply ends_sl_snoc in E as (r & ->). rewrite <- app_assoc. cbn [app].
      rewrite !split_sl_app, !walk_parts_app. reflexivity.
    + rewrite starts_sl_app by (destruct a; discriminate). rewrite starts_sl_app by discriminate. rewrite <- app_assoc. cbn [app].
      rewrite app_comm_cons, split_sl_app, walk_parts_app. reflexivity.
Qed.
Lemma resolve_join_good : forall cwd a n, fname_ok n -> resolve cwd (os_join a n) = resolve cwd a ++ [n].
Proof.
  intros cwd a n H. pose proof H as (h1 & h2 & h3 & h4). rewrite resolve_join by (apply plain_starts; assumption).
  rewrite split_sl_plain by assumption. apply walk_parts_good. auto.
Qed.
Lemma resolve_join_part : forall cwd a x, ~ In sl x -> resolve cwd (os_join a x) = walk_parts (resolve cwd a) [x].
Proof. intros. rewrite resolve_join by (apply plain_starts; assumption). rewrite split_sl_plain by assumption. reflexivity. Qed.
Lemma resolve_join_all : forall cwd l a, Forall (fun x => ~ In sl x) l -> resolve cwd (os_join_all a l) = walk_parts (resolve cwd a) l.
Proof.
  intros cwd l. induction l as [|x l IH]; intros a H; [reflexivity|]. inversion H; subst. change (os_join_all a (x :: l)) with (os_join_all (os_join a x) l).
  rewrite IH by assumption. rewrite resolve_join_part by assumption. rewrite <- walk_parts_app. reflexivity.
Qed.
Lemma join_rel_resolve : forall cwd root rel, Forall fname_ok rel -> resolve cwd (join_rel root rel) = resolve cwd root ++ rel.
Proof.
  intros cwd root rel H. change (join_rel root rel) with (os_join_all root rel). rewrite resolve_join_all.
  - apply walk_parts_good. assumption.
  - eapply Forall_impl; [|eassumption]. intros x (_ & _ & _ & Hx). assumption.
Qed.

(** The walked names begin with the root. *)
Fixpoint slash_join (l : list str) : str :=
  match l with [] => [] | [x] => x | x :: r => x ++ sl :: slash_join r end.
Lemma slash_join_cons : forall x y r, slash_join (x :: y :: r) = x ++ sl :: slash_join (y :: r).
Proof. reflexivity. Qed.
Lemma dirpart_plain : forall a x, x <> [] -> ~ In sl x -> dirpart (a ++ x) = a ++ x ++ [sl].
Proof.
  intros a x Hx Hs. unfold dirpart. assert (E : ends_sl (a ++ x) = false).
  { destruct (ends_sl (a ++ x)) eqn:E; [|reflexivity]. apply ends_sl_snoc in E as (r & E). destruct (snoc_cases x Hx) as (y & c & ->).
    rewrite app_assoc in E. apply app_inj_tail in E as [_ ->]. exfalso. apply Hs. apply in_or_app. right. left. reflexivity. }
  destruct (a ++ x) as [|c r] eqn:Ea; [apply app_eq_nil in Ea as [_ ->]; congruence|]. rewrite E, <- Ea, app_assoc. reflexivity.
Qed.
Lemma join_rel_string : forall rel root, rel <> [] -> Forall fname_ok rel -> join_rel root rel = dirpart root ++ slash_join rel.
Proof.
  induction rel as [|x rel IH]; intros root Hne H; [congruence|]. inversion H; subst. pose proof H2 as (h1 & h2 & h3 & h4).
  cbn [join_rel fold_left]. fold (join_rel (os_join root x) rel). rewrite os_join_dir by (apply plain_starts; assumption).
  destruct rel as [|y rel]; [reflexivity|]. rewrite IH by (try discriminate; assumption). rewrite dirpart_plain by assumption.
  rewrite slash_join_cons. rewrite <- !app_assoc. reflexivity.
Qed.

Lemma slash_join_split : forall (l : list str), l <> [] -> Forall (fun x => ~ In sl x) l -> split_sl (slash_join l) = l.
Proof.
  induction l as [|x l IH]; intros Hne H; [congruence|]. inversion H; subst. destruct l as [|y l]; [apply split_sl_plain; assumption|].
  rewrite slash_join_cons, split_sl_app, (split_sl_plain x) by assumption. cbn [app]. f_equal. exact (IH ltac:(discriminate) H3).
Qed.

(** ** Stripping *)
Lemma lstrip_repeat : forall s, exists n, s = repeat sl n ++ lstrip_sl s.
Proof.
  induction s as [|c s (n & IH)]; [exists 0%nat; reflexivity|]. cbn [lstrip_sl]. destruct (Ascii.eqb_spec c sl) as [->|].
  - exists (S n). cbn [repeat app]. congruence.
  - exists 0%nat. reflexivity.
Qed.
Lemma rev_repeat : forall {A} (x : A) n, rev (repeat x n) = repeat x n.
Proof.
  intros A x n. induction n as [|n IH]; [reflexivity|]. cbn [repeat rev]. rewrite IH. clear.
  induction n as [|n IH]; [reflexivity|]. cbn [repeat app]. congruence.
Qed.
Lemma rstrip_repeat : forall s, exists n, s = rstrip_sl s ++ repeat sl n.
Proof.
  intro s. destruct (lstrip_repeat (rev s)) as (n & E). exists n. unfold rstrip_sl. apply (f_equal (@rev _)) in E.
  rewrite rev_involutive, rev_app_distr, rev_repeat in E. exact E.
Qed.
Lemma walk_repeat : forall n base s, walk_parts base (split_sl (repeat sl n ++ s)) = walk_parts base (split_sl s).
Proof.
  induction n as [|n IH]; intros base s; [reflexivity|]. cbn [repeat app split_sl]. rewrite Ascii.eqb_refl. cbn [walk_parts str_eqb orb].
  apply IH.
Qed.
Lemma walk_repeat_end : forall n base s, walk_parts base (split_sl (s ++ repeat sl n)) = walk_parts base (split_sl s).
Proof.
  induction n as [|n IH]; intros base s; [rewrite app_nil_r; reflexivity|]. cbn [repeat].
  rewrite split_sl_app, walk_parts_app.
  change (repeat sl n) with ([] ++ repeat sl n). rewrite IH. reflexivity.
Qed.
Lemma walk_lstrip : forall base s, walk_parts base (split_sl (lstrip_sl s)) = walk_parts base (split_sl s).
Proof. intros base s. destruct (lstrip_repeat s) as (n & E). rewrite E at 2. rewrite walk_repeat. reflexivity. Qed.
Lemma walk_rstrip : forall base s, walk_parts base (split_sl (rstrip_sl s)) = walk_parts base (split_sl s).
Proof. intros base s. destruct (rstrip_repeat s) as (n & E). rewrite E at 2. rewrite walk_repeat_end. reflexivity. Qed.
Lemma walk_strip : forall base s, walk_parts base (split_sl (strip_sl s)) = walk_parts base (split_sl s).
Proof. intros. unfold strip_sl. rewrite walk_rstrip, walk_lstrip. reflexivity. Qed.

Lemma lstrip_plain : forall x s, x <> [] -> ~ In sl x -> lstrip_sl (x ++ s) = x ++ s.
Proof.
  intros [|c x] s Hx H; [congruence|]. cbn [app lstrip_sl]. destruct (Ascii.eqb_spec c sl) as [->|]; [exfalso; apply H; left; reflexivity|reflexivity].
Qed.
Lemma lstrip_sl_cons : forall s, lstrip_sl (sl :: s) = lstrip_sl s.
Proof. reflexivity. Qed.
Lemma rstrip_plain : forall x s, x <> [] -> ~ In sl x -> rstrip_sl (s ++ x) = s ++ x.
Proof.
  intros x s Hx H. unfold rstrip_sl. rewrite rev_app_distr, lstrip_plain.
  - rewrite rev_app_distr, !rev_involutive. reflexivity.
  - intro E. apply (f_equal (@rev _)) in E. rewrite rev_involutive in E. auto.
  - rewrite <- in_rev. assumption.
Qed.
Lemma slash_join_snoc : forall l x, exists s, slash_join (l ++ [x]) = s ++ x.
Proof.
  induction l as [|y l IH]; intro x; [exists []; reflexivity|]. destruct (IH x) as (s & E). cbn [app].
  destruct (l ++ [x]) as [|z r] eqn:El; [destruct l; discriminate|]. rewrite slash_join_cons, E. exists (y ++ sl :: s). rewrite <- app_assoc. reflexivity.
Qed.
Lemma slash_join_starts : forall x l, exists s, slash_join (x :: l) = x ++ s.
Proof. intros x [|y l]; [exists []; rewrite app_nil_r; reflexivity|exists (sl :: slash_join (y :: l)); reflexivity]. Qed.
Lemma strip_rel : forall rel, rel <> [] -> Forall fname_ok rel ->
  strip_sl (slash_join rel) = slash_join rel /\ strip_sl (sl :: slash_join rel) = slash_join rel.
Proof.
  intros rel Hne H. unfold strip_sl. rewrite lstrip_sl_cons.
  assert (E : lstrip_sl (slash_join rel) = slash_join rel).
  { destruct rel as [|x rel]; [congruence|]. inversion H; subst. destruct H2 as (h1 & _ & _ & h4). destruct (slash_join_starts x rel) as (s & ->). apply lstrip_plain; assumption. }
  rewrite E. assert (R : rstrip_sl (slash_join rel) = slash_join rel).
  { destruct (snoc_cases rel Hne) as (r & x & ->). apply Forall_app in H as [_ H]. inversion H; subst. destruct H2 as (h1 & _ & _ & h4).
    destruct (slash_join_snoc r x) as (s & ->). apply rstrip_plain; assumption. }
  rewrite R. auto.
Qed.

(** ** Removing the local folder's name *)
Definition occurs (a s : str) : Prop := exists u v, s = u ++ a ++ v.
Lemma starts_with_app : forall a s, starts_with a s = true <-> exists r, s = a ++ r.
Proof.
  induction a as [|x a IH]; intro s; cbn [starts_with app]; [split; eauto|]. destruct s as [|y s]; [split; [discriminate|intros (r & E); discriminate]|].
  rewrite andb_true_iff, IH, Ascii.eqb_eq. split.
  - intros [-> (r & ->)]. eauto.
  - intros (r & E). injection E as -> ->. eauto.
Qed.
Lemma replace_none : forall s old new, old <> [] -> ~ occurs old s -> replace_skip old new 0 s = s.
Proof.
  induction s as [|c s IH]; intros old new Ho H; [reflexivity|]. cbn [replace_skip]. destruct (starts_with old (c :: s)) eqn:E.
  - apply starts_with_app in E as (r & E). exfalso. apply H. exists [], r. assumption.
  - f_equal. apply IH; [assumption|]. intros (u & v & ->). apply H. exists (c :: u), v. reflexivity.
Qed.
Lemma replace_skips : forall s old new s', replace_skip old new (List.length s) (s ++ s') = replace_skip old new 0 s'.
Proof. induction s as [|c s IH]; intros old new s'; [reflexivity|]. cbn [List.length app replace_skip]. apply IH. Qed.
Lemma replace_prefix : forall old s, old <> [] -> ~ occurs old s -> py_replace (old ++ s) old [] = s.
Proof.
  intros old s Ho H. unfold py_replace. destruct old as [|c o]; [congruence|]. cbn [app replace_skip].
  assert (E : starts_with (c :: o) (c :: o ++ s) = true) by (apply starts_with_app; exists s; reflexivity). rewrite E.
  cbn [List.length]. rewrite Nat.sub_succ, Nat.sub_0_r, replace_skips. apply replace_none; [discriminate|assumption].
Qed.

(** ** os.path.split *)
Lemma tail_head : forall a n, ~ In sl n -> (a = [] \/ ends_sl a = true) -> tail_part (rev (a ++ n)) = rev n /\ head_part (rev (a ++ n)) = rev a.
Proof.
  intros a n Hn Ha. rewrite rev_app_distr.
  assert (G : forall m, ~ In sl m -> tail_part (m ++ rev a) = m /\ head_part (m ++ rev a) = rev a).
  { induction m as [|c m IH]; intro Hm; cbn [app].
    - destruct Ha as [->|Ha]; [auto|]. unfold ends_sl in Ha. destruct (rev a) as [|c r]; [discriminate|]. cbn [tail_part head_part]. rewrite Ha. auto.
    - cbn [tail_part head_part]. destruct (Ascii.eqb_spec c sl) as [->|]; [exfalso; apply Hm; left; reflexivity|].
      destruct IH as [-> ->]; [intro; apply Hm; right; assumption|]. auto. }
  apply G. rewrite <- in_rev. assumption.
Qed.
Lemma dirpart_ends : forall a, dirpart a = [] \/ ends_sl (dirpart a) = true.
Proof.
  intro a. unfold dirpart. destruct a as [|c a]; [auto|]. right. destruct (ends_sl (c :: a)) eqn:E; [assumption|].
  apply ends_sl_snoc. eauto.
Qed.
Lemma resolve_dirpart : forall cwd a, resolve cwd (dirpart a) = resolve cwd a.
Proof.
  intros cwd a. unfold dirpart. destruct a as [|c a]; [reflexivity|]. destruct (ends_sl (c :: a)); [reflexivity|].
  unfold resolve. rewrite starts_sl_app by discriminate. change [sl] with (repeat sl 1). rewrite walk_repeat_end. reflexivity.
Qed.
Lemma split_join : forall cwd a n, ~ In sl n -> snd (os_split (os_join a n)) = n /\ resolve cwd (fst (os_split (os_join a n))) = resolve cwd a.
Proof.
  intros cwd a n Hn. rewrite os_join_dir by (apply plain_starts; assumption). unfold os_split.
  destruct (tail_head (dirpart a) n Hn (dirpart_ends a)) as [-> ->]. rewrite !rev_involutive. cbn [fst snd]. split; [reflexivity|].
  rewrite <- (resolve_dirpart cwd a). set (h := dirpart a). clearbody h. destruct (forallb (Ascii.eqb sl) h) eqn:E; [reflexivity|].
  unfold resolve. rewrite walk_rstrip. replace (starts_sl (rstrip_sl h)) with (starts_sl h); [reflexivity|].
  destruct (rstrip_repeat h) as (k & Eh). destruct (rstrip_sl h) as [|c r] eqn:Er.
  - exfalso. cbn [app] in Eh. subst h. revert E. clear. induction k as [|k IH]; cbn [repeat forallb]; [discriminate|]. rewrite Ascii.eqb_refl. assumption.
  - rewrite Eh at 1. reflexivity.
Qed.

Lemma join_append : forall a n x, n <> [] -> ~ In sl n -> os_join a n ++ x = os_join a (n ++ x).
Proof.
  intros a n x Hne Hn. rewrite !os_join_dir.
  - rewrite <- app_assoc. reflexivity.
  - rewrite starts_sl_app by assumption. apply plain_starts. assumption.
  - apply plain_starts. assumption.
Qed.
