(** Lemmas for C115 to C117. *)
From Coq Require Import ZArith String Ascii Bool List Lia.
From Verif Require Import PyBase PyStr FsModel FsSpec FsProofs PathProofs CopyProofs TzdataModel TzdataSpec.
Import ListNotations.

(** ** Texts *)
Lemma contains_spec : forall p s, contains p s = true <-> inside p s.
Proof.
  intros p s. induction s as [|c s IH]; cbn [contains]; rewrite orb_true_iff, starts_with_app.
  - split; [intros [(r & H)|H]; [exists [], r; exact H|discriminate]|]. intros (u & v & H). left. destruct u; [|discriminate]. exists v. exact H.
  - rewrite IH. split.
    + intros [(r & H)|(u & v & ->)]; [exists [], r; exact H|exists (c :: u), v; reflexivity].
    + intros ([|x u] & v & H); [left; exists v; exact H|]. right. injection H as -> ->. exists u, v. reflexivity.
Qed.
Lemma contains_none : forall p s, ~ inside p s -> contains p s = false.
Proof. intros p s H. destruct (contains p s) eqn:E; [|reflexivity]. apply contains_spec in E. contradiction. Qed.
Lemma ends_with_spec : forall p s, ends_with p s = true <-> closes p s.
Proof.
  intros p s. unfold ends_with. rewrite starts_with_app. split; intros (r & H).
  - exists (rev r). rewrite <- (rev_involutive s), H, rev_app_distr, rev_involutive. reflexivity.
  - exists (rev r). rewrite H, rev_app_distr. reflexivity.
Qed.

Lemma pick_first : forall urljoin l h link, first_link l h -> pick_link urljoin l link = Some (urljoin (str_of "https://github.com") h).
Proof.
  intros uj l h link (pre & post & -> & Hh & Hp). revert link. induction pre as [|[x|] pre IH]; intro link; cbn [app pick_link].
  - apply contains_spec in Hh. unfold wanted in Hh. rewrite Hh. reflexivity.
  - rewrite contains_none by (apply Hp; left; reflexivity). apply IH. intros h' H. apply Hp. right. exact H.
  - apply IH. intros h' H. apply Hp. right. exact H.
Qed.
Lemma pick_others : forall urljoin l h link, only_others l h -> pick_link urljoin l link = Some h.
Proof.
  intros uj l h link ((pre & post & -> & Hp) & Hn). revert link Hn. induction pre as [|[x|] pre IH]; intros link Hn; cbn [app pick_link].
  - rewrite contains_none by (apply Hn; left; reflexivity). clear Hn. induction post as [|x post IH]; [reflexivity|].
    rewrite (Hp x) by (left; reflexivity). cbn [pick_link]. apply IH. intros y Hy. apply Hp. right. exact Hy.
  - rewrite contains_none by (apply Hn; left; reflexivity). apply IH. intros h' H. apply Hn. right. exact H.
  - apply IH. intros h' H. apply Hn. right. exact H.
Qed.
Lemma pick_none : forall urljoin l, (forall x, In x l -> x = None) -> pick_link urljoin l None = None.
Proof.
  intros uj l. induction l as [|x l IH]; intro H; [reflexivity|]. rewrite (H x) by (left; reflexivity). cbn [pick_link]. apply IH. intros y Hy. apply H. right. exact Hy.
Qed.

(** ** Normal paths *)
Lemma join_slash : forall l, join [sl] l = slash_join l.
Proof. induction l as [|x [|y l] IH]; [reflexivity|reflexivity|]. cbn [join slash_join] in *. rewrite IH. reflexivity. Qed.

Definition kept (x : str) : Prop := x <> [] /\ x <> str_of "." /\ ~ In sl x.
Lemma fname_kept : forall x, fname_ok x -> kept x. Proof. intros x (a & b & c & d). repeat split; assumption. Qed.
Lemma norm_kept : forall rooted comps acc, Forall kept acc -> Forall (fun x => ~ In sl x) comps -> Forall kept (norm_comps rooted acc comps).
Proof.
  intros r comps. induction comps as [|x comps IH]; intros acc Ha Hc; cbn [norm_comps]; [apply Forall_rev; exact Ha|].
  inversion Hc as [|? ? Hx Hc']; subst.
  destruct (str_eqb_spec x []) as [->|N1]; [apply IH; assumption|]. destruct (str_eqb_spec x (str_of ".")) as [->|N2]; [apply IH; assumption|]. cbn [orb].
  assert (K : kept x) by (repeat split; assumption).
  destruct (str_eqb_spec x (str_of "..")) as [->|N3]; cbn [negb].
  - destruct acc as [|y acc]; [destruct r; apply IH; auto|]. inversion Ha; subst. destruct (str_eqb y (str_of "..")); apply IH; auto.
  - apply IH; auto.
Qed.
Lemma norm_walk : forall rooted comps acc base, (rooted = true -> base = [] /\ ~ In (str_of "..") acc) -> Forall kept acc ->
  Forall (fun x => ~ In sl x) comps ->
  walk_parts base (norm_comps rooted acc comps) = walk_parts (walk_parts base (rev acc)) comps.
Proof.
  intros r comps. induction comps as [|x comps IH]; intros acc base Hr Ha Hc; cbn [norm_comps]; [reflexivity|].
  inversion Hc as [|? ? Hx Hc']; subst. cbn [walk_parts].
  destruct (str_eqb_spec x []) as [->|N1]; [apply IH; assumption|]. destruct (str_eqb_spec x (str_of ".")) as [->|N2]; [apply IH; assumption|]. cbn [orb].
  assert (K : kept x) by (repeat split; assumption).
  destruct (str_eqb_spec x (str_of "..")) as [->|N3]; cbn [negb].
  - destruct acc as [|y acc].
    + destruct r.
      * rewrite IH; auto. destruct (Hr eq_refl) as [-> _]. reflexivity.
      * rewrite IH; auto. intro; discriminate.
    + inversion Ha as [|? ? Ky Ha']; subst. destruct (str_eqb_spec y (str_of "..")) as [->|Ny].
      * destruct r; [destruct (Hr eq_refl) as [_ N]; exfalso; apply N; left; reflexivity|]. rewrite IH; [|intro; discriminate|auto|assumption].
        cbn [rev]. rewrite !walk_parts_app. reflexivity.
      * rewrite IH; [|intro H; destruct (Hr H) as [? N]; split; [assumption|]; intro I; apply N; right; exact I|assumption|assumption].
        cbn [rev]. rewrite walk_parts_app. destruct Ky as (k1 & k2 & k3). cbn [walk_parts]. destruct (str_eqb_spec y []); [contradiction|]. destruct (str_eqb_spec y (str_of ".")); [contradiction|]. cbn [orb].
        destruct (str_eqb_spec y (str_of "..")); [contradiction|]. rewrite removelast_last. reflexivity.
  - rewrite IH; [|intro H; destruct (Hr H) as [? N]; split; [assumption|]; intros [I|I]; contradiction|auto|assumption].
    cbn [rev]. rewrite walk_parts_app. destruct K as (k1 & k2 & k3). cbn [walk_parts]. destruct (str_eqb_spec x []); [contradiction|]. destruct (str_eqb_spec x (str_of ".")); [contradiction|]. cbn [orb].
    destruct (str_eqb_spec x (str_of "..")); [contradiction|]. reflexivity.
Qed.
Lemma slashes_spec : forall s, exists k, slashes s = repeat sl k /\ (starts_sl s = true <-> k <> O).
Proof.
  assert (T : forall b, (b = true <-> 1 <> 0)%nat <-> b = true) by (intro b; split; [intros [_ H]; apply H; discriminate|intros ->; split; auto]).
  intros [|a [|b [|c s]]]; cbn [slashes starts_sl].
  - exists O. split; [reflexivity|]. split; [discriminate|congruence].
  - destruct (Ascii.eqb a sl); [exists 1%nat|exists O]; (split; [reflexivity|]; split; try discriminate; try congruence; auto).
  - destruct (Ascii.eqb a sl); [|exists O; split; [reflexivity|]; split; [discriminate|congruence]].
    destruct (Ascii.eqb b sl); [exists 2%nat|exists 1%nat]; (split; [reflexivity|]; split; try discriminate; auto).
  - destruct (Ascii.eqb a sl); [|exists O; split; [reflexivity|]; split; [discriminate|congruence]].
    destruct (Ascii.eqb b sl && negb (Ascii.eqb c sl))%bool; [exists 2%nat|exists 1%nat]; (split; [reflexivity|]; split; try discriminate; auto).
Qed.
Lemma split_plain : forall s, Forall (fun x => ~ In sl x) (split_sl s).
Proof. intro s. apply Forall_forall. intros x H. eapply split_sl_parts. exact H. Qed.
Lemma walk_slash_join : forall l base, Forall (fun x => ~ In sl x) l -> walk_parts base (split_sl (slash_join l)) = walk_parts base l.
Proof. intros l base H. destruct l as [|x l]; [apply walk_parts_empty|]. rewrite slash_join_split by (try discriminate; exact H). reflexivity. Qed.
Lemma kept_plain : forall l, Forall kept l -> Forall (fun x => ~ In sl x) l.
Proof. intros l H. eapply Forall_impl; [|exact H]. intros x (_ & _ & h). exact h. Qed.
Lemma slash_join_nil : forall l, Forall kept l -> slash_join l = [] -> l = [].
Proof.
  intros [|x [|y l]] H E; [reflexivity| |]; inversion H as [|? ? (k & _) _]; subst; cbn [slash_join] in E; [contradiction|].
  apply app_eq_nil in E as [E _]. contradiction.
Qed.
Lemma resolve_normpath : forall cwd s, resolve cwd (normpath s) = resolve cwd s.
Proof.
  intros cwd s. unfold normpath. rewrite join_slash. set (comps := norm_comps (starts_sl s) [] (split_sl s)).
  assert (K : Forall kept comps) by (apply norm_kept; [constructor|apply split_plain]).
  destruct (slashes_spec s) as (k & -> & Hk).
  assert (W : walk_parts (if starts_sl s then [] else cwd) comps = resolve cwd s).
  { unfold comps, resolve. rewrite norm_walk; [reflexivity| |constructor|apply split_plain]. intros ->. split; [reflexivity|intros []]. }
  destruct (repeat sl k ++ slash_join comps) as [|c r] eqn:E.
  - apply app_eq_nil in E as [E1 E2]. apply slash_join_nil in E2; [|exact K]. rewrite E2 in W. cbn [walk_parts] in W.
    destruct (starts_sl s); [destruct k; [exfalso; apply (proj1 Hk); reflexivity|discriminate]|]. unfold resolve at 2. unfold resolve in W. rewrite <- W. reflexivity.
  - rewrite <- E, <- W. unfold resolve. rewrite walk_repeat, walk_slash_join by (apply kept_plain; exact K).
    replace (starts_sl (repeat sl k ++ slash_join comps)) with (starts_sl s); [reflexivity|].
    destruct (starts_sl s) eqn:Es.
    + destruct k as [|k]; [exfalso; apply (proj1 Hk); reflexivity|]. reflexivity.
    + destruct k as [|k]; [|exfalso; assert (F : false = true) by (apply Hk; discriminate); discriminate]. cbn [repeat app] in *.
      destruct comps as [|x l]; [reflexivity|]. inversion K as [|? ? (k1 & k2 & k3) _]; subst. destruct (slash_join_starts x l) as (z & ->).
      rewrite starts_sl_app by exact k1. symmetry. apply plain_starts. exact k3.
Qed.

(** ** Where an entry goes *)
Definition good (x : str) : bool := negb (str_eqb x [] || str_eqb x (str_of ".") || str_eqb x (str_of "..")).
Definition parts (f : str) : list str := filter good (split_sl f).
Lemma good_spec : forall x, good x = true <-> x <> [] /\ x <> str_of "." /\ x <> str_of "..".
Proof.
  intro x. unfold good. rewrite negb_true_iff, !orb_false_iff, !str_eqb_neq. tauto.
Qed.
Lemma parts_ok : forall f, Forall fname_ok (parts f).
Proof.
  intro f. apply Forall_forall. intros x H. apply filter_In in H as [H G]. apply good_spec in G as (a & b & c).
  repeat split; try assumption. eapply split_sl_parts. exact H.
Qed.
Lemma parts_plain : forall f, Forall (fun x => ~ In sl x) (parts f).
Proof. intro f. apply kept_plain. eapply Forall_impl; [|apply parts_ok]. apply fname_kept. Qed.
Lemma parts_proper : forall f, proper f <-> parts f <> [].
Proof.
  intro f. split.
  - intros (x & Hx & (a & b & c & d)) E. assert (H : In x (parts f)) by (apply filter_In; split; [exact Hx|apply good_spec; auto]). rewrite E in H. destruct H.
  - destruct (parts f) as [|x l] eqn:E; [congruence|]. intros _. exists x. assert (H : In x (parts f)) by (rewrite E; left; reflexivity).
    split; [apply filter_In in H as [H _]; exact H|]. pose proof (parts_ok f) as F. rewrite Forall_forall in F. apply F. exact H.
Qed.
Lemma starts_parts : forall l, Forall fname_ok l -> starts_sl (slash_join l) = false.
Proof.
  intros [|x l] H; [reflexivity|]. inversion H as [|? ? (a & b & c & d) _]; subst. destruct (slash_join_starts x l) as (z & ->).
  rewrite starts_sl_app by exact a. apply plain_starts. exact d.
Qed.
Lemma resolve_target : forall cwd outdir f, resolve cwd (zip_target outdir f) = resolve cwd outdir ++ parts f.
Proof.
  intros cwd outdir f. unfold zip_target. rewrite resolve_normpath. fold good. change (filter _ (split_sl f)) with (parts f).
  rewrite join_slash, resolve_join by (apply starts_parts, parts_ok). rewrite walk_slash_join by apply parts_plain. apply walk_parts_good. apply parts_ok.
Qed.
Lemma norm_good : forall rooted l acc, Forall fname_ok l -> norm_comps rooted acc l = rev acc ++ l.
Proof.
  intros r l. induction l as [|x l IH]; intros acc H; cbn [norm_comps]; [rewrite app_nil_r; reflexivity|]. inversion H as [|? ? (a & b & c & d) H']; subst.
  destruct (str_eqb_spec x []); [contradiction|]. destruct (str_eqb_spec x (str_of ".")); [contradiction|]. destruct (str_eqb_spec x (str_of "..")); [contradiction|].
  cbn [orb negb]. rewrite IH by assumption. cbn [rev]. rewrite <- app_assoc. reflexivity.
Qed.
Lemma norm_app : forall rooted l acc l', Forall fname_ok l' -> norm_comps rooted acc (l ++ l') = norm_comps rooted acc l ++ l'.
Proof.
  intros r l. induction l as [|x l IH]; intros acc l' H; cbn [app norm_comps]; [apply norm_good; exact H|].
  destruct (str_eqb x [] || str_eqb x (str_of "."))%bool; [apply IH; exact H|]. destruct (negb (str_eqb x (str_of ".."))); [apply IH; exact H|].
  destruct acc as [|y acc]; [destruct r; apply IH; exact H|]. destruct (str_eqb y (str_of "..")); apply IH; exact H.
Qed.
Lemma split_dirpart : forall a l, Forall fname_ok l -> l <> [] -> exists X, split_sl (dirpart a ++ slash_join l) = X ++ l /\ Forall (fun x => ~ In sl x) X.
Proof.
  intros a l H Hl. assert (P : Forall (fun x => ~ In sl x) l) by (apply kept_plain; eapply Forall_impl; [|exact H]; apply fname_kept).
  destruct (dirpart_ends a) as [->|E].
  - exists []. cbn [app]. rewrite slash_join_split by assumption. split; [reflexivity|constructor].
  - apply ends_sl_snoc in E as (r & ->). exists (split_sl r). rewrite <- app_assoc. cbn [app]. rewrite split_sl_app, slash_join_split by assumption.
    split; [reflexivity|apply split_plain].
Qed.
Lemma slash_join_last : forall l n, l <> [] -> slash_join (l ++ [n]) = slash_join l ++ sl :: n.
Proof.
  intros [|x l] n H; [congruence|]. clear H. revert x. induction l as [|y l IH]; intro x; [reflexivity|].
  change ((x :: y :: l) ++ [n]) with (x :: y :: l ++ [n]). rewrite slash_join_cons. change (y :: l ++ [n]) with ((y :: l) ++ [n]). rewrite IH, slash_join_cons, <- app_assoc. reflexivity.
Qed.
Lemma target_join : forall outdir f, parts f <> [] -> exists A, zip_target outdir f = os_join A (last (parts f) []) /\ (removelast (parts f) <> [] -> A <> [] /\ ends_sl A = false).
Proof.
  intros outdir f Hp. unfold zip_target. change (filter _ (split_sl f)) with (parts f). rewrite join_slash.
  rewrite os_join_dir by (apply starts_parts, parts_ok). destruct (split_dirpart outdir (parts f) (parts_ok f) Hp) as (X & E & HX).
  unfold normpath. rewrite E, norm_app by apply parts_ok. rewrite join_slash.
  destruct (snoc_cases (parts f) Hp) as (R & n & En). rewrite En, last_last, removelast_last. rewrite app_assoc.
  assert (N : fname_ok n) by (pose proof (parts_ok f) as F; rewrite En in F; apply Forall_app in F as [_ F]; inversion F; assumption).
  assert (NK : kept n) by (apply fname_kept; exact N). pose proof NK as (n1 & n2 & n3).
  set (Y := norm_comps (starts_sl (dirpart outdir ++ slash_join (R ++ [n]))) [] X ++ R).
  assert (KY : Forall kept Y).
  { apply Forall_app. split; [apply norm_kept; [constructor|exact HX]|]. pose proof (parts_ok f) as F. rewrite En in F. apply Forall_app in F as [F _]. eapply Forall_impl; [|exact F]. apply fname_kept. }
  assert (RY : R <> [] -> Y <> []) by (intros HR HY; apply app_eq_nil in HY as [_ HY]; contradiction).
  clearbody Y. set (s := slashes (dirpart outdir ++ slash_join (R ++ [n]))).
  assert (S : s = [] \/ ends_sl s = true).
  { destruct (slashes_spec (dirpart outdir ++ slash_join (R ++ [n]))) as (k & Ek & _). fold s in Ek. rewrite Ek. destruct k as [|k]; [left; reflexivity|right].
    apply ends_sl_snoc. exists (repeat sl k). change [sl] with (repeat sl 1). rewrite <- repeat_app, Nat.add_comm. reflexivity. }
  clearbody s.
  assert (Z : exists A, (s ++ slash_join (Y ++ [n]) = os_join A n /\ s ++ slash_join (Y ++ [n]) <> []) /\ (R <> [] -> A <> [] /\ ends_sl A = false)).
  { destruct Y as [|y Y'].
    - exists s. split; [|intro HR; exfalso; apply RY; auto]. cbn [app slash_join]. rewrite os_join_dir by (apply plain_starts; exact n3). unfold dirpart. split; [|intro E0; apply app_eq_nil in E0 as [_ E0]; contradiction].
      destruct S as [->|S]; [reflexivity|]. destruct s as [|c s]; [discriminate|]. rewrite S. reflexivity.
    - clear RY. destruct (snoc_cases (y :: Y')) as (Y0 & z & EY); [discriminate|]. rewrite EY in *. clear y Y' EY.
      apply Forall_app in KY as [_ KY]. inversion KY as [|? ? (z1 & z2 & z3) _]; subst.
      exists (s ++ slash_join (Y0 ++ [z])). split; cycle 1.
      { intros _. destruct (slash_join_snoc Y0 z) as (w & ->). rewrite app_assoc. split; [intro E0; apply app_eq_nil in E0 as [_ E0]; contradiction|].
        destruct (snoc_cases z z1) as (z0 & zc & ->). unfold ends_sl. rewrite app_assoc, rev_app_distr. cbn [rev app]. apply Ascii.eqb_neq. intros ->. apply z3. apply in_or_app. right. left. reflexivity. }
      rewrite slash_join_last by (destruct Y0; discriminate).
      destruct (slash_join_snoc Y0 z) as (w & ->). rewrite os_join_dir by (apply plain_starts; exact n3). rewrite (app_assoc s w z), dirpart_plain by assumption.
      rewrite <- !app_assoc. split; [reflexivity|]. intro E0. apply app_eq_nil in E0 as [_ E0]. apply app_eq_nil in E0 as [_ E0]. apply app_eq_nil in E0 as [E0 _]. contradiction. }
  destruct Z as (A & (Z & NZ) & ZA). exists A. split; [|exact ZA]. rewrite <- Z. destruct (s ++ slash_join (Y ++ [n])); [congruence|reflexivity].
Qed.

Lemma lstrip_rep : forall k s, lstrip_sl (repeat sl k ++ s) = lstrip_sl s.
Proof. induction k as [|k IH]; intro s; [reflexivity|]. cbn [repeat app]. rewrite lstrip_sl_cons. apply IH. Qed.
Lemma entry_split : forall f d n, entry f d n -> os_split f = (d, n).
Proof.
  intros f d n H. destruct H as [n Hn|k n Hn|d k n Hn He Hd].
  - unfold os_split. destruct (tail_head [] n Hn (or_introl eq_refl)) as [T1 T2]. cbn [app] in *. rewrite T1, T2. cbn [rev forallb]. rewrite rev_involutive. reflexivity.
  - unfold os_split. assert (E : ends_sl (repeat sl (S k)) = true).
    { apply ends_sl_snoc. exists (repeat sl k). change [sl] with (repeat sl 1). rewrite <- repeat_app, Nat.add_comm. reflexivity. }
    destruct (tail_head (repeat sl (S k)) n Hn (or_intror E)) as [-> ->]. rewrite !rev_involutive.
    replace (forallb (Ascii.eqb sl) (repeat sl (S k))) with true; [reflexivity|]. symmetry. clear. induction (S k) as [|m IH]; [reflexivity|]. cbn [repeat forallb]. rewrite Ascii.eqb_refl. exact IH.
  - unfold os_split. rewrite app_assoc. assert (E : ends_sl (d ++ repeat sl (S k)) = true).
    { apply ends_sl_snoc. exists (d ++ repeat sl k). rewrite <- app_assoc. change [sl] with (repeat sl 1). rewrite <- repeat_app, Nat.add_comm. reflexivity. }
    destruct (tail_head (d ++ repeat sl (S k)) n Hn (or_intror E)) as [-> ->]. rewrite !rev_involutive.
    destruct (snoc_cases d Hd) as (r & c & ->). unfold ends_sl in He. rewrite rev_app_distr in He. cbn [rev app] in He.
    replace (forallb (Ascii.eqb sl) ((r ++ [c]) ++ repeat sl (S k))) with false.
    + f_equal. unfold rstrip_sl. rewrite rev_app_distr, rev_repeat, lstrip_rep, rev_app_distr. cbn [rev app lstrip_sl]. rewrite He. cbn [rev]. rewrite rev_involutive. reflexivity.
    + symmetry. rewrite !forallb_app. cbn [forallb]. rewrite Ascii.eqb_sym, He, andb_false_r. reflexivity.
Qed.
Lemma target_split : forall cwd outdir f, parts f <> [] ->
  snd (os_split (rstrip_sl (zip_target outdir f))) = last (parts f) [] /\
  resolve cwd (fst (os_split (zip_target outdir f))) = resolve cwd outdir ++ removelast (parts f) /\
  (removelast (parts f) <> [] -> fst (os_split (zip_target outdir f)) <> []).
Proof.
  intros cwd outdir f Hp. destruct (target_join outdir f Hp) as (A & E & EA). pose proof (resolve_target cwd outdir f) as T. rewrite E in *.
  set (n := last (parts f) []) in *. assert (N : fname_ok n).
  { pose proof (parts_ok f) as F. rewrite Forall_forall in F. apply F. destruct (snoc_cases (parts f) Hp) as (R & x & Ex). unfold n. rewrite Ex, last_last. apply in_or_app. right. left. reflexivity. }
  pose proof N as (n1 & n2 & n3 & n4). destruct (split_join cwd A n n4) as [S1 S2].
  assert (R : rstrip_sl (os_join A n) = os_join A n) by (rewrite os_join_dir by (apply plain_starts; exact n4); apply rstrip_plain; assumption).
  rewrite R. split; [exact S1|]. split; cycle 1.
  { intro HR. destruct (EA HR) as [A1 A2]. assert (En : entry (A ++ repeat sl 1 ++ n) A n) by (constructor; assumption). apply entry_split in En.
    unfold os_join. rewrite (plain_starts n n4), A2. destruct A as [|c A]; [congruence|]. cbn [repeat app] in En |- *. rewrite En. discriminate. }
  rewrite S2. rewrite resolve_join_good in T by exact N.
  rewrite (app_removelast_last [] Hp) in T. fold n in T. rewrite app_assoc in T. apply app_inj_tail in T as [T _]. exact T.
Qed.

(** The name is the last part. *)
Lemma tail_last : forall f, snd (os_split f) = last (split_sl f) [].
Proof.
  intro f. unfold os_split. cbn [snd]. assert (G : exists a n, f = a ++ n /\ ~ In sl n /\ (a = [] \/ ends_sl a = true) /\ last (split_sl f) [] = n).
  { induction f as [|c f (a & n & E & Hn & Ha & L)]; [exists [], []; repeat split; auto|]. cbn [split_sl]. destruct (Ascii.eqb_spec c sl) as [->|Nc].
    - exists (sl :: a), n. repeat split; auto; [rewrite E; reflexivity| |].
      + right. destruct Ha as [->|Ha]; [reflexivity|]. apply ends_sl_snoc in Ha as (r & ->). apply ends_sl_snoc. exists (sl :: r). reflexivity.
      + pose proof (split_sl_nonempty f) as Hne. cbn [last]. destruct (split_sl f) as [|y l] eqn:Es; [congruence|]. rewrite <- Es in *. exact L.
    - pose proof (split_sl_nonempty f) as Hne. destruct (split_sl f) as [|y l] eqn:Es; [congruence|]. destruct l as [|z l].
      + destruct a as [|x a].
        * exists [], (c :: n). repeat split; auto; [rewrite E; reflexivity|intros [I|I]; [congruence|contradiction]|]. cbn [last] in *. congruence.
        * exfalso. destruct Ha as [Ha|Ha]; [discriminate|]. apply ends_sl_snoc in Ha as (r & Ea). rewrite E, Ea, <- app_assoc in Es. cbn [app] in Es. rewrite split_sl_app in Es.
          assert (Len : List.length (split_sl r ++ split_sl n) = 1%nat) by (rewrite Es; reflexivity). rewrite app_length in Len.
          pose proof (split_sl_nonempty r). pose proof (split_sl_nonempty n). destruct (split_sl r), (split_sl n); cbn [List.length] in Len; try congruence; lia.
      + destruct a as [|x a].
        * exfalso. cbn [app] in E. subst f. rewrite split_sl_plain in Es by exact Hn. discriminate.
        * exists (c :: x :: a), n. repeat split; auto; [rewrite E; reflexivity|]. right. destruct Ha as [Ha|Ha]; [discriminate|]. apply ends_sl_snoc in Ha as (r & ->). apply ends_sl_snoc. exists (c :: r). reflexivity. }
  destruct G as (a & n & -> & Hn & Ha & L). destruct (tail_head a n Hn Ha) as [-> _]. rewrite rev_involutive. symmetry. exact L.
Qed.
Lemma tail_plain : forall f, ~ In sl (snd (os_split f)).
Proof.
  intro f. rewrite tail_last. destruct (snoc_cases (split_sl f) (split_sl_nonempty f)) as (r & x & E). rewrite E, last_last.
  apply (split_sl_parts f). rewrite E. apply in_or_app. right. left. reflexivity.
Qed.
Lemma parts_last : forall f, fname_ok (snd (os_split f)) -> exists r, parts f = r ++ [snd (os_split f)].
Proof.
  intros f H. rewrite tail_last in *. destruct (snoc_cases (split_sl f) (split_sl_nonempty f)) as (r & x & E). rewrite E, last_last in *.
  unfold parts. rewrite E, filter_app. cbn [filter]. assert (G : good x = true) by (apply good_spec; destruct H as (a & b & c & _); auto). rewrite G. eauto.
Qed.
