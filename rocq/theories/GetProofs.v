(** Lemmas about receiving over scp. *)
From Coq Require Import ZArith String Ascii Bool List Lia.
From Verif Require Import PyBase PyStr FsModel FsSpec FsProofs PathProofs ScpModel GetModel GetSpec.
Import ListNotations.

Lemma join_ends : forall s n, fname_ok n -> os_join s n <> [] /\ ends_sl (os_join s n) = false.
Proof.
  intros s n (h1 & _ & _ & h4). rewrite os_join_dir by (apply plain_starts; assumption). destruct (snoc_cases n h1) as (r & c & ->). split.
  - destruct (dirpart s); [destruct r|]; discriminate.
  - destruct (ends_sl (dirpart s ++ r ++ [c])) eqn:E; [|reflexivity]. exfalso. apply ends_sl_snoc in E as (x & E). rewrite app_assoc in E. apply app_inj_tail in E as [_ ->].
    apply h4. apply in_or_app. right. left. reflexivity.
Qed.
Lemma rstrip_ends : forall s, ends_sl s = false -> rstrip_sl s = s.
Proof.
  intros s He. unfold rstrip_sl, ends_sl in *. destruct (rev s) as [|c r] eqn:E.
  - apply (f_equal (@rev _)) in E. rewrite rev_involutive in E. rewrite E. reflexivity.
  - cbn [lstrip_sl]. rewrite He. rewrite <- E. apply rev_involutive.
Qed.
Lemma not_slashes : forall s t, s <> [] -> ends_sl s = false -> forallb (Ascii.eqb sl) (s ++ t) = false.
Proof.
  intros s t Hs He. rewrite forallb_app. destruct (snoc_cases s Hs) as (r & c & ->). unfold ends_sl in He. rewrite rev_app_distr in He. cbn [rev app] in He.
  rewrite forallb_app. cbn [forallb]. rewrite Ascii.eqb_sym, He. rewrite Bool.andb_false_l || idtac. destruct (forallb _ r); reflexivity.
Qed.
Lemma pop_join : forall s n m, fname_ok n -> fname_ok m -> fst (os_split (os_join (os_join s n) m)) = os_join s n.
Proof.
  intros s n m Hn Hm. destruct (join_ends s n Hn) as [E1 E2]. set (a := os_join s n) in *. clearbody a. pose proof Hm as (_ & _ & _ & h4).
  rewrite os_join_dir by (apply plain_starts; assumption). unfold os_split. destruct (tail_head (dirpart a) m h4 (dirpart_ends a)) as [-> ->]. rewrite rev_involutive. cbn [fst].
  assert (D : dirpart a = a ++ [sl]) by (unfold dirpart; destruct a; [congruence|]; rewrite E2; reflexivity). rewrite D, not_slashes by assumption.
  unfold rstrip_sl. rewrite rev_app_distr. cbn [rev app]. rewrite lstrip_sl_cons. apply rstrip_ends. exact E2.
Qed.

Section Get.
Variable cwd : path.
Variables iparse oparse : str -> option Z.
Variable buff_size : nat.
Notation write_file := (write_file cwd). Notation recv_file := (recv_file cwd iparse oparse buff_size). Notation recv_pushd := (recv_pushd cwd oparse).
Notation apply_times := (apply_times cwd). Notation finish_times := (finish_times cwd). Notation carry_out := (carry_out cwd iparse oparse buff_size).
Notation recv_all := (recv_all cwd iparse oparse buff_size). Notation did := (did cwd).

(** ** Staying inside *)
Section Inside.
Variable B : path.
Variable fs0 : fsn.
(** directory texts that lead to a place below the base, step by step *)
Inductive chain : str -> path -> Prop :=
| chain_base s : resolve cwd s = B -> chain s []
| chain_step s q n : chain s q -> fname_ok n -> chain (os_join s n) (q ++ [n]).
Lemma chain_resolve : forall s q, chain s q -> resolve cwd s = B ++ q.
Proof. induction 1; [rewrite app_nil_r; assumption|]. rewrite resolve_join_good, IHchain, app_assoc by assumption. reflexivity. Qed.
Lemma chain_pop : forall s q n, chain s (q ++ [n]) -> chain (fst (os_split s)) q.
Proof.
  intros s q n H. inversion H as [s' E E'|s' q' n' H' Hn E E']; [destruct q; discriminate|]. apply app_inj_tail in E' as [-> ->]. subst s.
  inversion H' as [s'' E E'|s'' q'' n'' H'' Hn' E E']; subst.
  - apply chain_base. rewrite (proj2 (split_join cwd s' n (proj2 (proj2 (proj2 Hn))))). assumption.
  - rewrite pop_join by assumption. assumption.
Qed.
Definition safe (st : state) : Prop :=
  (forall p d, In (p, d) (s_deeds st) -> below B p) /\ (forall q, ~ below B q -> at_ (s_fs st) q = at_ fs0 q) /\
  (forall s t, In (s, t) (c_dirtimes (s_client st)) -> below B (resolve cwd s)).
Lemma safe_did : forall s d st, safe st -> below B (resolve cwd s) -> safe (did s d st).
Proof.
  intros s d st (a & b & c) H. split; [|split; [exact b|exact c]]. intros p e Hi. cbn [GetModel.did s_deeds] in Hi. apply in_app_or in Hi as [Hi|[Hi|[]]]; [eauto|]. congruence.
Qed.
Lemma safe_place : forall s n st fs, safe st -> below B (resolve cwd s) -> place (s_fs st) (resolve cwd s) n = Some fs -> safe (with_fs fs st).
Proof.
  intros s n st fs (a & b & c) H P. split; [exact a|]. split; [|exact c]. intros q Hq. cbn [with_fs s_fs]. rewrite (at_place _ _ _ _ P).
  destruct (cut (resolve cwd s) q) as [r|] eqn:E; [|auto]. exfalso. apply cut_Some in E. subst q. apply Hq. apply (below_trans _ _ _ H). apply below_app.
Qed.
Lemma safe_write : forall s c st st', safe st -> below B (resolve cwd s) -> write_file s c st = Some st' -> safe st'.
Proof.
  intros s c st st' S H E. unfold GetModel.write_file in E. destruct (ends_sl s); [discriminate|].
  assert (G : forall fs, place (s_fs st) (resolve cwd s) (File c) = Some fs -> safe (did s (Wrote c) (with_fs fs st))).
  { intros fs P. apply safe_did; [|exact H]. exact (safe_place _ _ _ _ S H P). }
  destruct (find (s_fs st) (resolve cwd s)) as [[]|]; try discriminate; destruct (place _ _ _) eqn:P; try discriminate; injection E as <-; auto.
Qed.
(** what the state is about, apart from the channel *)
Lemma safe_ext : forall st st', s_deeds st' = s_deeds st -> s_fs st' = s_fs st -> c_dirtimes (s_client st') = c_dirtimes (s_client st) -> safe st -> safe st'.
Proof. intros st st' h1 h2 h3 (a & b & c). unfold safe. rewrite h1, h2, h3. exact (conj a (conj b c)). Qed.
Lemma put_time_in : forall k v d s t, In (s, t) (put_time k v d) -> (s = k \/ exists t', In (s, t') d).
Proof.
  intros k v d. induction d as [|[k' v'] d IH]; intros s t H; cbn [put_time] in H.
  - destruct H as [H|[]]. left. congruence.
  - destruct (str_eqb k k'); destruct H as [H|H].
    + injection H as -> ->. right. exists v'. left. reflexivity.
    + right. exists t. right. assumption.
    + injection H as -> ->. right. exists t. left. reflexivity.
    + destruct (IH _ _ H) as [->|(t' & Hi)]; [left; reflexivity|]. right. exists t'. right. assumption.
Qed.

(** the invariant: where we are *)
Definition here (q : path) (c : client) : Prop := chain (c_dir c) q /\ (c_rename c = true -> q = []).
Lemma target_spec : forall name c p used c', target name c = Some (p, used, c') ->
  c_channel c' = c_channel c /\ c_dir c' = c_dir c /\ c_utime c' = c_utime c /\ c_dirtimes c' = c_dirtimes c /\ c_rename c' = false /\
  match used with Some n => c_rename c = false /\ p = os_join (c_dir c) n | None => c_rename c = true /\ p = c_dir c end.
Proof.
  intros name c p used c' H. unfold target in H. destruct (c_rename c) eqn:R.
  - injection H as <- <- <-. cbn. auto 10.
  - destruct name as [n|]; [|discriminate]. injection H as <- <- <-. cbn. auto 10.
Qed.
Lemma target_below : forall name c p used c' q, target name c = Some (p, used, c') -> here q c -> match used with Some n => fname_ok n | None => True end ->
  below B (resolve cwd p) /\ chain p (match used with Some n => q ++ [n] | None => q end).
Proof.
  intros name c p used c' q T (h1 & h2) N. destruct (target_spec _ _ _ _ _ T) as (_ & _ & _ & _ & _ & M). destruct used as [n|]; destruct M as (R & ->).
  - pose proof (chain_step _ _ _ h1 N) as C. split; [|exact C]. rewrite (chain_resolve _ _ C). apply below_app.
  - split; [|exact h1]. rewrite (chain_resolve _ _ h1). apply below_app.
Qed.
Lemma write_keeps : forall s c st st', write_file s c st = Some st' -> s_heard st' = s_heard st /\ s_client st' = s_client st /\ s_chan st' = s_chan st.
Proof.
  intros s c st st' E. unfold GetModel.write_file in E. destruct (ends_sl s); [discriminate|].
  destruct (find (s_fs st) (resolve cwd s)) as [[]|]; try discriminate; destruct (place _ _ _) eqn:P; try discriminate; injection E as <-; auto.
Qed.
(** a file *)
Lemma file_step : forall fuel cmd st r st', recv_file fuel cmd st = Some (r, st') ->
  (st' = st /\ r <> Ok tt) \/
  exists used, s_heard st' = s_heard st ++ [CFile used] /\
    forall q, here q (s_client st) -> named_ok (CFile used) -> safe st -> safe st' /\ here q (s_client st').
Proof.
  intros fuel cmd st r st' H. unfold GetModel.recv_file in H. set (cmd' := bstrip cmd) in *. clearbody cmd'.
  destruct (oparse (part1 cmd')) as [mode|]; [|injection H as <- <-; left; split; [reflexivity|discriminate]].
  destruct (option_map iparse (part2 cmd')) as [[size|]|]; try (injection H as <- <-; left; split; [reflexivity|discriminate]).
  destruct (target (rest2 cmd') (s_client st)) as [[[p used] cl]|] eqn:T; [|injection H as <- <-; left; split; [reflexivity|discriminate]].
  right. exists used. set (st1 := heard (CFile used) (with_client cl st)) in *.
  assert (Hh : s_heard st1 = s_heard st ++ [CFile used]) by reflexivity.
  assert (G : forall q, here q (s_client st) -> named_ok (CFile used) -> safe st -> below B (resolve cwd p) /\ safe st1 /\ here q (s_client st1)).
  { intros q Hq N S. destruct (target_spec _ _ _ _ _ T) as (t1 & t2 & t3 & t4 & t5 & _). split; [|split].
    - exact (proj1 (target_below _ _ _ _ _ q T Hq ltac:(destruct used; exact N))).
    - apply (safe_ext st); [reflexivity|reflexivity|exact t4|exact S].
    - unfold here, st1. cbn [heard with_client s_client]. rewrite t2, t5. destruct Hq as (h1 & h2). split; [exact h1|discriminate]. }
  destruct (write_file p [] st1) as [st0|] eqn:W0.
  2:{ injection H as <- <-. split; [exact Hh|]. intros q Hq N S. destruct (G q Hq N S) as (_ & h). exact h. }
  destruct (write_keeps _ _ _ _ W0) as (w1 & w2 & _).
  destruct (recv_data fuel buff_size size 0 (s_chan st1) []) as [got [more|]]; [|discriminate].
  destruct (write_file p got st0) as [st3|] eqn:W1.
  2:{ injection H as <- <-. split; [congruence|]. intros q Hq N S. destruct (G q Hq N S) as (Hb & S1 & H1). split; [exact (safe_write _ _ _ _ S1 Hb W0)|congruence]. }
  destruct (write_keeps _ _ _ _ W1) as (w3 & w4 & _).
  assert (K : s_heard st3 = s_heard st ++ [CFile used] /\ forall q, here q (s_client st) -> named_ok (CFile used) -> safe st -> below B (resolve cwd p) /\ safe st3 /\ here q (s_client st3)).
  { split; [congruence|]. intros q Hq N S. destruct (G q Hq N S) as (Hb & S1 & H1). split; [exact Hb|]. split; [|congruence].
    exact (safe_write _ _ _ _ (safe_write _ _ _ _ S1 Hb W0) Hb W1). }
  clear Hh G W0 W1 w1 w2 w3 w4. destruct K as (K1 & K2).
  assert (F : forall ch u m, s_heard (did p m (with_client (set_utime None (s_client (with_chan ch st3))) (did p u (with_chan ch st3)))) = s_heard st ++ [CFile used] /\
    forall q, here q (s_client st) -> named_ok (CFile used) -> safe st ->
    safe (did p m (with_client (set_utime None (s_client (with_chan ch st3))) (did p u (with_chan ch st3)))) /\
    here q (s_client (did p m (with_client (set_utime None (s_client (with_chan ch st3))) (did p u (with_chan ch st3)))))).
  { intros ch u m. split; [exact K1|]. intros q Hq N S. destruct (K2 q Hq N S) as (Hb & S3 & H3). split; [|exact H3].
    apply safe_did; [|exact Hb]. apply (safe_ext (did p u (with_chan ch st3))); [reflexivity|reflexivity|reflexivity|].
    apply safe_did; [|exact Hb]. exact S3. }
  assert (F2 : forall ch, s_heard (with_chan ch st3) = s_heard st ++ [CFile used] /\ forall q, here q (s_client st) -> named_ok (CFile used) -> safe st -> safe (with_chan ch st3) /\ here q (s_client (with_chan ch st3))).
  { intro ch. split; [exact K1|]. intros q Hq N S. destruct (K2 q Hq N S) as (_ & h). exact h. }
  destruct more as [ch|].
  2:{ injection H as <- <-. split; [exact K1|]. intros q Hq N S. destruct (K2 q Hq N S) as (_ & h). exact h. }
  destruct (recv 512 ch) as [[[|c s] ch']|]; [| |injection H as <- <-; apply F2].
  - injection H as <- <-. apply F.
  - destruct (Ascii.eqb c nul); injection H as <- <-; [apply F|apply F2].
Qed.
(** a directory *)
Lemma dir_step : forall cmd st r st', recv_pushd cmd st = (r, st') ->
  (st' = st /\ r <> Ok tt) \/
  exists used, s_heard st' = s_heard st ++ [CDir used] /\
    forall q, here q (s_client st) -> named_ok (CDir used) -> safe st -> safe st' /\ (r = Ok tt -> here (match used with Some n => q ++ [n] | None => q end) (s_client st')).
Proof.
  intros cmd st r st' H. unfold GetModel.recv_pushd in H.
  destruct (oparse (part1 cmd)) as [mode|]; [|injection H as <- <-; left; split; [reflexivity|discriminate]].
  destruct (target (rest2 cmd) (s_client st)) as [[[p used] cl]|] eqn:T; [|injection H as <- <-; left; split; [reflexivity|discriminate]].
  right. exists used. set (st1 := heard (CDir used) (with_client cl st)) in *.
  destruct (target_spec _ _ _ _ _ T) as (t1 & t2 & t3 & t4 & t5 & _).
  assert (G : forall q, here q (s_client st) -> named_ok (CDir used) -> safe st -> below B (resolve cwd p) /\ safe st1 /\ chain p (match used with Some n => q ++ [n] | None => q end)).
  { intros q Hq N S. destruct (target_below _ _ _ _ _ q T Hq ltac:(destruct used; exact N)) as (Hb & C). split; [exact Hb|]. split; [|exact C].
    apply (safe_ext st); [reflexivity|reflexivity|exact t4|exact S]. }
  assert (E : forall st2, s_client st2 = s_client st1 -> s_heard st2 = s_heard st1 -> 
    s_heard (with_client (set_dir p (set_utime None (set_dirtimes (put_time p (c_utime (s_client st2)) (c_dirtimes (s_client st2))) (s_client st2)))) st2) = s_heard st ++ [CDir used] /\
    forall q, here q (s_client st) -> named_ok (CDir used) -> safe st -> (below B (resolve cwd p) -> safe st1 -> safe st2) ->
     safe (with_client (set_dir p (set_utime None (set_dirtimes (put_time p (c_utime (s_client st2)) (c_dirtimes (s_client st2))) (s_client st2)))) st2) /\
     here (match used with Some n => q ++ [n] | None => q end) (set_dir p (set_utime None (set_dirtimes (put_time p (c_utime (s_client st2)) (c_dirtimes (s_client st2))) (s_client st2))))).
  { intros st2 h1 h2. split; [exact h2|]. intros q Hq N S I. destruct (G q Hq N S) as (Hb & S1 & C). destruct (I Hb S1) as (i1 & i2 & i3). split.
    - split; [exact i1|]. split; [exact i2|]. cbn [with_client s_client set_dir set_utime set_dirtimes c_dirtimes]. intros s t Hi.
      destruct (put_time_in _ _ _ _ _ Hi) as [->|(t' & Hi')]; [exact Hb|exact (i3 _ _ Hi')].
    - split; [exact C|]. cbn [set_dir set_utime set_dirtimes c_rename]. rewrite h1. cbn [st1 heard with_client s_client]. rewrite t5. discriminate. }
  destruct (find (s_fs st1) (resolve cwd p)) as [[c|es]|] eqn:F.
  - injection H as <- <-. split; [reflexivity|]. intros q Hq N S. destruct (G q Hq N S) as (_ & S1 & _). split; [exact S1|discriminate].
  - injection H as <- <-. destruct (E (did p (Mode mode) st1) eq_refl eq_refl) as (E1 & E2). split; [exact E1|]. intros q Hq N S.
    destruct (E2 q Hq N S) as (s1 & h1). { intros Hb S1. apply safe_did; assumption. } split; [exact s1|intros _; exact h1].
  - destruct (place (s_fs st1) (resolve cwd p) (Dir [])) as [fs|] eqn:P.
    + injection H as <- <-. destruct (E (did p (Mode mode) (did p Made (with_fs fs st1))) eq_refl eq_refl) as (E1 & E2). split; [exact E1|]. intros q Hq N S.
      destruct (E2 q Hq N S) as (s1 & h1). { intros Hb S1. apply safe_did; [|exact Hb]. apply safe_did; [|exact Hb]. exact (safe_place _ _ _ _ S1 Hb P). }
      split; [exact s1|intros _; exact h1].
    + injection H as <- <-. split; [reflexivity|]. intros q Hq N S. destruct (G q Hq N S) as (_ & S1 & _). split; [exact S1|discriminate].
Qed.
Lemma times_step : forall cmd st r st', set_time iparse cmd st = (r, st') ->
  (st' = st /\ r <> Ok tt) \/ (s_heard st' = s_heard st ++ [CTime] /\ (safe st -> safe st') /\ (forall q, here q (s_client st) -> here q (s_client st'))).
Proof.
  intros cmd st r st' H. unfold set_time in H.
  destruct (iparse (part1 cmd)); [|injection H as <- <-; left; split; [reflexivity|discriminate]].
  destruct (option_map iparse (part3 cmd)) as [[a|]|]; try (injection H as <- <-; left; split; [reflexivity|discriminate]).
  injection H as <- <-. right. split; [reflexivity|]. split; [exact (fun x => x)|exact (fun q x => x)].
Qed.
Lemma apply_safe : forall l st r st', apply_times l st = (r, st') -> (forall s t, In (s, t) l -> below B (resolve cwd s)) -> safe st -> safe st' /\ s_heard st' = s_heard st.
Proof.
  induction l as [|[d t] l IH]; intros st r st' H Hl S; cbn [GetModel.apply_times] in H; [injection H as <- <-; auto|].
  destruct (find (s_fs st) (resolve cwd d)); [|injection H as <- <-; auto].
  destruct (IH _ _ _ H) as (h1 & h2); [intros s t' Hi; apply (Hl s t'); right; assumption| |auto]. apply safe_did; [exact S|]. apply (Hl d t). left. reflexivity.
Qed.
Lemma finish_safe : forall st r st', finish_times st = (r, st') -> safe st -> safe st' /\ s_heard st' = s_heard st.
Proof.
  intros st r st' H S. unfold GetModel.finish_times in H. destruct (apply_times _ st) as [r1 st1] eqn:E. injection H as <- <-.
  destruct (apply_safe _ _ _ _ E (proj2 (proj2 S)) S) as ((a & b & c) & h). split; [|exact h]. split; [exact a|]. split; [exact b|]. intros s t [].
Qed.
Lemma apply_heard : forall l st r st', apply_times l st = (r, st') -> s_heard st' = s_heard st.
Proof.
  induction l as [|[d t] l IH]; intros st r1 st1 E; cbn [GetModel.apply_times] in E; [congruence|].
  destruct (find (s_fs st) (resolve cwd d)); [|congruence]. exact (IH _ _ _ E).
Qed.
Lemma finish_heard : forall st r st', finish_times st = (r, st') -> s_heard st' = s_heard st.
Proof.
  intros st r st' H. unfold GetModel.finish_times in H. destruct (apply_times _ st) as [r1 st1] eqn:E. injection H as <- <-. exact (apply_heard _ _ _ _ E).
Qed.

(** one command: what is heard, and what it means for where we are *)
Definition moves (q : path) (c : command) (q' : path) : Prop :=
  match c with CDir (Some n) => q' = q ++ [n] | CUp => exists n, q = q' ++ [n] | _ => q' = q end.
Lemma command_step : forall fuel code cmd st r st', carry_out fuel code cmd st = Some (r, st') ->
  (st' = st /\ r <> Ok tt) \/
  exists c, s_heard st' = s_heard st ++ [c] /\
    (c = CTime \/ c = CUp -> safe st -> safe st') /\
    (forall q, here q (s_client st) -> named_ok c -> safe st -> safe st' /\ (forall q', moves q c q' -> r = Ok tt -> here q' (s_client st'))).
Proof.
  intros fuel code cmd st r st' H. unfold GetModel.carry_out in H.
  destruct (Ascii.eqb code "C").
  { destruct (file_step _ _ _ _ _ H) as [F|(used & F1 & F2)]; [left; exact F|]. right. exists (CFile used). split; [exact F1|]. split; [intros [E|E]; discriminate E|].
    intros q Hq N S. destruct (F2 q Hq N S) as (s1 & h1). split; [exact s1|]. cbn [moves]. intros q' -> _. exact h1. }
  destruct (Ascii.eqb code "T").
  { injection H as H. destruct (times_step _ _ _ _ H) as [F|(F1 & F2 & F3)]; [left; exact F|]. right. exists CTime. split; [exact F1|]. split; [intros _; exact F2|].
    intros q Hq N S. split; [exact (F2 S)|]. cbn [moves]. intros q' -> _. exact (F3 q Hq). }
  destruct (Ascii.eqb code "D").
  { injection H as H. destruct (dir_step _ _ _ _ H) as [F|(used & F1 & F2)]; [left; exact F|]. right. exists (CDir used). split; [exact F1|]. split; [intros [E|E]; discriminate E|].
    intros q Hq N S. destruct (F2 q Hq N S) as (s1 & h1). split; [exact s1|]. destruct used; cbn [moves]; intros q' ->; exact h1. }
  destruct (Ascii.eqb code "E").
  { injection H as <- <-. right. exists CUp. split; [reflexivity|]. split; [exact (fun _ x => x)|]. intros q Hq N S. split; [exact S|]. cbn [moves]. intros q' (n & ->) _.
    destruct Hq as (h1 & h2). split; [exact (chain_pop _ _ _ h1)|]. intro R. cbn [recv_popd] in R. destruct q'; discriminate (h2 R). }
  injection H as <- <-. left. split; [reflexivity|discriminate].
Qed.

Lemma recv_all_inside : forall fuel st r st', recv_all fuel st = Some (r, st') -> exists fut, s_heard st' = s_heard st ++ fut /\
  (Forall (eq CTime) fut -> safe st -> safe st') /\
  (forall q, here q (s_client st) -> stays (length q) fut -> Forall named_ok fut -> safe st -> safe st').
Proof.
  induction fuel as [|fuel IH]; intros st r st' H; cbn [GetModel.recv_all] in H; [discriminate|].
  assert (Z : forall st1, s_heard st1 = s_heard st -> (safe st -> safe st1) -> exists fut, s_heard st1 = s_heard st ++ fut /\ (Forall (eq CTime) fut -> safe st -> safe st1) /\
    (forall q, here q (s_client st) -> stays (length q) fut -> Forall named_ok fut -> safe st -> safe st1)).
  { intros st1 h1 h2. exists []. rewrite app_nil_r. split; [exact h1|]. split; [intros _; exact h2|intros; auto]. }
  destruct (recv 1024 (s_chan st)) as [[s ch]|]; [|injection H as <- <-; apply Z; auto].
  set (st1 := with_chan ch st) in *.
  destruct (rev s) as [|c r0].
  { injection H as H. apply Z; [exact (finish_heard _ _ _ H)|]. intro S. exact (proj1 (finish_safe _ _ _ H S)). }
  destruct (negb (Ascii.eqb c nl)); [injection H as <- <-; apply Z; auto|].
  destruct (rev r0) as [|code cmd]; [injection H as <- <-; apply Z; auto|].
  destruct (carry_out fuel code cmd st1) as [[r2 st2]|] eqn:E; [|discriminate].
  destruct (command_step _ _ _ _ _ _ E) as [(-> & F)|(c2 & F1 & F2 & F3)].
  { destruct r2 as [[]|e]; [congruence|]. injection H as <- <-. apply Z; auto. }
  assert (Keep : forall fut st3, s_heard st3 = s_heard st2 ++ fut -> s_heard st3 = s_heard st ++ c2 :: fut).
  { intros fut st3 h. rewrite h, F1. rewrite <- app_assoc. reflexivity. }
  destruct r2 as [[]|e].
  - destruct (IH _ _ _ H) as (fut & I1 & I2 & I3). exists (c2 :: fut). split; [exact (Keep _ _ I1)|]. split.
    + intros Ft S. inversion Ft as [|x y e1 e2]; subst. apply I2; [assumption|]. apply F2; [auto|exact S].
    + intros q Hq St N S. inversion N as [|x y n1 n2]; subst. destruct (F3 q Hq n1 S) as (s2 & F4).
      assert (J : forall q', moves q c2 q' -> stays (length q') fut -> safe st') by (intros q' M St'; exact (I3 q' (F4 q' M eq_refl) St' n2 s2)).
      destruct c2 as [u|[n|]| |]; cbn [stays moves] in *.
      * exact (J q eq_refl St).
      * apply (J _ eq_refl). rewrite app_length. cbn [length]. rewrite Nat.add_1_r. exact St.
      * exact (J q eq_refl St).
      * destruct q as [|x q0] eqn:Eq; [exact (I2 St s2)|]. destruct (snoc_cases q ltac:(congruence)) as (q1 & n & E1). apply (J q1); [exists n; congruence|].
        rewrite <- Eq, E1 in St. rewrite app_length in St. cbn [length] in St. rewrite Nat.add_1_r in St. exact St.
      * exact (J q eq_refl St).
  - injection H as <- <-. exists [c2]. split; [exact F1|]. split.
    + intros Ft S. inversion Ft as [|x y e1 e2]; subst. apply F2; [auto|exact S].
    + intros q Hq St N S. inversion N as [|x y n1 n2]; subst. exact (proj1 (F3 q Hq n1 S)).
Qed.
End Inside.
End Get.
