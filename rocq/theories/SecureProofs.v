(** The state of the remote host while files are sent: an invariant that holds
    whichever commands are carried out when. *)
From Coq Require Import ZArith String Ascii Bool List Lia.
From Verif Require Import PyBase PyStr FsModel FsSpec FsProofs PathProofs CopyModel CopySpec CopyProofs CopyStepProofs FtpSpec SecureModel SecureSpec ShellProofs.
Import ListNotations.

Lemma Forall2_pick : forall {A B} (P : A -> B -> Prop) la lb i x, Forall2 P la lb -> nth_error la i = Some x ->
  exists y a b, lb = a ++ y :: b /\ P x y /\ Forall2 P (drop_nth i la) (a ++ b).
Proof.
  intros A B P la lb i x F. revert i. induction F as [|u v la lb Huv F IH]; intros i H; [destruct i; discriminate|]. destruct i as [|i].
  - injection H as <-. exists v, [], lb. auto.
  - cbn [nth_error] in H. destruct (IH i H) as (y & a & b & -> & Hp & Hf). exists y, (v :: a), b. split; [reflexivity|]. split; [assumption|]. cbn. constructor; assumption.
Qed.
Lemma NoDup_snoc : forall {A} (l : list A) x, NoDup l -> ~ In x l -> NoDup (l ++ [x]).
Proof.
  intros A l x N H. induction N as [|y l Hy N IH]; cbn [app]; [constructor; [intros []|constructor]|]. constructor.
  - rewrite in_app_iff. intros [K|[K|[]]]; [contradiction|]. apply H. left. symmetry. assumption.
  - apply IH. intro K. apply H. right. assumption.
Qed.
Lemma path_dec : forall p q : path, p = q \/ p <> q.
Proof. intros p q. destruct (list_eq_dec (list_eq_dec ascii_dec) p q); auto. Qed.

Section Inv.
Variable E : senv.
Variable src : str -> path -> Prop.       (* content meant for a path *)
Variable R : path.                        (* the directory asked for *)
Variable t0 : fsn.                        (* the files at first *)
Definition tgt D := exists c, src c D.
Definition tmp T := exists D, tgt D /\ stemp E D T.
Definition Dirs q := below q R \/ exists D, tgt D /\ below q (removelast D).
Definition Files q := tgt q \/ tmp q.
Hypothesis root : at_ t0 [] = Some EDir.
Hypothesis apart : forall q, Files q -> ~ Dirs q.
Hypothesis f_dir : forall q, Files q -> at_ t0 q <> Some EDir.
Hypothesis d_file : forall q c, Dirs q -> at_ t0 q <> Some (EFile c).
Hypothesis no_tmp : forall D, tgt D -> ~ tmp D.
Hypothesis tmp_inj : forall D D' T, tgt D -> tgt D' -> stemp E D T -> stemp E D' T -> D = D'.
Hypothesis R_ok : Forall fname_ok R.
Hypothesis tgt_ok : forall D, tgt D -> D <> [] /\ Forall fname_ok D.
Hypothesis cut_ok : forall i c, concat (spieces E i c) = c.

Lemma Dirs_below : forall p q, below q p -> Dirs p -> Dirs q.
Proof. intros p q B [H|(D & a & b)]; [left|right; exists D; split; [assumption|]]; eapply below_trans; eassumption. Qed.
Lemma Dirs_ok : forall p, Dirs p -> Forall fname_ok p.
Proof.
  intros p [(r & H)|(D & a & (r & H))].
  - rewrite H in R_ok. apply Forall_app in R_ok. apply R_ok.
  - destruct (tgt_ok D a) as (Nd & Hd). destruct (snoc_cases D Nd) as (d & n & ->). rewrite removelast_last in H. apply Forall_app in Hd as (Hd & _). rewrite H in Hd. apply Forall_app in Hd. apply Hd.
Qed.

Record good (t : fsn) : Prop := {
  g_all : forall q, ~ tmp q -> at_ t q = at_ t0 q \/ (at_ t0 q = None /\ at_ t q = Some EDir /\ Dirs q) \/ (exists c, src c q /\ at_ t q = Some (EFile c));
  g_tmp : forall q, tmp q -> at_ t q <> Some EDir
}.
Lemma g_dirs : forall t, good t -> forall q, Dirs q -> at_ t q = Some EDir \/ (at_ t q = None /\ at_ t0 q = None).
Proof.
  intros t G q H. destruct (g_all t G q) as [e|[(_ & e & _)|(c & e & _)]]; auto.
  - intro K. apply (apart q); [right|]; assumption.
  - rewrite e. destruct (at_ t0 q) as [[c|]|] eqn:A; auto. exfalso. apply (d_file q c H A).
  - exfalso. apply (apart q); [left; exists c|]; assumption.
Qed.
Lemma g_tgt : forall t, good t -> forall q, tgt q -> at_ t q = at_ t0 q \/ exists c, src c q /\ at_ t q = Some (EFile c).
Proof.
  intros t G q H. destruct (g_all t G q) as [e|[(_ & _ & e)|e]]; auto. exfalso. apply (apart q); [left|]; assumption.
Qed.
Lemma good_start : good t0.
Proof. constructor; [auto|]. intros q H. apply f_dir. right. assumption. Qed.
Lemma good_tgt : forall t q, good t -> tgt q -> at_ t q <> Some EDir.
Proof. intros t q G H A. destruct (g_tgt t G q H) as [e|(c & _ & e)]; [|congruence]. rewrite e in A. apply (f_dir q); [left|]; assumption. Qed.
Lemma good_dir : forall t q e, good t -> Dirs q -> at_ t q = Some e -> e = EDir.
Proof. intros t q e G H A. destruct (g_dirs t G q H) as [x|(x & _)]; congruence. Qed.
Lemma good_root : forall t, good t -> at_ t [] = Some EDir.
Proof. intros t G. destruct (g_dirs t G []) as [x|(_ & x)]; [left; exists R; reflexivity|assumption|congruence]. Qed.
Lemma good_nofile : forall t q c, good t -> Dirs q -> at_ t q <> Some (EFile c).
Proof. intros t q c G H A. pose proof (good_dir t q _ G H A). discriminate. Qed.

(** Commands started and not finished. *)
Inductive job := JMk (p : path) | JMv (T D : path) (c : str).
Definition says (line : str) (j : job) : Prop :=
  match j with
  | JMk p => forall t, as_ E line (makedirs [] p) t
  | JMv T D _ => forall t, at_ t D <> Some EDir -> as_ E line (os_rename T D) t
  end.
Definition dests (l : list job) : list path := flat_map (fun j => match j with JMv _ D _ => [D] | JMk _ => [] end) l.
Lemma in_dests : forall l D, In D (dests l) <-> exists T c, In (JMv T D c) l.
Proof.
  intros l D. unfold dests. rewrite in_flat_map. split.
  - intros ([p|T D' c] & a & b); [destruct b|]. destruct b as [->|[]]. eauto.
  - intros (T & c & H). exists (JMv T D c). split; [assumption|left; reflexivity].
Qed.

(** [u]: the files handed over so far; [cur]: the file being transferred; [pr]: a
    directory that is there or about to be made. *)
Record inv (u : list path) (cur : option (path * path * str)) (pr : option path) (l : list job) (t : fsn) : Prop := {
  i_good : good t;
  i_nodup : NoDup (dests l);
  i_jobs : forall T D c, In (JMv T D c) l -> src c D /\ stemp E D T /\ at_ t T = Some (EFile c) /\ In D u;
  i_mk : forall p, In (JMk p) l -> Dirs p;
  i_cur : match cur with None => True | Some (D, T, x) => tgt D /\ stemp E D T /\ ~ In D u /\ at_ t T = Some (EFile x) end;
  i_left : forall q, tmp q -> at_ t q = at_ t0 q \/ at_ t q = None \/ (exists D c, In (JMv q D c) l) \/ (exists D x, cur = Some (D, q, x));
  i_done : forall D, In D u -> (exists c, src c D /\ at_ t D = Some (EFile c)) \/ (exists T c, In (JMv T D c) l);
  i_pr : match pr with None => True | Some p => at_ t p = Some EDir \/ In (JMk p) l end
}.
Definition Inv u cur pr (s : session) : Prop := exists l, Forall2 says (jobs s) l /\ inv u cur pr l (rtree s).
Definition mono (t s : fsn) : Prop := forall q, at_ t q = Some EDir -> at_ s q = Some EDir.
Lemma mono_refl : forall t, mono t t. Proof. intros t q H. exact H. Qed.
Lemma mono_trans : forall a b c, mono a b -> mono b c -> mono a c. Proof. intros a b c H K q A. auto. Qed.

Lemma grown_good : forall p t s, Dirs p -> grown p t s -> good t -> good s.
Proof.
  intros p t s Dp G Gt. constructor.
  - intros q Nt. destruct (G q) as [e|(e1 & e2 & B)]; [rewrite e; apply Gt; assumption|]. right. left.
    assert (Dq : Dirs q) by (eapply Dirs_below; eassumption). split; [|split; assumption]. destruct (g_dirs t Gt q Dq) as [e|(_ & e)]; congruence.
  - intros q H. destruct (G q) as [e|(_ & _ & B)]; [rewrite e; apply Gt; assumption|]. exfalso. apply (apart q); [right; assumption|]. eapply Dirs_below; eassumption.
Qed.

(** A finished command leaves the invariant true. *)
Lemma run_job : forall u cur pr a j b line t, inv u cur pr (a ++ j :: b) t -> says line j ->
  (forall x, In x (trace (shell E line t)) -> good x) /\ inv u cur pr (a ++ b) (final (shell E line t)) /\ mono t (final (shell E line t)).
Proof.
  intros u cur pr a j b line t I Sj. destruct I as [Ig In' Ij Im Ic Il Id Ip].
  assert (Sub : forall x, In x (a ++ b) -> In x (a ++ j :: b)) by (intros x; rewrite !in_app_iff; cbn; tauto).
  assert (Sup : forall x, In x (a ++ j :: b) -> x = j \/ In x (a ++ b)) by (intros x; rewrite !in_app_iff; cbn; intuition).
  assert (Ej : In j (a ++ j :: b)) by (rewrite in_app_iff; cbn; auto).
  destruct j as [p|T D c]; cbn [says] in Sj.
  - destruct (Sj t) as (Et & Ef). rewrite Et, Ef. pose proof (Im p Ej) as Dp.
    destruct (makedirs_eff p [] t (good_root t Ig) (Dirs_ok p Dp)) as (h1 & h2). cbn [app] in h1, h2.
    assert (M : at_ (final (makedirs [] p t)) p = Some EDir).
    { apply (h2 tt). apply makedirs_ok; [apply good_root; assumption|apply Dirs_ok; assumption|]. cbn [app]. intros q c B. apply good_nofile; [assumption|]. eapply Dirs_below; eassumption. }
    destruct (h1 (final (makedirs [] p t))) as (Gf & _); [right; reflexivity|].
    split; [|split].
    + intros x Hx. apply (grown_good p t); [assumption| |assumption]. apply h1. left. assumption.
    + constructor.
      * apply (grown_good p t); assumption.
      * unfold dests in *. rewrite flat_map_app in *. exact In'.
      * intros T D c H. destruct (Ij T D c (Sub _ H)) as (i1 & i2 & i3 & i4). repeat split; auto. destruct (Gf T) as [e|(e & _ & _)]; congruence.
      * intros q H. apply Im. apply Sub. assumption.
      * destruct cur as [((D, T), x)|]; [|exact I]. destruct Ic as (i1 & i2 & i3 & i4). repeat split; auto. destruct (Gf T) as [e|(e & _ & _)]; congruence.
      * intros q Hq. assert (e : at_ (final (makedirs [] p t)) q = at_ t q).
        { destruct (Gf q) as [e|(_ & _ & B)]; [assumption|]. exfalso. apply (apart q); [right; assumption|]. eapply Dirs_below; eassumption. }
        rewrite e. destruct (Il q Hq) as [i|[i|[(D & c & i)|i]]]; auto. right. right. left. exists D, c. apply Sup in i as [i|i]; [discriminate|assumption].
      * intros D H. destruct (Id D H) as [(c & i1 & i2)|(T & c & i)].
        -- left. exists c. split; [assumption|]. destruct (Gf D) as [e|(e & _ & _)]; congruence.
        -- right. exists T, c. apply Sup in i as [i|i]; [discriminate|assumption].
      * destruct pr as [q|]; [|exact I]. destruct Ip as [i|i].
        -- left. destruct (Gf q) as [e|(e & _ & _)]; congruence.
        -- apply Sup in i as [i|i]; [|right; assumption]. left. injection i as ->. assumption.
    + intros q A. destruct (Gf q) as [e|(e & _ & _)]; congruence.
  - destruct (Ij T D c Ej) as (Hs & Ht & HA & Hu). assert (Td : tgt D) by (exists c; assumption).
    pose proof (good_tgt t D Ig Td) as Nd. destruct (Sj t Nd) as (Et & Ef). rewrite Et, Ef.
    pose proof Ht as (p & n & i & ED & ET). destruct (tgt_ok D Td) as (_ & Dok).
    assert (Gn : fname_ok n) by (rewrite ED in Dok; apply Forall_app in Dok as (_ & Dok); inversion Dok; assumption).
    assert (Nn : n ++ str_of ".tmp_" ++ stamps E i <> n).
    { intro e. apply (f_equal (@List.length _)) in e. rewrite !app_length in e. cbn in e. lia. }
    destruct (rename_eff p _ n T D t ET ED Nn Gn) as (_ & r2 & _ & r4). pose proof (r4 c HA Nd) as Ok1. destruct (r2 Ok1) as (c' & a1 & a2 & a3 & a4 & a5).
    assert (c' = c) by congruence. subst c'. rewrite a5. set (t' := final (os_rename T D t)) in *.
    assert (TT : tmp T) by (exists D; split; assumption).
    assert (NT : T <> D) by (intros ->; apply (no_tmp D Td TT)).
    assert (In2 : NoDup (dests a ++ D :: dests b)) by (unfold dests in *; rewrite flat_map_app in In'; exact In').
    assert (Oth : forall T' D' c', In (JMv T' D' c') (a ++ b) -> D' <> D /\ T' <> T /\ T' <> D).
    { intros T' D' c' H. destruct (Ij T' D' c' (Sub _ H)) as (k1 & k2 & _ & _).
      assert (N1 : D' <> D).
      { intros ->. apply NoDup_remove_2 in In2. apply In2. unfold dests. rewrite <- flat_map_app. apply (in_dests (a ++ b)). eauto. }
      split; [assumption|]. split.
      - intros ->. apply N1. eapply tmp_inj; [exists c'; exact k1|exact Td|exact k2|exact Ht].
      - intros ->. apply (no_tmp D Td). exists D'. split; [exists c'; assumption|assumption]. }
    assert (G' : good t').
    { constructor.
      - intros q Nt. destruct (path_dec q D) as [->|Hd]; [right; right; exists c; auto|]. rewrite a4; [apply Ig; assumption| |assumption]. intros ->. contradiction.
      - intros q Hq. destruct (path_dec q T) as [->|Hd]; [congruence|]. rewrite a4; [apply Ig; assumption|assumption|]. intros ->. apply (no_tmp D Td Hq). }
    split; [|split].
    + intros x [<-|[]]. assumption.
    + constructor.
      * assumption.
      * unfold dests. rewrite flat_map_app. apply NoDup_remove_1 in In2. exact In2.
      * intros T' D' c' H. destruct (Oth T' D' c' H) as (o1 & o2 & o3). destruct (Ij T' D' c' (Sub _ H)) as (k1 & k2 & k3 & k4). rewrite a4 by assumption. auto.
      * intros q H. apply Im. apply Sub. assumption.
      * destruct cur as [((D', T'), x)|]; [|exact I]. destruct Ic as (k1 & k2 & k3 & k4). repeat split; auto. rewrite a4; [assumption| |].
        -- intros ->. apply k3. assert (e : D' = D) by (eapply tmp_inj; eassumption). rewrite e. assumption.
        -- intros ->. apply (no_tmp D Td). exists D'. split; assumption.
      * intros q Hq. destruct (path_dec q T) as [->|Hd]; [auto|]. assert (q <> D) by (intros ->; apply (no_tmp D Td Hq)). rewrite a4 by assumption.
        destruct (Il q Hq) as [k|[k|[(D' & c' & k)|k]]]; auto. right. right. left. exists D', c'. apply Sup in k as [k|k]; [|assumption]. injection k as -> _ _. congruence.
      * intros D' H. destruct (path_dec D' D) as [->|Hd]; [left; exists c; auto|]. destruct (Id D' H) as [(c' & k1 & k2)|(T' & c' & k)].
        -- left. exists c'. split; [assumption|]. rewrite a4; [assumption| |assumption]. intros ->. apply (no_tmp T); [exists c'; assumption|assumption].
        -- right. exists T', c'. apply Sup in k as [k|k]; [congruence|assumption].
      * destruct pr as [q|]; [|exact I]. destruct Ip as [k|k].
        -- left. rewrite a4; [assumption| |]; intros ->; [apply (g_tmp t Ig T TT k)|apply (Nd k)].
        -- apply Sup in k as [k|k]; [discriminate|right; assumption].
    + intros q A. rewrite a4; [assumption| |]; intros ->; [apply (g_tmp t Ig T TT A)|apply (Nd A)].
Qed.

Lemma carry_inv : forall picks u cur pr s, Inv u cur pr s ->
  (forall x, In x (fst (carry_out E picks s)) -> good x) /\ Inv u cur pr (snd (carry_out E picks s)) /\
  tick (snd (carry_out E picks s)) = tick s /\ mono (rtree s) (rtree (snd (carry_out E picks s))).
Proof.
  induction picks as [|i picks IH]; intros u cur pr s I; cbn [carry_out].
  - split; [intros x []|]. split; [assumption|]. split; [reflexivity|apply mono_refl].
  - destruct (nth_error (jobs s) i) as [line|] eqn:N; [|apply IH; assumption].
    destruct I as (l & F & I). destruct (Forall2_pick _ _ _ _ _ F N) as (j & a & b & -> & Sj & F').
    destruct (run_job u cur pr a j b line (rtree s) I Sj) as (h1 & h2 & h3). unfold trace, final in *.
    destruct (shell E line (rtree s)) as [[tr r] t] eqn:Sh; cbn [fst snd] in *.
    destruct (IH u cur pr {| rtree := t; jobs := drop_nth i (jobs s); tick := tick s |}) as (g1 & g2 & g3 & g4); [exists (a ++ b); auto|].
    destruct (carry_out E picks {| rtree := t; jobs := drop_nth i (jobs s); tick := tick s |}) as [tr' s']; cbn [fst snd rtree tick] in *.
    split; [|split; [assumption|split; [assumption|]]].
    + intros x H. apply in_app_iff in H as [H|H]; auto.
    + eapply mono_trans; eassumption.
Qed.
Lemma carry_calm : forall s, (List.length (jobs s) <= 1)%nat -> jobs (snd (carry_out E [0%nat] s)) = [].
Proof.
  intros s H. cbn [carry_out]. destruct (jobs s) as [|line [|x l]] eqn:J; cbn [nth_error]; [exact J| |cbn in H; lia].
  destruct (shell E line (rtree s)) as [[tr r] t]. reflexivity.
Qed.
Lemma inv_idle : forall u cur p s, Inv u cur (Some p) s -> jobs s = [] -> at_ (rtree s) p = Some EDir.
Proof. intros u cur p s (l & F & I) J. rewrite J in F. inversion F; subst. destruct (i_pr _ _ _ _ _ I) as [e|[]]; assumption. Qed.
Lemma inv_forget : forall u cur pr s, Inv u cur pr s -> Inv u cur None s.
Proof. intros u cur pr s (l & F & [a b c d e f g h]). exists l. split; [assumption|]. constructor; auto. Qed.
Lemma Inv_good : forall u cur pr s, Inv u cur pr s -> good (rtree s).
Proof. intros u cur pr s (l & _ & I). apply I. Qed.

(** ** Programs *)
Definition tri {A} (m : sact A) (s : session) (pre : Prop) (Q : A -> session -> Prop) : Prop :=
  (forall x, In x (fst (fst (m s))) -> good x) /\ mono (rtree s) (rtree (snd (m s))) /\ (exists u cur pr, Inv u cur pr (snd (m s))) /\
  match snd (fst (m s)) with Ok a => Q a (snd (m s)) | Err _ => ~ pre end.
Lemma tri_ret : forall {A} (a : A) s (pre : Prop) (Q : A -> session -> Prop) u cur pr, Inv u cur pr s -> Q a s -> tri (sret a) s pre Q.
Proof. intros A a s pre Q u cur pr I H. split; [intros x []|]. split; [apply mono_refl|]. split; [exists u, cur, pr; assumption|assumption]. Qed.
Lemma tri_raise : forall {A} e s (pre : Prop) (Q : A -> session -> Prop) u cur pr, Inv u cur pr s -> ~ pre -> tri (sraise e) s pre Q.
Proof. intros A e s pre Q u cur pr I H. split; [intros x []|]. split; [apply mono_refl|]. split; [exists u, cur, pr; assumption|assumption]. Qed.
Lemma tri_weak : forall {A} (m : sact A) s (pre pre' : Prop) (Q Q' : A -> session -> Prop),
  tri m s pre Q -> (pre' -> pre) -> (forall a s', mono (rtree s) (rtree s') -> Q a s' -> Q' a s') -> tri m s pre' Q'.
Proof.
  intros A m s pre pre' Q Q' (h1 & h2 & h3 & h4) Hp Hq. split; [assumption|]. split; [assumption|]. split; [assumption|].
  destruct (m s) as [[tr [a|e]] s']; cbn [fst snd] in *; auto.
Qed.
Lemma tri_bind : forall {A B} (m : sact A) (f : A -> sact B) s (pre pre' : Prop) (Q : A -> session -> Prop) (Q' : B -> session -> Prop),
  tri m s pre Q -> (pre' -> pre) -> (forall a s', mono (rtree s) (rtree s') -> Q a s' -> tri (f a) s' pre' Q') -> tri (sbind m f) s pre' Q'.
Proof.
  intros A B m f s pre pre' Q Q' (h1 & h2 & h3 & h4) Hp Hf. unfold tri, sbind in *. destruct (m s) as [[tr [a|e]] s1]; cbn [fst snd] in *.
  - destruct (Hf a s1 h2 h4) as (g1 & g2 & g3 & g4). destruct (f a s1) as [[tr' r] s2]; cbn [fst snd] in *. split; [|split; [|split; assumption]].
    + intros x H. apply in_app_iff in H as [H|H]; auto.
    + eapply mono_trans; eassumption.
  - split; [assumption|]. split; [assumption|]. split; [assumption|]. tauto.
Qed.
Lemma tri_wrapped : forall {A} (m : sact A) s (pre : Prop) (Q : A -> session -> Prop), tri m s pre Q -> tri (wrapped m) s pre Q.
Proof.
  intros A m s pre Q (h1 & h2 & h3 & h4). unfold tri, wrapped in *. destruct (m s) as [[tr [a|e]] s1]; cbn [fst snd] in *; auto.
Qed.

Definition few (s : session) : Prop := (List.length (jobs s) <= 1)%nat.
Lemma step_tri : forall {A} (m : act A) s u cur pr (pre : Prop) (Q : A -> session -> Prop), Inv u cur pr s -> (pre -> prompt E /\ few s) ->
  (forall l js t n, Forall2 says js l -> inv u cur pr l t -> mono (rtree s) t -> (prompt E -> few s -> js = []) ->
     (forall x, In x (trace (m t)) -> good x) /\ mono t (final (m t)) /\ (exists u' cur' pr', inv u' cur' pr' l (final (m t))) /\
     match result (m t) with Ok a => Q a {| rtree := final (m t); jobs := js; tick := n |} | Err _ => ~ pre end) ->
  tri (step E m) s pre Q.
Proof.
  intros A m s u cur pr pre Q I Hp H. destruct (carry_inv (wakes E (tick s)) u cur pr s I) as (c1 & c2 & c3 & c4). unfold tri, step.
  assert (Calm : prompt E -> few s -> jobs (snd (carry_out E (wakes E (tick s)) s)) = []).
  { intros P F. destruct (P (tick s)) as (_ & ->). apply carry_calm. assumption. }
  assert (Fate : sfates E (tick s) <> Done -> ~ pre).
  { intros N P. apply Hp in P as (P & _). apply N. apply P. }
  destruct (carry_out E (wakes E (tick s)) s) as [tr0 s1]; cbn [fst snd] in *. destruct c2 as (l & F & I1).
  destruct (H l (jobs s1) (rtree s1) (S (tick s1)) F I1 c4 Calm) as (h1 & h2 & (u' & cur' & pr' & h3) & h4). unfold trace, final, result in *.
  destruct (sfates E (tick s)) as [|e|e] eqn:Ft.
  - destruct (m (rtree s1)) as [[tr r] t]; cbn [fst snd rtree] in *. split; [|split; [|split]].
    + intros x Hx. apply in_app_iff in Hx as [Hx|Hx]; auto.
    + eapply mono_trans; eassumption.
    + exists u', cur', pr', l. auto.
    + exact h4.
  - cbn [fst snd rtree]. split; [assumption|]. split; [assumption|]. split; [exists u, cur, pr, l; auto|apply Fate; discriminate].
  - destruct (m (rtree s1)) as [[tr r] t]; cbn [fst snd rtree] in *. split; [|split; [|split]].
    + intros x Hx. apply in_app_iff in Hx as [Hx|Hx]; auto.
    + eapply mono_trans; eassumption.
    + exists u', cur', pr', l. auto.
    + apply Fate. discriminate.
Qed.
Lemma start_tri : forall line j s u cur pr u' cur' pr', Inv u cur pr s -> says line j ->
  (forall l t, inv u cur pr l t -> mono (rtree s) t -> inv u' cur' pr' (l ++ [j]) t) ->
  tri (start E line) s (prompt E /\ few s) (fun _ s' => Inv u' cur' pr' s' /\ (prompt E -> few s -> few s')).
Proof.
  intros line j s u cur pr u' cur' pr' I Sj H. destruct (carry_inv (wakes E (tick s)) u cur pr s I) as (c1 & c2 & c3 & c4). unfold tri, start.
  assert (Calm : prompt E -> few s -> jobs (snd (carry_out E (wakes E (tick s)) s)) = []).
  { intros P F. destruct (P (tick s)) as (_ & ->). apply carry_calm. assumption. }
  assert (Fate : sfates E (tick s) <> Done -> ~ (prompt E /\ few s)) by (intros N (P & _); apply N; apply P).
  destruct (carry_out E (wakes E (tick s)) s) as [tr0 s1]; cbn [fst snd] in *. destruct c2 as (l & F & I1).
  assert (New : Inv u' cur' pr' {| rtree := rtree s1; jobs := jobs s1 ++ [line]; tick := S (tick s1) |}).
  { exists (l ++ [j]). cbn [jobs rtree]. split; [apply Forall2_app; auto|]. apply H; assumption. }
  destruct (sfates E (tick s)) as [|e|e] eqn:Ft; cbn [fst snd rtree]; (split; [assumption|]); (split; [assumption|]).
  - split; [exists u', cur', pr'; assumption|]. split; [assumption|]. intros P Fw. unfold few. cbn [jobs]. rewrite (Calm P Fw). cbn. lia.
  - split; [exists u, cur, pr, l; auto|]. apply Fate. discriminate.
  - split; [exists u', cur', pr'; assumption|]. apply Fate. discriminate.
Qed.

Lemma ask_tri : forall line (f : fsn -> bool) s u cur pr, Inv u cur pr s -> (forall t, shell E line t = ([], Ok (answer (f t)), t)) ->
  tri (ask E line) s (prompt E /\ few s) (fun b s' => Inv u cur pr s' /\ b = f (rtree s') /\ (prompt E -> few s -> jobs s' = [])).
Proof.
  intros line f s u cur pr I Hl. unfold ask.
  eapply tri_bind with (pre := prompt E /\ few s) (Q := fun out s' => Inv u cur pr s' /\ out = answer (f (rtree s')) /\ (prompt E -> few s -> jobs s' = [])); [|auto|].
  - eapply step_tri; [exact I|auto|]. intros l js t n F I1 M C. rewrite Hl. unfold trace, final, result. cbn [fst snd].
    split; [intros x []|]. split; [apply mono_refl|]. split; [exists u, cur, pr; assumption|]. cbn [rtree jobs]. split; [exists l; auto|]. split; [reflexivity|exact C].
  - intros out s' _ (h1 & -> & h3). rewrite answer_int. eapply tri_ret; [exact h1|]. split; [assumption|]. split; [destruct (f (rtree s')); reflexivity|assumption].
Qed.
Lemma is_dir_iff : forall p t, is_dir p t = true <-> at_ t p = Some EDir.
Proof.
  intros p t. unfold is_dir. rewrite <- find_dir. destruct (find t p) as [[c|es]|]; split; intro H; try discriminate; try (destruct H; discriminate); eauto.
Qed.
Lemma check_tri : forall p s u cur pr, wordy p -> Dirs (resolve (home E) p) -> Inv u cur pr s ->
  tri (check_remote_folder E p) s (prompt E /\ few s) (fun ed s' => Inv u cur pr s' /\ (snd ed = true <-> at_ (rtree s') (resolve (home E) p) = Some EDir) /\
    (fst ed = true -> snd ed = true) /\ (prompt E -> few s -> jobs s' = [])).
Proof.
  intros p s u cur pr W D I. unfold check_remote_folder.
  eapply tri_bind with (pre := prompt E /\ few s); [apply (ask_tri _ _ s u cur pr I (fun t => test_e_line E p t W))|auto|].
  cbn beta. intros e s1 M1 (h1 & h2 & h3).
  eapply tri_bind with (pre := prompt E /\ few s1); [apply (ask_tri _ _ s1 u cur pr h1 (fun t => test_d_line E p t W))| |].
  - intros (P & F). split; [assumption|]. unfold few. rewrite (h3 P F). cbn. lia.
  - cbn beta. intros d s2 M2 (g1 & g2 & g3). eapply tri_ret; [exact g1|]. cbn [fst snd]. split; [assumption|]. split; [rewrite g2; apply is_dir_iff|]. split.
    + intros ->. rewrite g2. apply is_dir_iff. apply M2. destruct (find (rtree s1) (resolve (home E) p)) as [n|] eqn:Fd; [|discriminate].
      pose proof (Inv_good _ _ _ _ h1) as G. destruct (g_dirs _ G _ D) as [A|(A & _)]; [assumption|]. apply find_none in A. congruence.
    + intros P F. apply g3; [assumption|]. unfold few. rewrite (h3 P F). cbn. lia.
Qed.
Lemma make_tri : forall p s u cur pr, wordy p -> starts_sl p = true -> Dirs (resolve (home E) p) -> Inv u cur pr s ->
  tri (make_remote_folder E p) s (prompt E /\ few s) (fun ok s' => Inv u cur None s' /\ (ok = true -> at_ (rtree s') (resolve (home E) p) = Some EDir) /\
    (prompt E -> few s -> ok = true /\ few s')).
Proof.
  intros p s u cur pr W Sp D I. unfold make_remote_folder.
  eapply tri_bind with (pre := prompt E /\ few s); [apply (check_tri p s u cur pr W D I)|auto|].
  cbn beta. intros (e, d) s1 M1 (h1 & h2 & h3 & h4). cbn [fst snd] in *. destruct d.
  - eapply tri_ret; [exact h1|]. split; [eapply inv_forget; exact h1|]. split; [tauto|]. intros P F. split; [reflexivity|]. unfold few. rewrite (h4 P F). cbn. lia.
  - destruct e; [discriminate (h3 eq_refl)|].
    eapply tri_bind with (pre := True) (Q := fun b s' => b = false /\ s' = s1); [eapply tri_ret; [exact h1|auto]|auto|].
    intros b s' _ (-> & ->).
    eapply tri_bind with (pre := prompt E /\ few s1).
    + apply (start_tri _ (JMk (resolve (home E) p)) s1 u cur pr u cur (Some (resolve (home E) p))); [exact h1|intro t; apply mkdir_line; assumption|].
      intros l t [i1 i2 i3 i4 i5 i6 i7 i8] _. constructor; auto.
      * unfold dests in *. rewrite flat_map_app. cbn. rewrite app_nil_r. assumption.
      * intros T D' c H. apply in_app_iff in H as [H|[H|[]]]; [auto|discriminate].
      * intros q H. apply in_app_iff in H as [H|[H|[]]]; [auto|]. injection H as <-. assumption.
      * intros q Hq. destruct (i6 q Hq) as [k|[k|[(D' & c & k)|k]]]; auto. right. right. left. exists D', c. apply in_app_iff. auto.
      * intros D' H. destruct (i7 D' H) as [k|(T & c & k)]; [auto|]. right. exists T, c. apply in_app_iff. auto.
      * right. apply in_app_iff. right. left. reflexivity.
    + intros (P & F). split; [assumption|]. unfold few. rewrite (h4 P F). cbn. lia.
    + cbn beta. intros _ s2 M2 (g1 & g2).
      assert (F2 : prompt E -> few s -> few s2) by (intros P F; apply g2; [assumption|]; unfold few; rewrite (h4 P F); cbn; lia).
      eapply tri_bind with (pre := prompt E /\ few s2); [apply (check_tri p s2 u cur (Some (resolve (home E) p)) W D g1)|intros (P & F); auto|].
      cbn beta. intros (e, d) s3 M3 (k1 & k2 & k3 & k4). cbn [fst snd] in *. eapply tri_ret; [exact k1|]. split; [eapply inv_forget; exact k1|]. split; [tauto|].
      intros P F. pose proof (k4 P (F2 P F)) as J. split; [|unfold few; rewrite J; cbn; lia]. apply k2. eapply inv_idle; eassumption.
Qed.
(** *** Transferring one file *)
Lemma tmp_good : forall t s T x, good t -> tmp T -> same_but T t s -> at_ s T = Some (EFile x) -> good s.
Proof.
  intros t s T x G HT Sb A. constructor.
  - intros q Nt. rewrite (Sb q); [apply G; assumption|]. intros ->. contradiction.
  - intros q H. destruct (path_dec q T) as [->|N]; [congruence|]. rewrite (Sb q N). apply G. assumption.
Qed.
Lemma cur_inv : forall u cur pr l t s D T x, inv u cur pr l t -> (cur = None \/ exists y, cur = Some (D, T, y)) -> tgt D -> stemp E D T -> ~ In D u ->
  same_but T t s -> at_ s T = Some (EFile x) -> inv u (Some (D, T, x)) None l s.
Proof.
  intros u cur pr l t s D T x [i1 i2 i3 i4 i5 i6 i7 i8] Hc Td Ht Nu Sb A. assert (TT : tmp T) by (exists D; split; assumption). constructor; auto.
  - eapply tmp_good; eassumption.
  - intros T' D' c H. destruct (i3 T' D' c H) as (k1 & k2 & k3 & k4). rewrite (Sb T'); [auto|]. intros ->. apply Nu.
    assert (e : D' = D) by (eapply tmp_inj; [exists c; exact k1|exact Td|exact k2|exact Ht]). rewrite <- e. assumption.
  - intros q Hq. destruct (path_dec q T) as [->|N]; [right; right; right; exists D, x; reflexivity|]. rewrite (Sb q N).
    destruct (i6 q Hq) as [k|[k|[k|(D' & y & k)]]]; auto. exfalso. destruct Hc as [e|(z & e)]; rewrite e in k; [discriminate|]. injection k as _ k _. congruence.
  - intros D' H. destruct (i7 D' H) as [(c & k1 & k2)|k]; [|auto]. left. exists c. split; [assumption|]. rewrite (Sb D'); [assumption|]. intros ->. apply (no_tmp T); [exists c|]; assumption.
Qed.
Lemma tmp_nonempty : forall D T, stemp E D T -> T <> [] /\ removelast T = removelast D.
Proof. intros D T (p & n & i & -> & ->). split; [destruct p; discriminate|]. rewrite !removelast_last. reflexivity. Qed.
Lemma same_mono : forall t s T, same_but T t s -> at_ t T <> Some EDir -> mono t s.
Proof. intros t s T Sb N q A. rewrite (Sb q); [assumption|]. intros ->. contradiction. Qed.

Lemma transfer_tri : forall l D T x s u, tgt D -> stemp E D T -> ~ In D u -> Inv u (Some (D, T, x)) None s ->
  tri (transfer E T l) s (prompt E /\ few s) (fun _ s' => Inv u (Some (D, T, x ++ concat l)) None s' /\ (prompt E -> few s -> few s')).
Proof.
  induction l as [|y l IH]; intros D T x s u Td Ht Nu I; cbn [transfer].
  - eapply tri_ret; [exact I|]. cbn [concat]. rewrite app_nil_r. auto.
  - eapply tri_bind with (pre := prompt E /\ few s) (Q := fun _ s' => Inv u (Some (D, T, x ++ y)) None s' /\ (prompt E -> few s -> few s')); [|auto|].
    + eapply step_tri; [exact I|auto|]. intros l' js t n F I1 M C. destruct (i_cur _ _ _ _ _ I1) as (_ & _ & _ & A).
      destruct (append_eff T y t x (proj1 (tmp_nonempty D T Ht)) A) as (a1 & a2 & a3 & a4 & _). rewrite a1.
      assert (I2 : inv u (Some (D, T, x ++ y)) None l' (final (append_file T y t))) by (eapply cur_inv; [exact I1|eauto| | | | |]; assumption).
      split; [|split; [|split]].
      * intros z Hz. assert (z = final (append_file T y t)); [|subst; apply I2].
        unfold trace, final, append_file, change in *. clear - Hz. destruct (match find t T with Some (File c0) => place t T (File (c0 ++ y)) | _ => None end); cbn in *; [destruct Hz as [<-|[]]; reflexivity|destruct Hz].
      * eapply same_mono; [exact a2|congruence].
      * exists u, (Some (D, T, x ++ y)), None. assumption.
      * split; [exists l'; auto|]. intros P Fw. unfold few. cbn [jobs]. rewrite (C P Fw). cbn. lia.
    + cbn beta. intros _ s' _ (h1 & h2). eapply tri_weak; [apply (IH D T (x ++ y) s' u Td Ht Nu h1)|intros (P & F); auto|].
      cbn beta. intros _ s2 _ (g1 & g2). cbn [concat]. rewrite app_assoc. auto.
Qed.
Lemma put_tri : forall base name c D T s u pr, src c D -> stemp E D T -> ~ In D u -> resolve (home E) name = T -> Inv u None pr s ->
  tri (scp_put E base name c) s (prompt E /\ few s /\ at_ (rtree s) (removelast D) = Some EDir)
    (fun _ s' => Inv u (Some (D, T, c)) None s' /\ (prompt E -> few s -> few s')).
Proof.
  intros base name c D T s u pr Hs Ht Nu En I. assert (Td : tgt D) by (exists c; assumption). assert (TT : tmp T) by (exists D; split; assumption).
  destruct (tmp_nonempty D T Ht) as (NT & ET). unfold scp_put. rewrite En.
  match goal with |- tri (fun s => sbind ?m (fun p => transfer E p (spieces E (tick s) c)) s) s ?pre ?Q => change (tri (sbind m (fun p => transfer E p (spieces E (tick s) c))) s pre Q) end.
  eapply tri_bind with (pre := prompt E /\ few s /\ at_ (rtree s) (removelast D) = Some EDir)
    (Q := fun p s' => p = T /\ Inv u (Some (D, T, [])) None s' /\ (prompt E -> few s -> few s')); [|auto|].
  - eapply step_tri; [exact I|tauto|]. intros l js t n F I1 M C. pose proof (i_good _ _ _ _ _ I1) as G.
    assert (Nd : is_dir T t = false).
    { destruct (is_dir T t) eqn:X; [|reflexivity]. apply is_dir_iff in X. exfalso. apply (g_tmp t G T TT X). }
    assert (Em : forall B (f : bool -> act B), (d <- asks (is_dir T) ;; f d) t = f false t).
    { intros B f. unfold abind, asks. rewrite Nd. destruct (f false t) as [[tr r] t2]. reflexivity. }
    rewrite Em. destruct (open_write_eff T t) as (o1 & o2 & o3 & _). unfold abind, trace, final, result in *.
    assert (Ok1 : at_ t (removelast D) = Some EDir -> snd (fst (open_write T t)) = Ok tt).
    { intro A. unfold open_write, change. destruct (place_ok T t (File [])) as (t' & P); [assumption|congruence|].
      assert (Nf : forall es, find t T <> Some (Dir es)) by (intros es X; apply (g_tmp t G T TT); apply find_dir; eauto).
      destruct (find t T) as [[z|es]|] eqn:Fd; rewrite ?P; try reflexivity. exfalso. apply (Nf es). reflexivity. }
    assert (Tr : forall x, In x (fst (fst (open_write T t))) -> x = snd (open_write T t) /\ snd (fst (open_write T t)) = Ok tt).
    { clear. unfold open_write, change. intros x H. destruct (match find t T with Some (Dir _) => None | _ => place t T (File []) end); cbn in *; [destruct H as [<-|[]]; auto|destruct H]. }
    destruct (open_write T t) as [[tr [[]|e]] t'] eqn:Ow; cbn [fst snd app] in *.
    + destruct (o1 eq_refl) as (b1 & b2 & b3 & _). assert (I2 : inv u (Some (D, T, [])) None l t') by (eapply cur_inv; [exact I1|left; reflexivity| | | | |]; assumption).
      cbn. rewrite app_nil_r. split; [|split; [|split]].
      * intros x Hx. destruct (Tr x Hx) as (-> & _). apply I2.
      * eapply same_mono; eassumption.
      * exists u, (Some (D, T, [])), None. assumption.
      * split; [reflexivity|]. split; [exists l; auto|]. intros P Fw. unfold few. cbn [jobs]. rewrite (C P Fw). cbn. lia.
    + pose proof (o2 e eq_refl) as ->. split; [|split; [|split]].
      * intros x Hx. destruct (Tr x Hx) as (_ & X). discriminate.
      * apply mono_refl.
      * exists u, None, pr. assumption.
      * intros (_ & _ & A). specialize (Ok1 (M _ A)). discriminate.
  - cbn beta. intros p s' _ (-> & h1 & h2). eapply tri_weak; [apply (transfer_tri (spieces E (tick s) c) D T [] s' u Td Ht Nu h1)|intros (P & F & _); auto|].
    cbn beta. intros _ s2 _ (g1 & g2). rewrite cut_ok in g1. auto.
Qed.
Lemma mv_tri : forall line c D T s u, src c D -> stemp E D T -> says line (JMv T D c) -> Inv u (Some (D, T, c)) None s ->
  tri (start E line) s (prompt E /\ few s) (fun _ s' => Inv (D :: u) None None s' /\ (prompt E -> few s -> few s')).
Proof.
  intros line c D T s u Hs Ht Sj I. apply (start_tri _ (JMv T D c) s u (Some (D, T, c)) None (D :: u) None None); [exact I|exact Sj|].
  intros l t [i1 i2 i3 i4 (i5 & _ & i5' & i5'') i6 i7 i8] _. constructor; auto.
  - unfold dests in *. rewrite flat_map_app. cbn [flat_map app]. apply NoDup_snoc; [assumption|]. intro Hx.
    apply (in_dests l) in Hx as (T' & c' & Hx). apply i5'. apply (i3 T' D c' Hx).
  - intros T' D' c' H. apply in_app_iff in H as [H|[H|[]]].
    + destruct (i3 T' D' c' H) as (k1 & k2 & k3 & k4). repeat split; auto. right. assumption.
    + injection H as <- <- <-. repeat split; auto. left. reflexivity.
  - intros q H. apply in_app_iff in H as [H|[H|[]]]; [auto|discriminate].
  - intros q Hq. destruct (i6 q Hq) as [k|[k|[(D' & c' & k)|(D' & y & k)]]]; auto.
    + right. right. left. exists D', c'. apply in_app_iff. auto.
    + right. right. left. injection k as <- <- <-. exists D, c. apply in_app_iff. right. left. reflexivity.
  - intros D' [<-|H].
    + right. exists T, c. apply in_app_iff. right. left. reflexivity.
    + destruct (i7 D' H) as [k|(T' & c' & k)]; [auto|]. right. exists T', c'. apply in_app_iff. auto.
Qed.

(** The text [rf] names [D], and so do the texts made from it. *)
Record names (rf : str) (D : path) : Prop := {
  nm_word : wordy rf; nm_abs : starts_sl rf = true; nm_path : resolve (home E) rf = D;
  nm_tmp : forall i, wordy (tmp_name rf (stamps E i)) /\ starts_sl (tmp_name rf (stamps E i)) = true /\ stemp E D (resolve (home E) (tmp_name rf (stamps E i)));
  nm_root : wordy (fst (os_split rf)) /\ starts_sl (fst (os_split rf)) = true /\ resolve (home E) (fst (os_split rf)) = removelast D
}.
Lemma copy_tri : forall loc f rd lf D s u pr, names (remote_name f rd lf) D -> (forall c, find loc (resolve (slocal E) f) = Some (File c) -> src c D) ->
  (lf <> None -> tgt D) -> ~ In D u -> Inv u None pr s ->
  tri (secure_copy E loc f rd lf) s
    (prompt E /\ few s /\ (lf = None -> at_ (rtree s) (removelast D) = Some EDir) /\ exists c, find loc (resolve (slocal E) f) = Some (File c))
    (fun _ s' => Inv (D :: u) None None s' /\ tgt D /\ (prompt E -> few s -> few s')).
Proof.
  intros loc f rd lf D s u pr [n1 n2 n3 n4 (n5 & n6 & n7)] Hc Ht Nu I. unfold secure_copy.
  set (rf := remote_name f rd lf) in *.
  eapply tri_bind with (pre := prompt E /\ few s) (Q := fun _ s' => Inv u None None s' /\ (lf <> None -> at_ (rtree s') (removelast D) = Some EDir) /\ (prompt E -> few s -> few s')).
  - destruct lf as [ld|].
    + assert (Dd : Dirs (resolve (home E) (fst (os_split rf)))).
      { rewrite n7. right. exists D. split; [apply Ht; discriminate|apply below_refl]. }
      eapply tri_bind with (pre := prompt E /\ few s); [apply (check_tri _ s u None pr n5 Dd I)|auto|].
      cbn beta. intros (e, d) s1 M1 (h1 & h2 & h3 & h4). cbn [fst snd] in *.
      assert (F1 : prompt E -> few s -> few s1) by (intros P F; unfold few; rewrite (h4 P F); cbn; lia). rewrite n7 in h2. destruct d.
      * eapply tri_ret; [exact h1|]. split; [eapply inv_forget; exact h1|]. split; [tauto|assumption].
      * eapply tri_bind with (pre := prompt E /\ few s1); [apply (make_tri _ s1 u None pr n5 n6 Dd h1)|intros (P & F); auto|].
        cbn beta. intros ok s2 M2 (g1 & g2 & g3). rewrite n7 in g2. destruct ok.
        -- eapply tri_ret; [exact g1|]. split; [assumption|]. split; [auto|]. intros P F. apply g3; auto.
        -- eapply tri_raise; [exact g1|]. intros (P & F). destruct (g3 P (F1 P F)) as (X & _). discriminate.
    + eapply tri_ret; [exact I|]. split; [eapply inv_forget; exact I|]. split; [congruence|auto].
  - tauto.
  - intros _ s1 M1 (h1 & h2 & h3). cbv beta.
    match goal with |- tri (fun s => match ?x with _ => _ end) s1 ?pre ?Q => destruct x as [[c|es]|] eqn:Fd end.
    2: { match goal with |- tri (fun s => ?m s) s1 ?pre ?Q => change (tri m s1 pre Q) end. eapply tri_raise; [exact h1|]. intros (_ & _ & _ & c & X). discriminate. }
    2: { match goal with |- tri (fun s => ?m s) s1 ?pre ?Q => change (tri m s1 pre Q) end. eapply tri_raise; [exact h1|]. intros (_ & _ & _ & c & X). discriminate. }
    destruct (n4 (tick s1)) as (w1 & w2 & w3). set (T := resolve (home E) (tmp_name rf (stamps E (tick s1)))) in *. pose proof (Hc c eq_refl) as Hs.
    match goal with |- tri _ s1 ?pre ?Q => change (tri (sbind (scp_put E (snd (os_split f)) (tmp_name rf (stamps E (tick s1))) c) (fun _ => start E (str_of "mv " ++ tmp_name rf (stamps E (tick s1)) ++ str_of " " ++ rf))) s1 pre Q) end.
    eapply tri_bind; [apply (put_tri (snd (os_split f)) _ c D T s1 u None Hs w3 Nu eq_refl h1)| |].
    + intros (P & F & A & _). split; [assumption|]. split; [auto|]. destruct lf; [apply h2; discriminate|]. apply M1. auto.
    + cbn beta. intros _ s2 M2 (g1 & g2). eapply tri_weak; [apply (mv_tri _ c D T s2 u Hs w3)| |].
      * intros t Nd. rewrite <- n3. apply mv_line; try assumption. rewrite n3. assumption.
      * exact g1.
      * intros (P & F & _). auto.
      * cbn beta. intros _ s3 _ (k1 & k2). split; [assumption|]. split; [exists c; assumption|]. auto.
Qed.
Lemma each_tri : forall loc rd lf fs Ds s u pr, Forall2 (fun f D => names (remote_name f rd lf) D /\ (forall c, find loc (resolve (slocal E) f) = Some (File c) -> src c D) /\ (lf <> None -> tgt D)) fs Ds ->
  NoDup Ds -> (forall D, In D Ds -> ~ In D u) -> Inv u None pr s ->
  tri (copy_each E loc fs rd lf) s
    (prompt E /\ few s /\ (lf = None -> forall D, In D Ds -> at_ (rtree s) (removelast D) = Some EDir) /\ forall f, In f fs -> exists c, find loc (resolve (slocal E) f) = Some (File c))
    (fun _ s' => (exists u', Inv u' None None s' /\ forall D, In D u' <-> In D Ds \/ In D u) /\ (forall D, In D Ds -> tgt D) /\ (prompt E -> few s -> few s')).
Proof.
  intros loc rd lf fs Ds s u pr F. revert s u pr. induction F as [|f D fs Ds (F1 & F2 & F3) F IH]; intros s u pr Nd Nu I; cbn [copy_each].
  - eapply tri_ret; [exact I|]. split; [|split; [intros D []|auto]]. exists u. split; [eapply inv_forget; exact I|]. intro D. cbn. tauto.
  - inversion Nd as [|? ? N1 N2]; subst.
    eapply tri_bind; [apply (copy_tri loc f rd lf D s u pr F1 F2 F3 (Nu D (or_introl eq_refl)) I)| |].
    + intros (P & Fw & A & B). split; [assumption|]. split; [assumption|]. split; [|apply B; left; reflexivity]. intro e. apply (A e). left. reflexivity.
    + cbn beta. intros _ s1 M1 (h1 & h2 & h3). eapply tri_weak; [apply (IH s1 (D :: u) None N2)|..].
      * intros D' H [<-|H']; [contradiction|]. apply (Nu D'); [right; assumption|assumption].
      * exact h1.
      * intros (P & Fw & A & B). split; [assumption|]. split; [auto|]. split.
        -- intros e D' H. apply M1. apply (A e). right. assumption.
        -- intros f' H. apply B. right. assumption.
      * cbn beta. intros _ s2 _ ((u' & k1 & k2) & k3 & k4). split; [|split].
        -- exists u'. split; [assumption|]. intro D'. rewrite k2. cbn. tauto.
        -- intros D' [<-|H]; auto.
        -- auto.
Qed.
End Inv.
