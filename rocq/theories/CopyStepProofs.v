(** Copying one file and copying a list of files. *)
From Coq Require Import ZArith String Ascii Bool List Lia.
From Verif Require Import PyBase PyStr FsModel FsSpec FsProofs PathProofs CopyModel CopySpec CopyProofs.
Import ListNotations.

Lemma chunks_eff : forall l p t c, p <> [] -> fname_ok (last p []) -> at_ t p = Some (EFile c) -> let m := write_chunks p l t in
  result m = Ok tt /\ same_but p t (final m) /\ at_ (final m) p = Some (EFile (c ++ concat l)) /\
  (forall s, one m s -> same_but p t s) /\ (wf t -> forall s, one m s -> wf s).
Proof.
  induction l as [|x l IH]; intros p t c Hp G A m; subst m; cbn [write_chunks].
  - cbn. rewrite app_nil_r. repeat split; auto using same_but_refl.
    + intros s [[]| ->]. apply same_but_refl.
    + intros W s [[]| ->]. assumption.
  - destruct (append_eff p x t c Hp A) as (R1 & S1 & A1 & T1 & W1).
    destruct (IH p _ _ Hp G A1) as (R2 & S2 & A2 & T2 & W2).
    destruct (bind_ok_run (append_file p x) (fun _ => write_chunks p l) t tt R1) as [E1 E2]. rewrite E1, E2. repeat split; auto.
    + eapply same_but_trans; eassumption.
    + rewrite A2. cbn [concat]. rewrite app_assoc. reflexivity.
    + intros s H. apply bind_states in H as [H|(a & _ & H)]; [auto|]. eapply same_but_trans; [exact S1|]. apply T2. assumption.
    + intros W s H. apply bind_states in H as [H|(a & _ & H)]; [eauto|]. apply W2; [|assumption]. eapply W1; eauto. right. reflexivity.
Qed.

Lemma copyfile_eff : forall ch src T t, T <> [] -> fname_ok (last T []) -> let m := copyfile ch src T t in
  (forall s, one m s -> same_but T t s) /\ (wf t -> forall s, one m s -> wf s) /\
  (result m = Ok tt -> exists c, at_ t src = Some (EFile c) /\ src <> T /\ at_ (final m) T = Some (EFile (concat (ch c)))) /\
  (forall c, at_ t src = Some (EFile c) -> src <> T -> at_ t T <> Some EDir -> at_ t (removelast T) = Some EDir -> result m = Ok tt).
Proof.
  intros ch src T t HT G m. subst m. unfold copyfile. destruct (find t src) as [[c|es]|] eqn:F.
  - apply find_file in F. destruct (list_eq_dec (list_eq_dec ascii_dec) src T) as [E|N].
    + cbn. repeat split.
      * intros s [[]| ->]. apply same_but_refl.
      * intros W s [[]| ->]. assumption.
      * discriminate.
      * intros; contradiction.
    + destruct (open_write_eff T t) as (O1 & O2 & O3 & O4). specialize (O4 G).
      destruct (result (open_write T t)) as [[]|er] eqn:RO.
      * destruct (O1 eq_refl) as (S1 & A1 & _). destruct (chunks_eff (ch c) T _ _ HT G A1) as (R2 & S2 & A2 & T2 & W2).
        destruct (bind_ok_run (open_write T) (fun _ => write_chunks T (ch c)) t tt RO) as [E1 E2]. repeat split.
        -- intros s H. apply bind_states in H as [H|(a & _ & H)]; [auto|]. eapply same_but_trans; [exact S1|]. apply T2. assumption.
        -- intros W s H. apply bind_states in H as [H|(a & _ & H)]; [eauto|]. apply W2; [|assumption]. eapply O4; eauto. right. reflexivity.
        -- intros _. exists c. repeat split; auto. rewrite E2. exact A2.
        -- intros. rewrite E1. assumption.
      * destruct (bind_err (open_write T) (fun _ => write_chunks T (ch c)) t er RO) as [E1 E2]. repeat split.
        -- intros s H. apply bind_states in H as [H|(a & Ha & H)]; [auto|]. rewrite RO in Ha. discriminate.
        -- intros W s H. apply bind_states in H as [H|(a & Ha & H)]; [eauto|]. rewrite RO in Ha. discriminate.
        -- intro H. rewrite E1 in H. discriminate.
        -- intros c' _ _ ND PD. exfalso. revert RO. unfold open_write, change, result.
           destruct (place_ok T t (File []) HT PD) as (t' & P). rewrite P.
           destruct (find t T) as [[c2|es]|] eqn:FT; cbn; try discriminate. exfalso. apply ND. apply find_dir. eauto.
  - cbn. repeat split; try discriminate.
    + intros s [[]| ->]. apply same_but_refl.
    + intros W s [[]| ->]. assumption.
    + intros c H. apply find_file in H. congruence.
  - cbn. repeat split; try discriminate.
    + intros s [[]| ->]. apply same_but_refl.
    + intros W s [[]| ->]. assumption.
    + intros c H. apply find_file in H. congruence.
Qed.

(** [T] and [D] are different names in the same directory. *)
Lemma rename_eff : forall (p : path) (a b : str) (T D : path) t, T = p ++ [a] -> D = p ++ [b] -> a <> b -> fname_ok b -> let m := os_rename T D t in
  ((exists e, result m = Err e) -> final m = t /\ trace m = []) /\
  (result m = Ok tt -> exists c, at_ t T = Some (EFile c) /\ at_ (final m) D = Some (EFile c) /\ at_ (final m) T = None /\
     (forall q, q <> T -> q <> D -> at_ (final m) q = at_ t q) /\ trace m = [final m]) /\
  (wf t -> wf (final m)) /\
  (forall c, at_ t T = Some (EFile c) -> at_ t D <> Some EDir -> result m = Ok tt).
Proof.
  intros p a b T D t ET ED Hab Gb m. subst m. unfold os_rename, change.
  assert (TD : T <> D) by (rewrite ET, ED; intro E; apply app_inj_tail in E as [_ E]; contradiction).
  destruct (match find t T with Some (File c) => match find t D with None | Some (File _) => match unlink t T with Some t1 => place t1 D (File c) | None => None end | Some (Dir _) => None end | _ => None end) as [t'|] eqn:X.
  - destruct (find t T) as [[c|es]|] eqn:FT; try discriminate.
    assert (ND : at_ t D <> Some EDir) by (intro H; apply find_dir in H as (es & H); rewrite H in X; discriminate).
    assert (X' : match unlink t T with Some t1 => place t1 D (File c) | None => None end = Some t').
    { destruct (find t D) as [[c'|es]|]; try discriminate; assumption. }
    destruct (unlink t T) as [t1|] eqn:U; [|discriminate]. pose proof (at_unlink _ _ _ U) as AU.
    assert (BT : forall q, below T q -> q <> T -> at_ t q = None).
    { intros q (r & ->) Hq. apply find_file in FT. eapply at_under_file; [exact FT|]. intros ->. apply Hq. rewrite app_nil_r. reflexivity. }
    assert (A1 : forall q, q <> T -> at_ t1 q = at_ t q).
    { intros q Hq. rewrite AU. destruct (cut T q) as [r|] eqn:C; [|reflexivity]. apply cut_Some in C. symmetry. apply BT; [exists r; assumption|assumption]. }
    destruct (place_file _ _ _ _ X') as [SB AD]; [rewrite A1 by (intro; apply TD; auto); assumption|].
    apply find_file in FT. cbn. split; [|split; [|split]].
    + intros (e & He). discriminate.
    + intros _. exists c. repeat split; auto.
      * rewrite SB by assumption. rewrite AU, cut_self. reflexivity.
      * intros q H1 H2. rewrite SB, A1 by assumption. reflexivity.
    + intro W. eapply wf_place; [exact X'|eapply wf_unlink; eassumption|exact I|]. rewrite ED, last_last. assumption.
    + reflexivity.
  - cbn. split; [auto|split; [discriminate|split; [auto|]]].
    intros c A ND. exfalso. pose proof A as FT. apply find_file in FT. rewrite FT in X.
    destruct (unlink_ok T t) as (t1 & U); [rewrite ET; destruct p; discriminate|congruence|]. rewrite U in X. pose proof (at_unlink _ _ _ U) as AU.
    assert (PD : at_ t1 (removelast D) = Some EDir).
    { rewrite ED, removelast_last, AU. destruct (cut T p) as [r|] eqn:C.
      - apply cut_Some in C. rewrite ET in C. apply (f_equal (@List.length _)) in C. rewrite !app_length in C. cbn in C. lia.
      - rewrite ET in A. apply at_above in A. assumption. }
    destruct (place_ok D t1 (File c)) as (t2 & P); [rewrite ED; destruct p; discriminate|assumption|]. rewrite P in X.
    destruct (find t D) as [[c'|es]|] eqn:FD; try discriminate. apply ND. apply find_dir. eauto.
Qed.

(** ** One file *)
Lemma publish_states : forall ch st src D mk t, at_ t [] = Some EDir -> D <> [] -> Forall fname_ok D -> ~ In sl st ->
  let m := publish ch st src D mk t in let T := tmpP D st in
  (forall s, one m s -> forall q, q <> T ->
     at_ s q = at_ t q \/
     (mk = true /\ at_ t q = None /\ at_ s q = Some EDir /\ below q (removelast D)) \/
     (q = D /\ exists c, at_ t src = Some (EFile c) /\ at_ s q = Some (EFile (concat (ch c))))) /\
  (wf t -> forall s, one m s -> wf s) /\
  (result m = Ok tt -> (exists c, at_ t src = Some (EFile c) /\ at_ (final m) D = Some (EFile (concat (ch c)))) /\ at_ (final m) T = None).
Proof.
  intros ch st src D mk t Rt HD G Hs m T. subst m. destruct (snoc_cases D HD) as (p & n & ->).
  apply Forall_app in G as [Gp Gn]. inversion Gn as [|? ? Gn' _]; subst. clear Gn.
  assert (ET : T = p ++ [n ++ str_of ".tmp_" ++ st]) by (unfold T; apply tmpP_snoc).
  assert (HT : T <> []) by (rewrite ET; destruct p; discriminate).
  assert (GT : fname_ok (last T [])) by (rewrite ET, last_last; apply tmp_name_ok; assumption).
  assert (TD : n ++ str_of ".tmp_" ++ st <> n).
  { intro E. apply (f_equal (@List.length _)) in E. rewrite !app_length in E. cbn in E. lia. }
  unfold publish. fold T. rewrite removelast_last.
  set (m1 := if mk then ensure p else aret tt).
  assert (M1 : (forall s, one (m1 t) s -> (if mk then grown p t s else s = t) /\ (wf t -> wf s))).
  { unfold m1. destruct mk; [apply ensure_eff; assumption|]. intros s H. apply one_ret in H as ->. auto. }
  assert (G1 : forall s, one (m1 t) s -> forall q, at_ s q = at_ t q \/ (mk = true /\ at_ t q = None /\ at_ s q = Some EDir /\ below q p)).
  { intros s H q. destruct (M1 s H) as [g _]. destruct mk; [destruct (g q) as [E|(a & b & c)]; auto|subst s; auto]. }
  assert (F1 : one (m1 t) (final (m1 t))) by (right; reflexivity).
  set (t1 := final (m1 t)) in *.
  destruct (copyfile_eff ch src T t1 HT GT) as (C1 & C2 & C3 & _).
  assert (F2 : one (copyfile ch src T t1) (final (copyfile ch src T t1))) by (right; reflexivity).
  set (t2 := final (copyfile ch src T t1)) in *.
  assert (SRC : forall c, at_ t1 src = Some (EFile c) -> at_ t src = Some (EFile c)).
  { intros c H. destruct (G1 _ F1 src) as [E|(_ & _ & E & _)]; congruence. }
  pose proof (rename_eff p (n ++ str_of ".tmp_" ++ st) n T (p ++ [n]) t2 ET eq_refl TD Gn') as RE. cbv zeta in RE. destruct RE as (R1 & R2 & R3 & _).
  assert (Step2 : forall s, one (copyfile ch src T t1) s -> forall q, q <> T -> at_ s q = at_ t q \/ (mk = true /\ at_ t q = None /\ at_ s q = Some EDir /\ below q p)).
  { intros s H q Hq. rewrite (C1 s H q Hq). apply (G1 _ F1). }
  repeat split.
  - intros s H q Hq. apply bind_states in H as [H|(x & Hx & H)].
    + destruct (G1 s H q) as [E|E]; auto.
    + fold t1 in H. apply bind_states in H as [H|(y & Hy & H)].
      * destruct (Step2 s H q Hq) as [E|E]; auto.
      * destruct y. fold t2 in H. destruct (result (os_rename T (p ++ [n]) t2)) as [[]|er] eqn:RR.
        -- destruct (R2 eq_refl) as (c & AT & AD & AN & AO & TR).
           assert (s = final (os_rename T (p ++ [n]) t2)) as -> by (destruct H as [H| ->]; [rewrite TR in H; destruct H as [<-|[]]; reflexivity|reflexivity]).
           destruct (list_eq_dec (list_eq_dec ascii_dec) q (p ++ [n])) as [->|Nq].
           ++ right. right. split; [reflexivity|]. destruct (C3 Hy) as (c' & S1 & _ & AT'). fold t2 in AT'.
              exists c'. split; [apply SRC; assumption|]. congruence.
           ++ rewrite AO by assumption. destruct (Step2 t2 F2 q Hq) as [E|E]; auto.
        -- destruct R1 as [E1 E2]; [eauto|]. assert (s = t2) as -> by (destruct H as [H| ->]; [rewrite E2 in H; destruct H|exact E1]).
           destruct (Step2 t2 F2 q Hq) as [E|E]; auto.
  - intros W s H. apply bind_states in H as [H|(x & Hx & H)]; [apply (M1 s H); assumption|]. fold t1 in H.
    assert (W1 : wf t1) by (apply (M1 _ F1); assumption).
    apply bind_states in H as [H|(y & Hy & H)]; [eauto|]. fold t2 in H. assert (W2 : wf t2) by eauto.
    destruct (result (os_rename T (p ++ [n]) t2)) as [[]|er] eqn:RR.
    + destruct (R2 eq_refl) as (c & _ & _ & _ & _ & TR). destruct H as [H| ->]; [rewrite TR in H; destruct H as [<-|[]]|]; auto.
    + destruct R1 as [E1 E2]; [eauto|]. destruct H as [H| ->]; [rewrite E2 in H; destruct H|]. rewrite E1. assumption.
  - apply bind_ok in H as (x & Hx & H & E). fold t1 in H, E. apply bind_ok in H as (y & Hy & H & E'). fold t2 in H, E'. destruct y.
    destruct (R2 H) as (c & AT & AD & AN & AO & TR). destruct (C3 Hy) as (c' & S1 & _ & AT'). fold t2 in AT'.
    exists c'. split; [apply SRC; assumption|]. rewrite E, E'. congruence.
  - apply bind_ok in H as (x & Hx & H & E). fold t1 in H, E. apply bind_ok in H as (y & Hy & H & E'). fold t2 in H, E'. destruct y.
    destruct (R2 H) as (c & AT & AD & AN & AO & TR). rewrite E, E'. exact AN.
Qed.

Lemma makedirs_ok : forall rest done t, at_ t done = Some EDir -> Forall fname_ok rest ->
  (forall q c, below q (done ++ rest) -> at_ t q <> Some (EFile c)) -> result (makedirs done rest t) = Ok tt.
Proof.
  induction rest as [|n rest IH]; intros done t Hd G H; cbn [makedirs]; [reflexivity|]. inversion G as [|? ? G1 G2]; subst.
  assert (Eq : done ++ n :: rest = (done ++ [n]) ++ rest) by (rewrite <- app_assoc; reflexivity).
  destruct (find t (done ++ [n])) as [[c|es]|] eqn:E.
  - apply find_file in E. exfalso. apply (H (done ++ [n]) c); [rewrite Eq; apply below_app|assumption].
  - apply IH; [apply find_dir; eauto|assumption|]. rewrite <- Eq. assumption.
  - apply find_none in E. destruct (place_ok (done ++ [n]) t (Dir [])) as (t1 & P); [destruct done; discriminate|rewrite removelast_last; assumption|].
    destruct (place_dir_grown _ _ _ P E) as [Gr A1].
    assert (C : result (change (fun t => place t (done ++ [n]) (Dir [])) IOErr t) = Ok tt /\ final (change (fun t => place t (done ++ [n]) (Dir [])) IOErr t) = t1)
      by (unfold change; rewrite P; auto).
    destruct C as (C1 & C2). destruct (bind_ok_run (change (fun t => place t (done ++ [n]) (Dir [])) IOErr) (fun _ => makedirs (done ++ [n]) rest) t tt C1) as [E1 _].
    rewrite E1, C2. apply IH; [assumption|assumption|]. rewrite <- Eq. intros q c B A. destruct (Gr q) as [Eg|(_ & Eg & _)]; [|congruence].
    rewrite Eg in A. apply (H q c B A).
Qed.
Lemma ensure_ok : forall p t, at_ t [] = Some EDir -> Forall fname_ok p -> (forall q c, below q p -> at_ t q <> Some (EFile c)) -> result (ensure p t) = Ok tt.
Proof.
  intros p t R G H. unfold ensure, asks, abind. destruct (is_dir p t) eqn:E; [reflexivity|].
  pose proof (makedirs_ok p [] t R G H) as K. unfold result in K. destruct (makedirs [] p t) as [[tr r] t2]. cbn in *. assumption.
Qed.

Lemma publish_ok : forall ch st src D (mk : bool) t c, at_ t [] = Some EDir -> D <> [] -> Forall fname_ok D -> ~ In sl st ->
  at_ t src = Some (EFile c) -> src <> tmpP D st -> at_ t (tmpP D st) <> Some EDir -> at_ t D <> Some EDir ->
  (if mk then forall (q : path) (x : str), below q (removelast D) -> at_ t q <> Some (EFile x) else at_ t (removelast D) = Some EDir) ->
  result (publish ch st src D mk t) = Ok tt.
Proof.
  intros ch st src D mk t c Rt HD G Hs As NT DT DD Par. destruct (snoc_cases D HD) as (p & n & ->).
  apply Forall_app in G as [Gp Gn]. inversion Gn as [|? ? Gn' _]; subst. clear Gn. rewrite removelast_last in Par.
  assert (ET : tmpP (p ++ [n]) st = p ++ [n ++ str_of ".tmp_" ++ st]) by apply tmpP_snoc. set (T := tmpP (p ++ [n]) st) in *.
  assert (HT : T <> []) by (rewrite ET; destruct p; discriminate).
  assert (GT : fname_ok (last T [])) by (rewrite ET, last_last; apply tmp_name_ok; assumption).
  assert (TD : n ++ str_of ".tmp_" ++ st <> n).
  { intro E. apply (f_equal (@List.length _)) in E. rewrite !app_length in E. cbn in E. lia. }
  assert (NotBelow : forall k, ~ below (p ++ [k]) p).
  { intros k (r & E). apply (f_equal (@List.length _)) in E. rewrite !app_length in E. cbn in E. lia. }
  unfold publish. fold T. rewrite removelast_last.
  set (m1 := if mk then ensure p else aret tt).
  assert (M1 : result (m1 t) = Ok tt /\ at_ (final (m1 t)) p = Some EDir /\ grown p t (final (m1 t))).
  { unfold m1. destruct mk.
    - destruct (ensure_eff p t Rt Gp) as [E1 E2]. pose proof (ensure_ok p t Rt Gp Par) as E3. repeat split; [assumption|eapply E2; exact E3|].
      apply E1. right. reflexivity.
    - repeat split; [assumption|apply grown_refl]. }
  destruct M1 as (R1 & P1 & Gr). destruct (bind_ok_run m1 (fun _ => copyfile ch src T ;;; os_rename T (p ++ [n])) t tt R1) as [-> _].
  clearbody T. set (t1 := final (m1 t)) in *. clearbody t1.
  destruct (copyfile_eff ch src T t1 HT GT) as (C1 & _ & C3 & C4).
  assert (RC : result (copyfile ch src T t1) = Ok tt).
  { apply (C4 c).
    - destruct (Gr src) as [E|(E & _)]; congruence.
    - assumption.
    - destruct (Gr T) as [E|(_ & _ & E)]; [congruence|]. exfalso. rewrite ET in E. apply (NotBelow _ E).
    - rewrite ET, removelast_last. assumption. }
  destruct (bind_ok_run (copyfile ch src T) (fun _ => os_rename T (p ++ [n])) t1 tt RC) as [-> _].
  destruct (C3 RC) as (c' & _ & _ & AT). pose proof (rename_eff p _ n T (p ++ [n]) (final (copyfile ch src T t1)) ET eq_refl TD Gn') as RE. cbv zeta in RE.
  destruct RE as (_ & _ & _ & RE). eapply RE; [exact AT|].
  rewrite (C1 _ (or_intror eq_refl)).
  - destruct (Gr (p ++ [n])) as [E|(_ & _ & E)]; [congruence|]. exfalso. apply (NotBelow _ E).
  - rewrite ET. intro E. apply app_inj_tail in E as [_ E]. congruence.
Qed.

(** ** A list of files *)
Fixpoint publish_all (e : env) (i : nat) (mk : bool) (items : list (path * path)) : act unit :=
  match items with
  | [] => aret tt
  | (src, D) :: r => publish (chunk e i) (stamp e i) src D mk ;;; publish_all e (S i) mk r
  end.

Lemma publish_all_app : forall e mk l1 l2 i t, result (publish_all e i mk (l1 ++ l2) t) = Ok tt ->
  result (publish_all e i mk l1 t) = Ok tt /\
  result (publish_all e (i + List.length l1) mk l2 (final (publish_all e i mk l1 t))) = Ok tt /\
  final (publish_all e i mk (l1 ++ l2) t) = final (publish_all e (i + List.length l1) mk l2 (final (publish_all e i mk l1 t))).
Proof.
  intros e mk l1 l2. induction l1 as [|[src D] l1 IH]; intros i t H.
  - cbn [app publish_all List.length]. rewrite Nat.add_0_r. cbn [app] in H. repeat split; assumption.
  - cbn [app publish_all List.length] in *. apply bind_ok in H as (a & Ha & H & E). apply IH in H as (I1 & I2 & I3). destruct a.
    destruct (bind_ok_run (publish (chunk e i) (stamp e i) src D mk) (fun _ => publish_all e (S i) mk l1) t tt Ha) as [E1 E2].
    rewrite E1, E2, E. replace (i + S (List.length l1))%nat with (S i + List.length l1)%nat by lia. auto.
Qed.

Section Items.
Variables (e : env) (R : path).
Hypothesis Hch : forall i c, concat (chunk e i c) = c.
Hypothesis Hst : forall i, ~ In sl (stamp e i).
(** Targets are below [R], sources are not. *)
Definition items_ok (items : list (path * path)) : Prop :=
  forall src D, In (src, D) items -> (exists r, r <> [] /\ D = R ++ r) /\ Forall fname_ok D /\ ~ below R src.
Definition is_tmp (items : list (path * path)) (q : path) : Prop :=
  exists src D i, In (src, D) items /\ q = tmpP D (stamp e i).

Lemma tmp_below : forall D st r, r <> [] -> D = R ++ r -> below R (tmpP D st) /\ below R (removelast D).
Proof.
  intros D st r Hr ->. unfold tmpP. rewrite removelast_app by assumption. split; [|apply below_app].
  rewrite <- app_assoc. apply below_app.
Qed.

(** What may be found while the files are being copied. *)
Definition progress (mk : bool) (items : list (path * path)) (t s : fsn) : Prop :=
  forall q, ~ is_tmp items q ->
    at_ s q = at_ t q \/
    (mk = true /\ at_ t q = None /\ at_ s q = Some EDir /\ exists src D, In (src, D) items /\ below q (removelast D)) \/
    (exists src c, In (src, q) items /\ at_ t src = Some (EFile c) /\ at_ s q = Some (EFile c)).

Lemma root_stays : forall mk items t s, items_ok items -> progress mk items t s -> at_ t [] = Some EDir -> at_ s [] = Some EDir.
Proof.
  intros mk items t s Ok P H. destruct (P []) as [E|[(_ & E & _)|(src & c & E & _)]].
  - intros (src & D & i & Hin & E). apply app_cons_not_nil in E. exact E.
  - congruence.
  - congruence.
  - destruct (Ok _ _ E) as ((r & Hr & E') & _). destruct R; destruct r; discriminate || congruence.
Qed.

Lemma publish_all_eff : forall mk items i t, items_ok items -> at_ t [] = Some EDir ->
  let m := publish_all e i mk items t in
  (forall s, one m s -> progress mk items t s /\ (wf t -> wf s)) /\
  (result m = Ok tt -> forall q c, at_ (final m) q = Some (EFile c) -> at_ t q = Some (EFile c) \/ exists src, In (src, q) items).
Proof.
  intros mk items. induction items as [|[src D] items IH]; intros i t Ok Rt m; subst m; cbn [publish_all].
  - split; [|auto]. intros s H. apply one_ret in H as ->. split; [intros q _; auto|auto].
  - destruct (Ok src D (or_introl eq_refl)) as ((r & Hr & ED) & GD & NS).
    assert (HD : D <> []) by (rewrite ED; intro E; apply app_eq_nil in E as [_ E]; contradiction).
    pose proof (publish_states (chunk e i) (stamp e i) src D mk t Rt HD GD (Hst i)) as P. cbv zeta in P. destruct P as (P1 & P2 & P3).
    destruct (tmp_below D (stamp e i) r Hr ED) as [BT BP].
    assert (Q1 : forall s, one (publish (chunk e i) (stamp e i) src D mk t) s -> progress mk ((src, D) :: items) t s).
    { intros s H q Hq. destruct (P1 s H q) as [E|[(a & b & c & d)|(-> & c & a & b)]].
      - intros ->. apply Hq. exists src, D, i. split; [left; reflexivity|reflexivity].
      - auto.
      - right. left. repeat split; auto. exists src, D. split; [left; reflexivity|assumption].
      - right. right. rewrite Hch in b. exists src, c. repeat split; auto. left. reflexivity. }
    set (t1 := final (publish (chunk e i) (stamp e i) src D mk t)) in *.
    assert (F1 : progress mk ((src, D) :: items) t t1) by (apply Q1; right; reflexivity).
    assert (Ok' : items_ok items) by (intros a b H; apply Ok; right; assumption).
    assert (Rt1 : at_ t1 [] = Some EDir) by (eapply root_stays; [exact Ok|exact F1|exact Rt]).
    destruct (IH (S i) t1 Ok' Rt1) as [I1 I2].
    assert (Stable : forall a b c, In (a, b) items -> at_ t1 a = Some (EFile c) -> at_ t a = Some (EFile c)).
    { intros a b c Hin H. destruct (Ok a b (or_intror Hin)) as (_ & _ & NA). destruct (F1 a) as [E|[(_ & _ & E & _)|(s' & c' & E & _)]].
      - intros (s' & D' & j & Hin' & E). destruct (Ok s' D' Hin') as ((r' & Hr' & ED') & _). apply NA. rewrite E. eapply tmp_below; eassumption.
      - congruence.
      - congruence.
      - exfalso. destruct (Ok s' a E) as ((r' & _ & ED') & _). apply NA. rewrite ED'. apply below_app. }
    split.
    + intros s H. apply bind_states in H as [H|(x & Hx & H)]; [split; [auto|eauto]|]. fold t1 in H. destruct (I1 s H) as [I3 I4]. split.
      * intros q Hq. assert (Hq' : ~ is_tmp items q) by (intros (a & b & j & Hin & E); apply Hq; exists a, b, j; split; [right; assumption|assumption]).
        destruct (I3 q Hq') as [E|[(a & b & c & s' & D' & Hin & B)|(s' & c & Hin & a & b)]].
        -- rewrite E. apply F1. assumption.
        -- right. left. destruct (F1 q Hq) as [E|[(_ & _ & E & _)|(? & ? & _ & _ & E)]]; [|congruence|congruence].
           repeat split; [assumption|congruence|assumption|]. exists s', D'. split; [right; assumption|assumption].
        -- right. right. exists s', c. repeat split; [right; assumption|eapply Stable; eassumption|assumption].
      * intro W. apply I4. apply (P2 W). right. reflexivity.
    + intros H q c A. apply bind_ok in H as (x & Hx & H & E). fold t1 in H, E. rewrite E in A.
      destruct (I2 H q c A) as [A1|(s' & Hin)]; [|right; exists s'; right; assumption].
      destruct x. destruct (P3 Hx) as [(c' & _ & AD) AT]. fold t1 in AD, AT.
      destruct (P1 t1 (or_intror eq_refl) q) as [E1|[(_ & _ & E1 & _)|(E1 & _)]].
      * intro Eq. subst q. congruence.
      * left. congruence.
      * congruence.
      * right. exists src. left. subst q. reflexivity.
Qed.

Lemma publish_all_last : forall mk pre src D post i t c, items_ok (pre ++ (src, D) :: post) -> at_ t [] = Some EDir ->
  result (publish_all e i mk (pre ++ (src, D) :: post) t) = Ok tt ->
  (forall s', ~ In (s', D) post) -> ~ is_tmp post D -> ~ is_tmp pre src -> at_ t src = Some (EFile c) ->
  at_ (final (publish_all e i mk (pre ++ (src, D) :: post) t)) D = Some (EFile c).
Proof.
  intros mk pre src D post i t c Ok Rt H NP NT NTs As.
  assert (Okp : items_ok pre) by (intros a b Hin; apply Ok; apply in_or_app; left; assumption).
  assert (Ok1 : items_ok ((src, D) :: post)) by (intros a b Hin; apply Ok; apply in_or_app; right; assumption).
  assert (Ok2 : items_ok post) by (intros a b Hin; apply Ok1; right; assumption).
  apply publish_all_app in H as (H1 & H2 & ->). destruct (publish_all_eff mk pre i t Okp Rt) as [P1 P2].
  destruct (P1 _ (or_intror eq_refl)) as [P3 _]. set (t1 := final (publish_all e i mk pre t)) in *.
  assert (Rt1 : at_ t1 [] = Some EDir) by (eapply root_stays; [exact Okp|exact P3|exact Rt]).
  destruct (Ok1 src D (or_introl eq_refl)) as ((r & Hr & ED) & GD & NS).
  assert (HD : D <> []) by (rewrite ED; intro E; apply app_eq_nil in E as [_ E]; contradiction).
  assert (As1 : at_ t1 src = Some (EFile c)).
  { destruct (P3 src NTs) as [E|[(_ & E & _)|(s' & c' & Hin & _)]]; [congruence|congruence|].
    exfalso. destruct (Okp s' src Hin) as ((r' & _ & E) & _). apply NS. rewrite E. apply below_app. }
  cbn [publish_all] in *. set (j := (i + List.length pre)%nat) in *. apply bind_ok in H2 as (x & Hx & H2 & E). destruct x. rewrite E.
  pose proof (publish_states (chunk e j) (stamp e j) src D mk t1 Rt1 HD GD (Hst j)) as P. cbv zeta in P. destruct P as (Q1 & _ & Q3).
  destruct (Q3 Hx) as ((c' & Ac & AD) & _). rewrite Hch in AD. assert (c' = c) by congruence. subst c'.
  set (t2 := final (publish (chunk e j) (stamp e j) src D mk t1)) in *.
  assert (F2 : progress mk ((src, D) :: post) t1 t2).
  { intros q Hq. destruct (Q1 t2 (or_intror eq_refl) q) as [E'|[(a & b & d & f)|(-> & c'' & a & b)]].
    - intros ->. apply Hq. exists src, D, j. split; [left; reflexivity|reflexivity].
    - auto.
    - right. left. repeat split; auto. exists src, D. split; [left; reflexivity|assumption].
    - right. right. rewrite Hch in b. exists src, c''. repeat split; auto. left. reflexivity. }
  assert (Rt2 : at_ t2 [] = Some EDir) by (eapply root_stays; [exact Ok1|exact F2|exact Rt1]).
  destruct (publish_all_eff mk post (S j) t2 Ok2 Rt2) as [P4 _]. destruct (P4 _ (or_intror eq_refl)) as [P5 _].
  destruct (P5 D NT) as [E'|[(_ & E' & _)|(s' & c' & Hin & _)]]; [congruence|congruence|]. exfalso. eapply NP. exact Hin.
Qed.

(** When copying cannot fail: [F] are the names of files, [P] those of directories. *)
Lemma publish_all_ok : forall mk items i t (F P : path -> Prop), items_ok items -> at_ t [] = Some EDir ->
  (forall src D, In (src, D) items -> F D /\ (forall j, F (tmpP D (stamp e j))) /\ (forall q, below q (removelast D) -> P q) /\ exists c, at_ t src = Some (EFile c)) ->
  (forall q, F q -> P q -> False) -> (forall q, F q -> at_ t q <> Some EDir) -> (forall q c, P q -> at_ t q <> Some (EFile c)) ->
  (mk = false -> forall src D, In (src, D) items -> at_ t (removelast D) = Some EDir) ->
  let m := publish_all e i mk items t in
  result m = Ok tt /\ (forall q, F q -> at_ (final m) q <> Some EDir) /\ (forall q c, P q -> at_ (final m) q <> Some (EFile c)).
Proof.
  intros mk items. induction items as [|[src D] items IH]; intros i t F P Hok Rt HI FP HF HP Hmk m; subst m; cbn [publish_all]; [auto|].
  destruct (HI src D (or_introl eq_refl)) as (FD & FT & PD & c & As).
  destruct (Hok src D (or_introl eq_refl)) as ((r & Hr & ED) & GD & NS).
  assert (HD : D <> []) by (rewrite ED; intro E; apply app_eq_nil in E as [_ E]; contradiction).
  destruct (tmp_below D (stamp e i) r Hr ED) as [BT BP].
  assert (RO : result (publish (chunk e i) (stamp e i) src D mk t) = Ok tt).
  { apply (publish_ok _ _ src D mk t c Rt HD GD (Hst i) As); auto.
    - intro E. apply NS. rewrite E. assumption.
    - destruct mk; [|apply (Hmk eq_refl src D); left; reflexivity]. intros q c' B. apply HP. auto. }
  destruct (bind_ok_run (publish (chunk e i) (stamp e i) src D mk) (fun _ => publish_all e (S i) mk items) t tt RO) as [-> ->].
  pose proof (publish_states (chunk e i) (stamp e i) src D mk t Rt HD GD (Hst i)) as Q. cbv zeta in Q. destruct Q as (Q1 & _ & Q3).
  specialize (Q1 _ (or_intror eq_refl)). set (t1 := final (publish (chunk e i) (stamp e i) src D mk t)) in *. destruct (Q3 RO) as (_ & AT). fold t1 in AT.
  assert (A : forall q, at_ t1 q = at_ t q \/ (q = tmpP D (stamp e i) /\ at_ t1 q = None) \/ (mk = true /\ at_ t q = None /\ at_ t1 q = Some EDir /\ below q (removelast D)) \/ (q = D /\ exists x, at_ t1 q = Some (EFile x))).
  { intro q. destruct (list_eq_dec (list_eq_dec ascii_dec) q (tmpP D (stamp e i))) as [->|N]; [auto|].
    destruct (Q1 q N) as [E|[E|(E & x & _ & E')]]; eauto 6. }
  apply (IH (S i) t1 F P).
  - intros a b H. apply Hok. right. assumption.
  - destruct (A []) as [E|[(E & _)|[(_ & E & _)|(E & _)]]]; try congruence. exfalso. rewrite <- E in BT. apply NS. destruct BT as (z & Ez). symmetry in Ez. apply app_eq_nil in Ez as [-> _]. exists src. reflexivity.
  - intros a b H. destruct (HI a b (or_intror H)) as (h1 & h2 & h3 & x & h4). repeat split; auto. exists x.
    destruct (Hok a b (or_intror H)) as (_ & _ & NA). destruct (A a) as [E|[(E & _)|[(_ & E & _)|(E & _)]]]; try congruence.
    exfalso. apply NA. rewrite E, ED. apply below_app.
  - assumption.
  - intros q Hq. destruct (A q) as [E|[(_ & E)|[(_ & _ & _ & E)|(_ & x & E)]]]; [rewrite E; auto|congruence| |congruence]. exfalso. apply (FP q Hq). auto.
  - intros q c' Hq. destruct (A q) as [E|[(_ & E)|[(_ & _ & E & _)|(E & _)]]]; [rewrite E; auto|congruence|congruence|]. subst q. exfalso. apply (FP D FD Hq).
  - intros Em a b H. specialize (Hmk Em a b (or_intror H)). destruct (A (removelast b)) as [E|[(E & _)|[(_ & E & _)|(E & _)]]]; try congruence.
    + exfalso. rewrite E in Hmk. apply (HF _ (FT i) Hmk).
    + exfalso. rewrite E in Hmk. apply (HF _ FD Hmk).
Qed.
End Items.
