(** Sending: removal of the cancel file, the directory's files, the listed files. *)
From Coq Require Import ZArith String Ascii Bool List Lia.
From Verif Require Import PyBase PyStr FsModel FsSpec FsProofs PathProofs CopyModel CopySpec CopyProofs CopyStepProofs.
Import ListNotations.

Lemma bind_assoc : forall {A B C} (m : act A) (f : A -> act B) (g : B -> act C) t,
  (y <- (x <- m ;; f x) ;; g y) t = (x <- m ;; (y <- f x ;; g y)) t.
Proof.
  intros. unfold abind. destruct (m t) as [[tr [a|e]] t1]; [|reflexivity]. destruct (f a t1) as [[tr' [b|e]] t2]; [|reflexivity].
  destruct (g b t2) as [[tr'' r] t3]. rewrite app_assoc. reflexivity.
Qed.
Lemma bind_ext : forall {A B} (m : act A) (f g : A -> act B) t, (forall a t, f a t = g a t) -> (x <- m ;; f x) t = (x <- m ;; g x) t.
Proof. intros A B m f g t H. unfold abind. destruct (m t) as [[tr [a|e]] t1]; [|reflexivity]. rewrite H. reflexivity. Qed.

(** ** Resolved paths consist of proper names *)
Lemma walk_parts_names : forall l base, Forall (fun x => ~ In sl x) l -> Forall fname_ok base -> Forall fname_ok (walk_parts base l).
Proof.
  induction l as [|x l IH]; intros base H B; cbn [walk_parts]; [assumption|]. inversion H; subst.
  destruct (str_eqb_spec x []); [apply IH; assumption|]. destruct (str_eqb_spec x (str_of ".")); [apply IH; assumption|]. cbn [orb].
  destruct (str_eqb_spec x (str_of "..")).
  - apply IH; [assumption|]. clear - B. destruct base as [|y b]; [constructor|]. rewrite (app_removelast_last y (l := y :: b)) in B by discriminate.
    apply Forall_app in B as [B _]. assumption.
  - apply IH; [assumption|]. apply Forall_app. split; [assumption|]. repeat constructor; assumption.
Qed.
Lemma resolve_names : forall cwd f, Forall fname_ok cwd -> Forall fname_ok (resolve cwd f).
Proof.
  intros cwd f H. unfold resolve. apply walk_parts_names; [apply Forall_forall; intros x Hx; eapply split_sl_parts; eassumption|].
  destruct (starts_sl f); [constructor|assumption].
Qed.

(** ** Lists of files as lists of items *)
Definition dir_items (L R : path) (rels : list path) : list (path * path) := map (fun rel => (L ++ rel, R ++ rel)) rels.
Definition list_items (c R : path) (fs : list str) : list (path * path) := map (fun f => (resolve c f, R ++ [snd (os_split f)])) fs.

Lemma copy_all_dir : forall e rd ld, (forall i, ~ In sl (stamp e i)) -> ld <> [] -> starts_sl rd = true -> forall rels i,
  (forall rel, In rel rels -> rel <> [] /\ Forall fname_ok rel /\ ~ inside ld (sl :: slashed rel)) ->
  copy_all e i (map (join_rel ld) rels) rd (Some ld) =
  publish_all e i true (dir_items (resolve (cwd e) ld) (resolve (cwd e) rd) rels).
Proof.
  intros e rd ld Hst Hld Ha. induction rels as [|rel rels IH]; intros i H; [reflexivity|]. cbn [map copy_all dir_items publish_all].
  destruct (H rel (or_introl eq_refl)) as (h1 & h2 & h3). rewrite slashed_join in h3.
  destruct (remote_name_dir (cwd e) rd ld rel Hld h1 h2 Ha h3) as (a & E & Ra).
  assert (Gl : fname_ok (last rel [])).
  { destruct (snoc_cases rel h1) as (r & n & ->). rewrite last_last. apply Forall_app in h2 as [_ h2]. inversion h2; assumption. }
  rewrite (copy_is_publish e i _ rd (Some ld) a (last rel []) E Gl (Hst i)). rewrite Ra, join_rel_resolve by assumption.
  replace ((resolve (cwd e) rd ++ removelast rel) ++ [last rel []]) with (resolve (cwd e) rd ++ rel).
  - rewrite IH by (intros; apply H; right; assumption). reflexivity.
  - rewrite <- app_assoc. f_equal. apply app_removelast_last. assumption.
Qed.
Lemma copy_all_list : forall e rd, (forall i, ~ In sl (stamp e i)) -> forall fs i,
  (forall f, In f fs -> exists n, base_of f n /\ fname_ok n) ->
  copy_all e i fs rd None = publish_all e i false (list_items (cwd e) (resolve (cwd e) rd) fs).
Proof.
  intros e rd Hst. induction fs as [|f fs IH]; intros i H; [reflexivity|]. cbn [map copy_all list_items publish_all].
  destruct (H f (or_introl eq_refl)) as (n & Hn & G). rewrite (split_base f n Hn).
  rewrite (copy_is_publish e i f rd None rd n (remote_name_list f rd n Hn) G (Hst i)).
  rewrite IH by (intros; apply H; right; assumption). reflexivity.
Qed.

Section Send.
Variables (e : env) (s : sender) (t : fsn).
Hypothesis OK : setting_ok e s t.
Let R := resolve (cwd e) (remote_directory s).
Let K := cancel_path e s.

Lemma R_names : Forall fname_ok R.
Proof. apply resolve_names. apply OK. Qed.
Lemma K_eq : K = R ++ [cancelfile s].
Proof. apply resolve_join_good. apply OK. Qed.
Lemma K_below : below R K.
Proof. rewrite K_eq. apply below_app. Qed.

(** Every state during a send, seen from a path that is not a temporary name. *)
Definition temp (q : path) : Prop := exists D, target e s t D /\ temp_of e D q.
Definition seen (s' : fsn) : Prop := forall q, ~ temp q ->
  at_ s' q = at_ t q \/
  (q = K /\ at_ s' q = None) \/
  ((at_ t q = None \/ q = K) /\ at_ s' q = Some EDir /\ (below q R \/ exists D, target e s t D /\ below q (removelast D))) \/
  (exists src c, source e s t src q /\ at_ t src = Some (EFile c) /\ at_ s' q = Some (EFile c)).
(** The same after the cancel file is gone. *)
Definition seen' (s' : fsn) : Prop := seen s' /\ (~ temp K -> ~ target e s t K -> forall c, at_ s' K <> Some (EFile c)).

Lemma target_form : forall D, target e s t D -> exists r, r <> [] /\ D = R ++ r.
Proof.
  intros D (src & H). inversion H; subst.
  - exists rel. auto.
  - exists [n]. split; [discriminate|reflexivity].
Qed.
Lemma temp_below : forall q, temp q -> below R q.
Proof.
  intros q (D & HD & p & n & i & E1 & E2). destruct (target_form D HD) as (r & Hr & E3). rewrite E3 in E1. subst q.
  destruct (snoc_cases r Hr) as (r' & x & ->). rewrite app_assoc in E1. apply app_inj_tail in E1 as [<- _]. rewrite <- app_assoc. apply below_app.
Qed.
Lemma source_out : forall src D, source e s t src D -> ~ below R src.
Proof.
  intros src D H. inversion H; subst.
  - destruct (ok_directory _ _ _ OK ld H0 H1) as (_ & N1 & N2). intro B.
    destruct (below_linear _ _ _ B (below_app (resolve (cwd e) ld) rel)); contradiction.
  - apply (ok_listed _ _ _ OK f H0).
Qed.
Lemma target_names : forall D, target e s t D -> Forall fname_ok D.
Proof.
  intros D (src & H). inversion H; subst; apply Forall_app; (split; [apply R_names|]).
  - assert (G : Forall fname_ok (resolve (cwd e) ld ++ rel)) by (eapply wf_names; [apply (ok_tree _ _ _ OK)|congruence]).
    apply Forall_app in G. apply G.
  - destruct (ok_listed _ _ _ OK f H0) as (_ & n' & Hn & G). apply split_base in Hn. apply split_base in H1.
    rewrite <- H1, Hn. constructor; [assumption|constructor].
Qed.

(** Files outside [R] stay what they are. *)
Lemma seen_outside : forall s' q, seen s' -> ~ below R q -> at_ s' q = at_ t q \/ (at_ t q = None /\ at_ s' q = Some EDir).
Proof.
  intros s' q H N. destruct (H q) as [E|[(E & _)|[([E|E] & E2 & _)|(src & c & Hs & _ & _)]]]; auto.
  - intro T. apply N. apply temp_below. assumption.
  - exfalso. apply N. rewrite E. apply K_below.
  - exfalso. apply N. rewrite E. apply K_below.
  - exfalso. destruct (target_form q (ex_intro _ _ Hs)) as (r & _ & ->). apply N. apply below_app.
Qed.
Lemma seen_file_outside : forall s' q c, seen s' -> ~ below R q -> (at_ s' q = Some (EFile c) <-> at_ t q = Some (EFile c)).
Proof. intros s' q c H N. destruct (seen_outside s' q H N) as [E|[E1 E2]]; [rewrite E; tauto|rewrite E1, E2; split; discriminate]. Qed.

(** *** Removing the cancel file *)
Definition prep : act unit := c <- asks (is_file K) ;; (if (c : bool) then os_remove K else aret tt).
Lemma prep_eff : result (prep t) = Ok tt /\ (forall s', one (prep t) s' -> wf s') /\
  (forall q, q <> K -> at_ (final (prep t)) q = at_ t q) /\ (forall c, at_ (final (prep t)) K <> Some (EFile c)) /\
  (at_ (final (prep t)) K = at_ t K \/ at_ (final (prep t)) K = None) /\
  (forall s', one (prep t) s' -> s' = t \/ s' = final (prep t)).
Proof.
  assert (W : wf t) by apply OK. unfold prep, asks, abind. destruct (is_file K t) eqn:F.
  - unfold is_file in F. unfold os_remove, change. destruct (find t K) as [[c|es]|] eqn:FK; try discriminate.
    destruct (unlink_ok K t) as (t' & U); [rewrite K_eq; destruct R; discriminate|unfold at_; rewrite FK; discriminate|].
    rewrite U. cbn. pose proof (at_unlink _ _ _ U) as A. apply find_file in FK.
    assert (AK : at_ t' K = None) by (rewrite A, cut_self; reflexivity). split; [reflexivity|]. split; [|split; [|split; [|split]]].
    + intros s' [H| ->]; [destruct H as [<-|[]]|]; eapply wf_unlink; eassumption.
    + intros q Hq. rewrite A. destruct (cut K q) as [r|] eqn:C; [|reflexivity]. apply cut_Some in C as ->. symmetry. eapply at_under_file; [exact FK|].
      intros ->. apply Hq. rewrite app_nil_r. reflexivity.
    + intros c'. congruence.
    + auto.
    + intros s' [H| ->]; [destruct H as [<-|[]]|]; auto.
  - cbn. split; [reflexivity|]. split; [|split; [|split; [|split]]]; auto.
    + intros s' [[]| ->]. assumption.
    + intros c A. apply find_file in A. unfold is_file in F. rewrite A in F. discriminate.
    + intros s' [[]| ->]. auto.
Qed.

(** *** One stage after another *)
(** [stage s1 s2]: from the seen state [s1] to [s2] by creating directories and storing sources. *)
Definition stage (s1 s2 : fsn) : Prop := forall q, ~ temp q ->
  at_ s2 q = at_ s1 q \/
  (at_ s1 q = None /\ at_ s2 q = Some EDir /\ (below q R \/ exists D, target e s t D /\ below q (removelast D))) \/
  (exists src c, source e s t src q /\ at_ s1 src = Some (EFile c) /\ at_ s2 q = Some (EFile c)).
Lemma stage_seen : forall s1 s2, seen' s1 -> stage s1 s2 -> seen' s2.
Proof.
  intros s1 s2 [H1 HK] H2. split.
  - intros q Hq. destruct (H2 q Hq) as [E|[(a & b & c)|(src & c & Hs & a & b)]].
    + rewrite E. apply H1. assumption.
    + right. right. left. destruct (H1 q Hq) as [E|[(E & _)|[(_ & E & _)|(src & c' & _ & _ & E)]]].
      * repeat split; auto. left. congruence.
      * repeat split; auto.
      * congruence.
      * congruence.
    + right. right. right. exists src, c. repeat split; auto. apply (seen_file_outside s1 src c H1); [|assumption]. eapply source_out; exact Hs.
  - intros N1 N2 c A. destruct (H2 K N1) as [E|[(_ & E & _)|(src & c' & Hs & _ & _)]].
    + rewrite E in A. apply (HK N1 N2 c A).
    + congruence.
    + apply N2. exists src. assumption.
Qed.
Lemma grown_stage : forall s1 s2, grown R s1 s2 -> stage s1 s2.
Proof. intros s1 s2 H q _. destruct (H q) as [E|(a & b & c)]; [left; assumption|right; left; auto]. Qed.

Lemma root_seen : forall s', seen s' -> at_ s' [] = Some EDir.
Proof.
  intros s' H. destruct (H []) as [E|[(E & _)|[(_ & E & _)|(src & c & Hs & _)]]].
  - intros (D & _ & p & n & i & _ & E). destruct p; discriminate.
  - rewrite E. apply OK.
  - exfalso. rewrite K_eq in E. destruct R; discriminate.
  - assumption.
  - exfalso. destruct (target_form [] (ex_intro _ _ Hs)) as (r & Hr & E). symmetry in E. apply app_eq_nil in E as [_ E]. contradiction.
Qed.

Definition items_src (items : list (path * path)) : Prop := forall src D, In (src, D) items -> source e s t src D.
Lemma items_src_ok : forall items, items_src items -> items_ok R items.
Proof.
  intros items H src D Hin. apply H in Hin. split; [apply target_form; exists src; assumption|].
  split; [apply target_names; exists src; assumption|eapply source_out; eassumption].
Qed.
Lemma items_tmp : forall items q, items_src items -> is_tmp e items q -> temp q.
Proof.
  intros items q H (src & D & i & Hin & ->). apply H in Hin. exists D. split; [exists src; assumption|].
  destruct (target_form D (ex_intro _ _ Hin)) as (r & Hr & ->). destruct (snoc_cases r Hr) as (r' & n & ->).
  exists (R ++ r'), n, i. rewrite app_assoc, tmpP_snoc. auto.
Qed.
Lemma progress_stage : forall mk items s1 s2, items_src items -> progress e mk items s1 s2 -> stage s1 s2.
Proof.
  intros mk items s1 s2 Hi H q Hq. destruct (H q) as [E|[(_ & a & b & src & D & Hin & c)|(src & c & Hin & a & b)]].
  - intro T. apply Hq. eapply items_tmp; eassumption.
  - auto.
  - right. left. repeat split; auto. right. exists D. split; [exists src; apply Hi; assumption|assumption].
  - right. right. exists src, c. repeat split; auto.
Qed.

Definition ld_ : str := match local_directory s with Some l => l | None => [] end.
Let L := resolve (cwd e) ld_.

Definition rels (s' : fsn) : list path := if list_eq_dec ascii_dec ld_ [] then [] else match find s' L with Some n => walk_rel n | None => [] end.

Lemma rels_spec : forall s', seen s' -> wf s' -> ld_ <> [] ->
  NoDup (rels s') /\ forall rel, In rel (rels s') <-> rel <> [] /\ exists c, at_ t (L ++ rel) = Some (EFile c).
Proof.
  intros s' H W N. assert (Eld : local_directory s = Some ld_) by (unfold ld_ in *; destruct (local_directory s); [reflexivity|congruence]).
  destruct (ok_directory _ _ _ OK ld_ Eld N) as (_ & N1 & N2).
  assert (Out : forall rel, ~ below R (L ++ rel)) by (intros rel B; destruct (below_linear _ _ _ B (below_app L rel)); contradiction).
  assert (F : forall rel c, at_ s' (L ++ rel) = Some (EFile c) <-> at_ t (L ++ rel) = Some (EFile c)) by (intros; apply seen_file_outside; auto).
  unfold rels. destruct (list_eq_dec ascii_dec ld_ []) as [El|_]; [contradiction|].
  destruct (find s' L) as [n|] eqn:FL.
  - assert (Wn : wf n) by (eapply wf_find; eassumption). destruct (walk_rel_spec n Wn) as [Q1 Q2]. split; [assumption|].
    intro rel. rewrite Q1. assert (E : at_ n rel = at_ s' (L ++ rel)) by (unfold at_; rewrite find_app, FL; reflexivity). rewrite E.
    split; intros [Hr (c & Hc)]; (split; [assumption|]); exists c; apply F; assumption.
  - split; [constructor|]. intro rel. split; [intros []|]. intros [_ (c & Hc)]. apply F in Hc. apply find_none in FL. rewrite (at_under_none _ _ rel FL) in Hc. discriminate.
Qed.
Lemma rels_same : forall s1 s2, seen s1 -> wf s1 -> seen s2 -> wf s2 -> List.length (rels s1) = List.length (rels s2).
Proof.
  intros s1 s2 H1 W1 H2 W2. destruct (list_eq_dec ascii_dec ld_ []) as [El|N]; [unfold rels; destruct (list_eq_dec ascii_dec ld_ []); [reflexivity|contradiction]|].
  destruct (rels_spec s1 H1 W1 N) as [A1 B1]. destruct (rels_spec s2 H2 W2 N) as [A2 B2].
  apply Nat.le_antisymm; (apply NoDup_incl_length; [assumption|]); intros x Hx; [apply B2, B1|apply B1, B2]; assumption.
Qed.
Lemma all_local_rels : forall s', ld_ <> [] -> all_local_files e ld_ s' = map (join_rel ld_) (rels s').
Proof.
  intros s' N. unfold all_local_files, rels. fold L. destruct (list_eq_dec ascii_dec ld_ []) as [El|_]; [contradiction|]. destruct (find s' L); [apply walk_files_rel|reflexivity].
Qed.

Lemma dir_items_src : forall s', seen s' -> wf s' -> ld_ <> [] -> items_src (dir_items L R (rels s')).
Proof.
  intros s' H W N src D Hin. unfold dir_items in Hin. apply in_map_iff in Hin as (rel & E & Hin). injection E as <- <-.
  apply (rels_spec s' H W N) in Hin as [Hr (c & Hc)]. unfold L, R. eapply from_directory; eauto. unfold ld_ in *. destruct (local_directory s); [reflexivity|congruence].
Qed.
Lemma list_items_src : items_src (list_items (cwd e) R (local_files s)).
Proof.
  intros src D Hin. unfold list_items in Hin. apply in_map_iff in Hin as (f & E & Hin). injection E as <- <-. apply from_list; [assumption|apply base_exists].
Qed.

(** *** The whole *)
Definition dir_stage : act (nat * nat) :=
  match local_directory s with
  | Some ((_ :: _) as ld) =>
      fs <- asks (all_local_files e ld) ;;
      copy_all e 0 fs (remote_directory s) (Some ld) ;;;
      fs' <- asks (all_local_files e ld) ;;
      aret (List.length fs, List.length fs + List.length fs')%nat
  | _ => aret (0, 0)%nat
  end.
Definition list_stage (n : nat * nat) : act Z :=
  copy_all e (fst n) (local_files s) (remote_directory s) None ;;; aret (Z.of_nat (snd n + List.length (local_files s))).

Lemma send_stages : send e s t = (prep ;;; (ensure R ;;; (n <- dir_stage ;; list_stage n))) t.
Proof.
  unfold send, prep. symmetry. rewrite bind_assoc. fold R K. unfold abind at 1. unfold abind at 4. destruct (asks (is_file K) t) as [[tr [c|er]] t1]; [|reflexivity].
  assert (E : forall t1, ((if c then os_remove K else aret tt);;; ensure R;;; n <- dir_stage;; list_stage n) t1 =
              ((if c then os_remove K else aret tt);;; d <- asks (is_dir R);; (if d then aret tt else makedirs [] R);;; n <- dir_stage;; list_stage n) t1).
  { intro t2. apply bind_ext. intros _ t3. unfold ensure. rewrite bind_assoc. reflexivity. }
  rewrite E. reflexivity.
Qed.

Lemma dir_stage_unfold : forall ld, local_directory s = Some ld -> ld <> [] -> dir_stage =
  (fs <- asks (all_local_files e ld) ;; copy_all e 0 fs (remote_directory s) (Some ld) ;;;
   fs' <- asks (all_local_files e ld) ;; aret (List.length fs, List.length fs + List.length fs')%nat).
Proof. intros ld E N. unfold dir_stage. rewrite E. destruct ld; [congruence|reflexivity]. Qed.
Lemma dir_stage_none : ld_ = [] -> dir_stage = aret (0, 0)%nat.
Proof. clear. unfold dir_stage, ld_. destruct (local_directory s) as [[|]|]; [reflexivity|discriminate|reflexivity]. Qed.
Lemma ld_some : ld_ <> [] -> local_directory s = Some ld_.
Proof. clear. unfold ld_. destruct (local_directory s); [reflexivity|congruence]. Qed.

Lemma dir_stage_eff : forall t2, seen' t2 -> wf t2 ->
  (forall s', one (dir_stage t2) s' -> seen' s' /\ wf s' /\ stage t2 s') /\
  (forall a, result (dir_stage t2) = Ok a -> snd a = (2 * List.length (rels t2))%nat /\
     (ld_ = [] -> final (dir_stage t2) = t2) /\
     (ld_ <> [] -> result (publish_all e 0 true (dir_items L R (rels t2)) t2) = Ok tt /\ final (dir_stage t2) = final (publish_all e 0 true (dir_items L R (rels t2)) t2))) /\
  ((ld_ <> [] -> result (publish_all e 0 true (dir_items L R (rels t2)) t2) = Ok tt) -> exists a, result (dir_stage t2) = Ok a).
Proof.
  intros t2 Hs W. destruct (list_eq_dec ascii_dec ld_ []) as [El|Nl].
  - rewrite (dir_stage_none El). split; [|split].
    + intros s' H. apply one_ret in H as ->. repeat split; try apply Hs; try assumption. intros q _. auto.
    + intros a H. injection H as <-. split; [|split; [reflexivity|congruence]]. unfold rels. destruct (list_eq_dec ascii_dec ld_ []); [reflexivity|contradiction].
    + intros _. exists (0, 0)%nat. reflexivity.
  - assert (E : dir_stage t2 = (copy_all e 0 (map (join_rel ld_) (rels t2)) (remote_directory s) (Some ld_) ;;;
                       fs' <- asks (all_local_files e ld_) ;; aret (List.length (map (join_rel ld_) (rels t2)), List.length (map (join_rel ld_) (rels t2)) + List.length fs')%nat) t2).
    { rewrite <- all_local_rels by assumption. rewrite (dir_stage_unfold ld_ (ld_some Nl) Nl).
      unfold abind at 1, asks at 1. match goal with |- (let (_, _) := ?X in _) = _ => destruct X as [[tr r] t3] end. reflexivity. }
    pose proof (ld_some Nl) as Eld. destruct (ok_directory _ _ _ OK ld_ Eld Nl) as (Ha & _).
    assert (IS : items_src (dir_items L R (rels t2))) by (apply dir_items_src; [apply Hs|assumption|assumption]).
    assert (EC : copy_all e 0 (map (join_rel ld_) (rels t2)) (remote_directory s) (Some ld_) = publish_all e 0 true (dir_items L R (rels t2))).
    { apply copy_all_dir; [apply OK|assumption|assumption|]. intros rel Hin. destruct (rels_spec t2 (proj1 Hs) W Nl) as [_ Q]. apply Q in Hin as [Hr (c & Hc)].
      repeat split; [assumption| |eapply ok_once; eassumption].
      assert (G : Forall fname_ok (L ++ rel)) by (eapply wf_names; [apply (ok_tree _ _ _ OK)|congruence]). apply Forall_app in G. apply G. }
    rewrite EC in E. rewrite E.
    assert (Rt2 : at_ t2 [] = Some EDir) by (apply root_seen; apply Hs).
    destruct (publish_all_eff e R (ok_chunks _ _ _ OK) (ok_stamps _ _ _ OK) true (dir_items L R (rels t2)) 0 t2 (items_src_ok _ IS) Rt2) as [P1 _].
    assert (P1' : forall s', one (publish_all e 0 true (dir_items L R (rels t2)) t2) s' -> seen' s' /\ wf s' /\ stage t2 s').
    { intros s' H. destruct (P1 s' H) as [p w]. assert (St : stage t2 s') by (eapply progress_stage; eassumption). repeat split; auto; apply (stage_seen t2); auto. }
    split; [|split].
    + intros s' H. apply bind_states in H as [H|(a & Ha' & H)]; [auto|]. apply bind_states in H as [H|(b & Hb & H)].
      * destruct H as [[]| ->]. apply P1'. right. reflexivity.
      * apply one_ret in H as ->. apply P1'. right. reflexivity.
    + intros a H. apply bind_ok in H as (b & Hb & H & EF). destruct b. apply bind_ok in H as (x & Hx & H & EF'). injection Hx as <-. injection H as <-. cbn [snd].
      destruct (P1' _ (or_intror eq_refl)) as (Q1 & Q2 & _). split; [|split; [congruence|]].
      * rewrite all_local_rels by assumption. rewrite !map_length.
        set (tf := final (publish_all e 0 true (dir_items L R (rels t2)) t2)) in *.
        change (final (asks (all_local_files e ld_) tf)) with tf in *.
        rewrite (rels_same tf t2 (proj1 Q1) Q2 (proj1 Hs) W). lia.
      * intros _. split; [assumption|]. rewrite EF, EF'. reflexivity.
    + intro H. specialize (H Nl). destruct (bind_ok_run (publish_all e 0 true (dir_items L R (rels t2))) (fun _ => fs' <- asks (all_local_files e ld_) ;; aret (List.length (map (join_rel ld_) (rels t2)), List.length (map (join_rel ld_) (rels t2)) + List.length fs')%nat) t2 tt H) as [-> _].
      eexists. reflexivity.
Qed.

Lemma list_stage_eff : forall n t3, seen' t3 -> wf t3 ->
  (forall s', one (list_stage n t3) s' -> seen' s' /\ wf s' /\ stage t3 s') /\
  (forall z, result (list_stage n t3) = Ok z -> z = Z.of_nat (snd n + List.length (local_files s)) /\
     result (publish_all e (fst n) false (list_items (cwd e) R (local_files s)) t3) = Ok tt /\
     final (list_stage n t3) = final (publish_all e (fst n) false (list_items (cwd e) R (local_files s)) t3)) /\
  (result (publish_all e (fst n) false (list_items (cwd e) R (local_files s)) t3) = Ok tt -> exists z, result (list_stage n t3) = Ok z).
Proof.
  intros n t3 Hs W. unfold list_stage. rewrite (copy_all_list e (remote_directory s) (ok_stamps _ _ _ OK)) by (intros f Hf; apply (ok_listed _ _ _ OK f Hf)).
  fold R. set (items := list_items (cwd e) R (local_files s)).
  assert (Rt3 : at_ t3 [] = Some EDir) by (apply root_seen; apply Hs).
  destruct (publish_all_eff e R (ok_chunks _ _ _ OK) (ok_stamps _ _ _ OK) false items (fst n) t3 (items_src_ok _ list_items_src) Rt3) as [P1 _].
  assert (P1' : forall s', one (publish_all e (fst n) false items t3) s' -> seen' s' /\ wf s' /\ stage t3 s').
  { intros s' H. destruct (P1 s' H) as [p w]. assert (St : stage t3 s') by (eapply progress_stage; [apply list_items_src|eassumption]).
    repeat split; auto; apply (stage_seen t3); auto. }
  split; [|split].
  - intros s' H. apply bind_states in H as [H|(a & Ha' & H)]; [auto|]. apply one_ret in H as ->. apply P1'. right. reflexivity.
  - intros z H. apply bind_ok in H as (b & Hb & H & EF). destruct b. injection H as <-. repeat split; [assumption|]. rewrite EF. reflexivity.
  - intro H. destruct (bind_ok_run (publish_all e (fst n) false items) (fun _ => aret (Z.of_nat (snd n + List.length (local_files s)))) t3 tt H) as [-> _]. eexists. reflexivity.
Qed.

(** ** Every state, the final state, success *)
Lemma after_prep : seen' (final (prep t)) /\ wf (final (prep t)).
Proof.
  destruct prep_eff as (_ & W & A & NK & EK & _). split; [|apply W; right; reflexivity]. split.
  - intros q _. destruct (list_eq_dec (list_eq_dec ascii_dec) q K) as [->|N]; [|left; auto]. destruct EK as [E|E]; auto.
  - intros _ _ c. apply NK.
Qed.
Lemma seen_t : seen t. Proof. intros q _. auto. Qed.

Lemma ensure_stage : forall t1, seen' t1 -> wf t1 -> forall s', one (ensure R t1) s' -> seen' s' /\ wf s' /\ stage t1 s'.
Proof.
  intros t1 H W s' H'. destruct (ensure_eff R t1 (root_seen t1 (proj1 H)) R_names) as [E1 _]. destruct (E1 s' H') as [G W'].
  assert (St : stage t1 s') by (apply grown_stage; assumption). repeat split; auto; apply (stage_seen t1); auto.
Qed.

Lemma send_states : forall s', one (send e s t) s' -> seen s' /\ wf s'.
Proof.
  intros s' H. rewrite send_stages in H. destruct after_prep as [A1 W1]. destruct prep_eff as (_ & W0 & _ & _ & _ & T0).
  apply bind_states in H as [H|(a & _ & H)].
  - split; [|auto]. destruct (T0 s' H) as [->| ->]; [apply seen_t|apply A1].
  - apply bind_states in H as [H|(b & _ & H)]; [destruct (ensure_stage _ A1 W1 s' H) as ((? & _) & ? & _); auto|].
    destruct (ensure_stage _ A1 W1 _ (or_intror eq_refl)) as (A2 & W2 & _). set (t2 := final (ensure R (final (prep t)))) in *.
    destruct (dir_stage_eff t2 A2 W2) as (D1 & _ & _).
    apply bind_states in H as [H|(n & _ & H)]; [destruct (D1 s' H) as ((? & _) & ? & _); auto|].
    destruct (D1 _ (or_intror eq_refl)) as (A3 & W3 & _). destruct (list_stage_eff n _ A3 W3) as (L1 & _ & _).
    destruct (L1 s' H) as ((? & _) & ? & _); auto.
Qed.

Lemma send_final : seen' (final (send e s t)).
Proof.
  rewrite send_stages. destruct after_prep as [A1 W1]. destruct prep_eff as (R0 & _).
  destruct (bind_ok_run prep (fun _ => ensure R ;;; (n <- dir_stage ;; list_stage n)) t tt R0) as [_ ->].
  destruct (ensure_stage _ A1 W1 _ (or_intror eq_refl)) as (A2 & W2 & _). set (t1 := final (prep t)) in *.
  destruct (result (ensure R t1)) as [[]|er] eqn:RE.
  - destruct (bind_ok_run (ensure R) (fun _ => n <- dir_stage ;; list_stage n) t1 tt RE) as [_ ->].
    set (t2 := final (ensure R t1)) in *. destruct (dir_stage_eff t2 A2 W2) as (D1 & _ & _).
    destruct (D1 _ (or_intror eq_refl)) as (A3 & W3 & _). destruct (result (dir_stage t2)) as [n|er] eqn:RD.
    + destruct (bind_ok_run dir_stage list_stage t2 n RD) as [_ ->]. destruct (list_stage_eff n _ A3 W3) as (L1 & _ & _).
      apply (L1 _ (or_intror eq_refl)).
    + destruct (bind_err dir_stage list_stage t2 er RD) as [_ ->]. assumption.
  - destruct (bind_err (ensure R) (fun _ => n <- dir_stage ;; list_stage n) t1 er RE) as [_ ->]. assumption.
Qed.

(** What a successful send went through. *)
Lemma send_ok_inv : forall z, result (send e s t) = Ok z -> exists t2 t3 i,
  seen' t2 /\ wf t2 /\ at_ t2 R = Some EDir /\ stage (final (prep t)) t2 /\ seen' t3 /\ wf t3 /\
  grown R (final (prep t)) t2 /\
  ((ld_ = [] /\ t3 = t2) \/ (ld_ <> [] /\ result (publish_all e 0 true (dir_items L R (rels t2)) t2) = Ok tt /\ t3 = final (publish_all e 0 true (dir_items L R (rels t2)) t2))) /\
  result (publish_all e i false (list_items (cwd e) R (local_files s)) t3) = Ok tt /\
  final (send e s t) = final (publish_all e i false (list_items (cwd e) R (local_files s)) t3) /\
  z = Z.of_nat (2 * List.length (rels t2) + List.length (local_files s)).
Proof.
  intros z H. rewrite send_stages in *. destruct after_prep as [A1 W1]. set (t1 := final (prep t)) in *.
  apply bind_ok in H as (x & _ & H & E1). fold t1 in H, E1. apply bind_ok in H as (y & Hy & H & E2).
  destruct (ensure_stage _ A1 W1 _ (or_intror eq_refl)) as (A2 & W2 & S2).
  destruct (ensure_eff R t1 (root_seen t1 (proj1 A1)) R_names) as [G2 D2]. destruct (G2 _ (or_intror eq_refl)) as [G2' _]. specialize (D2 _ Hy).
  set (t2 := final (ensure R t1)) in *. apply bind_ok in H as (n & Hn & H & E3).
  destruct (dir_stage_eff t2 A2 W2) as (D1 & D3 & _). destruct (D1 _ (or_intror eq_refl)) as (A3 & W3 & _). destruct (D3 n Hn) as (C & F1 & F2).
  set (t3 := final (dir_stage t2)) in *. destruct (list_stage_eff n t3 A3 W3) as (_ & L2 & _). destruct (L2 z H) as (Ez & RL & FL).
  exists t2, t3, (fst n). split; [assumption|]. split; [assumption|]. split; [assumption|]. split; [assumption|]. split; [assumption|]. split; [assumption|]. split; [assumption|].
  split; [|split; [assumption|split; [congruence|rewrite Ez, C; reflexivity]]].
  destruct (list_eq_dec ascii_dec ld_ []) as [El|Nl]; [left; auto|right; split; [assumption|]]. apply F2. assumption.
Qed.

Lemma not_tmp_source : forall items src D, items_src items -> source e s t src D -> ~ is_tmp e items src.
Proof. intros items src D Hi Hs Ht. apply (items_tmp items src Hi) in Ht. apply (source_out src D Hs). apply temp_below. assumption. Qed.
Lemma not_tmp_target : forall items D, no_clash e s t -> items_src items -> target e s t D -> ~ is_tmp e items D.
Proof. intros items D NC Hi HD Ht. apply (items_tmp items D Hi) in Ht as (D' & HD' & T). apply (NC D D' D HD HD' T). reflexivity. Qed.

Lemma send_dir_file : forall z rel c, no_clash e s t -> result (send e s t) = Ok z -> ld_ <> [] -> rel <> [] -> at_ t (L ++ rel) = Some (EFile c) ->
  (forall f n, In f (local_files s) -> base_of f n -> rel <> [n]) -> at_ (final (send e s t)) (R ++ rel) = Some (EFile c).
Proof.
  intros z rel c NC H Nl Hr Ac NB. destruct (send_ok_inv z H) as (t2 & t3 & i & A2 & W2 & D2 & S2 & A3 & W3 & G2 & Dir & RL & FL & _). rewrite FL.
  destruct Dir as [[El _]|(_ & RD & FD)]; [contradiction|].
  assert (Src : source e s t (L ++ rel) (R ++ rel)) by (eapply from_directory; [apply ld_some; assumption|assumption|assumption|exact Ac]).
  destruct (rels_spec t2 (proj1 A2) W2 Nl) as [ND Q]. assert (Hin : In rel (rels t2)) by (apply Q; eauto).
  pose proof (dir_items_src t2 (proj1 A2) W2 Nl) as IS.
  apply in_split in Hin as (pre & post & Er). rewrite Er in *. unfold dir_items in *. rewrite map_app in *. cbn [map] in *.
  fold (dir_items L R pre) (dir_items L R post) in *.
  assert (Ac2 : at_ t2 (L ++ rel) = Some (EFile c)) by (apply (seen_file_outside t2); [apply A2|eapply source_out; exact Src|assumption]).
  assert (AD : at_ t3 (R ++ rel) = Some (EFile c)).
  { rewrite FD. apply (publish_all_last e R (ok_chunks _ _ _ OK) (ok_stamps _ _ _ OK)); auto.
    - apply items_src_ok. assumption.
    - apply root_seen. apply A2.
    - intros s' Hin. unfold dir_items in Hin. apply in_map_iff in Hin as (r' & E & Hin). injection E as _ E. apply app_inv_head in E. subst r'.
      apply NoDup_remove_2 in ND. apply ND. apply in_or_app. right. assumption.
    - apply not_tmp_target; [assumption| |exists (L ++ rel); assumption]. intros a b Hab. apply IS. apply in_or_app. right. right. assumption.
    - apply (not_tmp_source _ _ (R ++ rel)); [|assumption]. intros a b Hab. apply IS. apply in_or_app. left. assumption. }
  destruct (publish_all_eff e R (ok_chunks _ _ _ OK) (ok_stamps _ _ _ OK) false _ i t3 (items_src_ok _ list_items_src) (root_seen t3 (proj1 A3))) as [P1 _].
  destruct (P1 _ (or_intror eq_refl)) as [P2 _]. destruct (P2 (R ++ rel)) as [E|[(_ & E & _)|(s' & c' & Hin & _)]].
  - apply not_tmp_target; [assumption|apply list_items_src|exists (L ++ rel); assumption].
  - congruence.
  - congruence.
  - exfalso. unfold list_items in Hin. apply in_map_iff in Hin as (f & E & Hf). injection E as _ E. apply app_inv_head in E.
    apply (NB f (snd (os_split f)) Hf (base_exists f)). symmetry. assumption.
Qed.

Lemma send_list_file : forall z pre f post n c, no_clash e s t -> result (send e s t) = Ok z -> local_files s = pre ++ f :: post ->
  base_of f n -> (forall g, In g post -> ~ base_of g n) -> at_ t (resolve (cwd e) f) = Some (EFile c) -> at_ (final (send e s t)) (R ++ [n]) = Some (EFile c).
Proof.
  intros z pre f post n c NC H El Hn NP Ac. destruct (send_ok_inv z H) as (t2 & t3 & i & A2 & W2 & D2 & S2 & A3 & W3 & G2 & Dir & RL & FL & _). rewrite FL.
  pose proof list_items_src as IS. rewrite El in *. unfold list_items in *. rewrite map_app in *. cbn [map] in *.
  fold (list_items (cwd e) R pre) (list_items (cwd e) R post) in *. rewrite (split_base f n Hn) in *.
  assert (Src : source e s t (resolve (cwd e) f) (R ++ [n])) by (apply from_list; [rewrite El; apply in_or_app; right; left; reflexivity|assumption]).
  apply (publish_all_last e R (ok_chunks _ _ _ OK) (ok_stamps _ _ _ OK)); auto.
  - apply items_src_ok. assumption.
  - apply root_seen. apply A3.
  - intros s' Hin. unfold list_items in Hin. apply in_map_iff in Hin as (g & E & Hg). injection E as _ E. apply app_inv_head in E. injection E as E.
    apply (NP g Hg). rewrite <- E. apply base_exists.
  - apply not_tmp_target; [assumption| |exists (resolve (cwd e) f); assumption]. intros a b Hab. apply IS. apply in_or_app. right. right. assumption.
  - apply (not_tmp_source _ _ (R ++ [n])); [|assumption]. intros a b Hab. apply IS. apply in_or_app. left. assumption.
  - apply (seen_file_outside t3); [apply A3|eapply source_out; exact Src|assumption].
Qed.

Lemma send_no_new_files : forall z q c, result (send e s t) = Ok z -> at_ (final (send e s t)) q = Some (EFile c) ->
  target e s t q \/ (at_ t q = Some (EFile c) /\ q <> K).
Proof.
  intros z q c H A. destruct (send_ok_inv z H) as (t2 & t3 & i & A2 & W2 & D2 & S2 & A3 & W3 & G2 & Dir & RL & FL & _). rewrite FL in A.
  destruct (publish_all_eff e R (ok_chunks _ _ _ OK) (ok_stamps _ _ _ OK) false _ i t3 (items_src_ok _ list_items_src) (root_seen t3 (proj1 A3))) as [_ P1].
  destruct (P1 RL q c A) as [B|(src & Hin)]; [|left; exists src; apply list_items_src; assumption].
  assert (C : target e s t q \/ at_ t2 q = Some (EFile c)).
  { destruct Dir as [[El Et]|(Nl & RD & FD)]; [right; congruence|].
    destruct (publish_all_eff e R (ok_chunks _ _ _ OK) (ok_stamps _ _ _ OK) true _ 0 t2 (items_src_ok _ (dir_items_src t2 (proj1 A2) W2 Nl)) (root_seen t2 (proj1 A2))) as [_ P2].
    rewrite FD in B. destruct (P2 RD q c B) as [B'|(src & Hin)]; [auto|]. left. exists src. apply (dir_items_src t2 (proj1 A2) W2 Nl). assumption. }
  destruct C as [C|C]; [auto|]. right. destruct prep_eff as (_ & _ & Aq & NK & _).
  assert (C1 : at_ (final (prep t)) q = Some (EFile c)) by (destruct (G2 q) as [E|(_ & E & _)]; congruence).
  destruct (list_eq_dec (list_eq_dec ascii_dec) q K) as [->|N]; [exfalso; eapply NK; exact C1|]. split; [rewrite <- (Aq q N); assumption|assumption].
Qed.

Lemma send_count : forall z l, result (send e s t) = Ok z -> (forall ld, local_directory s = Some ld -> ld <> [] -> file_list t (resolve (cwd e) ld) l /\ ~ In [] l) ->
  (ld_ = [] -> l = []) -> z = (2 * Z.of_nat (List.length l) + Z.of_nat (List.length (local_files s)))%Z.
Proof.
  intros z l H Hl Hn. destruct (send_ok_inv z H) as (t2 & t3 & i & A2 & W2 & D2 & S2 & A3 & W3 & G2 & Dir & RL & FL & ->).
  assert (E : List.length (rels t2) = List.length l).
  { destruct (list_eq_dec ascii_dec ld_ []) as [El|Nl].
    - rewrite (Hn El). unfold rels. destruct (list_eq_dec ascii_dec ld_ []); [reflexivity|contradiction].
    - destruct (Hl ld_ (ld_some Nl) Nl) as ((N1 & Q1) & N0). destruct (rels_spec t2 (proj1 A2) W2 Nl) as [N2 Q2].
      apply Nat.le_antisymm; (apply NoDup_incl_length; [assumption|]); intros x Hx.
      + apply Q1. apply Q2. assumption.
      + apply Q2. split; [intros ->; contradiction|]. apply Q1. assumption. }
  rewrite E. lia.
Qed.

(** Success. *)
Definition Fset (q : path) : Prop := target e s t q \/ temp q.
Definition Pset (q : path) : Prop := below q R \/ exists D, target e s t D /\ below q (removelast D).

Lemma send_succeeds : (forall f, In f (local_files s) -> exists c, at_ t (resolve (cwd e) f) = Some (EFile c)) ->
  (forall q, Fset q -> Pset q -> False) -> (forall q, Fset q -> at_ t q <> Some EDir) -> (forall q c, Pset q -> at_ t q <> Some (EFile c)) ->
  exists z, result (send e s t) = Ok z.
Proof.
  intros Hl FP HF HP. rewrite send_stages. destruct after_prep as [A1 W1]. destruct prep_eff as (R0 & _ & Q0 & NK & EK & _).
  destruct (bind_ok_run prep (fun _ => ensure R ;;; (n <- dir_stage ;; list_stage n)) t tt R0) as [-> _].
  set (t1 := final (prep t)) in *.
  assert (HF1 : forall q, Fset q -> at_ t1 q <> Some EDir).
  { intros q Hq. destruct (list_eq_dec (list_eq_dec ascii_dec) q K) as [->|N]; [|rewrite Q0 by assumption; auto]. destruct EK as [E|E]; rewrite E; [auto|discriminate]. }
  assert (HP1 : forall q c, Pset q -> at_ t1 q <> Some (EFile c)).
  { intros q c Hq. destruct (list_eq_dec (list_eq_dec ascii_dec) q K) as [->|N]; [apply NK|rewrite Q0 by assumption; auto]. }
  pose proof (root_seen t1 (proj1 A1)) as Rt1.
  assert (RE : result (ensure R t1) = Ok tt) by (apply ensure_ok; [assumption|apply R_names|]; intros q c B; apply HP1; left; assumption).
  destruct (bind_ok_run (ensure R) (fun _ => n <- dir_stage ;; list_stage n) t1 tt RE) as [-> _].
  destruct (ensure_stage _ A1 W1 _ (or_intror eq_refl)) as (A2 & W2 & _).
  destruct (ensure_eff R t1 Rt1 R_names) as [G2 D2]. destruct (G2 _ (or_intror eq_refl)) as [G2' _]. specialize (D2 _ RE).
  set (t2 := final (ensure R t1)) in *.
  assert (HF2 : forall q, Fset q -> at_ t2 q <> Some EDir).
  { intros q Hq. destruct (G2' q) as [E|(_ & _ & E)]; [rewrite E; auto|]. exfalso. apply (FP q Hq). left. assumption. }
  assert (HP2 : forall q c, Pset q -> at_ t2 q <> Some (EFile c)).
  { intros q c Hq. destruct (G2' q) as [E|(_ & E & _)]; [rewrite E; auto|congruence]. }
  assert (Items : forall items s', items_src items -> seen s' -> (forall src D, In (src, D) items -> exists c, at_ t src = Some (EFile c)) ->
     forall src D, In (src, D) items -> Fset D /\ (forall j, Fset (tmpP D (stamp e j))) /\ (forall q, below q (removelast D) -> Pset q) /\ exists c, at_ s' src = Some (EFile c)).
  { intros items s' IS Hs' Ex src D Hin. assert (TD : target e s t D) by (exists src; apply IS; assumption). repeat split.
    - left. assumption.
    - intro j. right. apply (items_tmp items); [assumption|]. exists src, D, j. auto.
    - intros q Hq. right. exists D. auto.
    - destruct (Ex src D Hin) as (c & Hc). exists c. apply (seen_file_outside s' src c Hs'); [|assumption]. eapply source_out. apply IS. exact Hin. }
  assert (DirOk : (ld_ <> [] -> result (publish_all e 0 true (dir_items L R (rels t2)) t2) = Ok tt) /\
                  (forall q, Fset q -> at_ (final (dir_stage t2)) q <> Some EDir) /\ (forall q c, Pset q -> at_ (final (dir_stage t2)) q <> Some (EFile c))).
  { destruct (list_eq_dec ascii_dec ld_ []) as [El|Nl].
    - rewrite (dir_stage_none El). repeat split; [contradiction|exact HF2|exact HP2].
    - pose proof (dir_items_src t2 (proj1 A2) W2 Nl) as IS.
      destruct (publish_all_ok e R (ok_stamps _ _ _ OK) true (dir_items L R (rels t2)) 0 t2 Fset Pset (items_src_ok _ IS) (root_seen t2 (proj1 A2))) as (P1 & P2 & P3); auto.
      + apply Items; [assumption|apply A2|]. intros src D Hin. unfold dir_items in Hin. apply in_map_iff in Hin as (rel & E & Hin). injection E as <- _.
        apply (rels_spec t2 (proj1 A2) W2 Nl) in Hin as [_ Hin]. assumption.
      + discriminate.
      + split; [auto|]. destruct (dir_stage_eff t2 A2 W2) as (_ & D3 & D4). destruct (D4 (fun _ => P1)) as (a & Ha). destruct (D3 a Ha) as (_ & _ & F2).
        destruct (F2 Nl) as [_ ->]. auto. }
  destruct DirOk as (DO & HF3 & HP3). destruct (dir_stage_eff t2 A2 W2) as (D1 & D3 & D4). destruct (D4 DO) as (n & Hn).
  destruct (bind_ok_run dir_stage list_stage t2 n Hn) as [-> _]. destruct (D1 _ (or_intror eq_refl)) as (A3 & W3 & S3).
  destruct (list_stage_eff n _ A3 W3) as (_ & _ & L3). apply L3.
  apply (publish_all_ok e R (ok_stamps _ _ _ OK) false _ (fst n) _ Fset Pset (items_src_ok _ list_items_src) (root_seen _ (proj1 A3))); auto.
  - apply Items; [apply list_items_src|apply A3|]. intros src D Hin. unfold list_items in Hin. apply in_map_iff in Hin as (f & E & Hin). injection E as <- _. auto.
  - intros _ src D Hin. unfold list_items in Hin. apply in_map_iff in Hin as (f & E & Hin). injection E as _ <-. rewrite removelast_last.
    assert (PR : Pset R) by (left; apply below_refl).
    destruct (S3 R) as [E|[(E & _)|(src' & c & Hs & _)]]; [|congruence|congruence|].
    + intro T. apply (FP R); [right; assumption|assumption].
    + exfalso. apply (FP R); [left; exists src'; assumption|assumption].
Qed.
End Send.
