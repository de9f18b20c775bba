(** Proofs about constructing senders. *)
From Coq Require Import ZArith String Ascii Bool List Lia.
From Verif Require Import PyBase PyStr FsModel SenderModel.
Import ListNotations.

(** The dictionary has the key. *)
Definition present (props : option (list (str * str))) (p : str) : Prop := exists d v, props = Some d /\ In (p, v) d.

Lemma has_key_spec : forall k (d : list (str * str)), has_key k d = true <-> exists v, In (k, v) d.
Proof.
  intros k d. unfold has_key. rewrite existsb_exists. split.
  - intros ([k' v] & H & E). cbn [fst] in E. destruct (str_eqb_spec k k') as [->|]; [eauto|discriminate].
  - intros (v & H). exists (k, v). split; [assumption|apply str_eqb_refl].
Qed.
Lemma present_key : forall k d, present (Some d) k <-> has_key k d = true.
Proof.
  intros k d. rewrite has_key_spec. split; [intros (d' & v & E & H)|intros (v & H); exists d, v; auto]. injection E as ->. eauto.
Qed.

Lemma check_required_none : forall req props, check_required req props = None <-> forall p, In p req -> present props p.
Proof.
  induction req as [|p req IH]; intros props; cbn [check_required]; [split; [intros _ x []|reflexivity]|]. destruct props as [d|].
  - destruct (has_key p d) eqn:E.
    + rewrite IH. split; [|intros H x Hx; apply H; right; assumption]. intros H x [<-|Hx]; [apply present_key; assumption|auto].
    + split; [discriminate|]. intro H. specialize (H p (or_introl eq_refl)). apply present_key in H. congruence.
  - split; [discriminate|]. intro H. destruct (H p (or_introl eq_refl)) as (d & v & E & _). discriminate.
Qed.
Lemma check_required_missing : forall req d p, check_required req (Some d) = Some (Missing p) <->
  exists pre post, req = pre ++ p :: post /\ (forall x, In x pre -> present (Some d) x) /\ ~ present (Some d) p.
Proof.
  induction req as [|q req IH]; intros d p; cbn [check_required].
  - split; [discriminate|]. intros (pre & post & E & _). destruct pre; discriminate.
  - destruct (has_key q d) eqn:E.
    + rewrite IH. split.
      * intros (pre & post & -> & H & N). exists (q :: pre), post. repeat split; auto. intros x [<-|Hx]; [apply present_key; assumption|auto].
      * intros (pre & post & Eq & H & N). destruct pre as [|x pre]; injection Eq as -> ->.
        -- exfalso. apply N. apply present_key. assumption.
        -- exists pre, post. repeat split; auto. intros y Hy. apply H. right. assumption.
    + split.
      * intro H. injection H as <-. exists [], req. repeat split; [intros x []|]. rewrite present_key. congruence.
      * intros (pre & post & Eq & H & N). destruct pre as [|x pre]; injection Eq as -> ->; [reflexivity|].
        specialize (H x (or_introl eq_refl)). apply present_key in H. congruence.
Qed.
Lemma check_required_shape : forall req d e, check_required req (Some d) = Some e -> exists p, e = Missing p.
Proof. induction req as [|q req IH]; intros d e H; cbn [check_required] in H; [discriminate|]. destruct (has_key q d); [eauto|injection H as <-; eauto]. Qed.
Lemma check_files_none : forall isfile l, check_files isfile l = None <-> forall f, In f l -> isfile f = true.
Proof.
  intros isfile. induction l as [|f l IH]; cbn [check_files]; [split; [intros _ x []|reflexivity]|]. destruct (isfile f) eqn:E.
  - rewrite IH. split; [|intros H x Hx; apply H; right; assumption]. intros H x [<-|Hx]; auto.
  - split; [discriminate|]. intro H. rewrite (H f (or_introl eq_refl)) in E. discriminate.
Qed.
Lemma check_files_some : forall isfile l f, check_files isfile l = Some (NoFile f) <->
  exists pre post, l = pre ++ f :: post /\ (forall x, In x pre -> isfile x = true) /\ isfile f = false.
Proof.
  intros isfile. induction l as [|g l IH]; intro f; cbn [check_files].
  - split; [discriminate|]. intros (pre & post & E & _). destruct pre; discriminate.
  - destruct (isfile g) eqn:E.
    + rewrite IH. split.
      * intros (pre & post & -> & H & N). exists (g :: pre), post. repeat split; auto. intros x [<-|Hx]; auto.
      * intros (pre & post & Eq & H & N). destruct pre as [|x pre]; injection Eq as -> ->; [congruence|].
        exists pre, post. repeat split; auto. intros y Hy. apply H. right. assumption.
    + split.
      * intro H. injection H as <-. exists [], l. repeat split; [intros x []|assumption].
      * intros (pre & post & Eq & H & N). destruct pre as [|x pre]; injection Eq as -> ->; [reflexivity|].
        rewrite (H x (or_introl eq_refl)) in E. discriminate.
Qed.
Lemma check_files_shape : forall isfile l e, check_files isfile l = Some e -> exists f, e = NoFile f.
Proof. intros isfile. induction l as [|q l IH]; intros e H; cbn [check_files] in H; [discriminate|]. destruct (isfile q); [eauto|injection H as <-; eauto]. Qed.

Lemma init_accepts : forall required isfile isdir props files dir cancelfile b,
  sender_init required isfile isdir props files dir cancelfile = inl b <->
  ((forall p, In p required -> present props p) /\
   match files with FilesNone => True | FilesList l => forall f, In f l -> isfile f = true | FilesOther => False end /\
   (forall d, dir = Some d -> isdir d = true)) /\
  b_props b = props /\ b_dir b = dir /\ b_cancel b = cancelfile /\
  match files with FilesList l => b_files b = l | _ => b_files b = [] end.
Proof.
  intros required isfile isdir props files dir cancelfile b. unfold sender_init. rewrite <- check_required_none.
  destruct (check_required required props) as [er|]; [split; [discriminate|intros [[H _] _]; discriminate]|].
  assert (F : (match files with FilesNone => None | FilesList l => check_files isfile l | FilesOther => Some NotAList end = None) <->
              match files with FilesNone => True | FilesList l => forall f, In f l -> isfile f = true | FilesOther => False end).
  { destruct files as [|l|]; [tauto|apply check_files_none|]. split; [discriminate|tauto]. }
  rewrite <- F. destruct (match files with FilesNone => None | FilesList l => check_files isfile l | FilesOther => Some NotAList end) as [er|]; [split; [discriminate|intros [(_ & H & _) _]; discriminate]|].
  assert (D : (match dir with None => None | Some d => if isdir d then None else Some UndefinedName end = None) <-> (forall d, dir = Some d -> isdir d = true)).
  { destruct dir as [d|]; [|split; [discriminate|reflexivity]]. destruct (isdir d) eqn:E.
    - split; [|reflexivity]. intros _ x H. injection H as <-. assumption.
    - split; [discriminate|]. intro H. rewrite (H d eq_refl) in E. discriminate. }
  rewrite <- D. destruct (match dir with None => None | Some d => if isdir d then None else Some UndefinedName end) as [er|]; [split; [discriminate|intros [(_ & _ & H) _]; discriminate]|].
  destruct b as [bp bf bd bc]. cbn [b_props b_dir b_cancel b_files]. split.
  - intro H. injection H as <- <- <- <-. destruct files; auto 8.
  - intros (_ & -> & -> & -> & H). destruct files; rewrite H; reflexivity.
Qed.
Lemma init_missing : forall required isfile isdir d files dir cancelfile p,
  sender_init required isfile isdir (Some d) files dir cancelfile = inr (Missing p) <->
  exists pre post, required = pre ++ p :: post /\ (forall x, In x pre -> present (Some d) x) /\ ~ present (Some d) p.
Proof.
  intros required isfile isdir d files dir cancelfile p. rewrite <- check_required_missing. unfold sender_init.
  destruct (check_required required (Some d)) as [er|]; [split; congruence|]. split; [|discriminate].
  destruct files as [|l|]; [| |discriminate].
  - destruct dir as [d'|]; [destruct (isdir d')|]; discriminate.
  - destruct (check_files isfile l) as [er|] eqn:E; [apply check_files_shape in E as (f & ->); discriminate|].
    destruct dir as [d'|]; [destruct (isdir d')|]; discriminate.
Qed.
Lemma init_none : forall required isfile isdir files dir cancelfile,
  required <> [] -> sender_init required isfile isdir None files dir cancelfile = inr NoneNotIterable.
Proof. intros [|p r]; intros; [congruence|reflexivity]. Qed.
Lemma init_not_list : forall required isfile isdir props dir cancelfile,
  (forall p, In p required -> present props p) ->
  sender_init required isfile isdir props FilesOther dir cancelfile = inr NotAList.
Proof. intros. unfold sender_init. rewrite (proj2 (check_required_none required props) H). reflexivity. Qed.
Lemma init_missing_file : forall required isfile isdir props l dir cancelfile f,
  (forall p, In p required -> present props p) ->
  (sender_init required isfile isdir props (FilesList l) dir cancelfile = inr (NoFile f) <->
   exists pre post, l = pre ++ f :: post /\ (forall x, In x pre -> isfile x = true) /\ isfile f = false).
Proof.
  intros required isfile isdir props l dir cancelfile f H. rewrite <- check_files_some. unfold sender_init. rewrite (proj2 (check_required_none required props) H).
  destruct (check_files isfile l) as [er|]; [split; congruence|]. split; [|discriminate]. destruct dir as [d'|]; [destruct (isdir d')|]; discriminate.
Qed.
Lemma init_missing_dir : forall required isfile isdir props files d cancelfile,
  (forall p, In p required -> present props p) ->
  match files with FilesNone => True | FilesList l => forall f, In f l -> isfile f = true | FilesOther => False end ->
  isdir d = false -> sender_init required isfile isdir props files (Some d) cancelfile = inr UndefinedName.
Proof.
  intros required isfile isdir props files d cancelfile H F D. unfold sender_init. rewrite (proj2 (check_required_none required props) H).
  destruct files as [|l|]; [rewrite D; reflexivity| |contradiction]. rewrite (proj2 (check_files_none isfile l) F), D. reflexivity.
Qed.

Lemma dict_set_keys : forall k v d x y, In (x, y) d -> exists y', In (x, y') (dict_set k v d).
Proof.
  induction d as [|[k' v'] d IH]; intros x y H; [destruct H|]. cbn [dict_set]. destruct (str_eqb_spec k k') as [<-|].
  - destruct H as [H|H]; [injection H as <- <-; exists v; left; reflexivity|exists y; right; assumption].
  - destruct H as [H|H]; [exists y; left; assumption|]. destruct (IH x y H) as (y' & H'). exists y'. right. assumption.
Qed.
Lemma edit_keeps : forall isdir o b, let b' := fst (apply_edit isdir o b) in
  (forall p, present (b_props b) p -> present (b_props b') p) /\ b_files b' = b_files b /\
  (b_dir b' = b_dir b \/ exists d, o = ChangeDirectory d /\ isdir d = true /\ b_dir b' = Some d).
Proof.
  intros isdir o b. destruct o as [k v|l|d]; unfold apply_edit; cbv zeta.
  - unfold add_property. destruct (b_props b) as [d|] eqn:E.
    + cbn. split; [|split; [reflexivity|left; reflexivity]].
      intros p (d' & y & Ed & H). injection Ed as <-. destruct (dict_set_keys k v d p y H) as (y' & H'). exists (dict_set k v d), y'. auto.
    + cbn. rewrite ?E. auto.
  - auto.
  - unfold change_directory. destruct (isdir d) eqn:E; cbn; [|auto]. repeat split; auto. right. eauto.
Qed.
Lemma edits_keep : forall required isfile isdir props files dir cancelfile b l,
  sender_init required isfile isdir props files dir cancelfile = inl b ->
  let b' := edits l b in
  (forall p, In p required -> present (b_props b') p) /\ b_files b' = b_files b /\
  (b_dir b' = dir \/ exists isdir' d, In (isdir', ChangeDirectory d) l /\ isdir' d = true /\ b_dir b' = Some d).
Proof.
  intros required isfile isdir props files dir cancelfile b l H. apply init_accepts in H as ((P & _) & E1 & E2 & _).
  assert (G : forall l b0, let b' := edits l b0 in (forall p, present (b_props b0) p -> present (b_props b') p) /\ b_files b' = b_files b0 /\
     (b_dir b' = b_dir b0 \/ exists isdir' d, In (isdir', ChangeDirectory d) l /\ isdir' d = true /\ b_dir b' = Some d)).
  { clear. induction l as [|[isd o] l IH]; intro b0; cbn [edits]; [auto|]. destruct (edit_keeps isd o b0) as (K1 & K2 & K3).
    destruct (IH (fst (apply_edit isd o b0))) as (I1 & I2 & I3). split; [auto|]. split; [congruence|].
    destruct I3 as [I3|(i' & d & Hin & Hd & I3)]; [|right; exists i', d; split; [right; assumption|auto]].
    destruct K3 as [K3|(d & -> & Hd & K3)]; [left; congruence|]. right. exists isd, d. split; [left; reflexivity|]. split; [assumption|congruence]. }
  destruct (G l b) as (G1 & G2 & G3). split; [intros p Hp; apply G1; rewrite E1; auto|]. split; [assumption|]. rewrite E2 in G3. assumption.
Qed.

Lemma factory_names : forall s k, get_sender_class s = Ok k <->
  In (s, k) [(str_of "copy", KCopy); (str_of "ftp", KFtp); (str_of "pdl", KPdl); (str_of "email", KEmail); (str_of "ssh", KSsh)].
Proof.
  intros s k. unfold get_sender_class. split.
  - repeat match goal with |- context [str_eqb s ?x] => destruct (str_eqb_spec s x) as [->|] end;
      intro H; try discriminate H; injection H as <-; cbn [In]; auto 8.
  - cbn [In]. intros H. repeat (destruct H as [H|H]; [injection H as <- <-; vm_compute; reflexivity|]). destruct H.
Qed.
Lemma factory_other : forall s, (forall k, get_sender_class s <> Ok k) <-> get_sender_class s = Err KeyError.
Proof.
  intro s. unfold get_sender_class. repeat match goal with |- context [str_eqb s ?x] => destruct (str_eqb s x) end;
    split; intro H; try discriminate H; try reflexivity; try (intros; discriminate); exfalso; eapply H; reflexivity.
Qed.
