(** Histories of send and cancel. *)
From Coq Require Import ZArith String Ascii Bool List Lia.
From Verif Require Import PyBase PyStr FsModel FsSpec FsProofs PathProofs CopyModel CopySpec CopyProofs CopyStepProofs CopySendProofs.
Import ListNotations.

Lemma cancel_eff : forall e s c t, fname_ok (cancelfile s) -> let m := cancel e s c t in
  (result m = Ok tt -> same_but (cancel_path e s) t (final m) /\ at_ (final m) (cancel_path e s) = Some (EFile (match c with Some x => x | None => [] end))) /\
  (forall er, result m = Err er -> final m = t) /\ (wf t -> wf (final m)).
Proof.
  intros e s c t G m. subst m. set (K := cancel_path e s).
  assert (EK : K = resolve (cwd e) (remote_directory s) ++ [cancelfile s]) by (apply resolve_join_good; assumption).
  assert (GK : fname_ok (last K [])) by (rewrite EK, last_last; assumption).
  assert (NK : K <> []) by (rewrite EK; destruct (resolve (cwd e) (remote_directory s)); discriminate).
  unfold cancel. fold K. destruct (open_write_eff K t) as (O1 & O2 & O3 & O4). specialize (O4 GK).
  destruct (result (open_write K t)) as [[]|er] eqn:RO.
  - destruct (O1 eq_refl) as (S1 & A1 & _).
    destruct (bind_ok_run (open_write K) (fun _ => match c with Some x => append_file K x | None => aret tt end) t tt RO) as [-> ->].
    destruct c as [x|].
    + destruct (append_eff K x _ [] NK A1) as (R2 & S2 & A2 & _ & W2). split; [|split].
      * intros _. split; [eapply same_but_trans; eassumption|exact A2].
      * intros er H. congruence.
      * intro W. apply W2; [|assumption|right; reflexivity]. apply O4; [right; reflexivity|assumption].
    + split; [|split].
      * intros _. split; [exact S1|exact A1].
      * intros er H. discriminate.
      * intro W. apply O4; [right; reflexivity|assumption].
  - destruct (bind_err (open_write K) (fun _ => match c with Some x => append_file K x | None => aret tt end) t er RO) as [-> ->].
    rewrite (O2 er eq_refl). split; [discriminate|auto].
Qed.

(** Outside the remote directory the same files are found. *)
Definition same_out (R : path) (t t' : fsn) : Prop := forall q c, ~ below R q -> (at_ t' q = Some (EFile c) <-> at_ t q = Some (EFile c)).

Lemma setting_transfer : forall e s t t', setting_ok e s t -> wf t' -> at_ t' [] = Some EDir -> same_out (resolve (cwd e) (remote_directory s)) t t' -> setting_ok e s t'.
Proof.
  intros e s t t' H W Rt SO. constructor; try apply H; auto.
  intros ld rel c E N A. destruct (ok_directory _ _ _ H ld E N) as (_ & N1 & N2). apply (ok_once _ _ _ H ld rel c E N). apply SO; [|assumption].
  intro B. destruct (below_linear _ _ _ B (below_app (resolve (cwd e) ld) rel)); contradiction.
Qed.
Lemma target_transfer : forall e s t t' D, setting_ok e s t -> same_out (resolve (cwd e) (remote_directory s)) t t' -> target e s t' D -> target e s t D.
Proof.
  intros e s t t' D H SO (src & Hs). inversion Hs; subst.
  - exists (resolve (cwd e) ld ++ rel). eapply from_directory; eauto. apply SO; [|eassumption].
    destruct (ok_directory _ _ _ H ld H0 H1) as (_ & N1 & N2).
    intro B. destruct (below_linear _ _ _ B (below_app (resolve (cwd e) ld) rel)); contradiction.
  - exists (resolve (cwd e) f). eapply from_list; eauto.
Qed.
Lemma same_out_trans : forall R a b c, same_out R a b -> same_out R b c -> same_out R a c.
Proof. intros R a b c H1 H2 q x N. rewrite (H2 q x N). apply H1. assumption. Qed.

Lemma call_eff : forall e s o t, setting_ok e s t -> ~ target e s t (cancel_path e s) -> ~ temp e s t (cancel_path e s) ->
  let R := resolve (cwd e) (remote_directory s) in let K := cancel_path e s in
  let t' := snd (call e s o t) in
  wf t' /\ at_ t' [] = Some EDir /\ same_out R t t' /\
  (forall m, (forall c, at_ t K = Some (EFile c) <-> m = Some c) -> forall c, at_ t' K = Some (EFile c) <-> marker m [(o, fst (call e s o t))] = Some c).
Proof.
  intros e s o t OK NT Nt R K t'. destruct o as [|content].
  - unfold call in t'. cbn [call fst snd] in *. pose proof (send_final e s t OK) as F. destruct (send_states e s t OK (final (send e s t)) (or_intror eq_refl)) as [F' W].
    fold t' in F, F', W. split; [assumption|]. split; [eapply root_seen; eassumption|]. split.
    + intros q c N. apply (seen_file_outside e s t OK t' q c F' N).
    + intros m _ c. cbn [marker]. split; [|discriminate]. intro A. exfalso. destruct F as [_ F]. eapply F; eassumption.
  - unfold call in *. cbn [fst snd] in *. destruct (cancel_eff e s content t (ok_cancelfile _ _ _ OK)) as (C1 & C2 & C3). fold K in C1.
    assert (W : wf t') by (apply C3; apply OK).
    destruct (result (cancel e s content t)) as [[]|er] eqn:RC.
    + destruct (C1 eq_refl) as [S1 A1]. fold t' in S1, A1. split; [assumption|]. split; [|split].
      * rewrite S1; [apply OK|]. unfold K. rewrite K_eq with (t := t) by assumption. intro E. symmetry in E. apply app_eq_nil in E as [_ E]. discriminate.
      * intros q c N. rewrite S1; [tauto|]. intros ->. apply N. apply (K_below e s t OK).
      * intros m _ c. rewrite A1. destruct content; cbn; split; intro X; injection X as <-; reflexivity.
    + assert (Et : t' = t) by (apply (C2 er eq_refl)). rewrite Et in *. split; [assumption|]. split; [apply OK|]. split; [intros q c N; tauto|].
      intros m Hm c. rewrite Hm. destruct content; cbn; tauto.
Qed.

Lemma marker_cons : forall m o b h, marker m ((o, b) :: h) = marker (marker m [(o, b)]) h.
Proof. intros m [|[c|]] [|] h; reflexivity. Qed.

Lemma cancel_path_cwd : forall e e' s, cwd e = cwd e' -> cancel_path e s = cancel_path e' s.
Proof. intros e e' s H. unfold cancel_path. rewrite H. reflexivity. Qed.

Lemma history_marker : forall s ops t (w : path),
  (forall e o, In (e, o) ops -> cwd e = w /\ setting_ok e s t /\ ~ target e s t (cancel_path e s) /\ ~ temp e s t (cancel_path e s)) ->
  forall m K, (forall e o, In (e, o) ops -> K = cancel_path e s) -> (forall c, at_ t K = Some (EFile c) <-> m = Some c) ->
  forall c, at_ (snd (history s ops t)) K = Some (EFile c) <-> marker m (fst (history s ops t)) = Some c.
Proof.
  intros s. induction ops as [|[e o] ops IH]; intros t w H m K HK Hm c; [cbn; apply Hm|]. cbn [history].
  destruct (H e o (or_introl eq_refl)) as (Ew & OK & NT & Nt). pose proof (HK e o (or_introl eq_refl)) as EK.
  pose proof (call_eff e s o t OK NT Nt) as C. cbv zeta in C. destruct (call e s o t) as [ok t1] eqn:Ec. cbn [fst snd] in C. destruct C as (W1 & Rt1 & SO & MK).
  assert (IH' := IH t1 w). destruct (history s ops t1) as [h t2] eqn:Eh. cbn [fst snd] in *. rewrite marker_cons. apply IH'.
  - intros e' o' Hin. destruct (H e' o' (or_intror Hin)) as (Ew' & OK' & NT' & Nt').
    assert (SO' : same_out (resolve (cwd e') (remote_directory s)) t t1) by (rewrite Ew', <- Ew; assumption).
    assert (OK1 : setting_ok e' s t1) by (eapply setting_transfer; eassumption).
    split; [assumption|]. split; [assumption|]. split.
    + intro T. apply NT'. apply (target_transfer e' s t t1 _ OK' SO' T).
    + intros (D & HD & T). apply Nt'. exists D. split; [|assumption]. apply (target_transfer e' s t t1 _ OK' SO' HD).
  - intros e' o' Hin. apply (HK e' o'). right. assumption.
  - rewrite EK. apply MK. rewrite <- EK. exact Hm.
Qed.
