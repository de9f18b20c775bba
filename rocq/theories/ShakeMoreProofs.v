(** Consequences of the refinement for the ShakeMap output container. *)
From Coq Require Import ZArith FinFun String Ascii Bool List Lia.
From Verif Require Import PyBase HdfModel HdfSpec HdfProofs HdfBaseProofs ShakeSpec ShakeProofs.
Import ListNotations.
Open Scope Z_scope.

Lemma sreached_rel : forall t, sreached t -> exists s, SRel t s.
Proof.
  intros t (ops & G & ->). exists (snd (smspec_run ops fresh)). apply smrun_refines; [apply srel_empty|assumption].
Qed.

Lemma smrun_app : forall l l' t, snd (run smstep (l ++ l') t) = snd (run smstep l' (snd (run smstep l t))).
Proof.
  induction l as [|x l IH]; intros l' t; cbn [app run]; [reflexivity|].
  destruct (smstep x t) as [r t1]. specialize (IH l' t1). destruct (run smstep (l ++ l') t1), (run smstep l t1). exact IH.
Qed.
Lemma spec_app : forall l l' s, snd (smspec_run (l ++ l') s) = snd (smspec_run l' (snd (smspec_run l s))).
Proof.
  induction l as [|x l IH]; intros l' s; cbn [app smspec_run]; [reflexivity|].
  destruct (smspec x s) as [r s1]. specialize (IH l' s1). destruct (smspec_run (l ++ l') s1), (smspec_run l s1). exact IH.
Qed.

Lemma smagree_err : forall r e, smagree r (Err e) -> r = Err e.
Proof. intros [o|e'] e H; simpl in H; [destruct o; contradiction|congruence]. Qed.
Lemma smagree_unit : forall r, smagree r (Ok TUnit) <-> r = Ok SUnit.
Proof. intros [[]|]; simpl; split; intro H; try contradiction; try discriminate; auto. Qed.
Lemma smagree_val : forall r v, smagree r (Ok (TVal v)) <-> r = Ok (SVal v).
Proof. intros [[]|] w; simpl; split; intro H; try contradiction; try discriminate; congruence. Qed.

(** ** The data type *)
Lemma type_result : forall t s, SRel t s -> fst (smstep SmGetType t) = Ok (SType (option_map dtype_name (typ s))).
Proof. intros t s R. cbn [smstep]. unfold bnd. rewrite (get_type_ok t s R). reflexivity. Qed.

Lemma type_is : forall t s d, SRel t s -> fst (smstep SmGetType t) = Ok (SType (Some (dtype_name d))) -> typ s = Some d.
Proof.
  intros t s d R H. rewrite (type_result t s R) in H. injection H as H. destruct (typ s) as [[]|], d; try discriminate; reflexivity.
Qed.

Lemma put_type : forall c i f a m z s, typ (snd (put c i f a m z s)) = typ s.
Proof.
  intros. unfold put. destruct (dset s c i f); [reflexivity|]. destruct (enc_arr a z); [|reflexivity].
  destruct (meta_written m []). reflexivity.
Qed.
Lemma andthen_type : forall r k, (forall s, typ (snd (k s)) = typ s) -> typ (snd (andthen r k)) = typ (snd r).
Proof. intros [[u|e] s] k H; cbn [andthen snd]; auto. Qed.

Ltac type_through := repeat (rewrite andthen_type by (intros; apply put_type)); rewrite put_type.

Lemma spec_type : forall o s d, typ s = Some d -> typ (snd (smspec o s)) = Some d.
Proof.
  intros o s d H.
  assert (Hr : forall x v, typ (snd (unit_res (replace x v s))) = Some d) by (intros; unfold replace; destruct (json_norm v); exact H).
  assert (Ho : forall d', other_type d' s = false -> d' = d) by (intros d' E; unfold other_type in E; rewrite H in E; destruct d', d; try discriminate; reflexivity).
  destruct o; cbn [smspec]; try exact H; try apply Hr.
  - destruct (is_dict v); [apply Hr|exact H].
  - destruct (is_dict v); [apply Hr|exact H].
  - destruct (str_eqb s0 _); [destruct (other_type Points s) eqn:E; [exact H|cbn; f_equal; auto]|].
    destruct (str_eqb s0 _); [destruct (other_type Grid s) eqn:E; [exact H|cbn; f_equal; auto]|exact H].
  - destruct (other_type Grid s) eqn:E; [exact H|]. unfold unit_res. cbn [snd]. type_through. cbn. f_equal. auto.
  - rewrite H. destruct d; exact H.
  - destruct (other_type Points s) eqn:E; [exact H|]. destruct (_ && _); unfold unit_res; cbn [snd].
    + type_through. cbn. f_equal. auto.
    + cbn. f_equal. auto.
  - rewrite H. destruct d; exact H.
  - destruct (negb _); [exact H|]. destruct (comp s component); exact H.
  - destruct (has_imt_data s); exact H.
Qed.

Lemma spec_run_type : forall ops s d, typ s = Some d -> typ (snd (smspec_run ops s)) = Some d.
Proof.
  induction ops as [|o ops IH]; intros s d H; cbn [smspec_run]; [exact H|].
  pose proof (spec_type o s d H) as H1. destruct (smspec o s) as [r s1]. specialize (IH s1 d H1).
  destruct (smspec_run ops s1). exact IH.
Qed.

Lemma type_stable : forall t ops d, sreached t -> Forall smgood ops ->
  fst (smstep SmGetType t) = Ok (SType (Some d)) ->
  fst (smstep SmGetType (snd (run smstep ops t))) = Ok (SType (Some d)).
Proof.
  intros t ops d Hr G H. destruct (sreached_rel t Hr) as (s & R).
  destruct (smrun_refines ops t s R G) as [_ R']. rewrite (type_result t s R) in H.
  destruct (typ s) as [d0|] eqn:Ed; [|discriminate]. rewrite (type_result _ _ R').
  rewrite (spec_run_type ops s d0 Ed). exact H.
Qed.

Lemma type_values : forall t, sreached t -> exists d, fst (smstep SmGetType t) = Ok (SType (option_map dtype_name d)).
Proof. intros t Hr. destruct (sreached_rel t Hr) as (s & R). exists (typ s). apply type_result. assumption. Qed.

Lemma refused : forall t, sreached t ->
  (fst (smstep SmGetType t) = Ok (SType (Some (dtype_name Points))) ->
     forall i m mm d dm c z, smstep (SmSetGrids i m mm d dm c z) t = (Err TypeError, t) /\
       smstep (SmGetGrids i c) t = (Err TypeError, t) /\ smstep (SmSetType (dtype_name Grid)) t = (Err TypeError, t)) /\
  (fst (smstep SmGetType t) = Ok (SType (Some (dtype_name Grid))) ->
     forall i lo la id m mm d dm c z, smstep (SmSetArrays i lo la id m mm d dm c z) t = (Err TypeError, t) /\
       smstep (SmGetArrays i c) t = (Err TypeError, t) /\ smstep (SmSetType (dtype_name Points)) t = (Err TypeError, t)).
Proof.
  intros t Hr. destruct (sreached_rel t Hr) as (s & R). pose proof (get_type_ok t s R) as Ht.
  split; intros H; pose proof (type_is t s _ R H) as Ed; rewrite Ed in Ht; cbn [option_map] in Ht.
  - intros. repeat split; cbn [smstep]; unfold set_imt_grids, get_imt_grids, set_data_type, bnd; cbn -[get_data_type]; rewrite Ht; reflexivity.
  - intros. repeat split; cbn [smstep]; unfold set_imt_arrays, get_imt_arrays, set_data_type, bnd; cbn -[get_data_type]; rewrite Ht; reflexivity.
Qed.

(** Coordinates exist only in a points file; any data only in a typed file. *)
Definition consistent (s : sm) : Prop :=
  forall c i f v, dset s c i f = Some v ->
    match typ s with
    | Some Points => True
    | Some Grid => f = FMean \/ f = FStd
    | None => False
    end.

Lemma put_dset : forall c i f a m z s c' i' f' v, dset (snd (put c i f a m z s)) c' i' f' = Some v ->
  dset s c' i' f' = Some v \/ f' = f.
Proof.
  intros c i f a m z s c' i' f' v. unfold put. destruct (dset s c i f); [cbn; auto|]. destruct (enc_arr a z); [|cbn; auto].
  destruct (meta_written m []). cbn [snd with_dset dset with_imt].
  destruct (str_eqb c c' && str_eqb i i' && field_eqb f f') eqn:E; [|auto].
  intros _. right. apply andb_true_iff in E as [_ E]. destruct (field_eqb_spec f f'); [congruence|discriminate].
Qed.

Lemma put_consistent : forall c i f a m z s, consistent s ->
  match typ s with Some Points => True | Some Grid => f = FMean \/ f = FStd | None => False end ->
  consistent (snd (put c i f a m z s)).
Proof.
  intros c i f a m z s H Hf c' i' f' v Hv. rewrite put_type. apply put_dset in Hv as [Hv| ->]; [apply (H _ _ _ _ Hv)|assumption].
Qed.

Lemma andthen_inv : forall (P : sm -> Prop) r k, P (snd r) -> (forall s, P s -> P (snd (k s))) -> P (snd (andthen r k)).
Proof. intros P [[u|e] s] k H Hk; cbn [andthen snd] in *; auto. Qed.

Lemma with_type_consistent : forall d s, consistent s -> other_type d s = false -> consistent (with_type d s).
Proof.
  intros d s H E c i f v Hv. specialize (H c i f v Hv). cbn [typ with_type]. unfold other_type in E.
  destruct (typ s) as [d'|]; [|contradiction]. destruct d, d'; try discriminate; assumption.
Qed.

Lemma put_step : forall c i f a m z d s, consistent s /\ typ s = Some d ->
  match d with Points => True | Grid => f = FMean \/ f = FStd end ->
  consistent (snd (put c i f a m z s)) /\ typ (snd (put c i f a m z s)) = Some d.
Proof.
  intros c i f a m z d s [H Ht] Hd. split; [|rewrite put_type; assumption].
  apply put_consistent; [assumption|]. rewrite Ht. exact Hd.
Qed.

Lemma spec_consistent : forall o s, consistent s -> consistent (snd (smspec o s)).
Proof.
  intros o s H.
  assert (Hr : forall x v, consistent (snd (unit_res (replace x v s)))) by (intros; unfold replace; destruct (json_norm v); exact H).
  destruct o; cbn [smspec]; try exact H; try apply Hr.
  - destruct (is_dict v); [apply Hr|exact H].
  - destruct (is_dict v); [apply Hr|exact H].
  - destruct (str_eqb s0 _); [destruct (other_type Points s) eqn:E; [exact H|apply with_type_consistent; assumption]|].
    destruct (str_eqb s0 _); [destruct (other_type Grid s) eqn:E; [exact H|apply with_type_consistent; assumption]|exact H].
  - destruct (other_type Grid s) eqn:E; [exact H|]. unfold unit_res. cbn [snd].
    apply (andthen_inv (fun s => consistent s /\ typ s = Some Grid)).
    + apply put_step; [split; [apply with_type_consistent; assumption|reflexivity]|auto].
    + intros s' H'. apply put_step; auto.
  - destruct (typ s) as [[]|]; exact H.
  - destruct (other_type Points s) eqn:E; [exact H|]. destruct (_ && _); [|apply with_type_consistent; assumption].
    unfold unit_res. cbn [snd].
    repeat (apply (andthen_inv (fun s => consistent s /\ typ s = Some Points)); [|intros s' H'; apply put_step; [exact H'|exact I]]).
    apply put_step; [split; [apply with_type_consistent; assumption|reflexivity]|exact I].
  - destruct (typ s) as [[]|]; exact H.
  - destruct (negb _); [exact H|]. destruct (comp s component); exact H.
  - destruct (has_imt_data s); [|exact H]. intros c i f v Hv. cbn [snd without_imt dset typ] in *.
    destruct (str_eqb imt i); [discriminate|]. apply (H _ _ _ _ Hv).
Qed.

Lemma spec_run_consistent : forall ops s, consistent s -> consistent (snd (smspec_run ops s)).
Proof.
  induction ops as [|o ops IH]; intros s H; cbn [smspec_run]; [exact H|].
  pose proof (spec_consistent o s H) as H1. destruct (smspec o s) as [r s1]. specialize (IH s1 H1).
  destruct (smspec_run ops s1). exact IH.
Qed.
Lemma fresh_consistent : consistent fresh. Proof. intros c i f v H. discriminate. Qed.

Lemma sreached_consistent : forall t, sreached t -> exists s, SRel t s /\ consistent s.
Proof.
  intros t (ops & G & ->). exists (snd (smspec_run ops fresh)). split; [apply smrun_refines; [apply srel_empty|assumption]|].
  apply spec_run_consistent. apply fresh_consistent.
Qed.

Lemma never_both : forall t i c v, sreached t -> good_name i -> good_name c ->
  (In v [str_of "lons"; str_of "lats"; str_of "ids"] ->
   forall x, fst (hb_get KArray [imts; c; i] v t) = Ok x -> fst (smstep SmGetType t) = Ok (SType (Some (dtype_name Points)))) /\
  (In v [str_of "mean"; str_of "std"] ->
   forall x, fst (hb_get KArray [imts; c; i] v t) = Ok x -> exists d, fst (smstep SmGetType t) = Ok (SType (Some (dtype_name d)))).
Proof.
  intros t i c v Hr Hi Hc. destruct (sreached_consistent t Hr) as (s & R & C).
  assert (Hf : forall f x, fst (hb_get KArray [imts; c; i] (fname f) t) = Ok x ->
     match typ s with Some Points => True | Some Grid => f = FMean \/ f = FStd | None => False end).
  { intros f x H. rewrite (read_refines t s c i f R Hc Hi) in H. cbn [fst] in H. unfold read in H.
    destruct (dset s c i f) as [y|] eqn:Ed; [|discriminate]. apply (C _ _ _ _ Ed). }
  rewrite (type_result t s R). split; intros Hv x Hx.
  - assert (exists f, v = fname f /\ f <> FMean /\ f <> FStd) as (f & -> & H1 & H2).
    { destruct Hv as [<-|[<-|[<-|[]]]]; [exists FLons|exists FLats|exists FIds]; repeat split; discriminate. }
    specialize (Hf f x Hx). destruct (typ s) as [[]|]; [reflexivity| |contradiction]. destruct Hf; contradiction.
  - assert (exists f, v = fname f) as (f & ->).
    { destruct Hv as [<-|[<-|[]]]; [exists FMean|exists FStd]; reflexivity. }
    specialize (Hf f x Hx). destruct (typ s) as [d|]; [exists d; reflexivity|contradiction].
Qed.

(** ** Bookkeeping *)
Lemma imts_components_inverse : forall t c i l1 l2, sreached t -> good_name c -> good_name i ->
  fst (smstep (SmIMTs c) t) = Ok (SNames l1) -> fst (smstep (SmComponents i) t) = Ok (SNames l2) ->
  (In i l1 <-> In c l2).
Proof.
  intros t c i l1 l2 Hr Hc Hi H1 H2. destruct (sreached_rel t Hr) as (s & R).
  destruct (smstep_refines (SmIMTs c) t s R Hc) as (r1 & t1 & E1 & A1 & _).
  destruct (smstep_refines (SmComponents i) t s R Hi) as (r2 & t2 & E2 & A2 & _).
  rewrite E1 in H1. rewrite E2 in H2. cbn [fst] in H1, H2. subst r1 r2. cbn [smspec fst] in A1, A2.
  destruct A2 as [_ A2]. rewrite A2. destruct (has_imt_data s) eqn:Eh; cbn [negb] in A1.
  - destruct (comp s c) eqn:Ec; [|destruct A1]. destruct A1 as [_ A1]. apply A1.
  - destruct A1 as [_ A1]. rewrite A1. split; [discriminate|]. intro Hk. destruct (known_comp t s c i R Hk). congruence.
Qed.

Lemma components_total : forall t i, sreached t -> good_name i -> exists l, fst (smstep (SmComponents i) t) = Ok (SNames l) /\ NoDup l.
Proof.
  intros t i Hr Hi. destruct (sreached_rel t Hr) as (s & R). destruct (get_components_ok t s i R Hi) as (l & E & N & _).
  exists l. cbn [smstep]. unfold bnd. rewrite E. auto.
Qed.

Lemma pairs_agree : forall t, sreached t -> exists ps,
  fst (smstep SmAllIMTs t) = Ok (SNames (map (fun p => fst p ++ slash :: snd p) ps)) /\ NoDup ps /\
  (forall c i l, good_name i -> fst (smstep (SmComponents i) t) = Ok (SNames l) -> (In (c, i) ps <-> In c l)).
Proof.
  intros t Hr. destruct (sreached_rel t Hr) as (s & R). destruct (get_all_imts_ok t s R) as (ps & E & N & H).
  exists ps. split; [cbn [smstep]; unfold bnd; rewrite E; reflexivity|]. split; [assumption|].
  intros c i l Hi Hl. destruct (get_components_ok t s i R Hi) as (l' & E' & _ & H'). cbn [smstep] in Hl. unfold bnd in Hl.
  rewrite E' in Hl. injection Hl as <-. rewrite H, H'. reflexivity.
Qed.

(** Stored data is listed. *)
Lemma stored_listed : forall t c i l, sreached t -> good_name c -> good_name i ->
  (is_ok (fst (smstep (SmGetGrids i c) t)) = true \/ is_ok (fst (smstep (SmGetArrays i c) t)) = true) ->
  fst (smstep (SmComponents i) t) = Ok (SNames l) -> In c l.
Proof.
  intros t c i l Hr Hc Hi H Hl. destruct (sreached_rel t Hr) as (s & R).
  assert (Hd : exists x, dset s c i FMean = Some x).
  { destruct H as [H|H].
    - destruct (smstep_refines (SmGetGrids i c) t s R (conj Hi Hc)) as (r & t1 & E & A & _). rewrite E in H. cbn [fst] in H.
      destruct r as [x|]; [|discriminate]. cbn [smspec] in A. destruct (typ s) as [[]|]; cbn [fst] in A; try (destruct x; contradiction).
      unfold read in A. destruct (dset s c i FMean); [eauto|]. simpl in A. destruct x; contradiction.
    - destruct (smstep_refines (SmGetArrays i c) t s R (conj Hi Hc)) as (r & t1 & E & A & _). rewrite E in H. cbn [fst] in H.
      destruct r as [x|]; [|discriminate]. cbn [smspec] in A. destruct (typ s) as [[]|]; cbn [fst] in A; try (destruct x; contradiction).
      unfold read in A. destruct (dset s c i FLons); [|simpl in A; destruct x; contradiction].
      destruct (dset s c i FLats); [|simpl in A; destruct x; contradiction].
      destruct (dset s c i FIds); [|simpl in A; destruct x; contradiction].
      destruct (dset s c i FMean); [eauto|]. simpl in A. destruct x; contradiction. }
  destruct Hd as ([v a] & Hd). pose proof (sr_dset _ _ R c i FMean) as Hv. rewrite Hd in Hv. cbn [leaf_of option_map] in Hv.
  change [aN; imts; c; i; fname FMean] with ([aN; imts; c; i] ++ fname FMean :: []) in Hv. apply view_below in Hv.
  rewrite (sr_known _ _ R) in Hv. destruct (get_components_ok t s i R Hi) as (l' & E' & _ & H').
  cbn [smstep] in Hl. unfold bnd in Hl. rewrite E' in Hl. injection Hl as <-. apply H'.
  destruct (known s c i); [reflexivity|discriminate].
Qed.

(** If every write succeeded, everything listed is stored. *)
Definition complete (s : sm) : Prop :=
  forall c i, known s c i = true ->
    match typ s with
    | Some Grid => dset s c i FMean <> None /\ dset s c i FStd <> None
    | Some Points => forall f, dset s c i f <> None
    | None => False
    end.

Lemma put_keeps : forall c i f a m z s c' i' f', dset s c' i' f' <> None -> dset (snd (put c i f a m z s)) c' i' f' <> None.
Proof.
  intros c i f a m z s c' i' f' H. unfold put. destruct (dset s c i f); [exact H|]. destruct (enc_arr a z); [|exact H].
  destruct (meta_written m []). cbn [snd with_dset dset with_imt]. destruct (_ && _ && _); [discriminate|exact H].
Qed.
Lemma put_known : forall c i f a m z s c' i', known (snd (put c i f a m z s)) c' i' = (str_eqb c c' && str_eqb i i') || known s c' i'.
Proof.
  intros. unfold put. destruct (dset s c i f); [reflexivity|]. destruct (enc_arr a z); [|reflexivity].
  destruct (meta_written m []). reflexivity.
Qed.
Lemma put_ok : forall c i f a m z s u, fst (put c i f a m z s) = Ok u -> dset (snd (put c i f a m z s)) c i f <> None.
Proof.
  intros c i f a m z s u. unfold put. destruct (dset s c i f); [discriminate|]. destruct (enc_arr a z); [|discriminate].
  destruct (meta_written m []) as [w ok]. intros _. cbn [snd with_dset dset with_imt]. rewrite !str_eqb_refl. destruct f; discriminate.
Qed.

Lemma andthen_ok : forall r k u, fst (andthen r k) = Ok u -> exists s', r = (Ok (match fst r with Ok x => x | _ => u end), s') /\ andthen r k = k s'.
Proof. intros [[x|e] s] k u H; cbn [andthen fst] in *; [eauto|discriminate]. Qed.

Lemma complete_grid : forall c i m mm d dm s u, complete s -> other_type Grid s = false ->
  fst (andthen (put c i FMean m mm true (with_type Grid s)) (put c i FStd d dm true)) = Ok u ->
  complete (snd (andthen (put c i FMean m mm true (with_type Grid s)) (put c i FStd d dm true))).
Proof.
  intros c i m mm d dm s u H Ho E.
  destruct (put c i FMean m mm true (with_type Grid s)) as [[x|e] s1] eqn:E1; cbn [andthen fst snd] in *; [|discriminate].
  assert (S1 : s1 = snd (put c i FMean m mm true (with_type Grid s))) by (rewrite E1; reflexivity).
  assert (O1 : fst (put c i FMean m mm true (with_type Grid s)) = Ok x) by (rewrite E1; reflexivity).
  intros c' i' Hk. rewrite put_type. rewrite S1, put_type. cbn [typ with_type].
  rewrite put_known, S1, put_known in Hk. cbn [known with_type] in Hk.
  destruct (str_eqb c c' && str_eqb i i') eqn:Eq.
  - apply andb_true_iff in Eq as [Ec Ei]. apply str_eqb_eq in Ec, Ei. subst c' i'. split.
    + apply put_keeps. eapply put_ok. eassumption.
    + rewrite <- S1. eapply put_ok. eassumption.
  - cbn [orb] in Hk. specialize (H c' i' Hk). unfold other_type in Ho.
    destruct (typ s) as [[]|]; [discriminate| |contradiction]. destruct H as [H1 H2].
    split; apply put_keeps; apply put_keeps; assumption.
Qed.

Lemma complete_points : forall c i lo la id m mm d dm z s u, complete s -> other_type Points s = false ->
  let R := andthen (andthen (andthen (andthen (put c i FLons lo [] z (with_type Points s))
          (put c i FLats la [] z)) (put c i FIds id [] z)) (put c i FMean m mm z)) (put c i FStd d dm z) in
  fst R = Ok u -> complete (snd R).
Proof.
  intros c i lo la id m mm d dm z s u H Ho R E. unfold R in *. clear R.
  destruct (put c i FLons lo [] z (with_type Points s)) as [[x1|e] s1] eqn:E1; cbn [andthen fst snd] in *; [|discriminate].
  destruct (put c i FLats la [] z s1) as [[x2|e] s2] eqn:E2; cbn [andthen fst snd] in *; [|discriminate].
  destruct (put c i FIds id [] z s2) as [[x3|e] s3] eqn:E3; cbn [andthen fst snd] in *; [|discriminate].
  destruct (put c i FMean m mm z s3) as [[x4|e] s4] eqn:E4; cbn [andthen fst snd] in *; [|discriminate].
  destruct (put c i FStd d dm z s4) as [[x5|e] s5] eqn:E5; cbn [andthen fst snd] in *; [|discriminate].
  pose proof (put_ok c i FLons lo [] z (with_type Points s) x1) as O1. rewrite E1 in O1. specialize (O1 eq_refl).
  pose proof (put_ok c i FLats la [] z s1 x2) as O2. rewrite E2 in O2. specialize (O2 eq_refl).
  pose proof (put_ok c i FIds id [] z s2 x3) as O3. rewrite E3 in O3. specialize (O3 eq_refl).
  pose proof (put_ok c i FMean m mm z s3 x4) as O4. rewrite E4 in O4. specialize (O4 eq_refl).
  pose proof (put_ok c i FStd d dm z s4 x5) as O5. rewrite E5 in O5. specialize (O5 eq_refl).
  pose proof (put_keeps c i FLons lo [] z (with_type Points s)) as P1. pose proof (put_keeps c i FLats la [] z s1) as P2.
  pose proof (put_keeps c i FIds id [] z s2) as P3. pose proof (put_keeps c i FMean m mm z s3) as P4. pose proof (put_keeps c i FStd d dm z s4) as P5.
  pose proof (put_known c i FLons lo [] z (with_type Points s)) as K1. pose proof (put_known c i FLats la [] z s1) as K2.
  pose proof (put_known c i FIds id [] z s2) as K3. pose proof (put_known c i FMean m mm z s3) as K4. pose proof (put_known c i FStd d dm z s4) as K5.
  pose proof (put_type c i FLons lo [] z (with_type Points s)) as T1. pose proof (put_type c i FLats la [] z s1) as T2.
  pose proof (put_type c i FIds id [] z s2) as T3. pose proof (put_type c i FMean m mm z s3) as T4. pose proof (put_type c i FStd d dm z s4) as T5.
  rewrite E1 in *. rewrite E2 in *. rewrite E3 in *. rewrite E4 in *. rewrite E5 in *. cbn [fst snd] in *.
  assert (HT : typ s5 = Some Points) by (rewrite T5, T4, T3, T2, T1; reflexivity).
  intros c' i' Hk. rewrite HT. rewrite K5, K4, K3, K2, K1 in Hk. cbn [known with_type] in Hk.
  destruct (str_eqb c c' && str_eqb i i') eqn:Eq.
  - apply andb_true_iff in Eq as [Ec Ei]. apply str_eqb_eq in Ec, Ei. subst c' i'. intros []; auto 10.
  - cbn [orb] in Hk. specialize (H c' i' Hk). unfold other_type in Ho. destruct (typ s) as [[]|]; [|discriminate|contradiction].
    intro f. apply P5, P4, P3, P2, P1. apply H.
Qed.

Lemma spec_complete : forall o s, complete s -> (is_write o = true -> fst (smspec o s) = Ok TUnit) -> complete (snd (smspec o s)).
Proof.
  intros o s H Hw.
  assert (Hr : forall x v, complete (snd (unit_res (replace x v s)))) by (intros; unfold replace; destruct (json_norm v); exact H).
  assert (Ht : forall d, other_type d s = false -> complete (with_type d s)).
  { intros d E c i Hk. specialize (H c i Hk). cbn [typ with_type]. unfold other_type in E.
    destruct (typ s) as [d'|]; [|contradiction]. destruct d, d'; try discriminate; assumption. }
  destruct o; cbn [smspec is_write] in *; try exact H; try apply Hr.
  - destruct (is_dict v); [apply Hr|exact H].
  - destruct (is_dict v); [apply Hr|exact H].
  - destruct (str_eqb s0 _); [destruct (other_type Points s) eqn:E; [exact H|apply Ht; assumption]|].
    destruct (str_eqb s0 _); [destruct (other_type Grid s) eqn:E; [exact H|apply Ht; assumption]|exact H].
  - destruct (other_type Grid s) eqn:E; [exact H|]. specialize (Hw eq_refl). unfold unit_res in *. cbn [fst snd] in *.
    destruct (fst (andthen _ _)) as [u|e] eqn:Ef; [|discriminate]. eapply complete_grid; eassumption.
  - destruct (typ s) as [[]|]; exact H.
  - destruct (other_type Points s) eqn:E; [exact H|]. destruct (_ && _); [|specialize (Hw eq_refl); discriminate].
    specialize (Hw eq_refl). unfold unit_res in *. cbn [fst snd] in *.
    destruct (fst (andthen _ _)) as [u|e] eqn:Ef; [|discriminate]. eapply complete_points; eassumption.
  - destruct (typ s) as [[]|]; exact H.
  - destruct (negb _); [exact H|]. destruct (comp s component); exact H.
  - destruct (has_imt_data s); [|exact H]. intros c i Hk. cbn [snd without_imt dset typ known] in *.
    destruct (str_eqb imt i); [discriminate|]. apply (H _ _ Hk).
Qed.

Lemma run_complete : forall ops t s, SRel t s -> complete s -> Forall smgood ops ->
  writes_succeed ops (fst (run smstep ops t)) -> complete (snd (smspec_run ops s)).
Proof.
  induction ops as [|o ops IH]; intros t s R H G W; cbn [smspec_run]; [exact H|]. inversion G; subst.
  destruct (smstep_refines o t s R) as (r & t1 & E & A & R1); [assumption|].
  cbn [run] in W. rewrite E in W. destruct (run smstep ops t1) as [rs t2] eqn:E2. unfold writes_succeed in W. cbn [fst] in W.
  inversion W; subst.
  assert (H1 : complete (snd (smspec o s))).
  { apply spec_complete; [assumption|]. intro Hw. specialize (H5 Hw). subst r. destruct (fst (smspec o s)) as [x|]; simpl in A; [|contradiction].
    destruct x; try contradiction. reflexivity. }
  destruct (smspec o s) as [ar s1]. cbn [snd] in *. specialize (IH t1 s1 R1 H1 H3). rewrite E2 in IH. specialize (IH H7).
  destruct (smspec_run ops s1). exact IH.
Qed.

Lemma listed_stored : forall ops c i l, Forall smgood ops -> good_name c -> good_name i ->
  writes_succeed ops (fst (run smstep ops empty)) ->
  let t := snd (run smstep ops empty) in
  fst (smstep (SmComponents i) t) = Ok (SNames l) -> In c l ->
  is_ok (fst (smstep (SmGetGrids i c) t)) = true \/ is_ok (fst (smstep (SmGetArrays i c) t)) = true.
Proof.
  intros ops c i l G Hc Hi W t Hl Hin. unfold t in *.
  destruct (smrun_refines ops empty fresh srel_empty G) as [_ R].
  assert (C : complete (snd (smspec_run ops fresh))).
  { eapply run_complete; [apply srel_empty| |assumption|eassumption]. intros c0 i0 H. discriminate. }
  set (s := snd (smspec_run ops fresh)) in *. set (t0 := snd (run smstep ops empty)) in *.
  destruct (get_components_ok t0 s i R Hi) as (l' & E' & _ & H'). cbn [smstep] in Hl. unfold bnd in Hl. rewrite E' in Hl. injection Hl as <-.
  apply H' in Hin. specialize (C c i Hin).
  destruct (typ s) as [[]|] eqn:Et; [right|left|contradiction].
  - destruct (smstep_refines (SmGetArrays i c) t0 s R (conj Hi Hc)) as (r & t1 & E & A & _). rewrite E. cbn [fst smspec] in *. rewrite Et in A.
    cbn [fst] in A. unfold read in A.
    pose proof (C FLons). pose proof (C FLats). pose proof (C FIds). pose proof (C FMean). pose proof (C FStd).
    destruct (dset s c i FLons), (dset s c i FLats), (dset s c i FIds), (dset s c i FMean), (dset s c i FStd); try congruence.
    destruct r; [reflexivity|contradiction].
  - destruct (smstep_refines (SmGetGrids i c) t0 s R (conj Hi Hc)) as (r & t1 & E & A & _). rewrite E. cbn [fst smspec] in *. rewrite Et in A.
    cbn [fst] in A. unfold read in A. destruct C.
    destruct (dset s c i FMean), (dset s c i FStd); try congruence. destruct r; [reflexivity|contradiction].
Qed.

(** Reads only: same specified state, same results up to the order of listings. *)
Lemma drop_effect : forall t i, sreached t -> good_name i ->
  let t1 := snd (smstep (SmDropIMT i) t) in
  fst (smstep (SmDropIMT i) t) = Ok SUnit ->
  fst (smstep (SmComponents i) t1) = Ok (SNames []) /\
  (forall i' c', good_name i' -> i' <> i ->
     (forall l l', fst (smstep (SmComponents i') t) = Ok (SNames l) -> fst (smstep (SmComponents i') t1) = Ok (SNames l') -> (In c' l <-> In c' l')) /\
     (good_name c' -> fst (smstep (SmGetGrids i' c') t1) = fst (smstep (SmGetGrids i' c') t) /\
                      fst (smstep (SmGetArrays i' c') t1) = fst (smstep (SmGetArrays i' c') t))) /\
  (forall c' l l', fst (smstep SmAllComponents t) = Ok (SNames l) -> fst (smstep SmAllComponents t1) = Ok (SNames l') -> (In c' l <-> In c' l')) /\
  fst (smstep SmGetType t1) = fst (smstep SmGetType t).
Proof.
  intros t i Hr Hi t1 H. destruct (sreached_rel t Hr) as (s & R).
  destruct (drop_imt_ok t s i R Hi) as (t' & E & R'). unfold t1 in *. clear t1. cbn [smstep] in *. unfold bnd in H |- * at 1.
  assert (Et : snd ((drop_imt i ;;; ret SUnit) t) = t') by (unfold bnd; rewrite E; destruct (has_imt_data s); reflexivity).
  change (smstep (SmDropIMT i) t) with ((drop_imt i ;;; ret SUnit) t). rewrite Et.
  rewrite E in H. destruct (has_imt_data s) eqn:Eh; [|discriminate].
  set (s' := without_imt i s) in *.
  split; [|split; [|split]].
  - destruct (get_components_ok t' s' i R' Hi) as (l & El & N & Hl). unfold bnd. rewrite El. cbn [fst].
    destruct l as [|c l]; [reflexivity|]. exfalso. assert (Hc : known s' c i = true) by (apply Hl; left; reflexivity).
    unfold s' in Hc. cbn [known without_imt] in Hc. rewrite str_eqb_refl in Hc. discriminate.
  - intros i' c' Hi' Hne. assert (Hk : forall c, known s' c i' = known s c i').
    { intro c. unfold s'. cbn [known without_imt]. destruct (str_eqb_spec i i') as [<-|]; [congruence|reflexivity]. }
    assert (Hd : forall c f, dset s' c i' f = dset s c i' f).
    { intros c f. unfold s'. cbn [dset without_imt]. destruct (str_eqb_spec i i') as [<-|]; [congruence|reflexivity]. }
    split.
    + intros l l' H1 H2.
      destruct (get_components_ok t' s' i' R' Hi') as (l2 & E2 & _ & Hl2). destruct (get_components_ok t s i' R Hi') as (l1 & E1 & _ & Hl1).
      unfold bnd in H1, H2. rewrite E1 in H1. rewrite E2 in H2. injection H1 as <-. injection H2 as <-. rewrite Hl1, Hl2, Hk. reflexivity.
    + intro Hc'. split.
      * unfold get_imt_grids, bnd. rewrite (get_type_ok t s R), (get_type_ok t' s' R').
        change (typ s') with (typ s). destruct (negb _); [reflexivity|].
        change (str_of "mean") with (fname FMean). change (str_of "std") with (fname FStd).
        rewrite ?(read_refines t s c' i' _ R Hc' Hi'), ?(read_refines t' s' c' i' _ R' Hc' Hi'). unfold read. rewrite ?Hd.
        destruct (dset s c' i' FMean); [|reflexivity].
        rewrite ?(read_refines t s c' i' _ R Hc' Hi'), ?(read_refines t' s' c' i' _ R' Hc' Hi'). unfold read. rewrite ?Hd.
        destruct (dset s c' i' FStd); reflexivity.
      * unfold get_imt_arrays, bnd. rewrite (get_type_ok t s R), (get_type_ok t' s' R').
        change (typ s') with (typ s). destruct (negb _); [reflexivity|].
        change (str_of "mean") with (fname FMean). change (str_of "std") with (fname FStd).
        change (str_of "lons") with (fname FLons). change (str_of "lats") with (fname FLats). change (str_of "ids") with (fname FIds).
        rewrite ?(read_refines t s c' i' _ R Hc' Hi'), ?(read_refines t' s' c' i' _ R' Hc' Hi'). unfold read. rewrite ?Hd.
        destruct (dset s c' i' FLons); [|reflexivity].
        rewrite ?(read_refines t s c' i' _ R Hc' Hi'), ?(read_refines t' s' c' i' _ R' Hc' Hi'). unfold read. rewrite ?Hd.
        destruct (dset s c' i' FLats); [|reflexivity].
        rewrite ?(read_refines t s c' i' _ R Hc' Hi'), ?(read_refines t' s' c' i' _ R' Hc' Hi'). unfold read. rewrite ?Hd.
        destruct (dset s c' i' FIds); [|reflexivity].
        rewrite ?(read_refines t s c' i' _ R Hc' Hi'), ?(read_refines t' s' c' i' _ R' Hc' Hi'). unfold read. rewrite ?Hd.
        destruct (dset s c' i' FMean); [|reflexivity].
        rewrite ?(read_refines t s c' i' _ R Hc' Hi'), ?(read_refines t' s' c' i' _ R' Hc' Hi'). unfold read. rewrite ?Hd.
        destruct (dset s c' i' FStd); reflexivity.
  - intros c' l l' H1 H2. destruct (all_components_ok t s R) as (l1 & E1 & _ & Hl1). destruct (all_components_ok t' s' R') as (l2 & E2 & _ & Hl2).
    unfold bnd in H1, H2. rewrite E1 in H1. rewrite E2 in H2. injection H1 as <-. injection H2 as <-. rewrite Hl1, Hl2. reflexivity.
  - unfold bnd. rewrite (get_type_ok t s R), (get_type_ok t' s' R'). reflexivity.
Qed.

(** ** Mismatched point arrays *)
Lemma mismatch_effect : forall t i lo la id m mm d dm c z, sreached t -> good_name i -> good_name c ->
  fst (smstep SmGetType t) <> Ok (SType (Some (dtype_name Grid))) ->
  ~ (shape lo = shape la /\ shape lo = shape id /\ shape lo = shape m /\ shape lo = shape d) ->
  let t1 := snd (smstep (SmSetArrays i lo la id m mm d dm c z) t) in
  fst (smstep (SmSetArrays i lo la id m mm d dm c z) t) = Err ValueError /\
  fst (smstep SmGetType t1) = Ok (SType (Some (dtype_name Points))) /\
  (forall i' m' mm' d' dm' c' z', smstep (SmSetGrids i' m' mm' d' dm' c' z') t1 = (Err TypeError, t1)) /\
  (forall x, fst (smstep (get_call x) t1) = fst (smstep (get_call x) t)) /\
  (forall i' l l', good_name i' -> fst (smstep (SmComponents i') t) = Ok (SNames l) -> fst (smstep (SmComponents i') t1) = Ok (SNames l') ->
     forall c', In c' l <-> In c' l').
Proof.
  intros t i lo la id m mm d dm c z Hr Hi Hc Hty Hsh t1. destruct (sreached_rel t Hr) as (s & R).
  destruct (smstep_refines (SmSetArrays i lo la id m mm d dm c z) t s R (conj Hi Hc)) as (r & t' & E & A & R').
  unfold t1 in *. clear t1. rewrite E. cbn [fst snd].
  assert (Ho : other_type Points s = false).
  { unfold other_type. rewrite (type_result t s R) in Hty. destruct (typ s) as [[]|]; try reflexivity. exfalso. apply Hty. reflexivity. }
  assert (Hs : same_shape lo la && same_shape lo id && same_shape lo m && same_shape lo d = false).
  { unfold same_shape. repeat match goal with |- context [if list_eq_dec ?e ?a ?b then _ else _] => destruct (list_eq_dec e a b) end; try reflexivity. tauto. }
  cbn [smspec] in A, R'. rewrite Ho, Hs in A, R'. cbn [fst snd] in *. apply smagree_err in A. split; [assumption|].
  assert (Hr' : sreached t').
  { destruct Hr as (ops & G & ->). exists (ops ++ [SmSetArrays i lo la id m mm d dm c z]). split.
    - apply Forall_app. split; [assumption|]. constructor; [split; assumption|constructor].
    - rewrite smrun_app. cbn [run]. rewrite E. reflexivity. }
  assert (Ht : fst (smstep SmGetType t') = Ok (SType (Some (dtype_name Points)))) by (rewrite (type_result _ _ R'); reflexivity).
  split; [assumption|]. split; [intros; apply (proj1 (refused t' Hr') Ht)|]. split.
  - assert (Hf : forall x, (fst (smstep (get_call x) t')) = fst (smstep (get_call x) t)).
    { intro x. assert (Hx : forall t0 s0, SRel t0 s0 -> fst (smstep (get_call x) t0) = match dict s0 x with Some v => Ok (SVal v) | None => when_absent x end).
      { intros t0 s0 R0. pose proof (fun m => fetch_refines t0 s0 x m R0) as Hf. destruct x; cbn [get_call smstep when_absent]; unfold bnd;
          match goal with |- context [get_config] => unfold get_config | |- context [get_rupture] => unfold get_rupture
          | |- context [get_stations] => unfold get_stations | |- context [get_history] => unfold get_history | |- context [get_metadata] => unfold get_metadata end;
          cbn [sname] in Hf; rewrite Hf; unfold fetch; destruct (dict s0 _); reflexivity. }
      rewrite (Hx t' _ R'), (Hx t s R). reflexivity. }
    exact Hf.
  - intros i' l l' Hi' H1 H2 c'. destruct (get_components_ok t s i' R Hi') as (l1 & E1 & _ & Hl1). destruct (get_components_ok t' _ i' R' Hi') as (l2 & E2 & _ & Hl2).
    cbn [smstep] in H1, H2. unfold bnd in H1, H2. rewrite E1 in H1. rewrite E2 in H2. injection H1 as <-. injection H2 as <-. rewrite Hl1, Hl2. reflexivity.
Qed.

(** ** Dictionaries *)
Lemma get_call_ok : forall x t s, SRel t s -> smstep (get_call x) t = (match dict s x with Some v => Ok (SVal v) | None => when_absent x end, t).
Proof.
  intros x t s R. pose proof (fun m => fetch_refines t s x m R) as Hf.
  destruct x; cbn [get_call smstep when_absent]; unfold bnd;
    match goal with |- context [get_config] => unfold get_config | |- context [get_rupture] => unfold get_rupture
    | |- context [get_stations] => unfold get_stations | |- context [get_history] => unfold get_history | |- context [get_metadata] => unfold get_metadata end;
    cbn [sname] in Hf; rewrite Hf; unfold fetch; destruct (dict s _); reflexivity.
Qed.

Lemma put_dict : forall c i f a m z s x, dict (snd (put c i f a m z s)) x = dict s x.
Proof.
  intros. unfold put. destruct (dset s c i f); [reflexivity|]. destruct (enc_arr a z); [|reflexivity].
  destruct (meta_written m []). reflexivity.
Qed.

Lemma spec_dict : forall o s x, is_set_call x o = false -> dict (snd (smspec o s)) x = dict s x.
Proof.
  intros o s x H.
  assert (Hr : forall y v, slot_eqb y x = false -> dict (snd (unit_res (replace y v s))) x = dict s x).
  { intros y v E. unfold replace. destruct (json_norm v); cbn; rewrite E; reflexivity. }
  destruct o; cbn [smspec]; try reflexivity;
    try (apply Hr; destruct x; (reflexivity || discriminate)).
  - destruct (is_dict v); [apply Hr|cbn]; destruct x; (reflexivity || discriminate).
  - destruct (is_dict v); [apply Hr; destruct x; (reflexivity || discriminate)|reflexivity].
  - destruct (str_eqb s0 _); [destruct (other_type Points s); reflexivity|].
    destruct (str_eqb s0 _); [destruct (other_type Grid s); reflexivity|reflexivity].
  - destruct (other_type Grid s); [reflexivity|]. unfold unit_res. cbn [snd].
    apply (andthen_inv (fun s' => dict s' x = dict s x)); [rewrite put_dict; reflexivity|intros s' H'; rewrite put_dict; assumption].
  - destruct (typ s) as [[]|]; reflexivity.
  - destruct (other_type Points s); [reflexivity|]. destruct (_ && _); [|reflexivity]. unfold unit_res. cbn [snd].
    repeat (apply (andthen_inv (fun s' => dict s' x = dict s x)); [|intros s' H'; rewrite put_dict; assumption]).
    rewrite put_dict. reflexivity.
  - destruct (typ s) as [[]|]; reflexivity.
  - destruct (negb _); [reflexivity|]. destruct (comp s component); reflexivity.
  - destruct (has_imt_data s); reflexivity.
Qed.

Lemma spec_run_dict : forall ops s x, forallb (fun o => negb (is_set_call x o)) ops = true -> dict (snd (smspec_run ops s)) x = dict s x.
Proof.
  induction ops as [|o ops IH]; intros s x H; cbn [smspec_run]; [reflexivity|]. cbn [forallb] in H. apply andb_true_iff in H as [H1 H2].
  apply negb_true_iff in H1. pose proof (spec_dict o s x H1) as E. destruct (smspec o s) as [r s1]. specialize (IH s1 x H2).
  destruct (smspec_run ops s1). cbn [snd] in *. congruence.
Qed.

Lemma set_call_spec : forall x v s, smspec (set_call x v) s =
  match x with
  | Rupture => if is_dict v then unit_res (replace x v s) else (Err TypeError, with_dict x None s)
  | Stations => if is_dict v then unit_res (replace x v s) else (Err TypeError, s)
  | _ => unit_res (replace x v s)
  end.
Proof. intros [] v s; reflexivity. Qed.

Lemma set_call_good : forall x v, smgood (set_call x v). Proof. intros [] v; exact I. Qed.
Lemma slot_refl : forall x, slot_eqb x x = true. Proof. intros []; reflexivity. Qed.

Lemma last_dict_wins : forall h1 h2 x v, Forall smgood h1 -> Forall smgood h2 ->
  forallb (fun o => negb (is_set_call x o)) h2 = true ->
  let t1 := snd (run smstep h1 empty) in
  fst (smstep (set_call x v) t1) = Ok SUnit ->
  exists j, json_norm v = Some j /\
    fst (smstep (get_call x) (snd (run smstep h2 (snd (smstep (set_call x v) t1))))) = Ok (SVal j).
Proof.
  intros h1 h2 x v G1 G2 Hn t1 H. destruct (smrun_refines h1 empty fresh srel_empty G1) as [_ R1]. fold t1 in R1.
  set (s1 := snd (smspec_run h1 fresh)) in *.
  destruct (smstep_refines (set_call x v) t1 s1 R1 (set_call_good x v)) as (r & t2 & E & A & R2). rewrite E in *. cbn [fst snd] in *. subst r.
  destruct (smrun_refines h2 t2 _ R2 G2) as [_ R3].
  rewrite (get_call_ok x _ _ R3). cbn [fst]. rewrite spec_run_dict by assumption.
  rewrite set_call_spec in *.
  assert (Hx : forall y, smagree (Ok SUnit) (fst (unit_res (replace y v s1))) -> exists j, json_norm v = Some j /\
     dict (snd (unit_res (replace y v s1))) y = Some j).
  { intros y Ha. unfold replace in *. destruct (json_norm v) as [j|]; [|destruct Ha]. exists j. split; [reflexivity|]. cbn. rewrite slot_refl. reflexivity. }
  destruct x; try (destruct (Hx _ A) as (j & Ej & ->); exists j; auto);
    destruct (is_dict v); try destruct A; try (destruct (Hx _ A) as (j & Ej & ->); exists j; auto).
Qed.

Lemma never_set : forall h x, Forall smgood h -> forallb (fun o => negb (is_set_call x o)) h = true ->
  fst (smstep (get_call x) (snd (run smstep h empty))) = when_absent x.
Proof.
  intros h x G H. destruct (smrun_refines h empty fresh srel_empty G) as [_ R]. rewrite (get_call_ok x _ _ R). cbn [fst].
  rewrite spec_run_dict by assumption. reflexivity.
Qed.

(** What each rejected call leaves behind. *)
Lemma rejected_set : forall t x v, sreached t -> fst (smstep (set_call x v) t) <> Ok SUnit ->
  let t1 := snd (smstep (set_call x v) t) in
  fst (smstep (set_call x v) t) = Err TypeError /\
  fst (smstep (get_call x) t1) = (match x with
     | Stations => if is_dict v then when_absent x else fst (smstep (get_call x) t)
     | _ => when_absent x end) /\
  (forall y, y <> x -> fst (smstep (get_call y) t1) = fst (smstep (get_call y) t)).
Proof.
  intros t x v Hr H t1. destruct (sreached_rel t Hr) as (s & R).
  destruct (smstep_refines (set_call x v) t s R (set_call_good x v)) as (r & t' & E & A & R'). unfold t1. rewrite E in *. cbn [fst snd] in *.
  assert (Hy : forall y, y <> x -> dict (snd (smspec (set_call x v) s)) y = dict s y).
  { intros y Hyx. apply spec_dict. destruct x, y; try reflexivity; congruence. }
  assert (Hrest : forall y, y <> x -> fst (smstep (get_call y) t') = fst (smstep (get_call y) t)).
  { intros y Hyx. rewrite (get_call_ok y _ _ R'), (get_call_ok y _ _ R). cbn [fst]. rewrite Hy by assumption. reflexivity. }
  assert (Hme : r = Err TypeError /\ dict (snd (smspec (set_call x v) s)) x = match x with Stations => if is_dict v then None else dict s x | _ => None end).
  { assert (Hx : forall y, r <> Ok SUnit -> smagree r (fst (unit_res (replace y v s))) -> r = Err TypeError /\ dict (snd (unit_res (replace y v s))) y = None).
    { intros y Hno Ha. unfold replace in *. destruct (json_norm v) as [j|]; cbn [unit_res fst snd res_map] in *.
      - apply smagree_unit in Ha. contradiction.
      - apply smagree_err in Ha. split; [assumption|]. cbn. rewrite slot_refl. reflexivity. }
    rewrite set_call_spec in *. destruct x; try (apply Hx; assumption).
    - destruct (is_dict v); [apply Hx; assumption|]. cbn [fst snd] in *. apply smagree_err in A. split; [assumption|reflexivity].
    - destruct (is_dict v); [apply Hx; assumption|]. cbn [fst snd] in *. apply smagree_err in A. split; [assumption|reflexivity]. }
  destruct Hme as [-> Hd]. split; [reflexivity|]. split; [|assumption].
  rewrite (get_call_ok x _ _ R'), (get_call_ok x _ _ R). cbn [fst]. rewrite Hd. destruct x; try reflexivity. destruct (is_dict v); reflexivity.
Qed.

Lemma container_meets_spec : forall ops, Forall smgood ops ->
  Forall2 smagree (fst (run smstep ops empty)) (fst (smspec_run ops fresh)).
Proof. intros ops G. apply smrun_refines; [apply srel_empty|assumption]. Qed.
