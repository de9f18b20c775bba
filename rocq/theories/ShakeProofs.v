(** The ShakeMap output container refines its specification. *)
From Coq Require Import ZArith FinFun String Ascii Bool List Lia.
From Verif Require Import PyBase HdfModel HdfSpec HdfProofs HdfBaseProofs ShakeSpec.
Import ListNotations.
Open Scope Z_scope.

Definition dN : str := gname KDict.
Definition aN : str := gname KArray.
Definition sname (x : slot) : str :=
  match x with
  | Config => str_of "config" | Rupture => str_of "rupture" | Stations => str_of "stations_dict"
  | History => str_of "version_history" | Info => str_of "info.json"
  end.
Definition fname (f : field) : str :=
  match f with
  | FLons => str_of "lons" | FLats => str_of "lats" | FIds => str_of "ids" | FMean => str_of "mean" | FStd => str_of "std"
  end.

Ltac goodn := split; [discriminate|split; [discriminate|unfold sname, fname, ftype, imts, str_of, slash, chr; simpl; intuition discriminate]].
Lemma sname_good : forall x, good_name (sname x). Proof. intros []; goodn. Qed.
Lemma fname_good : forall x, good_name (fname x). Proof. intros []; goodn. Qed.
Lemma ftype_good : good_name ftype. Proof. goodn. Qed.
Lemma imts_good : good_name imts. Proof. goodn. Qed.
Lemma sname_inj : forall x y, sname x = sname y -> x = y. Proof. intros [] []; (reflexivity || discriminate). Qed.
Lemma fname_inj : forall x y, fname x = fname y -> x = y. Proof. intros [] []; (reflexivity || discriminate). Qed.
Lemma sname_ftype : forall x, sname x <> ftype. Proof. intros []; discriminate. Qed.
Lemma slot_eqb_spec : forall a b, Bool.reflect (a = b) (slot_eqb a b). Proof. intros [] []; constructor; congruence. Qed.
Lemma field_eqb_spec : forall a b, Bool.reflect (a = b) (field_eqb a b). Proof. intros [] []; constructor; congruence. Qed.
Lemma dN_aN : dN <> aN. Proof. discriminate. Qed.
Opaque sname fname ftype imts.

(** ** Inverting the wrappers of [bstep] *)
Lemma inv_unit : forall (m : io unit) t r t', (m ;;; ret RUnit) t = (r, t') -> m t = (res_map (fun _ => tt) r, t').
Proof. intros m t r t' H. unfold bnd, ret in H. destruct (m t) as [[[]|e] t1]; injection H as <- <-; reflexivity. Qed.
Lemma inv_val : forall (m : io (payload * attrs)) t r t',
  (va <- m ;; ret (RVal (fst va) (snd va))) t = (r, t') ->
  exists r0, m t = (r0, t') /\ r = res_map (fun va => RVal (fst va) (snd va)) r0.
Proof. intros m t r t' H. unfold bnd, ret in H. destruct (m t) as [[va|e] t1]; injection H as <- <-; eexists; split; reflexivity. Qed.

Lemma bstep_here : forall o t, Good t -> good_bop o ->
  exists r t', bstep o t = (r, t') /\ bagree r (fst (bspec o (view t))) (bop_kind o) (snd (bspec o (view t))) /\
    Good t' /\ forall q, view t' q = snd (bspec o (view t)) q.
Proof. intros o t G H. apply bstep_refines; auto. intro q. reflexivity. Qed.

(** ** Dictionaries *)
Definition flat (t : node) : Prop := forall n, view t [dN; n] <> Some EGroup.

Lemma flat_deep : forall t n s q, flat t -> view t (dN :: n :: s :: q) = None.
Proof.
  intros t n s q F. change (dN :: n :: s :: q) with ([dN; n] ++ s :: q).
  destruct (view t [dN; n]) as [[v a|]|] eqn:E; [eapply view_leaf_below; eassumption|exfalso; apply (F n); assumption|].
  apply view_below_none. assumption.
Qed.

Lemma dict_names : forall t, Good t -> flat t -> exists l, hb_names KDict t = (Ok l, t) /\
  forall n, in_names n l = match view t [dN; n] with Some _ => true | None => false end.
Proof.
  intros t G F. destruct (bstep_here (BNames KDict) t G) as (r & t' & Er & A & _ & _); [constructor|].
  cbn [bstep bspec bop_kind fst snd] in *. unfold hb_names in *. unfold bnd, ret in Er.
  destruct (lookup t [gname KDict]) as [nd|].
  - injection Er as <- <-. exists (group_paths nd). split; [reflexivity|]. intro n.
    destruct A as (ps & -> & _ & H). fold dN in H.
    unfold in_names. destruct (existsb (str_eqb n) (map join_path ps)) eqn:E.
    + apply existsb_exists in E as (x & Hx & E). apply str_eqb_eq in E. subst x. apply in_map_iff in Hx as (p & Ep & Hp).
      apply H in Hp. destruct Hp as [Hp|(Hp & Hg & _)].
      * destruct p as [|s p]; [discriminate|]. destruct p as [|s' p]; [|rewrite (flat_deep t s s' p F) in Hp; discriminate].
        cbn in Ep. subst s. destruct (view t [dN; n]); [reflexivity|discriminate].
      * destruct p as [|s p]; [congruence|]. destruct p as [|s' p]; [exfalso; apply (F s); assumption|].
        rewrite (flat_deep t s s' p F) in Hg. discriminate.
    + destruct (view t [dN; n]) as [e|] eqn:Ev; [|reflexivity]. exfalso.
      assert (Hn : In [n] ps).
      { apply H. left. rewrite Ev. destruct e; [reflexivity|exfalso; apply (F n); assumption]. }
      assert (existsb (str_eqb n) (map join_path ps) = true); [|congruence].
      apply existsb_exists. exists (join_path [n]). split; [apply in_map; assumption|]. cbn. apply str_eqb_refl.
  - injection Er as <- <-. exists []. split; [reflexivity|]. intro n. destruct A as (ps & E0 & _ & H).
    destruct ps; [|discriminate]. destruct (view t [dN; n]) as [e|] eqn:Ev; [|reflexivity]. exfalso. fold dN in H.
    destruct (proj2 (H [n])). left. rewrite Ev. destruct e; [reflexivity|exfalso; apply (F n); assumption].
Qed.

Lemma dgroup_cases : forall t, Good t -> forall v a, view t [dN] <> Some (ELeaf v a).
Proof. intros t G v a H. destruct (good_typed t G KDict [] v a H) as [E _]. congruence. Qed.
Lemma agroup_cases : forall t, Good t -> forall v a, view t [aN] <> Some (ELeaf v a).
Proof. intros t G v a H. destruct (good_typed t G KArray [] v a H) as [E _]. congruence. Qed.

Lemma dict_unblocked : forall t, Good t -> blocked [] [dN] (view t) = false.
Proof.
  intros t G. cbn [blocked]. rewrite (good_root t G). cbn [app].
  pose proof (dgroup_cases t G). destruct (view t [dN]) as [[v a|]|]; [exfalso; eapply H; reflexivity|reflexivity|reflexivity].
Qed.

(** The file outside one dictionary entry. *)
Definition same_but (n : str) (t t' : node) : Prop :=
  forall q, q <> [] -> q <> [dN] -> q <> [dN; n] -> view t' q = view t q.

Lemma prefix_one : forall q x, is_prefix q [x] = true -> q = [] \/ q = [x].
Proof.
  intros q x H. apply is_prefix_true in H as (r & Hr). destruct q as [|y q]; [auto|]. right.
  injection Hr as -> Hr. destruct q; [reflexivity|discriminate].
Qed.

Lemma set_dict_new : forall t n enc, Good t -> good_name n -> view t [dN; n] = None ->
  (forall p, enc = Ok p -> exists v, p = PJson v) ->
  (forall v, enc = Ok (PJson v) -> exists w, enc_json w = Ok (PJson v)) ->
  (forall e, enc = Err e -> exists w, enc_json w = Err e) ->
  exists t', hb_set KDict [] n enc t = (res_map (fun _ => tt) enc, t') /\ Good t' /\ same_but n t t' /\
    view t' [dN; n] = match enc with Ok p => Some (ELeaf p []) | Err _ => None end.
Proof.
  intros t n enc G Hn Hv Hp Hj He.
  assert (exists w, enc_json w = enc) as (w & Hw).
  { destruct enc as [p|e]; [|apply (He e); reflexivity]. destruct (Hp p eq_refl) as (v & ->). apply (Hj v). reflexivity. }
  rewrite <- Hw. clear Hp Hj He.
  destruct (bstep_here (BSetDict [] n w) t G) as (r & t' & Er & A & G' & V); [repeat constructor; apply Hn|].
  cbn [bstep bspec bop_kind] in *. apply inv_unit in Er. fold dN in A, V. unfold bset in A, V.
  rewrite (dict_unblocked t G) in A, V.
  assert (Hng : with_groups [dN] (view t) ([dN] ++ [n]) = None).
  { unfold with_groups. destruct (is_prefix ([dN] ++ [n]) [dN]) eqn:E; [|exact Hv]. apply prefix_one in E as [E|E]; discriminate. }
  rewrite Hng in A, V. exists t'.
  destruct (enc_json w) as [p|e]; cbn [meta_written fst snd] in *.
  - split; [rewrite Er; destruct r as [[]|]; simpl in A; try contradiction; reflexivity|]. split; [assumption|]. split.
    + intros q H1 H2 H3. rewrite V. unfold with_leaf. destruct (is_prefix ([dN] ++ [n]) q && _) eqn:E.
      * apply prefix_both in E. cbn [app] in E. congruence.
      * unfold with_groups. destruct (is_prefix q [dN]) eqn:E2; [|reflexivity]. apply prefix_one in E2 as [E2|E2]; congruence.
    + rewrite V. unfold with_leaf. change ([dN] ++ [n]) with [dN; n]. rewrite is_prefix_refl. reflexivity.
  - split; [rewrite Er; destruct r as [[]|]; simpl in A; try contradiction; subst; reflexivity|]. split; [assumption|]. split.
    + intros q H1 H2 H3. rewrite V. unfold with_groups. destruct (is_prefix q [dN]) eqn:E2; [|reflexivity]. apply prefix_one in E2 as [E2|E2]; congruence.
    + rewrite V. exact Hng.
Qed.

Lemma set_json_new : forall t n v, Good t -> good_name n -> view t [dN; n] = None ->
  exists t', hb_set KDict [] n (enc_json v) t = (match json_norm v with Some _ => Ok tt | None => Err TypeError end, t') /\
    Good t' /\ same_but n t t' /\ view t' [dN; n] = option_map (fun j => ELeaf (PJson j) []) (json_norm v).
Proof.
  intros t n v G Hn Hv. destruct (set_dict_new t n (enc_json v) G Hn Hv) as (t' & E & G' & S & V).
  - unfold enc_json. destruct (json_norm v); intros pl Hpl; [injection Hpl as <-; eauto|discriminate].
  - intros w Hw. exists v. assumption.
  - intros e Hw. exists v. assumption.
  - exists t'. unfold enc_json in *. destruct (json_norm v); auto.
Qed.

Lemma drop_dict : forall t n e, Good t -> good_name n -> view t [dN; n] = Some e ->
  exists t', hb_drop KDict [] n t = (Ok tt, t') /\ Good t' /\
    (forall q, view t' q = if is_prefix [dN; n] q then None else view t q).
Proof.
  intros t n e G Hn Hv. destruct (bstep_here (BDrop KDict [] n) t G) as (r & t' & Er & A & G' & V); [repeat constructor; apply Hn|].
  cbn [bstep bspec bop_kind] in *. apply inv_unit in Er. fold dN in A, V.
  assert (Hg : group_status [] [dN] (view t) = Ok tt).
  { cbn [group_status app]. rewrite (good_root t G). change [dN; n] with ([dN] ++ n :: []) in Hv. rewrite (view_below t [dN] n [] e Hv). reflexivity. }
  rewrite Hg in A, V. cbn [app] in A, V. rewrite Hv in A, V. cbn [fst snd] in *. exists t'.
  split; [rewrite Er; destruct r as [[]|]; simpl in A; try contradiction; reflexivity|]. split; [assumption|].
  intro q. rewrite V. reflexivity.
Qed.

Lemma dict_prefix : forall t n q, flat t -> q <> [dN; n] -> is_prefix [dN; n] q = true -> view t q = None.
Proof.
  intros t n q F Hq H. apply is_prefix_true in H as (r & ->). destruct r as [|s r]; [exfalso; apply Hq; reflexivity|]. apply flat_deep. assumption.
Qed.

Lemma drop_if : forall t n, Good t -> flat t -> good_name n ->
  exists l t', hb_names KDict t = (Ok l, t) /\ (if in_names n l then hb_drop KDict [] n else ret tt) t = (Ok tt, t') /\
    Good t' /\ flat t' /\ same_but n t t' /\ view t' [dN; n] = None.
Proof.
  intros t n G F Hn. destruct (dict_names t G F) as (l & El & Hl). exists l. rewrite Hl.
  destruct (view t [dN; n]) as [e|] eqn:Ev.
  - destruct (drop_dict t n e G Hn Ev) as (t' & E & G' & V). exists t'. split; [assumption|]. split; [assumption|]. split; [assumption|].
    split; [|split].
    + intro m. rewrite V. destruct (is_prefix _ _); [discriminate|apply F].
    + intros q H1 H2 H3. rewrite V. destruct (is_prefix [dN; n] q) eqn:E1; [|reflexivity]. symmetry. eapply dict_prefix; eassumption.
    + rewrite V, is_prefix_refl. reflexivity.
  - exists t. split; [assumption|]. split; [reflexivity|]. split; [assumption|]. split; [assumption|]. split; [intros q _ _ _; reflexivity|assumption].
Qed.

Lemma flat_same : forall t t' n, flat t -> same_but n t t' -> view t' [dN; n] <> Some EGroup -> flat t'.
Proof.
  intros t t' n F S H m. destruct (str_eqb_spec m n) as [->|Hm]; [assumption|]. rewrite S by congruence. apply F.
Qed.

Lemma replace_dict_ok : forall t n v, Good t -> flat t -> good_name n ->
  exists t', replace_dict n v t = (match json_norm v with Some _ => Ok tt | None => Err TypeError end, t') /\
    Good t' /\ flat t' /\ same_but n t t' /\ view t' [dN; n] = option_map (fun j => ELeaf (PJson j) []) (json_norm v).
Proof.
  intros t n v G F Hn. destruct (drop_if t n G F Hn) as (l & t1 & El & E1 & G1 & F1 & S1 & V1).
  destruct (set_json_new t1 n v G1 Hn V1) as (t2 & E2 & G2 & S2 & V2). exists t2.
  unfold replace_dict. unfold bnd at 1. rewrite El. unfold bnd. rewrite E1, E2.
  split; [reflexivity|]. split; [assumption|]. split; [|split; [|assumption]].
  - apply (flat_same t1 t2 n F1 S2). rewrite V2. destruct (json_norm v); discriminate.
  - intros q H1 H2 H3. rewrite S2, S1; auto.
Qed.

Lemma get_dict : forall t n, Good t -> flat t -> good_name n -> forall v a, view t [dN; n] = Some (ELeaf v a) ->
  hb_get KDict [] n t = (Ok (v, a), t).
Proof.
  intros t n G F Hn v a Hv. destruct (bstep_here (BGet KDict [] n) t G) as (r & t' & Er & A & _ & _); [repeat constructor; apply Hn|].
  cbn [bstep bspec bop_kind] in *. destruct (inv_val _ _ _ _ Er) as (r0 & E0 & ->). fold dN in A.
  assert (Hg : group_status [] [dN] (view t) = Ok tt).
  { cbn [group_status app]. rewrite (good_root t G). change [dN; n] with ([dN] ++ n :: []) in Hv. rewrite (view_below t [dN] n [] _ Hv). reflexivity. }
  rewrite Hg in A. cbn [app] in A. rewrite Hv in A.
  assert (t' = t).
  { unfold hb_get, bnd, lift in E0. destruct (get_group (gname KDict) [] t) as [rg tg] eqn:Eg.
    rewrite get_group_spec in Eg; [|apply G|constructor]. fold dN in Eg. rewrite Hg in Eg. injection Eg as <- <-.
    rewrite h_in_spec in E0 by assumption. cbn [app] in E0. change ([dN] ++ [n]) with [dN; n] in E0. rewrite Hv in E0. cbn [negb] in E0.
    rewrite (h_get_some t [dN] n (ELeaf v a)) in E0 by assumption. rewrite h_read_spec in E0.
    change ([dN] ++ [n]) with [dN; n] in E0. rewrite Hv in E0. cbn [fst] in E0.
    destruct (decode KDict v); injection E0 as _ <-; reflexivity. }
  subst t'. rewrite E0. destruct r0 as [[v0 a0]|e]; simpl in A; [|contradiction]. destruct A as [-> ->]. reflexivity.
Qed.

Lemma fetch_dict_ok : forall t n missing, Good t -> flat t -> good_name n ->
  (forall v a, view t [dN; n] = Some (ELeaf v a) -> exists j, v = PJson j) ->
  fetch_dict n missing t = (match view t [dN; n] with Some (ELeaf (PJson j) _) => Ok j | _ => missing end, t).
Proof.
  intros t n missing G F Hn Hj. destruct (dict_names t G F) as (l & El & Hl). unfold fetch_dict.
  unfold bnd at 1. rewrite El, Hl. destruct (view t [dN; n]) as [e|] eqn:Ev; cbn [negb]; [|reflexivity].
  destruct e as [v a|]; [|exfalso; apply (F n); assumption]. destruct (Hj v a eq_refl) as (j & ->).
  unfold bnd. rewrite (get_dict t n G F Hn (PJson j) a Ev). reflexivity.
Qed.

(** ** The refinement relation *)
Definition type_dict (d : dtype) : pyval := VDict [(KStr (str_of "type"), VStr (dtype_name d))].
Definition jleaf (o : option pyval) : option entry := option_map (fun j => ELeaf (PJson j) []) o.
Definition gflag (b : bool) : option entry := if b then Some EGroup else None.

Record SRel (t : node) (s : sm) : Prop := {
  sr_good : Good t;
  sr_dict : forall x, view t [dN; sname x] = jleaf (dict s x);
  sr_type : view t [dN; ftype] = jleaf (option_map type_dict (typ s));
  sr_flat : flat t;
  sr_imts : view t [aN; imts] = gflag (has_imt_data s);
  sr_comp : forall c, view t [aN; imts; c] = gflag (comp s c);
  sr_known : forall c i, view t [aN; imts; c; i] = gflag (known s c i);
  sr_dset : forall c i f, view t [aN; imts; c; i; fname f] = leaf_of (dset s c i f);
  sr_names : forall c, comp s c = true -> good_name c
}.

Lemma srel_empty : SRel empty fresh.
Proof.
  assert (H : forall p, p <> [] -> view empty p = None) by (intros [|x p] Hp; [congruence|reflexivity]).
  constructor; try (intros; apply H; discriminate); [apply good_empty| |discriminate].
  intros n E. rewrite H in E by discriminate. discriminate.
Qed.


Lemma srel_frame_dict : forall t t' s x v, SRel t s -> Good t' -> flat t' -> same_but (sname x) t t' ->
  view t' [dN; sname x] = jleaf v -> SRel t' (with_dict x v s).
Proof.
  intros t t' s x v R G F S V. pose proof dN_aN as Hne. destruct R.
  constructor; cbn [dict typ has_imt_data comp known dset with_dict]; auto.
  - intro y. destruct (slot_eqb_spec x y) as [<-|Hxy]; [assumption|]. rewrite S; auto; try discriminate.
    intro E. injection E as E. apply Hxy. symmetry. apply sname_inj. assumption.
  - rewrite S; auto; try discriminate. intro E. injection E as E. symmetry in E. apply sname_ftype in E. contradiction.
  - rewrite S; auto; congruence.
  - intro c. rewrite S; auto; congruence.
  - intros c i. rewrite S; auto; congruence.
  - intros c i f. rewrite S; auto; congruence.
Qed.

Lemma srel_frame_type : forall t t' s d, SRel t s -> Good t' -> flat t' -> same_but ftype t t' ->
  view t' [dN; ftype] = jleaf (Some (type_dict d)) -> SRel t' (with_type d s).
Proof.
  intros t t' s d R G F S V. pose proof dN_aN as Hne. destruct R.
  constructor; cbn [dict typ has_imt_data comp known dset with_type]; auto.
  - intro y. rewrite S; auto; try discriminate. intro E. injection E as E. apply sname_ftype in E. contradiction.
  - rewrite S; auto; congruence.
  - intro c. rewrite S; auto; congruence.
  - intros c i. rewrite S; auto; congruence.
  - intros c i f. rewrite S; auto; congruence.
Qed.

Lemma jleaf_json : forall o v a, jleaf o = Some (ELeaf v a) -> exists j, v = PJson j.
Proof. intros [j|] v a H; [injection H as <- _; eauto|discriminate]. Qed.

Lemma replace_refines : forall t s x v, SRel t s ->
  exists t', replace_dict (sname x) v t = (fst (replace x v s), t') /\ SRel t' (snd (replace x v s)).
Proof.
  intros t s x v R. destruct (replace_dict_ok t (sname x) v (sr_good _ _ R) (sr_flat _ _ R) (sname_good x)) as (t' & E & G & F & S & V).
  exists t'. unfold replace. destruct (json_norm v) as [j|]; (split; [assumption|]); eapply srel_frame_dict; eauto.
Qed.

Lemma fetch_refines : forall t s x m, SRel t s -> fetch_dict (sname x) m t = (fetch x m s, t).
Proof.
  intros t s x m R. rewrite fetch_dict_ok; [|apply R|apply R|apply sname_good|].
  - rewrite (sr_dict _ _ R). unfold fetch, jleaf. destruct (dict s x); reflexivity.
  - intros v a. rewrite (sr_dict _ _ R). apply jleaf_json.
Qed.

Lemma rupture_refines : forall t s v, SRel t s ->
  exists t', set_rupture v t = (fst (if is_dict v then replace Rupture v s else (Err TypeError, with_dict Rupture None s)), t') /\
     SRel t' (snd (if is_dict v then replace Rupture v s else (Err TypeError, with_dict Rupture None s))).
Proof.
  intros t s v R.
  change (set_rupture v) with (l <- hb_names KDict ;; (if in_names (sname Rupture) l then hb_drop KDict [] (sname Rupture) else ret tt) ;;;
     (if negb (is_dict v) then raise TypeError else hb_set KDict [] (sname Rupture) (enc_json v))).
  destruct (is_dict v); cbn [negb].
  - exact (replace_refines t s Rupture v R).
  - destruct (drop_if t (sname Rupture) (sr_good _ _ R) (sr_flat _ _ R) (sname_good _)) as (l & t1 & El & E1 & G1 & F1 & S1 & V1).
    exists t1. unfold bnd at 1. rewrite El. unfold bnd. rewrite E1. split; [reflexivity|]. eapply srel_frame_dict; eauto.
Qed.

Lemma stations_refines : forall t s v, SRel t s ->
  exists t', set_stations v t = (fst (if is_dict v then replace Stations v s else (Err TypeError, s)), t') /\
     SRel t' (snd (if is_dict v then replace Stations v s else (Err TypeError, s))).
Proof.
  intros t s v R. unfold set_stations. destruct (is_dict v); cbn [negb].
  - exact (replace_refines t s Stations v R).
  - exists t. split; [reflexivity|assumption].
Qed.

Lemma type_of_type_dict : forall d, type_of_dict (type_dict d) = Ok (dtype_name d).
Proof. intros []; reflexivity. Qed.

Lemma get_type_ok : forall t s, SRel t s -> get_data_type t = (Ok (option_map dtype_name (typ s)), t).
Proof.
  intros t s R. destruct (dict_names t (sr_good _ _ R) (sr_flat _ _ R)) as (l & El & Hl). unfold get_data_type.
  unfold bnd at 1. rewrite El, Hl, (sr_type _ _ R). destruct (typ s) as [d|] eqn:Ed; [|reflexivity].
  cbn [option_map jleaf]. unfold bnd at 1.
  rewrite (get_dict t ftype (sr_good _ _ R) (sr_flat _ _ R) ftype_good (PJson (type_dict d)) []) by (rewrite (sr_type _ _ R), Ed; reflexivity).
  cbn [fst]. unfold bnd, lift. rewrite type_of_type_dict. reflexivity.
Qed.

Lemma type_dict_norm : forall d, json_norm (VDict [(KStr (str_of "type"), VStr (dtype_name d))]) = Some (type_dict d).
Proof. intros []; reflexivity. Qed.

Lemma with_type_same : forall t s d, SRel t s -> typ s = Some d -> SRel t (with_type d s).
Proof. intros t s d R E. destruct R. constructor; auto. cbn [typ with_type]. rewrite <- E. assumption. Qed.

Lemma dtype_eqb_spec : forall a b, Bool.reflect (a = b) (dtype_eqb a b).
Proof. intros [] []; constructor; congruence. Qed.

Lemma dtype_name_eqb : forall a b, str_eqb (dtype_name a) (dtype_name b) = dtype_eqb a b.
Proof. intros [] []; reflexivity. Qed.

Lemma set_type_refines : forall t s d, SRel t s ->
  exists t', set_data_type (dtype_name d) t = (if other_type d s then Err TypeError else Ok tt, t') /\
     (other_type d s = true -> t' = t) /\ SRel t' (if other_type d s then s else with_type d s).
Proof.
  intros t s d R. unfold set_data_type.
  replace (negb (str_eqb (dtype_name d) (str_of "points")) && negb (str_eqb (dtype_name d) (str_of "grid"))) with false by (destruct d; reflexivity).
  unfold bnd. rewrite (get_type_ok t s R). unfold other_type. destruct (typ s) as [d'|] eqn:Ed; cbn [option_map].
  - rewrite dtype_name_eqb. exists t. destruct (dtype_eqb_spec d' d) as [->|Hd]; cbn [negb].
    + replace (dtype_eqb d d) with true by (destruct d; reflexivity). cbn [negb].
      split; [reflexivity|]. split; [discriminate|]. apply with_type_same; assumption.
    + assert (Hdd : dtype_eqb d d' = false) by (destruct d, d'; try reflexivity; exfalso; apply Hd; reflexivity). rewrite Hdd. cbn [negb].
      split; [reflexivity|]. split; [reflexivity|assumption].
  - destruct (set_json_new t ftype (VDict [(KStr (str_of "type"), VStr (dtype_name d))]) (sr_good _ _ R) ftype_good) as (t' & E & G & S & V).
    + rewrite (sr_type _ _ R), Ed. reflexivity.
    + rewrite type_dict_norm in E, V. exists t'. split; [assumption|]. split; [discriminate|].
      eapply srel_frame_type; eauto. apply (flat_same t t' ftype); [apply R|assumption|]. rewrite V. discriminate.
Qed.

Lemma set_type_bad : forall t n, str_eqb n (dtype_name Points) = false -> str_eqb n (dtype_name Grid) = false ->
  set_data_type n t = (Err TypeError, t).
Proof. intros t n H1 H2. unfold set_data_type. cbn [dtype_name] in H1, H2. rewrite H1, H2. reflexivity. Qed.

(** ** Datasets *)
Lemma put_refines : forall t s c i f a meta z, SRel t s -> good_name c -> good_name i ->
  exists t', hb_set_array [imts; c; i] (fname f) a meta z t = (fst (put c i f a meta z s), t') /\ SRel t' (snd (put c i f a meta z s)).
Proof.
  intros t s c i f a meta z R Hc Hi.
  destruct (bstep_here (BSetArray [imts; c; i] (fname f) a meta z) t (sr_good _ _ R)) as (r & t' & Er & A & G' & V).
  { repeat constructor; try apply fname_good; try apply imts_good; try apply Hc; apply Hi. }
  cbn [bstep bspec bop_kind] in *. apply inv_unit in Er. fold aN in A, V. unfold bset in A, V.
  assert (B : blocked [] [aN; imts; c; i] (view t) = false).
  { cbn [blocked app]. rewrite (good_root t (sr_good _ _ R)).
    pose proof (agroup_cases t (sr_good _ _ R)) as Ha.
    destruct (view t [aN]) as [[v0 a0|]|]; [exfalso; eapply Ha; reflexivity| |];
      rewrite (sr_imts _ _ R), (sr_comp _ _ R), (sr_known _ _ R);
      destruct (has_imt_data s), (comp s c), (known s c i); reflexivity. }
  rewrite B in A, V. set (P := [aN; imts; c; i]) in *.
  change (P ++ [fname f]) with [aN; imts; c; i; fname f] in *.
  assert (Hleaf : with_groups P (view t) [aN; imts; c; i; fname f] = leaf_of (dset s c i f)).
  { unfold with_groups. destruct (is_prefix [aN; imts; c; i; fname f] P) eqn:E.
    - apply is_prefix_true in E as (r' & Hr). discriminate.
    - apply (sr_dset _ _ R). }
  rewrite Hleaf in A, V.
  assert (Hw : forall t1, Good t1 -> (forall q, view t1 q = with_groups P (view t) q) -> SRel t1 (with_imt c i s)).
  { intros t1 G1 V1. pose proof dN_aN as Hne. destruct R.
    assert (Hd : forall q, view t1 (dN :: q) = view t (dN :: q)).
    { intro q. rewrite V1. unfold with_groups. destruct (is_prefix (dN :: q) P) eqn:E; [|reflexivity].
      apply is_prefix_true in E as (r' & Hr). unfold P in Hr. injection Hr as Hr _. congruence. }
    constructor; cbn [dict typ has_imt_data comp known dset with_imt]; auto.
    - intro x. rewrite Hd. apply sr_dict0.
    - rewrite Hd. assumption.
    - intros n. rewrite Hd. apply sr_flat0.
    - rewrite V1. unfold with_groups, P, is_prefix. cbn [strip]. rewrite !str_eqb_refl. reflexivity.
    - intro c'. rewrite V1. unfold with_groups, P, is_prefix. cbn [strip]. rewrite !str_eqb_refl.
      destruct (str_eqb_spec c c') as [<-|Hcc]; [rewrite str_eqb_refl; reflexivity|].
      destruct (str_eqb_spec c' c) as [<-|_]; [congruence|]. cbn [orb]. apply sr_comp0.
    - intros c' i'. rewrite V1. unfold with_groups, P, is_prefix. cbn [strip]. rewrite !str_eqb_refl.
      destruct (str_eqb_spec c c') as [<-|Hcc].
      + rewrite str_eqb_refl. destruct (str_eqb_spec i i') as [<-|Hii]; [rewrite str_eqb_refl; reflexivity|].
        destruct (str_eqb_spec i' i) as [<-|_]; [congruence|]. apply sr_known0.
      + destruct (str_eqb_spec c' c) as [<-|_]; [congruence|]. apply sr_known0.
    - intros c' i' f'. rewrite V1. unfold with_groups. destruct (is_prefix [aN; imts; c'; i'; fname f'] P) eqn:E.
      + apply is_prefix_true in E as (r' & Hr). discriminate.
      + apply sr_dset0.
    - intros c' Hc'. apply orb_true_iff in Hc' as [Hc'|Hc']; [apply str_eqb_eq in Hc'; congruence|auto]. }
  unfold put. destruct (dset s c i f) as [[v0 a0]|] eqn:Ed; cbn [leaf_of option_map] in A, V.
  - exists t'. destruct (enc_arr a z) as [v|e]; cbn [fst snd] in *;
      (split; [rewrite Er; destruct r as [[]|]; simpl in A; try contradiction; subst; reflexivity|]; apply Hw; assumption).
  - destruct (enc_arr a z) as [v|e]; cbn [fst snd] in *.
    + exists t'. destruct (meta_written meta []) as [w ok]. cbn [fst snd] in *. split.
      { rewrite Er. destruct ok; destruct r as [[]|]; simpl in A; try contradiction; subst; reflexivity. }
      (* leaf added *)
      assert (V' : forall q, q <> [aN; imts; c; i; fname f] -> view t' q = with_groups P (view t) q).
      { intros q Hq. rewrite V. unfold with_leaf. destruct (is_prefix _ q && _) eqn:E; [apply prefix_both in E; congruence|reflexivity]. }
      assert (Vl : view t' [aN; imts; c; i; fname f] = Some (ELeaf v w)).
      { rewrite V. unfold with_leaf. rewrite is_prefix_refl. reflexivity. }
      pose proof dN_aN as Hne. destruct R.
      assert (Hd : forall q, view t' (dN :: q) = view t (dN :: q)).
      { intro q. rewrite V' by congruence. unfold with_groups. destruct (is_prefix (dN :: q) P) eqn:E; [|reflexivity].
        apply is_prefix_true in E as (r' & Hr). unfold P in Hr. injection Hr as Hr _. congruence. }
      constructor; cbn [dict typ has_imt_data comp known dset with_imt with_dset]; auto.
      * intro x. rewrite Hd. apply sr_dict0.
      * rewrite Hd. assumption.
      * intros n. rewrite Hd. apply sr_flat0.
      * rewrite V' by discriminate. unfold with_groups, P, is_prefix. cbn [strip]. rewrite !str_eqb_refl. reflexivity.
      * intro c'. rewrite V' by discriminate. unfold with_groups, P, is_prefix. cbn [strip]. rewrite !str_eqb_refl.
        destruct (str_eqb_spec c c') as [<-|Hcc]; [rewrite str_eqb_refl; reflexivity|].
        destruct (str_eqb_spec c' c) as [<-|_]; [congruence|]. cbn [orb]. apply sr_comp0.
      * intros c' i'. rewrite V' by discriminate. unfold with_groups, P, is_prefix. cbn [strip]. rewrite !str_eqb_refl.
        destruct (str_eqb_spec c c') as [<-|Hcc].
        -- rewrite str_eqb_refl. destruct (str_eqb_spec i i') as [<-|Hii]; [rewrite str_eqb_refl; reflexivity|].
           destruct (str_eqb_spec i' i) as [<-|_]; [congruence|]. apply sr_known0.
        -- destruct (str_eqb_spec c' c) as [<-|_]; [congruence|]. apply sr_known0.
      * intros c' i' f'. destruct (str_eqb c c' && str_eqb i i' && field_eqb f f') eqn:E.
        -- apply andb_true_iff in E as [E E3]. apply andb_true_iff in E as [E1 E2]. apply str_eqb_eq in E1, E2.
           destruct (field_eqb_spec f f') as [<-|]; [|discriminate]. subst c' i'. exact Vl.
        -- rewrite V'.
           ++ unfold with_groups. destruct (is_prefix [aN; imts; c'; i'; fname f'] P) eqn:E2; [|apply sr_dset0].
              apply is_prefix_true in E2 as (r' & Hr). discriminate.
           ++ intro Hq. injection Hq as -> -> Hf. apply fname_inj in Hf. subst f'. rewrite !str_eqb_refl in E.
              destruct f; discriminate.
      * intros c' Hc'. apply orb_true_iff in Hc' as [Hc'|Hc']; [apply str_eqb_eq in Hc'; congruence|auto].
    + exists t'. split; [rewrite Er; destruct r as [[]|]; simpl in A; try contradiction; subst; reflexivity|]. apply Hw; assumption.
Qed.

(** Reading needs no change of file. *)
Lemma read_refines : forall t s c i f, SRel t s -> good_name c -> good_name i ->
  hb_get KArray [imts; c; i] (fname f) t = (read c i f s, t).
Proof.
  intros t s c i f R Hc Hi.
  assert (Hall : Forall good_name [imts; c; i]) by (repeat constructor; try apply imts_good; try apply Hc; apply Hi).
  unfold hb_get, bnd. rewrite get_group_spec by (try assumption; apply (sr_good _ _ R)). fold aN.
  unfold read.
  assert (Hst : group_status [] [aN; imts; c; i] (view t) = if known s c i then Ok tt else Err LookupError).
  { cbn [group_status app]. rewrite (good_root t (sr_good _ _ R)).
    pose proof (agroup_cases t (sr_good _ _ R)) as Ha.
    destruct (known s c i) eqn:Ek.
    - pose proof (sr_known _ _ R c i) as Hk. rewrite Ek in Hk. cbn [gflag] in Hk.
      change [aN; imts; c; i] with ([aN] ++ imts :: [c; i]) in Hk. rewrite (view_below _ _ _ _ _ Hk).
      change ([aN] ++ imts :: [c; i]) with ([aN; imts] ++ c :: [i]) in Hk. rewrite (view_below _ _ _ _ _ Hk).
      change ([aN; imts] ++ c :: [i]) with ([aN; imts; c] ++ i :: []) in Hk. rewrite (view_below _ _ _ _ _ Hk).
      change ([aN; imts; c] ++ i :: []) with [aN; imts; c; i] in Hk. rewrite Hk. reflexivity.
    - rewrite (sr_imts _ _ R), (sr_comp _ _ R), (sr_known _ _ R), Ek.
      destruct (view t [aN]) as [[v0 a0|]|]; [exfalso; eapply Ha; reflexivity| |reflexivity].
      destruct (has_imt_data s), (comp s c); reflexivity. }
  rewrite Hst. pose proof (sr_dset _ _ R c i f) as Hl. destruct (known s c i) eqn:Ek.
  - rewrite h_in_spec by apply fname_good. change ([aN; imts; c; i] ++ [fname f]) with [aN; imts; c; i; fname f].
    rewrite Hl. destruct (dset s c i f) as [[v a]|]; cbn [leaf_of option_map negb fst snd] in *; [|reflexivity].
    rewrite (h_get_some t [aN; imts; c; i] (fname f) (ELeaf v a)) by (try apply fname_good; assumption).
    rewrite h_read_spec. change ([aN; imts; c; i] ++ [fname f]) with [aN; imts; c; i; fname f]. rewrite Hl. reflexivity.
  - destruct (dset s c i f) as [[v a]|]; [|reflexivity]. exfalso. cbn [leaf_of option_map] in Hl.
    change [aN; imts; c; i; fname f] with ([aN; imts; c; i] ++ fname f :: []) in Hl. apply view_below in Hl.
    rewrite (sr_known _ _ R), Ek in Hl. discriminate.
Qed.

Lemma has_imts_ok : forall t s, SRel t s -> has_imts t = (Ok (has_imt_data s), t).
Proof.
  intros t s R. unfold has_imts. pose proof (sr_imts _ _ R) as H. fold aN in H. unfold imts_path. fold aN.
  destruct (has_imt_data s); cbn [gflag] in H.
  - apply view_group in H as (cs & ->). reflexivity.
  - apply view_none in H. rewrite H. reflexivity.
Qed.

Lemma known_comp : forall t s c i, SRel t s -> known s c i = true -> comp s c = true /\ has_imt_data s = true.
Proof.
  intros t s c i R H. pose proof (sr_known _ _ R c i) as Hk. rewrite H in Hk. cbn [gflag] in Hk. split.
  - change [aN; imts; c; i] with ([aN; imts; c] ++ i :: []) in Hk. apply view_below in Hk.
    rewrite (sr_comp _ _ R) in Hk. destruct (comp s c); [reflexivity|discriminate].
  - change [aN; imts; c; i] with ([aN; imts] ++ c :: [i]) in Hk. apply view_below in Hk.
    rewrite (sr_imts _ _ R) in Hk. destruct (has_imt_data s); [reflexivity|discriminate].
Qed.
Lemma comp_has : forall t s c, SRel t s -> comp s c = true -> has_imt_data s = true.
Proof.
  intros t s c R H. pose proof (sr_comp _ _ R c) as Hk. rewrite H in Hk. cbn [gflag] in Hk.
  change [aN; imts; c] with ([aN; imts] ++ c :: []) in Hk. apply view_below in Hk.
  rewrite (sr_imts _ _ R) in Hk. destruct (has_imt_data s); [reflexivity|discriminate].
Qed.

Lemma keys_imts : forall t s, SRel t s -> has_imt_data s = true ->
  exists l, h_keys imts_path t = (Ok l, t) /\ NoDup l /\ forall c, In c l <-> comp s c = true.
Proof.
  intros t s R H. destruct (h_keys_spec t imts_path (good_wf _ (sr_good _ _ R))) as (l & E & N & Hl).
  - pose proof (sr_imts _ _ R) as Hv. rewrite H in Hv. exact Hv.
  - exists l. split; [assumption|]. split; [assumption|]. intro c. rewrite Hl. unfold imts_path. fold aN.
    change ([aN; imts] ++ [c]) with [aN; imts; c]. rewrite (sr_comp _ _ R). destruct (comp s c); simpl; split; congruence.
Qed.

Lemma keys_comp : forall t s c, SRel t s -> comp s c = true ->
  exists l, h_keys (imts_path ++ [c]) t = (Ok l, t) /\ NoDup l /\ forall i, In i l <-> known s c i = true.
Proof.
  intros t s c R H. destruct (h_keys_spec t (imts_path ++ [c]) (good_wf _ (sr_good _ _ R))) as (l & E & N & Hl).
  - pose proof (sr_comp _ _ R c) as Hv. rewrite H in Hv. exact Hv.
  - exists l. split; [assumption|]. split; [assumption|]. intro i. rewrite Hl. unfold imts_path. fold aN.
    change (([aN; imts] ++ [c]) ++ [i]) with [aN; imts; c; i]. rewrite (sr_known _ _ R). destruct (known s c i); simpl; split; congruence.
Qed.

Lemma get_comp : forall t s c, SRel t s -> good_name c ->
  h_get imts_path c t = (if comp s c then Ok (imts_path ++ [c]) else Err KeyError, t).
Proof.
  intros t s c R Hc. pose proof (sr_comp _ _ R c) as H. unfold imts_path in *. fold aN in *. destruct (comp s c); cbn [gflag] in H.
  - rewrite (h_get_some t [aN; imts] c EGroup) by assumption. reflexivity.
  - rewrite h_get_none by assumption. reflexivity.
Qed.

Lemma all_components_ok : forall t s, SRel t s ->
  exists l, all_components t = (Ok l, t) /\ NoDup l /\ forall c, In c l <-> comp s c = true.
Proof.
  intros t s R. unfold all_components, bnd. rewrite (has_imts_ok t s R). destruct (has_imt_data s) eqn:H; cbn [negb].
  - apply keys_imts; assumption.
  - exists []. split; [reflexivity|]. split; [constructor|]. intro c. split; [intros []|]. intro Hc.
    rewrite (comp_has t s c R Hc) in H. discriminate.
Qed.

Lemma get_imts_ok : forall t s c, SRel t s -> good_name c ->
  if negb (has_imt_data s) then get_imts c t = (Ok [], t) else
  if comp s c then exists l, get_imts c t = (Ok l, t) /\ NoDup l /\ forall i, In i l <-> known s c i = true
  else get_imts c t = (Err KeyError, t).
Proof.
  intros t s c R Hc.
  assert (E : get_imts c t = (if negb (has_imt_data s) then ret [] else (g <- h_get imts_path c ;; h_keys g)) t).
  { unfold get_imts. unfold bnd at 1. rewrite (has_imts_ok t s R). reflexivity. }
  rewrite E. clear E. destruct (has_imt_data s) eqn:H; cbn [negb]; [|reflexivity].
  assert (E : (g <- h_get imts_path c ;; h_keys g) t = if comp s c then h_keys (imts_path ++ [c]) t else (Err KeyError, t)).
  { unfold bnd. rewrite (get_comp t s c R Hc). destruct (comp s c); reflexivity. }
  rewrite E. destruct (comp s c) eqn:Ec; [|reflexivity]. apply keys_comp; assumption.
Qed.

Lemma collect_ok : forall t s, SRel t s -> forall cs, NoDup cs -> (forall c, In c cs -> comp s c = true) ->
  exists ps, collect_imts cs t = (Ok (map (fun p => fst p ++ slash :: snd p) ps), t) /\ NoDup ps /\
    forall c i, In (c, i) ps <-> In c cs /\ known s c i = true.
Proof.
  intros t s R. induction cs as [|c cs IH]; intros N H.
  - exists []. split; [reflexivity|]. split; [constructor|]. intros c i. simpl. tauto.
  - inversion N as [|? ? Hc N']; subst. destruct IH as (ps & E & Np & Hp); [assumption|intros; apply H; right; assumption|].
    assert (Ec : comp s c = true) by (apply H; left; reflexivity).
    destruct (keys_comp t s c R Ec) as (l & El & Nl & Hl).
    exists (map (fun i => (c, i)) l ++ ps). cbn [collect_imts]. unfold bnd.
    rewrite (get_comp t s c R (sr_names _ _ R c Ec)), Ec, El, E. split; [|split].
    + rewrite map_app, map_map. reflexivity.
    + assert (Nm : NoDup (map (fun i => (c, i)) l)) by (apply Injective_map_NoDup; [intros a b Hab; congruence|assumption]).
      clear - Hp Hc Nm Np.
      assert (Hd : forall p, In p (map (fun i => (c, i)) l) -> ~ In p ps).
      { intros p Hin Hps. apply in_map_iff in Hin as (i & <- & _). apply Hp in Hps as [Hcs _]. contradiction. }
      assert (NoDup ps -> NoDup (map (fun i : str => (c, i)) l ++ ps)) as Hok.
      { revert Nm Hd. generalize (map (fun i : str => (c, i)) l) as l1. induction l1 as [|x l1 IHl]; intros Nm Hd Nps; [assumption|].
        inversion Nm; subst. cbn [app]. constructor.
        - rewrite in_app_iff. intros [Hx|Hx]; [contradiction|]. apply (Hd x); [left; reflexivity|assumption].
        - apply IHl; auto. intros p Hin. apply Hd. right. assumption. }
      auto.
    + intros c' i'. rewrite in_app_iff, in_map_iff, Hp. split.
      * intros [(i & Ei & Hi)|[H1 H2]].
        -- injection Ei as <- <-. split; [left; reflexivity|apply Hl; assumption].
        -- split; [right; assumption|assumption].
      * intros [[<-|Hin] Hk]; [left; exists i'; split; [reflexivity|apply Hl; assumption]|right; auto].
Qed.

Lemma get_all_imts_ok : forall t s, SRel t s ->
  exists ps, get_all_imts t = (Ok (map (fun p => fst p ++ slash :: snd p) ps), t) /\ NoDup ps /\
    forall c i, In (c, i) ps <-> known s c i = true.
Proof.
  intros t s R. unfold get_all_imts. unfold bnd at 1. rewrite (has_imts_ok t s R). destruct (has_imt_data s) eqn:H; cbn [negb].
  - destruct (keys_imts t s R H) as (l & El & N & Hl). destruct (collect_ok t s R l N) as (ps & E & Np & Hp); [intros; apply Hl; assumption|].
    exists ps. unfold bnd. rewrite El. split; [assumption|]. split; [assumption|]. intros c i. rewrite Hp, Hl. split; [tauto|].
    intro Hk. split; [eapply known_comp; eassumption|assumption].
  - exists []. split; [reflexivity|]. split; [constructor|]. intros c i. split; [intros []|]. intro Hk.
    destruct (known_comp t s c i R Hk). congruence.
Qed.

Lemma filter_components_ok : forall t s i, SRel t s -> good_name i -> forall cs, (forall c, In c cs -> comp s c = true) ->
  filter_components i cs t = (Ok (filter (fun c => known s c i) cs), t).
Proof.
  intros t s i R Hi. induction cs as [|c cs IH]; intros H; [reflexivity|].
  assert (Ec : comp s c = true) by (apply H; left; reflexivity).
  cbn [filter_components]. unfold bnd. rewrite (get_comp t s c R (sr_names _ _ R c Ec)), Ec.
  rewrite h_in_spec by assumption. unfold imts_path. fold aN. change (([aN; imts] ++ [c]) ++ [i]) with [aN; imts; c; i].
  rewrite (sr_known _ _ R). rewrite IH by (intros; apply H; right; assumption). cbn [filter].
  destruct (known s c i); reflexivity.
Qed.

Lemma get_components_ok : forall t s i, SRel t s -> good_name i ->
  exists l, get_components i t = (Ok l, t) /\ NoDup l /\ forall c, In c l <-> known s c i = true.
Proof.
  intros t s i R Hi. unfold get_components. unfold bnd at 1. rewrite (has_imts_ok t s R). destruct (has_imt_data s) eqn:H; cbn [negb].
  - destruct (all_components_ok t s R) as (l & El & N & Hl). exists (filter (fun c => known s c i) l).
    unfold bnd. rewrite El. rewrite (filter_components_ok t s i R Hi) by (intros; apply Hl; assumption).
    split; [reflexivity|]. split; [apply NoDup_filter; assumption|]. intro c. rewrite filter_In, Hl. split; [tauto|].
    intro Hk. split; [eapply known_comp; eassumption|assumption].
  - exists []. split; [reflexivity|]. split; [constructor|]. intros c. split; [intros []|]. intro Hk.
    destruct (known_comp t s c i R Hk). congruence.
Qed.

Lemma good_del : forall t t' p s, Good t -> (wf t -> wf t') ->
  (forall q, view t' q = if is_prefix (p ++ [s]) q then None else view t q) -> Good t'.
Proof.
  intros t t' p s G W V. destruct G. constructor; auto.
  - rewrite V. destruct (is_prefix _ []) eqn:Ep; [|assumption]. apply is_prefix_true in Ep as (r & Hr). destruct p; discriminate.
  - intros k' q v a. rewrite V. destruct (is_prefix _ _); [discriminate|apply good_typed].
Qed.

Lemma drop_from_ok : forall i, good_name i -> forall cs t, Good t -> NoDup cs ->
  (forall c, In c cs -> good_name c /\ view t [aN; imts; c; i] = Some EGroup) ->
  exists t', drop_from i cs t = (Ok tt, t') /\ Good t' /\
    forall q, view t' q = if existsb (fun c => is_prefix [aN; imts; c; i] q) cs then None else view t q.
Proof.
  intros i Hi. induction cs as [|c cs IH]; intros t G N H.
  - exists t. split; [reflexivity|]. split; [assumption|]. reflexivity.
  - inversion N as [|? ? Hnc N']; subst. destruct (H c (or_introl eq_refl)) as [Hc Hv].
    assert (Hvc : view t ([aN; imts] ++ [c]) = Some EGroup).
    { change [aN; imts; c; i] with (([aN; imts] ++ [c]) ++ i :: []) in Hv. apply view_below in Hv. assumption. }
    destruct (h_del_some t ([aN; imts] ++ [c]) i EGroup Hi Hv) as (t1 & E1 & W1 & V1).
    assert (G1 : Good t1) by (eapply good_del; eassumption).
    change (([aN; imts] ++ [c]) ++ [i]) with [aN; imts; c; i] in V1.
    destruct (IH t1 G1 N') as (t2 & E2 & G2 & V2).
    { intros c' Hc'. destruct (H c' (or_intror Hc')) as [Hgc Hvc']. split; [assumption|]. rewrite V1.
      destruct (is_prefix [aN; imts; c; i] [aN; imts; c'; i]) eqn:E; [|assumption].
      apply is_prefix_true in E as (r & Hr). injection Hr as Hr _. congruence. }
    exists t2. cbn [drop_from]. unfold bnd. unfold imts_path. fold aN. rewrite (h_get_some t [aN; imts] c EGroup) by assumption.
    rewrite E1, E2. split; [reflexivity|]. split; [assumption|]. intro q. rewrite V2, V1. cbn [existsb].
    destruct (is_prefix [aN; imts; c; i] q); destruct (existsb _ cs); reflexivity.
Qed.

Lemma drop_imt_ok : forall t s i, SRel t s -> good_name i ->
  exists t', drop_imt i t = (if has_imt_data s then Ok tt else Err LookupError, t') /\
    SRel t' (if has_imt_data s then without_imt i s else s).
Proof.
  intros t s i R Hi. unfold drop_imt. unfold bnd at 1. rewrite (has_imts_ok t s R). destruct (has_imt_data s) eqn:H; cbn [negb].
  2:{ exists t. split; [reflexivity|assumption]. }
  destruct (get_components_ok t s i R Hi) as (l & El & N & Hl).
  destruct (drop_from_ok i Hi l t (sr_good _ _ R) N) as (t' & E & G & V).
  { intros c Hc. apply Hl in Hc. split; [apply (sr_names _ _ R); eapply known_comp; eassumption|].
    rewrite (sr_known _ _ R), Hc. reflexivity. }
  exists t'. unfold bnd. rewrite El, E. split; [reflexivity|].
  pose proof dN_aN as Hne.
  assert (Vsame : forall q, (forall c r, q <> aN :: imts :: c :: i :: r) -> view t' q = view t q).
  { intros q Hq. rewrite V. destruct (existsb _ l) eqn:Ee; [|reflexivity].
    apply existsb_exists in Ee as (c & _ & Hp). apply is_prefix_true in Hp as (r & ->). exfalso. apply (Hq c r). reflexivity. }
  assert (Vgone : forall c r, view t' (aN :: imts :: c :: i :: r) = None).
  { intros c r. rewrite V. destruct (existsb _ l) eqn:Ee; [reflexivity|].
    assert (Hk : known s c i = false).
    { destruct (known s c i) eqn:Ek; [|reflexivity]. apply Hl in Ek.
      assert (existsb (fun c0 => is_prefix [aN; imts; c0; i] (aN :: imts :: c :: i :: r)) l = true); [|congruence].
      apply existsb_exists. exists c. split; [assumption|]. apply is_prefix_true. exists r. reflexivity. }
    change (aN :: imts :: c :: i :: r) with ([aN; imts; c; i] ++ r). apply view_below_none. rewrite (sr_known _ _ R), Hk. reflexivity. }
  destruct R. constructor; cbn [dict typ has_imt_data comp known dset without_imt]; auto.
  - intro x. rewrite Vsame by congruence. apply sr_dict0.
  - rewrite Vsame by congruence. assumption.
  - intro n. rewrite Vsame by congruence. apply sr_flat0.
  - rewrite Vsame by congruence. assumption.
  - intro c. rewrite Vsame by congruence. apply sr_comp0.
  - intros c i'. destruct (str_eqb_spec i i') as [<-|Hii]; [apply Vgone|]. rewrite Vsame by congruence. apply sr_known0.
  - intros c i' f. destruct (str_eqb_spec i i') as [<-|Hii]; [apply Vgone|]. rewrite Vsame by congruence. apply sr_dset0.
Qed.

Lemma shape_eqb_spec : forall a b, shape_eqb a b = if list_eq_dec Z.eq_dec a b then true else false.
Proof.
  intros a b. destruct (list_eq_dec Z.eq_dec a b) as [<-|Hne].
  - induction a as [|x a IH]; [reflexivity|]. cbn [shape_eqb]. rewrite Z.eqb_refl, IH. reflexivity.
  - revert b Hne. induction a as [|x a IH]; intros [|y b] Hne; try reflexivity; [congruence|]. cbn [shape_eqb].
    destruct (Z.eqb_spec x y) as [<-|]; [|reflexivity]. cbn [andb]. apply IH. congruence.
Qed.

Lemma smstep_refines : forall o t s, SRel t s -> smgood o ->
  exists r t', smstep o t = (r, t') /\ smagree r (fst (smspec o s)) /\ SRel t' (snd (smspec o s)).
Proof.
  assert (Huni : forall (m : io unit) t t' r s', m t = (fst (r : res unit * sm), t') -> SRel t' (snd r) -> s' = unit_res r ->
     exists r0 t0, (m ;;; ret SUnit) t = (r0, t0) /\ smagree r0 (fst s') /\ SRel t0 (snd s')).
  { intros m t t' [r s0] s' E R ->. unfold bnd. rewrite E. cbn [fst snd unit_res] in *. destruct r as [[]|e].
    - exists (Ok SUnit), t'. split; [reflexivity|]. split; [exact I|assumption].
    - exists (Err e), t'. split; [reflexivity|]. split; [reflexivity|assumption]. }
  assert (Hrep : forall x v t s, SRel t s -> exists r0 t0, (replace_dict (sname x) v ;;; ret SUnit) t = (r0, t0) /\
      smagree r0 (fst (unit_res (replace x v s))) /\ SRel t0 (snd (unit_res (replace x v s)))).
  { intros x v t s R. destruct (replace_refines t s x v R) as (t' & E & R'). eapply Huni; [eassumption|assumption|reflexivity]. }
  assert (Hfet : forall x m t s, SRel t s -> exists r0 t0, (v <- fetch_dict (sname x) m ;; ret (SVal v)) t = (r0, t0) /\
      smagree r0 (fst (res_map TVal (fetch x m s), s)) /\ SRel t0 (snd (res_map TVal (fetch x m s), s))).
  { intros x m t s R. unfold bnd. rewrite (fetch_refines t s x m R). destruct (fetch x m s) as [v|e].
    - exists (Ok (SVal v)), t. split; [reflexivity|]. split; [reflexivity|assumption].
    - exists (Err e), t. split; [reflexivity|]. split; [reflexivity|assumption]. }
  intros o t s R Hg. destruct o; cbn [smgood smstep smspec] in *.
  - exact (Hrep Config v t s R).
  - exact (Hfet Config (Err AttributeError) t s R).
  - destruct (rupture_refines t s v R) as (t' & E & R'). eapply Huni; [eassumption|assumption|].
    destruct (is_dict v); reflexivity.
  - exact (Hfet Rupture (Err AttributeError) t s R).
  - destruct (stations_refines t s v R) as (t' & E & R'). eapply Huni; [eassumption|assumption|].
    destruct (is_dict v); reflexivity.
  - exact (Hfet Stations (Err AttributeError) t s R).
  - exact (Hrep History v t s R).
  - exact (Hfet History (Ok (VDict [])) t s R).
  - exact (Hrep Info v t s R).
  - exact (Hfet Info (Err LookupError) t s R).
  - destruct (str_eqb_spec s0 (dtype_name Points)) as [->|H1]; [|destruct (str_eqb_spec s0 (dtype_name Grid)) as [->|H2]].
    + destruct (set_type_refines t s Points R) as (t' & E & _ & R'). unfold bnd. rewrite E.
      destruct (other_type Points s); [exists (Err TypeError), t'|exists (Ok SUnit), t']; (split; [reflexivity|]; split; [simpl; auto|assumption]).
    + destruct (set_type_refines t s Grid R) as (t' & E & _ & R'). unfold bnd. rewrite E.
      destruct (other_type Grid s); [exists (Err TypeError), t'|exists (Ok SUnit), t']; (split; [reflexivity|]; split; [simpl; auto|assumption]).
    + unfold bnd. rewrite set_type_bad by (apply str_eqb_neq; assumption).
      exists (Err TypeError), t. split; [reflexivity|]. split; [reflexivity|assumption].
  - unfold bnd. rewrite (get_type_ok t s R). exists (Ok (SType (option_map dtype_name (typ s)))), t.
    split; [reflexivity|]. split; [reflexivity|assumption].
  - (* setIMTGrids *)
    destruct Hg as [Hi Hc]. destruct (set_type_refines t s Grid R) as (t1 & E1 & Ht1 & R1).
    assert (Ep : forall x, is_type (option_map dtype_name x) "points" = match x with Some Points => true | _ => false end) by (intros [[]|]; reflexivity).
    destruct (other_type Grid s) eqn:Eo.
    + exists (Err TypeError), t. split; [|split; [reflexivity|assumption]].
      unfold set_imt_grids, bnd. rewrite (get_type_ok t s R), Ep. unfold other_type in Eo.
      destruct (typ s) as [[]|]; try discriminate. reflexivity.
    + destruct (put_refines t1 (with_type Grid s) component imt FMean mean mean_meta true R1 Hc Hi) as (t2 & E2 & R2).
      assert (Eq : set_imt_grids imt mean mean_meta std std_meta component compression t =
        (hb_set_array [imts; component; imt] (fname FMean) mean mean_meta true ;;;
         hb_set_array [imts; component; imt] (fname FStd) std std_meta true) t1).
      { unfold set_imt_grids. unfold bnd at 1. rewrite (get_type_ok t s R), Ep.
        replace (match typ s with Some Points => true | _ => false end) with false
          by (unfold other_type in Eo; destruct (typ s) as [[]|]; try discriminate; reflexivity).
        unfold bnd at 1. change (str_of "grid") with (dtype_name Grid). rewrite E1. reflexivity. }
      destruct (put component imt FMean mean mean_meta true (with_type Grid s)) as [[u|e] s2]; cbn [fst snd andthen] in *.
      * destruct (put_refines t2 s2 component imt FStd std std_meta true R2 Hc Hi) as (t3 & E3 & R3).
        eapply Huni; [|exact R3|reflexivity]. rewrite Eq. unfold bnd. rewrite E2. exact E3.
      * eapply (Huni _ _ t2 (Err e, s2)); [|exact R2|reflexivity]. rewrite Eq. unfold bnd. rewrite E2. reflexivity.
  - (* getIMTGrids *)
    destruct Hg as [Hi Hc]. unfold get_imt_grids, bnd. rewrite (get_type_ok t s R).
    destruct (typ s) as [[]|]; cbn [option_map];
      try (exists (Err TypeError), t; split; [reflexivity|]; split; [reflexivity|assumption]).
    change (is_type (Some (dtype_name Grid)) "grid") with true. cbn [negb].
    change (str_of "mean") with (fname FMean). change (str_of "std") with (fname FStd).
    rewrite (read_refines t s component imt FMean R Hc Hi), (read_refines t s component imt FStd R Hc Hi).
    destruct (read component imt FMean s) as [m|e]; cbn [bind fst snd].
    2:{ exists (Err e), t. split; [reflexivity|]. split; [reflexivity|assumption]. }
    destruct (read component imt FStd s) as [d|e]; cbn [bind fst snd].
    + eexists _, t. split; [reflexivity|]. split; [split; reflexivity|assumption].
    + exists (Err e), t. split; [reflexivity|]. split; [reflexivity|assumption].
  - (* setIMTArrays *)
    destruct Hg as [Hi Hc]. destruct (set_type_refines t s Points R) as (t1 & E1 & Ht1 & R1).
    assert (Ep : forall x, is_type (option_map dtype_name x) "grid" = match x with Some Grid => true | _ => false end) by (intros [[]|]; reflexivity).
    destruct (other_type Points s) eqn:Eo.
    + exists (Err TypeError), t. split; [|split; [reflexivity|assumption]].
      unfold set_imt_arrays, bnd. rewrite (get_type_ok t s R), Ep. unfold other_type in Eo.
      destruct (typ s) as [[]|]; try discriminate. reflexivity.
    + set (ok := same_shape lons lats && same_shape lons ids && same_shape lons mean && same_shape lons std).
      set (G := [imts; component; imt]).
      assert (Eq : set_imt_arrays imt lons lats ids mean mean_meta std std_meta component compression t =
        (if ok then hb_set_array G (fname FLons) lons [] compression ;;; hb_set_array G (fname FLats) lats [] compression ;;;
           hb_set_array G (fname FIds) ids [] compression ;;; hb_set_array G (fname FMean) mean mean_meta compression ;;;
           hb_set_array G (fname FStd) std std_meta compression else raise ValueError) t1).
      { unfold set_imt_arrays. unfold bnd at 1. rewrite (get_type_ok t s R), Ep.
        replace (match typ s with Some Grid => true | _ => false end) with false
          by (unfold other_type in Eo; destruct (typ s) as [[]|]; try discriminate; reflexivity).
        unfold bnd at 1. change (str_of "points") with (dtype_name Points). rewrite E1.
        rewrite !shape_eqb_spec. unfold ok, same_shape.
        repeat match goal with |- context [if list_eq_dec ?d ?a ?b then _ else _] => destruct (list_eq_dec d a b) end; reflexivity. }
      destruct ok eqn:Eok.
      2:{ exists (Err ValueError), t1. split; [|split; [reflexivity|exact R1]]. unfold bnd. rewrite Eq. reflexivity. }
      destruct (put_refines t1 (with_type Points s) component imt FLons lons [] compression R1 Hc Hi) as (t2 & E2 & R2).
      destruct (put component imt FLons lons [] compression (with_type Points s)) as [[u|e] s2]; cbn [fst snd andthen] in *;
        [|eapply (Huni _ _ t2 (Err e, s2)); [|exact R2|reflexivity]; rewrite Eq; unfold bnd; unfold G; rewrite E2; reflexivity].
      destruct (put_refines t2 s2 component imt FLats lats [] compression R2 Hc Hi) as (t3 & E3 & R3).
      destruct (put component imt FLats lats [] compression s2) as [[u3|e] s3]; cbn [fst snd andthen] in *;
        [|eapply (Huni _ _ t3 (Err e, s3)); [|exact R3|reflexivity]; rewrite Eq; unfold bnd; unfold G; rewrite E2, E3; reflexivity].
      destruct (put_refines t3 s3 component imt FIds ids [] compression R3 Hc Hi) as (t4 & E4 & R4).
      destruct (put component imt FIds ids [] compression s3) as [[u4|e] s4]; cbn [fst snd andthen] in *;
        [|eapply (Huni _ _ t4 (Err e, s4)); [|exact R4|reflexivity]; rewrite Eq; unfold bnd; unfold G; rewrite E2, E3, E4; reflexivity].
      destruct (put_refines t4 s4 component imt FMean mean mean_meta compression R4 Hc Hi) as (t5 & E5 & R5).
      destruct (put component imt FMean mean mean_meta compression s4) as [[u5|e] s5]; cbn [fst snd andthen] in *;
        [|eapply (Huni _ _ t5 (Err e, s5)); [|exact R5|reflexivity]; rewrite Eq; unfold bnd; unfold G; rewrite E2, E3, E4, E5; reflexivity].
      destruct (put_refines t5 s5 component imt FStd std std_meta compression R5 Hc Hi) as (t6 & E6 & R6).
      eapply Huni; [|exact R6|reflexivity]. rewrite Eq. unfold bnd. unfold G. rewrite E2, E3, E4, E5. exact E6.
  - (* getIMTArrays *)
    destruct Hg as [Hi Hc]. unfold get_imt_arrays, bnd. rewrite (get_type_ok t s R).
    destruct (typ s) as [[]|]; cbn [option_map];
      try (exists (Err TypeError), t; split; [reflexivity|]; split; [reflexivity|assumption]).
    change (is_type (Some (dtype_name Points)) "points") with true. cbn [negb].
    change (str_of "mean") with (fname FMean). change (str_of "std") with (fname FStd).
    change (str_of "lons") with (fname FLons). change (str_of "lats") with (fname FLats). change (str_of "ids") with (fname FIds).
    rewrite !(read_refines t s component imt _ R Hc Hi).
    destruct (read component imt FLons s) as [x1|e]; cbn [bind fst snd]; [|exists (Err e), t; split; [reflexivity|]; split; [reflexivity|assumption]].
    rewrite ?(read_refines t s component imt _ R Hc Hi).
    destruct (read component imt FLats s) as [x2|e]; cbn [bind fst snd]; [|exists (Err e), t; split; [reflexivity|]; split; [reflexivity|assumption]].
    rewrite ?(read_refines t s component imt _ R Hc Hi).
    destruct (read component imt FIds s) as [x3|e]; cbn [bind fst snd]; [|exists (Err e), t; split; [reflexivity|]; split; [reflexivity|assumption]].
    rewrite ?(read_refines t s component imt _ R Hc Hi).
    destruct (read component imt FMean s) as [x4|e]; cbn [bind fst snd]; [|exists (Err e), t; split; [reflexivity|]; split; [reflexivity|assumption]].
    rewrite ?(read_refines t s component imt _ R Hc Hi).
    destruct (read component imt FStd s) as [x5|e]; cbn [bind fst snd]; [|exists (Err e), t; split; [reflexivity|]; split; [reflexivity|assumption]].
    eexists _, t. split; [reflexivity|]. split; [simpl; auto|assumption].
  - pose proof (get_imts_ok t s component R Hg) as H. unfold bnd. destruct (has_imt_data s); cbn [negb] in *.
    + destruct (comp s component).
      * destruct H as (l & E & N & Hl). rewrite E. exists (Ok (SNames l)), t. split; [reflexivity|]. split; [split; assumption|assumption].
      * rewrite H. exists (Err KeyError), t. split; [reflexivity|]. split; [reflexivity|assumption].
    + rewrite H. exists (Ok (SNames [])), t. split; [reflexivity|]. split; [split; [constructor|]|assumption]. intro n. simpl. split; [tauto|discriminate].
  - destruct (get_all_imts_ok t s R) as (ps & E & N & H). unfold bnd. rewrite E. eexists _, t. split; [reflexivity|]. split; [|assumption].
    exists ps. auto.
  - destruct (get_components_ok t s imt R Hg) as (l & E & N & H). unfold bnd. rewrite E. eexists _, t. split; [reflexivity|]. split; [split; assumption|assumption].
  - destruct (all_components_ok t s R) as (l & E & N & H). unfold bnd. rewrite E. eexists _, t. split; [reflexivity|]. split; [split; assumption|assumption].
  - destruct (drop_imt_ok t s imt R Hg) as (t' & E & R'). unfold bnd. rewrite E. destruct (has_imt_data s).
    + exists (Ok SUnit), t'. split; [reflexivity|]. split; [exact I|assumption].
    + exists (Err LookupError), t'. split; [reflexivity|]. split; [reflexivity|assumption].
Qed.

Lemma smrun_refines : forall ops t s, SRel t s -> Forall smgood ops ->
  Forall2 smagree (fst (run smstep ops t)) (fst (smspec_run ops s)) /\ SRel (snd (run smstep ops t)) (snd (smspec_run ops s)).
Proof.
  induction ops as [|o ops IH]; intros t s R Hg; [split; [constructor|assumption]|].
  inversion Hg; subst. destruct (smstep_refines o t s R) as (r & t' & E & A & R'); [assumption|].
  cbn [run smspec_run]. rewrite E. destruct (smspec o s) as [a s'] eqn:Es. cbn [fst snd] in *.
  destruct (IH t' s' R' H2) as [F R'']. destruct (run smstep ops t'), (smspec_run ops s'). cbn [fst snd] in *. split; [constructor; assumption|assumption].
Qed.
