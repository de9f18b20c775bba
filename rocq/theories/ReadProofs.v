(** Lemmas for reading ruptures. *)
From Coq Require Import ZArith Reals String Ascii Bool List Lia.
From Verif Require Import PyBase VecModel RuptModel OriginModel OriginSpec OriginProofs OriginProps PolyModel PolySpec PolyProofs PolyProps JsonModel ComcatSpec ComcatProofs FactoryModel FactorySpec FactoryProofs.
Import ListNotations.
Local Arguments str_of _ : simpl never.

Lemma lines_iff t : forall ls, lines_of t ls <-> lines_from [] t = ls.
Proof.
  assert (G : forall l cur, no_end l -> lines_from cur l = match rev l ++ cur with [] => [] | c => [rev c] end).
  { induction l as [|c l IH]; intros cur F; [cbn; destruct cur; reflexivity|]. inversion F as [|? ? [N1 N2] F']; subst. cbn [lines_from]. destruct (Ascii.eqb_spec c (chr 10)); [contradiction|]. destruct (Ascii.eqb_spec c (chr 13)); [contradiction|]. rewrite IH by exact F'. cbn [rev]. rewrite <- app_assoc. reflexivity. }
  assert (G2 : forall l cur c r, no_end l -> lines_from cur (l ++ c :: r) = lines_from (rev l ++ cur) (c :: r)).
  { induction l as [|a l IH]; intros cur c r F; [reflexivity|]. inversion F as [|? ? [N1 N2] F']; subst. cbn [app]. cbn [lines_from]. destruct (Ascii.eqb_spec a (chr 10)); [contradiction|]. destruct (Ascii.eqb_spec a (chr 13)); [contradiction|]. rewrite IH by exact F'. cbn [rev]. rewrite <- app_assoc. reflexivity. }
  assert (F : forall t ls, lines_of t ls -> lines_from [] t = ls).
  { induction 1 as [|l N E|l e rest ls E He H IH].
    - reflexivity.
    - rewrite G by exact E. rewrite app_nil_r. destruct (rev l) as [|c r] eqn:R; [apply (f_equal (@rev ascii)) in R; rewrite rev_involutive in R; contradiction|]. rewrite <- R, rev_involutive. reflexivity.
    - assert (X : rev (chr 10 :: rev l ++ []) = l ++ [chr 10]) by (cbn [rev]; rewrite app_nil_r, rev_involutive; reflexivity).
      destruct He as [->|[->|[-> Nr]]]; cbn [app]; rewrite G2 by exact E.
      + cbn [lines_from]. rewrite Ascii.eqb_refl. rewrite X, IH. reflexivity.
      + cbn [lines_from]. change (Ascii.eqb (chr 13) (chr 10)) with false. change (Ascii.eqb (chr 13) (chr 13)) with true. change (Ascii.eqb (chr 10) (chr 10)) with true. cbv iota. rewrite X, IH. reflexivity.
      + cbn [lines_from]. change (Ascii.eqb (chr 13) (chr 10)) with false. change (Ascii.eqb (chr 13) (chr 13)) with true. cbv iota. destruct rest as [|c rest]; [cbn [lines_from] in IH; rewrite <- IH, X; reflexivity|]. destruct (Ascii.eqb_spec c (chr 10)) as [->|Nc]; [exfalso; exact (Nr rest eq_refl)|]. rewrite X, IH. reflexivity. }
  assert (Ex : forall (n : nat) (t : str), (length t <= n)%nat -> exists ls, lines_of t ls).
  { induction n as [|n IH]; intros s L; [destruct s; [|cbn in L; lia]; exists []; constructor|].
    assert (P : no_end s \/ exists l c r, s = l ++ c :: r /\ no_end l /\ (c = chr 10 \/ c = chr 13)).
    { clear. induction s as [|c s IH]; [left; constructor|]. destruct (Ascii.eqb_spec c (chr 10)) as [->|N1]; [right; exists [], (chr 10), s; split; [reflexivity|]; split; [constructor|left; reflexivity]|]. destruct (Ascii.eqb_spec c (chr 13)) as [->|N2]; [right; exists [], (chr 13), s; split; [reflexivity|]; split; [constructor|right; reflexivity]|].
      destruct IH as [H|(l & c' & r & -> & H & K)]; [left; constructor; [split; assumption|exact H]|]. right. exists (c :: l), c', r. split; [reflexivity|]. split; [constructor; [split; assumption|exact H]|exact K]. }
    destruct P as [P|(l & c & r & -> & P & K)].
    - destruct s as [|c s]; [exists []; constructor|]. exists [c :: s]. apply lines_last; [discriminate|exact P].
    - rewrite app_length in L. cbn [length] in L. destruct K as [->| ->].
      + destruct (IH r ltac:(lia)) as [ls H]. exists ((l ++ [chr 10]) :: ls). apply (lines_more l [chr 10]); [exact P|left; reflexivity|exact H].
      + destruct r as [|c r].
        * exists [l ++ [chr 10]]. apply (lines_more l [chr 13] []); [exact P|right; right; split; [reflexivity|discriminate]|constructor].
        * destruct (Ascii.eqb_spec c (chr 10)) as [->|N].
          -- cbn [length] in L. destruct (IH r ltac:(lia)) as [ls H]. exists ((l ++ [chr 10]) :: ls). apply (lines_more l [chr 13; chr 10]); [exact P|right; left; reflexivity|exact H].
          -- destruct (IH (c :: r) ltac:(lia)) as [ls H]. exists ((l ++ [chr 10]) :: ls). apply (lines_more l [chr 13]); [exact P|right; right; split; [reflexivity|congruence]|exact H]. }
  intros ls. split; [apply F|]. intros <-. destruct (Ex (length t) t (le_n _)) as [ls H]. rewrite (F _ _ H). exact H.
Qed.

(** Keys of documents. *)
Lemma change_get k f d j : dget j (change k f d) = if str_eqb j k then option_map f (dget j d) else dget j d.
Proof.
  induction d as [|[k' v'] d IH]; cbn [change dget]; [destruct (str_eqb j k); reflexivity|]. destruct (str_eqb k k') eqn:E; cbn [dget].
  - apply seqb in E as <-. destruct (str_eqb j k); reflexivity.
  - destruct (str_eqb j k') eqn:F; [|exact IH]. apply seqb in F as ->. apply seqb_f in E. destruct (str_eqb k' k) eqn:G; [|reflexivity]. apply seqb in G. congruence.
Qed.
Lemma change_twice k a b d : change k (fun _ => a) (change k (fun _ => b) d) = change k (fun _ => a) d.
Proof. induction d as [|[k' v'] d IH]; [reflexivity|]. cbn [change]. destruct (str_eqb k k') eqn:E; cbn [change]; rewrite E; [reflexivity|]. f_equal. exact IH. Qed.
Lemma set_twice M N d : set_metadata M (set_metadata N d) = set_metadata M d.
Proof. destruct d; try reflexivity. cbn [set_metadata]. rewrite change_twice. reflexivity. Qed.
Lemma set_key M d k : k <> str_of "metadata" -> jkey k (set_metadata M d) = jkey k d.
Proof. intros N. destruct d; try reflexivity. cbn [set_metadata jkey]. rewrite change_get. destruct (str_eqb_spec k (str_of "metadata")); [contradiction|reflexivity]. Qed.
Lemma set_meta M d m : jkey (str_of "metadata") d = Ok m -> jkey (str_of "metadata") (set_metadata M d) = Ok (JObj M).
Proof. destruct d; try discriminate. cbn [set_metadata jkey]. rewrite change_get, str_eqb_refl. destruct (dget (str_of "metadata") d); [reflexivity|discriminate]. Qed.
Lemma set_feature M d m g : feature d m g -> has M (str_of "reference") -> feature (set_metadata M d) M g.
Proof.
  intros (F1 & F2 & F3 & f & F4 & F5) H. apply at_one in F1, F2, F4. split; [apply at_one; rewrite set_key by discriminate; exact F1|]. split; [apply at_one; eapply set_meta; exact F2|]. split; [exact H|]. exists f. split; [apply at_one; rewrite set_key by discriminate; exact F4|exact F5].
Qed.
Lemma feature_parts d m g : feature d m g -> geometry d = Ok g /\ metadata d = Ok m.
Proof.
  intros (_ & F2 & _ & f & F4 & _ & F6). apply at_one in F2, F4, F6. unfold geometry, metadata. rewrite F2, F4. cbn [bind jindex nth_error]. rewrite F6. split; reflexivity.
Qed.
Lemma feature_same d m g m' g' : feature d m g -> feature d m' g' -> m = m' /\ g = g'.
Proof. intros H H'. apply feature_parts in H as [A B]. apply feature_parts in H' as [C D]. split; congruence. Qed.
Lemma point_parts d : point_doc d -> geometry_type d = Ok (JStr (str_of "Point")) /\ exists m, metadata d = Ok m /\ has m (str_of "reference").
Proof.
  intros (m & g & c & F & T & _). pose proof F as (_ & _ & H & _). apply feature_parts in F as [A B]. apply at_one in T. unfold geometry_type. rewrite A. cbn [bind]. eauto.
Qed.
Lemma polygon_parts d ps : polygon_doc d ps -> geometry_type d = Ok (JStr (str_of "MultiPolygon")) /\ doc_polygons d = Ok ps /\ exists m, metadata d = Ok m /\ has m (str_of "reference").
Proof.
  intros (m & g & p & l & F & T & C & P). pose proof F as (_ & _ & H & _). apply feature_parts in F as [A B]. apply at_one in T, C. apply polygons_iff in P. unfold geometry_type, doc_polygons. rewrite A. cbn [bind]. rewrite T, C. cbn [bind jindex nth_error]. rewrite P. eauto.
Qed.
Lemma set_point M d : point_doc d -> has M (str_of "reference") -> point_doc (set_metadata M d).
Proof. intros (m & g & c & F & R) H. exists M, g, c. split; [eapply set_feature; eassumption|exact R]. Qed.
Lemma set_polygon M d ps : polygon_doc d ps -> has M (str_of "reference") -> polygon_doc (set_metadata M d) ps.
Proof. intros (m & g & p & l & F & R) H. exists M, g, p, l. split; [eapply set_feature; eassumption|exact R]. Qed.

(** Attributes and their JSON form. *)
Section Values.
Variable fparse : str -> option num.
Variable timeshow : str -> nat -> str.
Notation to_json := (to_json timeshow).
Notation origin_json := (origin_json timeshow).
Lemma plain_iff j v : to_value j = Some v <-> plain j v.
Proof. split; [destruct j; try discriminate; intros [= <-]; constructor|]. intros []; reflexivity. Qed.
Lemma plain_back j v : plain j v -> to_json v = j.
Proof. intros []; reflexivity. Qed.
Lemma values_ok m : Forall (fun kv => exists v, plain (snd kv) v) m -> exists mv, to_values m = Ok mv /\ origin_json mv = m /\ forall k, dget k mv = match dget k m with Some j => to_value j | None => None end.
Proof.
  induction 1 as [|[k j] m [v H] F (mv & E & B & G)]; [exists []; repeat split|]. cbn [snd] in H. cbn [to_values]. pose proof (proj2 (plain_iff _ _) H) as Hv. rewrite Hv, E. cbn [bind]. exists ((k, v) :: mv). split; [reflexivity|]. split.
  - cbn [FactoryModel.origin_json map fst snd]. fold (origin_json mv). rewrite B, (plain_back _ _ H). reflexivity.
  - intros k'. cbn [dget]. destruct (str_eqb k' k); [symmetry; exact Hv|apply G].
Qed.
Lemma origin_json_get o k : dget k (origin_json o) = option_map to_json (dget k o).
Proof. induction o as [|[k' v'] o IH]; [reflexivity|]. cbn [FactoryModel.origin_json map dget fst snd]. destruct (str_eqb k k'); [reflexivity|exact IH]. Qed.
Lemma origin_json_keys o : map fst (origin_json o) = map fst o.
Proof. unfold FactoryModel.origin_json. rewrite map_map. reflexivity. Qed.
Lemma origin_json_distinct o : distinct o -> distinct (origin_json o).
Proof. unfold distinct. rewrite origin_json_keys. exact (fun H => H). Qed.
Lemma origin_json_set k v j o : dget k (origin_json o) = Some j -> to_json v = j -> origin_json (dset k v o) = origin_json o.
Proof.
  intros H <-. induction o as [|[k' v'] o IH]; [discriminate|]. cbn [FactoryModel.origin_json map fst snd dget dset] in *. destruct (str_eqb k k'); [injection H as ->; reflexivity|]. cbn [map fst snd]. f_equal. apply IH. exact H.
Qed.
Lemma dupdate_self {A} (m : dict A) : distinct m -> dupdate m m = m.
Proof.
  intros D. assert (G : forall e (d : dict A), (forall k v, In (k, v) e -> dget k d = Some v) -> dupdate d e = d).
  { induction e as [|[k v] e IH]; intros d H; [reflexivity|]. cbn [dupdate fold_left fst snd]. rewrite (dset_same k v d) by (apply H; left; reflexivity). apply IH. intros k' v' H'. apply H. right. exact H'. }
  apply G. intros k v H. apply dget_in; assumption.
Qed.
Lemma plain_entries m : distinct m -> (forall k j, dget k m = Some j -> exists v, plain j v) -> Forall (fun kv => exists v, plain (snd kv) v) m.
Proof. intros D H. apply Forall_forall. intros [k j] I. apply (H k). apply dget_in; assumption. Qed.

(** An origin made from the attributes of an origin is that origin. *)
Lemma origin_again ev o e2 : distinct ev -> snd (new_origin fparse ev) = Ok o -> distinct e2 -> (forall k v, dget k o = Some v -> dget k e2 = Some v) ->
  new_origin fparse e2 = (e2, Ok e2).
Proof.
  intros D H D2 G. assert (V : valid fparse ev) by (apply C55_accepts; eauto). destruct (C55_attributes fparse ev o D H) as (Do & m & r & Me & Mr & Im & Ir & It & Io).
  assert (R : exists x, dget (str_of "rake") e2 = Some (VFloat x)).
  { destruct (has_dec (str_of "rake") ev) as [[w Hw]|N].
    - destruct V as (_ & _ & _ & _ & _ & Vr). destruct (Vr w Hw) as [x Nx]. exists x. apply G, dget_in; [exact Do|]. apply Ir. exists x. split; [reflexivity|]. left. eauto.
    - exists (Fin r). apply G, dget_in; [exact Do|]. apply Ir. exists (Fin r). split; [reflexivity|]. right. auto. }
  destruct R as [x R]. assert (M2 : dget (str_of "mech") e2 = Some (VStr m)) by (apply G, dget_in; assumption).
  destruct V as (Vc & Vi & Va & Vo & _ & _). assert (Q : forall k, is_required k -> exists v, In (k, v) ev /\ dget k e2 = Some v).
  { intros k Hk. destruct (Vc k Hk) as [v Hv]. exists v. split; [exact Hv|]. apply G, dget_in; [exact Do|]. apply Io; try exact Hv; unfold is_required in Hk; intros ->; repeat destruct Hk as [Hk|Hk]; discriminate. }
  rewrite new_origin_eq. assert (C2 : forallb (fun k => dhas k e2) required = true) by (apply complete_iff; intros k Hk; destruct (Q k Hk) as (v & _ & E); apply dhas_iff; unfold dhas; rewrite E; reflexivity).
  rewrite C2. cbn [negb]. destruct (Q (str_of "id") ltac:(unfold is_required; tauto)) as (vi & Ivi & Evi). rewrite (proj2 (id_iff e2 vi Evi) (Vi vi Ivi)).
  destruct (Q (str_of "lat") ltac:(unfold is_required; tauto)) as (va & Iva & Eva). destruct (Q (str_of "lon") ltac:(unfold is_required; tauto)) as (vo & Ivo & Evo). rewrite (check_place_eq fparse e2 va vo Eva Evo).
  rewrite (proj2 (coordinate_ok fparse va (-90) 90) (Va va Iva)). cbn [bind]. rewrite (proj2 (coordinate_ok fparse vo (-180) 180) (Vo vo Ivo)).
  assert (St : settled e2 = e2).
  { unfold settled. rewrite rename_mech. unfold raw_mech. rewrite M2. assert (Rn : rename_type e2 = e2) by (unfold rename_type, dhas; rewrite M2; destruct (dget (str_of "type") e2); reflexivity). rewrite Rn. destruct m; [inversion Mr|reflexivity]. }
  rewrite St. f_equal. assert (Mech2 : mechanism e2 m) by (apply by_mech with (VStr m); [apply dget_in; assumption|constructor; exists r; exact Mr]). rewrite (last_step_ok fparse e2 m r D2 Mech2 Mr), St.
  assert (Cp : copy_attrs fparse e2 = Ok e2).
  { assert (K : forall e, (forall v, In (str_of "rake", v) e -> exists y, v = VFloat y) -> copy_attrs fparse e = Ok e).
    { induction e as [|[k v] e IH]; intros K; [reflexivity|]. cbn [copy_attrs]. destruct (str_eqb_spec k (str_of "rake")) as [->|N].
      - destruct (K v (or_introl eq_refl)) as [y ->]. cbn [py_float bind]. rewrite IH; [reflexivity|]. intros w Hw. apply K. right. exact Hw.
      - cbn [bind]. rewrite IH; [reflexivity|]. intros w Hw. apply K. right. exact Hw. }
    apply K. intros v Hv. exists x. apply dget_in in Hv; [|exact D2]. congruence. }
  rewrite Cp. cbn [bind]. unfold dhas. rewrite R. reflexivity.
Qed.
End Values.
