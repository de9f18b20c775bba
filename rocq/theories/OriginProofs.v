(** Dictionaries and the construction of origins. *)
From Coq Require Import ZArith Reals String Ascii Bool List Lia Lra.
From Verif Require Import PyBase GeoModel GeoTrig PolyModel PolySpec PolyProofs OriginModel OriginSpec.
Import ListNotations.
Open Scope R_scope.

Local Arguments str_of _ : simpl never.
Lemma seqb a b : str_eqb a b = true <-> a = b.
Proof. destruct (str_eqb_spec a b); split; congruence. Qed.
Lemma seqb_f a b : str_eqb a b = false <-> a <> b.
Proof. destruct (str_eqb_spec a b); split; congruence. Qed.

Section Dict.
Context {A : Type}.
Implicit Types d e : dict A.
Lemma dget_sound k d v : dget k d = Some v -> In (k, v) d.
Proof.
  induction d as [|[k' v'] d IH]; [discriminate|]. cbn. destruct (str_eqb k k') eqn:E.
  - apply seqb in E. subst. intros [= ->]. now left.
  - intro H. right. auto.
Qed.
Lemma dget_none k d : dget k d = None <-> ~ has d k.
Proof.
  induction d as [|[k' v'] d IH]; cbn.
  - split; [intros _ [v []]|reflexivity].
  - destruct (str_eqb k k') eqn:E.
    + apply seqb in E. subst. split; [discriminate|]. intro H. exfalso. apply H. exists v'. now left.
    + apply seqb_f in E. rewrite IH. split; intros H [v Hv]; apply H; exists v; cbn in *; [destruct Hv as [Hv|Hv]; [congruence|assumption]|now right].
Qed.
Lemma dget_in k d v : distinct d -> (dget k d = Some v <-> In (k, v) d).
Proof.
  intro D. split; [apply dget_sound|]. induction d as [|[k' v'] d IH]; [intros []|]. inversion D as [|? ? N D']; subst. cbn. intros [H|H].
  - injection H as -> ->. rewrite (proj2 (seqb k k) eq_refl). reflexivity.
  - destruct (str_eqb k k') eqn:E; [|auto]. apply seqb in E. subst. exfalso. apply N. apply (in_map fst) in H. exact H.
Qed.
Lemma in_unique k d v w : distinct d -> In (k, v) d -> In (k, w) d -> v = w.
Proof. intros D H1 H2. apply (dget_in _ _ _ D) in H1, H2. congruence. Qed.
Lemma dhas_iff k d : dhas k d = true <-> has d k.
Proof.
  unfold dhas. destruct (dget k d) eqn:E.
  - split; [intros _; eexists; apply dget_sound; exact E|reflexivity].
  - apply dget_none in E. split; [discriminate|contradiction].
Qed.
Lemma dhas_f k d : dhas k d = false <-> ~ has d k.
Proof. rewrite <- dhas_iff. destruct (dhas k d); split; congruence. Qed.
Lemma has_dec k d : {has d k} + {~ has d k}.
Proof. destruct (dhas k d) eqn:E; [left; apply dhas_iff|right; apply dhas_f]; exact E. Qed.
Lemma dget_has k d : has d k -> exists v, dget k d = Some v.
Proof. intro H. destruct (dget k d) eqn:E; [eauto|]. apply dget_none in E. contradiction. Qed.

Lemma dset_keys k v d : map fst (dset k v d) = if dhas k d then map fst d else map fst d ++ [k].
Proof.
  induction d as [|[k' v'] d IH]; [reflexivity|]. unfold dhas in *. cbn [dset dget]. destruct (str_eqb k k') eqn:E; [reflexivity|].
  cbn [map fst app]. rewrite IH. destruct (dget k d); reflexivity.
Qed.
Lemma has_keys k d : has d k <-> In k (map fst d).
Proof. unfold has. rewrite in_map_iff. split; [intros [v H]; exists (k, v); auto|intros [[k' v] [<- H]]; eauto]. Qed.
Lemma nodup_snoc (l : list str) k : NoDup l -> ~ In k l -> NoDup (l ++ [k]).
Proof. intros N H. apply (NoDup_Add (a := k) (l := l)); [rewrite <- (app_nil_r l) at 1; apply Add_app|auto]. Qed.
Lemma dset_distinct k v d : distinct d -> distinct (dset k v d).
Proof.
  unfold distinct. intro D. rewrite dset_keys. destruct (dhas k d) eqn:E; [assumption|]. apply dhas_f in E. apply nodup_snoc; [assumption|]. rewrite <- has_keys. exact E.
Qed.
Lemma dset_get k v d j : dget j (dset k v d) = if str_eqb j k then Some v else dget j d.
Proof.
  induction d as [|[k' v'] d IH]; cbn [dset dget].
  - reflexivity.
  - destruct (str_eqb k k') eqn:E; cbn [dget].
    + apply seqb in E. subst k'. destruct (str_eqb j k); reflexivity.
    + rewrite IH. destruct (str_eqb j k') eqn:E1; [|reflexivity]. apply seqb in E1. subst. apply seqb_f in E. destruct (str_eqb k' k) eqn:E2; [|reflexivity]. apply seqb in E2. congruence.
Qed.
Lemma dset_in k v d j w : distinct d -> (In (j, w) (dset k v d) <-> (j = k /\ w = v) \/ (j <> k /\ In (j, w) d)).
Proof.
  intro D. rewrite <- (dget_in _ _ _ (dset_distinct k v d D)), dset_get. destruct (str_eqb j k) eqn:E.
  - apply seqb in E. subst. split; [intros [= ->]; auto|]. intros [[_ ->]|[N _]]; [reflexivity|contradiction].
  - apply seqb_f in E. rewrite (dget_in _ _ _ D). split; [auto|]. intros [[-> _]|[_ H]]; [contradiction|assumption].
Qed.
Lemma dset_same k v d : dget k d = Some v -> dset k v d = d.
Proof.
  induction d as [|[k' v'] d IH]; [discriminate|]. cbn. destruct (str_eqb k k') eqn:E; [intros [= ->]; reflexivity|]. intro H. rewrite IH by assumption. reflexivity.
Qed.
Lemma ddel_keys k d : map fst (ddel k d) = filter (fun j => negb (str_eqb k j)) (map fst d).
Proof. unfold ddel. induction d as [|[k' v'] d IH]; [reflexivity|]. cbn. destruct (str_eqb k k'); cbn; rewrite IH; reflexivity. Qed.
Lemma ddel_distinct k d : distinct d -> distinct (ddel k d).
Proof. unfold distinct. intro D. rewrite ddel_keys. apply NoDup_filter. exact D. Qed.
Lemma ddel_in k d j w : In (j, w) (ddel k d) <-> j <> k /\ In (j, w) d.
Proof.
  unfold ddel. rewrite filter_In. cbn. destruct (str_eqb k j) eqn:E; cbn.
  - apply seqb in E. subst. split; [intros [_ H]; discriminate|intros [N _]; contradiction].
  - apply seqb_f in E. split; intros [H1 H2]; auto.
Qed.
Lemma ddel_get k d j : dget j (ddel k d) = if str_eqb j k then None else dget j d.
Proof.
  unfold ddel. induction d as [|[k' v'] d IH]; cbn; [destruct (str_eqb j k); reflexivity|].
  destruct (str_eqb k k') eqn:E; cbn.
  - apply seqb in E. subst. rewrite IH. destruct (str_eqb j k'); reflexivity.
  - rewrite IH. destruct (str_eqb j k') eqn:E1; [|reflexivity]. apply seqb in E1. subst. apply seqb_f in E. destruct (str_eqb k' k) eqn:E2; [|reflexivity]. apply seqb in E2. congruence.
Qed.
Lemma dset_has k v d j : has (dset k v d) j <-> j = k \/ has d j.
Proof.
  rewrite <- !dhas_iff. unfold dhas. rewrite dset_get. destruct (str_eqb j k) eqn:E.
  - apply seqb in E. tauto.
  - apply seqb_f in E. tauto.
Qed.
Lemma ddel_has k d j : has (ddel k d) j <-> j <> k /\ has d j.
Proof. unfold has. split; [intros [v H]; apply ddel_in in H; destruct H; eauto|intros [N [v H]]; exists v; apply ddel_in; auto]. Qed.

Lemma dupdate_distinct e : forall d, distinct d -> distinct (dupdate d e).
Proof. induction e as [|[k v] e IH]; intros d D; [exact D|]. cbn. apply IH. apply dset_distinct. exact D. Qed.
Lemma dupdate_get e : distinct e -> forall d k, dget k (dupdate d e) = match dget k e with Some v => Some v | None => dget k d end.
Proof.
  induction e as [|[k' v'] e IH]; intros D d k; [reflexivity|]. inversion D as [|? ? N D']; subst. cbn [dupdate fold_left fst snd]. fold (dupdate (dset k' v' d) e). rewrite (IH D'), dset_get. cbn [dget].
  destruct (str_eqb k k') eqn:E; [|reflexivity]. apply seqb in E. subst. destruct (dget k' e) eqn:G; [|reflexivity]. exfalso. apply N. apply dget_sound in G. apply (in_map fst) in G. exact G.
Qed.
End Dict.

(** The tables. *)
Lemma rake_of_some m r : rake_of m = Some (Some r) -> mech_rake m r /\ m <> str_of "ALL".
Proof.
  unfold rake_of. repeat match goal with |- context [str_eqb m ?x] => destruct (str_eqb_spec m x) as [-> | ] end; intros [= <-]; split; try constructor; discriminate.
Qed.
Lemma rake_of_all m : rake_of m = Some None <-> m = str_of "ALL".
Proof.
  unfold rake_of. repeat match goal with |- context [str_eqb m ?x] => destruct (str_eqb_spec m x) as [-> | ] end; split; try discriminate; try reflexivity; congruence.
Qed.
Lemma rake_of_none m : rake_of m = None <-> ~ known m.
Proof.
  split.
  - intros E [r H]. revert E. destruct H; discriminate.
  - intro N. destruct (rake_of m) as [[r|]|] eqn:E; [|apply rake_of_all in E; subst; exfalso; apply N; eexists; constructor|reflexivity].
    apply rake_of_some in E. exfalso. apply N. exists r. apply E.
Qed.
Lemma mech_rake_of m r : mech_rake m r <-> (rake_of m = Some (Some r) /\ m <> str_of "ALL") \/ (rake_of m = Some None /\ r = 0).
Proof.
  split.
  - intros [ ]; [left|left|left|right]; split; try reflexivity; discriminate.
  - intros [[H N]|[H ->]]; [apply (rake_of_some _ _ H)|]. apply rake_of_all in H. subst. constructor.
Qed.
Lemma mech_rake_fun m r r' : mech_rake m r -> mech_rake m r' -> r = r'.
Proof. rewrite !mech_rake_of. intros [[A _]|[A ->]] [[B _]|[B ->]]; congruence. Qed.
Lemma table_iff m r d : mech_table m = Some (r, d) <-> mech_defaults m r d.
Proof.
  split.
  - unfold mech_table. repeat match goal with |- context [str_eqb m ?x] => destruct (str_eqb_spec m x) as [-> | ] end; intros [= <- <-]; constructor.
  - intros [ ]; reflexivity.
Qed.
Lemma known_table m : known m <-> mech_table m <> None.
Proof.
  split.
  - intros [r [ ]]; discriminate.
  - unfold mech_table. repeat match goal with |- context [str_eqb m ?x] => destruct (str_eqb_spec m x) as [-> | ] end; intro N; try contradiction; eexists; constructor.
Qed.

Lemma complete_iff ev : forallb (fun k => dhas k ev) required = true <-> complete ev.
Proof.
  rewrite forallb_forall. unfold complete. split.
  - intros H k K. apply dhas_iff, H. unfold required. cbn [map In]. unfold is_required in K. intuition congruence.
  - intros H k K. apply dhas_iff, H. unfold is_required. cbn [required map In] in K. intuition congruence.
Qed.
Lemma id_iff ev v : dget (str_of "id") ev = Some v -> (match dget (str_of "id") ev with Some (VStr _) => false | Some VNone => false | _ => true end = false <-> good_id v).
Proof.
  intros ->. unfold good_id. destruct v; split; try reflexivity; try discriminate; eauto; intros [H|[? H]]; discriminate.
Qed.

Section Proofs.
Variable fparse : str -> option num.
Notation number := (number fparse).
Notation in_range := (in_range fparse).
Lemma float_ok v x : py_float fparse v = Ok x <-> number v x.
Proof.
  destruct v as [|s|z|y|k]; cbn; split; try discriminate; try (intro H; inversion H; fail).
  - destruct (fparse s) eqn:E; [intros [= ->]; constructor; exact E|discriminate].
  - intro H. inversion H; subst. rewrite H1. reflexivity.
  - intros [= <-]. constructor.
  - intro H. inversion H. reflexivity.
  - intros [= <-]. constructor.
  - intro H. inversion H. reflexivity.
Qed.
Lemma float_err v e : py_float fparse v = Err e <-> (no_number v /\ e = TypeError) \/ (~ no_number v /\ (forall x, ~ number v x) /\ e = ValueError).
Proof.
  unfold no_number. destruct v as [|s|z|y|k]; cbn.
  - split; [intros [= <-]; auto|]. intros [[_ ->]|[N _]]; [reflexivity|]. exfalso. auto.
  - destruct (fparse s) as [x|] eqn:E.
    + split; [discriminate|]. intros [[[N|[? N]] _]|[_ [N _]]]; try discriminate. exfalso. apply (N x). constructor. exact E.
    + split.
      * intros [= <-]. right. split; [intros [N|[? N]]; discriminate|]. split; [|reflexivity]. intros x N. inversion N; subst. congruence.
      * intros [[[N|[? N]] _]|[_ [_ ->]]]; try discriminate. reflexivity.
  - split; [discriminate|]. intros [[[N|[? N]] _]|[_ [N _]]]; try discriminate. exfalso. apply (N (Fin (IZR z))). constructor.
  - split; [discriminate|]. intros [[[N|[? N]] _]|[_ [N _]]]; try discriminate. exfalso. apply (N y). constructor.
  - split; [intros [= <-]; left; eauto|]. intros [[_ ->]|[N _]]; [reflexivity|]. exfalso. eauto.
Qed.
Lemma number_fun v x y : number v x -> number v y -> x = y.
Proof. rewrite <- !float_ok. congruence. Qed.

Lemma outside lo hi x : (num_above x hi || num_below x lo)%bool = false <-> within lo hi x.
Proof.
  rewrite orb_false_iff. destruct x as [x| | |]; cbn; try (split; [intros [? ?]; discriminate|intros []]); [|tauto].
  rewrite !rltb_f. tauto.
Qed.

(** The place. *)
Definition coordinate (v : value) (lo hi : R) : res unit := bind (py_float fparse v) (fun x => if num_above x hi || num_below x lo then Err ValueError else Ok tt).
Lemma coordinate_ok v lo hi : coordinate v lo hi = Ok tt <-> in_range lo hi v.
Proof.
  unfold coordinate, OriginSpec.in_range. split.
  - intro H. destruct (py_float fparse v) as [x|] eqn:E; [|discriminate]. cbn in H. exists x. split; [apply float_ok; exact E|]. apply outside. destruct (_ || _)%bool; [discriminate|reflexivity].
  - intros (x & N & W). apply float_ok in N. rewrite N. cbn. apply outside in W. rewrite W. reflexivity.
Qed.
Lemma coordinate_err v lo hi e : coordinate v lo hi = Err e <-> (no_number v /\ e = TypeError) \/ (~ no_number v /\ ~ in_range lo hi v /\ e = ValueError).
Proof.
  unfold coordinate. destruct (py_float fparse v) as [x|e'] eqn:E.
  - pose proof E as Nx. apply float_ok in Nx. assert (NN : ~ no_number v) by (intros [-> |[k -> ]]; inversion Nx).
    cbn. destruct (_ || _)%bool eqn:O.
    + split; [intros [= <-]; right; split; [exact NN|split; [|reflexivity]]|intros [[B _]|[_ [_ ->]]]; [contradiction|reflexivity]].
      intros (y & N & W). pose proof (number_fun _ _ _ Nx N). subst. apply outside in W. congruence.
    + split; [discriminate|]. intros [[B _]|[_ [B _]]]; [contradiction|]. exfalso. apply B. exists x. split; [exact Nx|]. apply outside. exact O.
  - cbn. pose proof E as E'. apply float_err in E'. split.
    + intros [= <-]. destruct E' as [[A B]|[A [B C]]]; [left; auto|right; split; [exact A|split; [|exact C]]]. intros (y & N & _). apply (B _ N).
    + intros [[A ->]|[A [B ->]]]; destruct E' as [[A' B']|[A' [B' C']]]; try contradiction; congruence.
Qed.
Lemma check_place_eq ev lat lon : dget (str_of "lat") ev = Some lat -> dget (str_of "lon") ev = Some lon ->
  check_place fparse ev = bind (coordinate lat (-90) 90) (fun _ => coordinate lon (-180) 180).
Proof.
  intros A B. unfold check_place, coordinate, ditem. rewrite A, B. cbn [bind]. destruct (py_float fparse lat) as [x|]; [|reflexivity]. cbn [bind].
  destruct (num_above x 90 || num_below x (-90))%bool; [reflexivity|]. cbn [bind]. reflexivity.
Qed.

(** The attributes. *)
Lemma copy_keys ev : forall a, copy_attrs fparse ev = Ok a -> map fst a = map fst ev.
Proof.
  induction ev as [|[k v] ev IH]; intros a; [intros [= <-]; reflexivity|]. cbn [copy_attrs map fst]. destruct (str_eqb k (str_of "rake")).
  - destruct (py_float fparse v); [|discriminate]. cbn. destruct (copy_attrs fparse ev) as [a'|]; [|discriminate]. intros [= <-]. cbn. f_equal. auto.
  - destruct (copy_attrs fparse ev) as [a'|]; [|discriminate]. intros [= <-]. cbn. f_equal. auto.
Qed.
Lemma copy_ok ev : (exists a, copy_attrs fparse ev = Ok a) <-> all_at ev "rake"%string (fun v => exists x, number v x).
Proof.
  unfold all_at. induction ev as [|[k v] ev IH]; cbn [copy_attrs In].
  - split; [intros _ v []|intros _; eauto].
  - destruct (str_eqb k (str_of "rake")) eqn:E.
    + apply seqb in E. subst. split.
      * intros [a H] w [W|W].
        -- injection W as ->. destruct (py_float fparse w) as [x|] eqn:F; [|discriminate]. exists x. apply float_ok. exact F.
        -- revert w W. apply IH. destruct (py_float fparse v); [|discriminate]. cbn in H. destruct (copy_attrs fparse ev) as [a'|]; [eauto|discriminate].
      * intro H. destruct (H v (or_introl eq_refl)) as [x N]. apply float_ok in N. rewrite N. cbn. destruct (proj2 IH) as [a Ha]; [intros w W; apply H; right; exact W|]. rewrite Ha. cbn. eauto.
    + apply seqb_f in E. split.
      * intros [a H] w [W|W]; [congruence|]. revert w W. apply IH. destruct (copy_attrs fparse ev); [eauto|discriminate].
      * intro H. destruct (proj2 IH) as [a Ha]; [intros w W; apply H; right; exact W|]. rewrite Ha. cbn. eauto.
Qed.
Lemma copy_in ev : forall a k w, copy_attrs fparse ev = Ok a ->
  (In (k, w) a <-> exists v, In (k, v) ev /\ ((k <> str_of "rake" /\ w = v) \/ (k = str_of "rake" /\ exists x, number v x /\ w = VFloat x))).
Proof.
  induction ev as [|[k' v'] ev IH]; intros a k w.
  - intros [= <-]. cbn. split; [intros []|intros (v & [] & _)].
  - cbn [copy_attrs]. destruct (str_eqb k' (str_of "rake")) eqn:E.
    + apply seqb in E. subst k'. destruct (py_float fparse v') as [x|] eqn:F; [|discriminate]. cbn [bind]. destruct (copy_attrs fparse ev) as [a'|]; [|discriminate]. intros [= <-].
      apply float_ok in F. cbn [In]. rewrite (IH a' k w eq_refl). split.
      * intros [H|(v & Hi & H)]; [injection H as <- <-; exists v'; split; [now left|right; split; [reflexivity|eauto]]|exists v; auto].
      * intros (v & [Hv|Hv] & H); [|right; eauto]. injection Hv as <- <-. left. destruct H as [[N _]|[_ (y & Ny & ->)]]; [contradiction|]. rewrite (number_fun _ _ _ F Ny). reflexivity.
    + apply seqb_f in E. destruct (copy_attrs fparse ev) as [a'|]; [|discriminate]. intros [= <-]. cbn [In]. rewrite (IH a' k w eq_refl). split.
      * intros [H|(v & Hi & H)]; [injection H as <- <-; exists v'; split; [now left|left; auto]|exists v; auto].
      * intros (v & [Hv|Hv] & H); [|right; eauto]. injection Hv as <- <-. left. destruct H as [[_ ->]|[N _]]; [reflexivity|contradiction].
Qed.
Lemma copy_err ev e : distinct ev -> copy_attrs fparse ev = Err e -> exists v, In (str_of "rake", v) ev /\ py_float fparse v = Err e.
Proof.
  revert e. induction ev as [|[k v] ev IH]; intros e D; [discriminate|]. inversion D as [|? ? N D']; subst. cbn [copy_attrs]. destruct (str_eqb k (str_of "rake")) eqn:E.
  - apply seqb in E. subst. destruct (py_float fparse v) as [x|e'] eqn:F; cbn.
    + destruct (copy_attrs fparse ev) as [a|e''] eqn:C; [discriminate|]. cbn. intros [= ->]. destruct (IH _ D' eq_refl) as (w & W & _). exfalso. apply N. apply (in_map fst) in W. exact W.
    + intros [= <-]. exists v. split; [now left|exact F].
  - destruct (copy_attrs fparse ev) as [a|e''] eqn:C; [discriminate|]. cbn. intros [= ->]. destruct (IH _ D' eq_refl) as (w & W & F). exists w. split; [now right|exact F].
Qed.
Lemma copy_has ev a k : copy_attrs fparse ev = Ok a -> (has a k <-> has ev k).
Proof. intro H. rewrite !has_keys, (copy_keys _ _ H). reflexivity. Qed.

(** [attributes] of a dictionary with a known mechanism. *)
Lemma attributes_eq ev m r : In (str_of "mech", VStr m) ev -> distinct ev -> mech_rake m r ->
  attributes fparse ev = bind (copy_attrs fparse ev) (fun a => Ok (if dhas (str_of "rake") a then a else dset (str_of "rake") (VFloat (Fin r)) a)).
Proof.
  intros Hm D Mr. unfold attributes. destruct (copy_attrs fparse ev) as [a|] eqn:C; [|reflexivity]. cbn [bind]. destruct (dhas (str_of "rake") a) eqn:Hr; [reflexivity|].
  assert (Da : distinct a) by (unfold distinct; rewrite (copy_keys _ _ C); exact D).
  assert (G : dget (str_of "mech") a = Some (VStr m)).
  { apply (dget_in _ _ _ Da). apply (copy_in _ _ _ _ C). exists (VStr m). split; [exact Hm|]. left. split; [discriminate|reflexivity]. }
  rewrite G. apply mech_rake_of in Mr. destruct Mr as [[E _]|[E ->]]; rewrite E; reflexivity.
Qed.

(** The dictionary after the mechanism has been settled. *)
Definition settled (ev : dict value) : dict value :=
  let ev := rename_type ev in
  match dget (str_of "mech") ev with
  | None => dset (str_of "mech") (VStr (str_of "ALL")) ev
  | Some (VStr []) => dset (str_of "mech") (VStr (str_of "ALL")) ev
  | Some _ => ev
  end.
Lemma rename_get ev j : dget j (rename_type ev) =
  if dhas (str_of "type") ev && negb (dhas (str_of "mech") ev) then (if str_eqb j (str_of "type") then None else if str_eqb j (str_of "mech") then dget (str_of "type") ev else dget j ev) else dget j ev.
Proof.
  unfold rename_type, dhas. destruct (dget (str_of "type") ev) as [t|] eqn:T; [|reflexivity]. destruct (dget (str_of "mech") ev) eqn:M; [reflexivity|]. cbn [andb negb].
  rewrite ddel_get, dset_get. reflexivity.
Qed.
Lemma rename_distinct ev : distinct ev -> distinct (rename_type ev).
Proof. intro D. unfold rename_type. destruct (dget _ ev); [|exact D]. destruct (dhas _ ev); [exact D|]. apply ddel_distinct, dset_distinct. exact D. Qed.
Lemma settled_distinct ev : distinct ev -> distinct (settled ev).
Proof. intro D. unfold settled. apply rename_distinct in D. destruct (dget _ (rename_type ev)) as [[| [|] | | |]|]; try exact D; apply dset_distinct; exact D. Qed.
Lemma settled_other ev j : j <> str_of "mech" -> j <> str_of "type" -> dget j (settled ev) = dget j ev.
Proof.
  intros N1 N2. assert (R : dget j (rename_type ev) = dget j ev).
  { rewrite rename_get. apply seqb_f in N1, N2. rewrite N1, N2. destruct (_ && _)%bool; reflexivity. }
  assert (Q : forall v, dget j (dset (str_of "mech") v (rename_type ev)) = dget j ev).
  { intro v. rewrite dset_get. apply seqb_f in N1. rewrite N1. exact R. }
  unfold settled. destruct (dget (str_of "mech") (rename_type ev)) as [[| [|] | | |]|]; auto.
Qed.
(** The mechanism before settling. *)
Definition raw_mech (ev : dict value) : option value := match dget (str_of "mech") ev with Some v => Some v | None => dget (str_of "type") ev end.
Lemma rename_mech ev : dget (str_of "mech") (rename_type ev) = raw_mech ev.
Proof.
  rewrite rename_get. unfold raw_mech, dhas. destruct (dget (str_of "type") ev) eqn:T; destruct (dget (str_of "mech") ev) eqn:M; cbn [andb negb]; rewrite ?M; reflexivity.
Qed.
Lemma settled_mech ev : dget (str_of "mech") (settled ev) = Some (match raw_mech ev with None => VStr (str_of "ALL") | Some (VStr []) => VStr (str_of "ALL") | Some v => v end).
Proof.
  unfold settled. rewrite rename_mech. destruct (raw_mech ev) as [[| [|] | | |]|] eqn:M; try (rewrite rename_mech; exact M); rewrite dset_get; reflexivity.
Qed.
Lemma settled_type ev : dget (str_of "type") (settled ev) = if dhas (str_of "mech") ev then dget (str_of "type") ev else None.
Proof.
  assert (R : dget (str_of "type") (rename_type ev) = if dhas (str_of "mech") ev then dget (str_of "type") ev else None).
  { rewrite rename_get. unfold dhas. destruct (dget (str_of "type") ev) eqn:T; destruct (dget (str_of "mech") ev); try reflexivity; exact T. }
  unfold settled. destruct (dget (str_of "mech") (rename_type ev)) as [[| [|] | | |]|]; try exact R; rewrite dset_get; exact R.
Qed.
Lemma mechanism_settled ev m : distinct ev -> (mechanism ev m <-> known m /\ In (str_of "mech", VStr m) (settled ev)).
Proof.
  intro D. rewrite <- (dget_in _ _ _ (settled_distinct _ D)), settled_mech.
  assert (KA : known (str_of "ALL")) by (eexists; constructor).
  assert (NE : ~ known []) by (intros [r H]; inversion H).
  assert (Q : forall v m, names v m <-> known m /\ Some (match Some v with None => VStr (str_of "ALL") | Some (VStr []) => VStr (str_of "ALL") | Some w => w end) = Some (VStr m)).
  { clear m. intros v m. split.
    - intros [s K|]; [|auto]. split; [exact K|]. destruct s; [contradiction|reflexivity].
    - intros [K E]. destruct v as [|s|z|x|k]; try discriminate. destruct s as [|c s]; injection E as <-; constructor; exact K. }
  unfold raw_mech. split.
  - intros [v m' Hi Nm|v m' Nh Hi Nm|N1 N2].
    + apply (dget_in _ _ _ D) in Hi. rewrite Hi. apply Q. exact Nm.
    + apply dget_none in Nh. rewrite Nh. apply (dget_in _ _ _ D) in Hi. rewrite Hi. apply Q. exact Nm.
    + apply dget_none in N1, N2. rewrite N1, N2. auto.
  - destruct (dget (str_of "mech") ev) as [v|] eqn:M.
    + intro H. apply (by_mech _ v); [apply (dget_in _ _ _ D); exact M|]. apply Q. exact H.
    + apply dget_none in M. destruct (dget (str_of "type") ev) as [v|] eqn:T.
      * intro H. apply (by_type _ v); [exact M|apply (dget_in _ _ _ D); exact T|]. apply Q. exact H.
      * intros [_ H]. injection H as <-. apply by_default; [exact M|]. apply dget_none. exact T.
Qed.

(** The construction in one step. *)
Definition last_step (ev : dict value) : res (dict value) :=
  match dget (str_of "mech") (settled ev) with
  | Some (VStr m) => match rake_of m with Some _ => attributes fparse (settled ev) | None => Err ValueError end
  | _ => Err ValueError
  end.
Lemma new_origin_eq ev : new_origin fparse ev =
  if negb (forallb (fun k => dhas k ev) required) then (ev, Err KeyError)
  else if match dget (str_of "id") ev with Some (VStr _) => false | Some VNone => false | _ => true end then (ev, Err TypeError)
  else match check_place fparse ev with Err e => (ev, Err e) | Ok _ => (settled ev, last_step ev) end.
Proof.
  unfold new_origin. destruct (negb _); [reflexivity|]. destruct (match dget (str_of "id") ev with Some (VStr _) => false | Some VNone => false | _ => true end); [reflexivity|]. destruct (check_place fparse ev); [|reflexivity].
  unfold last_step, settled. destruct (dget (str_of "mech") (rename_type ev)) as [v|] eqn:M.
  - destruct v as [| [|c s] | | |]; cbn beta iota zeta; try (rewrite M; reflexivity).
    + rewrite dset_get. reflexivity.
    + rewrite M. destruct (rake_of (c :: s)); reflexivity.
  - rewrite dset_get. reflexivity.
Qed.
End Proofs.
