(** Origins (C55). *)
From Coq Require Import ZArith Reals String Ascii Bool List Lia Lra.
From Flocq Require Import Core.
From Verif Require Import PyBase FloatBase GeoModel GeoTrig PolyModel PolySpec OriginModel OriginSpec OriginProofs.
Import ListNotations.
Open Scope R_scope.
Local Arguments str_of _ : simpl never.

Section Props.
Variable fparse : str -> option num.
Notation number := (number fparse).
Notation in_range := (in_range fparse).
Notation valid := (valid fparse).
Notation settled := (settled).
Lemma all_at_iff (ev : dict value) k v P : distinct ev -> dget k ev = Some v -> (all_at ev k P <-> P v).
Proof.
  intros D G. unfold all_at. split; [intro H; apply H, dget_sound, G|]. intros H w W. apply (dget_in _ _ _ D) in W. congruence.
Qed.
Lemma in_settled ev k v : distinct ev -> k <> str_of "mech" -> k <> str_of "type" -> (In (k, v) (settled ev) <-> In (k, v) ev).
Proof. intros D N1 N2. rewrite <- (dget_in _ _ _ D), <- (dget_in _ _ _ (settled_distinct _ D)), settled_other by assumption. reflexivity. Qed.
Lemma last_step_ok ev m r : distinct ev -> mechanism ev m -> mech_rake m r ->
  last_step fparse ev = bind (copy_attrs fparse (settled ev)) (fun a => Ok (if dhas (str_of "rake") a then a else dset (str_of "rake") (VFloat (Fin r)) a)).
Proof.
  intros D M Mr. apply (mechanism_settled _ _ D) in M. destruct M as [K M]. unfold last_step. pose proof M as G. apply (dget_in _ _ _ (settled_distinct _ D)) in G. rewrite G.
  destruct (rake_of m) eqn:E; [|apply rake_of_none in E; contradiction]. apply (attributes_eq _ _ _ _ M (settled_distinct _ D) Mr).
Qed.
Lemma last_step_err ev : distinct ev -> (forall m, ~ mechanism ev m) -> last_step fparse ev = Err ValueError.
Proof.
  intros D N. unfold last_step. destruct (dget (str_of "mech") (settled ev)) as [[|m| | |]|] eqn:G; try reflexivity. destruct (rake_of m) eqn:E; [|reflexivity].
  exfalso. apply (N m). apply (mechanism_settled _ _ D). split; [|apply (dget_in _ _ _ (settled_distinct _ D)); exact G]. destruct (rake_of m) eqn:E'; [|discriminate].
  destruct o0 as [r|]; [exists r; apply rake_of_some; exact E'|]. apply rake_of_all in E'. subst. eexists. constructor.
Qed.
Lemma mechanism_dec ev : distinct ev -> (exists m, mechanism ev m) \/ (forall m, ~ mechanism ev m).
Proof.
  intro D. destruct (dget (str_of "mech") (settled ev)) as [[|m| | |]|] eqn:G.
  2: { destruct (rake_of m) as [r|] eqn:E.
       - left. exists m. apply (mechanism_settled _ _ D). split; [|apply (dget_in _ _ _ (settled_distinct _ D)); exact G].
         destruct r as [r|]; [exists r; apply rake_of_some; exact E|]. apply rake_of_all in E. subst. eexists. constructor.
       - right. intros m' H. apply (mechanism_settled _ _ D) in H. destruct H as [K H]. apply (dget_in _ _ _ (settled_distinct _ D)) in H. apply rake_of_none in E. congruence. }
  all: right; intros m' H; apply (mechanism_settled _ _ D) in H; destruct H as [K H]; apply (dget_in _ _ _ (settled_distinct _ D)) in H; congruence.
Qed.
Lemma in_settled_rake ev v : distinct ev -> (In (str_of "rake", v) (settled ev) <-> In (str_of "rake", v) ev).
Proof. intro D. apply in_settled; [exact D|discriminate|discriminate]. Qed.
Lemma settled_rake ev : distinct ev -> (all_at (settled ev) "rake"%string (fun v => exists x, number v x) <-> all_at ev "rake"%string (fun v => exists x, number v x)).
Proof.
  intro D. assert (Q : forall v, In (str_of "rake", v) (settled ev) <-> In (str_of "rake", v) ev) by (intro v; apply in_settled; [exact D|discriminate|discriminate]).
  unfold all_at. split; intros H v Hv; apply H, Q; exact Hv.
Qed.
Lemma last_step_iff ev : distinct ev -> ((exists o, last_step fparse ev = Ok o) <-> (exists m, mechanism ev m) /\ all_at ev "rake"%string (fun v => exists x, number v x)).
Proof.
  intro D. destruct (mechanism_dec ev D) as [[m M]|N].
  - pose proof M as M'. apply (mechanism_settled _ _ D) in M'. destruct M' as [[r Mr] _]. rewrite (last_step_ok _ _ _ D M Mr), <- (settled_rake _ D), <- copy_ok.
    split.
    + intros [o H]. split; [eauto|]. destruct (copy_attrs fparse (settled ev)) as [a|]; [eauto|discriminate].
    + intros [_ [a H]]. rewrite H. cbn. eauto.
  - rewrite (last_step_err _ D N). split; [intros [o H]; discriminate|]. intros [[m M] _]. exfalso. apply (N _ M).
Qed.
Lemma complete_get ev k : complete ev -> is_required k -> exists v, dget k ev = Some v.
Proof. intros H K. apply dget_has, H, K. Qed.
Ltac req := unfold is_required; tauto.

(** Whether an event is accepted. *)
Theorem C55_accepts ev : distinct ev -> ((exists o, snd (new_origin fparse ev) = Ok o) <-> valid ev).
Proof.
  intro D. rewrite new_origin_eq. unfold OriginSpec.valid. rewrite <- (last_step_iff _ D). destruct (forallb _ required) eqn:C; cbn [negb].
  - apply complete_iff in C. destruct (complete_get ev "id"%string C) as [i Gi]; [req|]. destruct (complete_get ev "lat"%string C) as [la Gl]; [req|]. destruct (complete_get ev "lon"%string C) as [lo Go]; [req|].
    rewrite (all_at_iff ev "id"%string _ _ D Gi), (all_at_iff ev "lat"%string _ _ D Gl), (all_at_iff ev "lon"%string _ _ D Go), (check_place_eq _ _ _ _ Gl Go).
    pose proof (id_iff _ _ Gi) as I. destruct (match dget (str_of "id") ev with Some (VStr _) => false | Some VNone => false | _ => true end).
    + split; [intros [o H]; discriminate|]. intros (_ & H & _). apply I in H. discriminate.
    + assert (GI : good_id i) by (apply I; reflexivity). rewrite <- !coordinate_ok.
      destruct (coordinate fparse la (-90) 90) as [[]|]; [|split; [intros [o H]; discriminate|intros (_ & _ & H & _); discriminate]]. cbn [bind].
      destruct (coordinate fparse lo (-180) 180) as [[]|]; [|split; [intros [o H]; discriminate|intros (_ & _ & _ & H & _); discriminate]]. cbn [snd]. tauto.
  - split; [intros [o H]; discriminate|]. intros (H & _). apply complete_iff in H. congruence.
Qed.
Print Assumptions C55_accepts.

(** Why an event is refused. *)
Theorem C55_errors ev e : distinct ev -> (snd (new_origin fparse ev) = Err e <-> fails fparse ev e).
Proof.
  intro D. rewrite new_origin_eq. destruct (forallb _ required) eqn:C; cbn [negb].
  2: { assert (N : ~ complete ev) by (intro H; apply complete_iff in H; congruence). split; [intros [= <-]; apply fail_key; exact N|]. intros []; try contradiction. reflexivity. }
  apply complete_iff in C. destruct (complete_get ev "id"%string C) as [i Gi]; [req|]. destruct (complete_get ev "lat"%string C) as [la Gl]; [req|]. destruct (complete_get ev "lon"%string C) as [lo Go]; [req|].
  pose proof (all_at_iff ev "id"%string _ good_id D Gi) as AI. pose proof (all_at_iff ev "lat"%string _ (in_range (-90) 90) D Gl) as AL. pose proof (all_at_iff ev "lon"%string _ (in_range (-180) 180) D Go) as AO.
  rewrite (check_place_eq _ _ _ _ Gl Go).
  pose proof Gi as Ii. apply (dget_in _ _ _ D) in Ii. pose proof Gl as Il. apply (dget_in _ _ _ D) in Il. pose proof Go as Io. apply (dget_in _ _ _ D) in Io.
  pose proof (id_iff _ _ Gi) as I. destruct (match dget (str_of "id") ev with Some (VStr _) => false | Some VNone => false | _ => true end).
  { assert (N : ~ good_id i) by (intro H; apply I in H; discriminate). split; [intros [= <-]; apply (fail_id _ _ i); assumption|].
    intros []; try contradiction; try reflexivity; exfalso; apply N; apply (proj1 AI); assumption. }
  assert (GI : all_at ev "id"%string good_id) by (apply (proj2 AI), (proj1 I); reflexivity). clear I.
  assert (NG : forall v, In (str_of "id", v) ev -> ~ good_id v -> False) by (intros v Hv Hn; apply Hn, GI; exact Hv).
  assert (BI : forall v lo hi e', coordinate fparse v lo hi = Err e' <-> bad (in_range lo hi) v e').
  { intros v l h e'. rewrite coordinate_err. split; [intros [[A ->]|[A [B ->]]]; constructor; assumption|intros []; auto]. }
  destruct (coordinate fparse la (-90) 90) as [[]|e'] eqn:CL.
  2: { cbn [bind snd]. assert (NL : ~ all_at ev "lat"%string (in_range (-90) 90)) by (intro H; apply (proj1 AL) in H; apply coordinate_ok in H; congruence). split.
       - intros [= <-]. apply (fail_lat _ _ la); try assumption. apply BI. exact CL.
       - intros []; try contradiction; try (exfalso; eauto; fail). assert (v = la) by (apply (in_unique _ _ _ _ D H1 Il)). subst. apply BI in H2. congruence. }
  cbn [bind]. assert (OL : all_at ev "lat"%string (in_range (-90) 90)) by (apply (proj2 AL), coordinate_ok; exact CL).
  assert (NL : forall v e, In (str_of "lat", v) ev -> bad (in_range (-90) 90) v e -> False).
  { intros v e' Hv B. pose proof (in_unique _ _ _ _ D Hv Il). subst v. apply BI in B. congruence. }
  destruct (coordinate fparse lo (-180) 180) as [[]|e'] eqn:CO.
  2: { cbn [snd]. assert (NO : ~ all_at ev "lon"%string (in_range (-180) 180)) by (intro H; apply (proj1 AO) in H; apply coordinate_ok in H; congruence). split.
       - intros [= <-]. apply (fail_lon _ _ lo); try assumption. apply BI. exact CO.
       - intros []; try contradiction; try (exfalso; eauto; fail). assert (v = lo) by (apply (in_unique _ _ _ _ D H2 Io)). subst. apply BI in H3. congruence. }
  cbn [snd]. assert (OO : all_at ev "lon"%string (in_range (-180) 180)) by (apply (proj2 AO), coordinate_ok; exact CO).
  assert (NO : forall v e, In (str_of "lon", v) ev -> bad (in_range (-180) 180) v e -> False).
  { intros v e' Hv B. pose proof (in_unique _ _ _ _ D Hv Io). subst v. apply BI in B. congruence. }
  destruct (mechanism_dec ev D) as [[m M]|N].
  2: { rewrite (last_step_err _ D N). split; [intros [= <-]; apply fail_mech; assumption|]. intros []; try contradiction; try reflexivity; exfalso; eauto. eapply N; eauto. }
  pose proof M as M'. apply (mechanism_settled _ _ D) in M'. destruct M' as [[r Mr] _]. rewrite (last_step_ok _ _ _ D M Mr).
  assert (BF : forall v e', py_float fparse v = Err e' <-> bad (fun v => exists x, number v x) v e').
  { intros v e'. rewrite float_err. split.
    - intros [[A ->]|[A [B ->]]]; [constructor; exact A|apply bad_value; [exact A|]]. intros [x Hx]. apply (B _ Hx).
    - intros [A|A B]; [left; auto|right]. split; [exact A|]. split; [|reflexivity]. intros x Hx. apply B. eauto. }
  destruct (copy_attrs fparse (settled ev)) as [a|e'] eqn:CA; cbn [bind].
  - split; [discriminate|]. intros []; try contradiction; exfalso; eauto.
    + eapply H3; eauto.
    + destruct H5 as [A|A B].
      * assert (Q : exists a, copy_attrs fparse (settled ev) = Ok a) by eauto. apply copy_ok in Q. destruct (Q v) as [x X]; [apply (in_settled_rake _ _ D); assumption|]. destruct A as [-> |[k -> ]]; inversion X.
      * apply B. assert (Q : exists a, copy_attrs fparse (settled ev) = Ok a) by eauto. apply copy_ok in Q. apply Q. apply (in_settled_rake _ _ D); assumption.
  - destruct (copy_err _ _ _ (settled_distinct _ D) CA) as (v & V & F). apply (in_settled_rake _ _ D) in V. split.
    + intros [= <-]. apply (fail_rake _ _ v m); try assumption. apply BF. exact F.
    + intros []; try contradiction; try (exfalso; eauto; fail).
      * exfalso. eapply H3; eauto.
      * pose proof (in_unique _ _ _ _ D H4 V). subst. apply BF in H5. congruence.
Qed.
Print Assumptions C55_errors.

(** The attributes. *)
Theorem C55_attributes ev o : distinct ev -> snd (new_origin fparse ev) = Ok o ->
  distinct o /\ exists m r, mechanism ev m /\ mech_rake m r /\ In (str_of "mech", VStr m) o /\
  (forall v, In (str_of "rake", v) o <-> exists x, v = VFloat x /\ ((exists w, In (str_of "rake", w) ev /\ number w x) \/ (~ has ev "rake"%string /\ x = Fin r))) /\
  (forall v, In (str_of "type", v) o <-> In (str_of "type", v) ev /\ has ev "mech"%string) /\
  forall k v, k <> str_of "mech" -> k <> str_of "type" -> k <> str_of "rake" -> (In (k, v) o <-> In (k, v) ev).
Proof.
  intros D H. assert (L : last_step fparse ev = Ok o).
  { rewrite new_origin_eq in H. destruct (negb _); [discriminate|]. destruct (match dget (str_of "id") ev with Some (VStr _) => false | Some VNone => false | _ => true end); [discriminate|]. destruct (check_place fparse ev); [exact H|discriminate]. }
  assert (Lx : exists o, last_step fparse ev = Ok o) by eauto. apply (last_step_iff _ D) in Lx. destruct Lx as [[m M] _].
  pose proof M as M'. apply (mechanism_settled _ _ D) in M'. destruct M' as [[r Mr] Mi]. rewrite (last_step_ok _ _ _ D M Mr) in L. clear H.
  destruct (copy_attrs fparse (settled ev)) as [a|] eqn:CA; [|discriminate]. cbn [bind] in L.
  pose proof (settled_distinct _ D) as Ds. assert (Da : distinct a) by (unfold distinct; rewrite (copy_keys _ _ _ CA); exact Ds).
  assert (Hr : has a "rake"%string <-> has ev "rake"%string).
  { assert (Q : forall v, In (str_of "rake", v) (settled ev) <-> In (str_of "rake", v) ev) by (intro v; apply in_settled; [exact D|discriminate|discriminate]).
    rewrite (copy_has _ _ _ _ CA). unfold has. split; intros [v V]; exists v; apply Q; exact V. }
  assert (Io : forall k v, k <> str_of "rake" -> (In (k, v) o <-> In (k, v) a)).
  { intros k v N. destruct (dhas (str_of "rake") a) eqn:E; injection L as <-; [tauto|]. rewrite (dset_in _ _ _ _ _ Da). split; [intros [[-> _]|[_ X]]; [contradiction|exact X]|auto]. }
  assert (Ia : forall k v, k <> str_of "rake" -> (In (k, v) a <-> In (k, v) (settled ev))).
  { intros k v N. rewrite (copy_in _ _ _ _ _ CA). split; [intros (w & W & [[_ ->]|[X _]]); [exact W|contradiction]|intro W; exists v; auto]. }
  split. { destruct (dhas (str_of "rake") a); injection L as <-; [exact Da|apply dset_distinct; exact Da]. }
  exists m, r. split; [exact M|]. split; [exact Mr|]. split; [apply Io; [discriminate|]; apply Ia; [discriminate|exact Mi]|]. split; [|split].
  - intro v. destruct (dhas (str_of "rake") a) eqn:E; injection L as <-.
    + apply dhas_iff in E. apply Hr in E. rewrite (copy_in _ _ _ _ _ CA). split.
      * intros (w & W & [[X _]|[_ (x & X & ->)]]); [contradiction|]. exists x. split; [reflexivity|]. left. exists w. split; [apply (in_settled_rake _ _ D); exact W|exact X].
      * intros (x & -> & [(w & W & X)|[N _]]); [|contradiction]. exists w. split; [apply (in_settled_rake _ _ D); assumption|]. right. split; [reflexivity|]. exists x. auto.
    + apply dhas_f in E. rewrite Hr in E. rewrite (dset_in _ _ _ _ _ Da). split.
      * intros [[_ ->]|[N _]]; [|contradiction]. exists (Fin r). auto.
      * intros (x & -> & [(w & W & _)|[_ ->]]); [|auto]. exfalso. apply E. exists w. exact W.
  - intro v. rewrite (Io _ _) by discriminate. rewrite (Ia _ _) by discriminate. rewrite <- (dget_in _ _ _ Ds), settled_type. destruct (dhas (str_of "mech") ev) eqn:E.
    + apply dhas_iff in E. rewrite (dget_in _ _ _ D). tauto.
    + apply dhas_f in E. split; [discriminate|]. intros [_ X]. contradiction.
  - intros k v N1 N2 N3. rewrite (Io _ _ N3), (Ia _ _ N3). apply in_settled; assumption.
Qed.
Print Assumptions C55_attributes.

(** The caller's dictionary: only mech and type may change, and building again from it
    gives the same. *)
Theorem C55_dictionary ev : distinct ev -> let ev' := fst (new_origin fparse ev) in
  distinct ev' /\ (forall k v, k <> str_of "mech" -> k <> str_of "type" -> (In (k, v) ev' <-> In (k, v) ev)) /\
  (forall m, mechanism ev' m <-> mechanism ev m) /\ new_origin fparse ev' = (ev', snd (new_origin fparse ev)).
Proof.
  intros D ev'. assert (Cases : (ev' = ev /\ True) \/ (fst (new_origin fparse ev) = settled ev /\ new_origin fparse ev = (settled ev, last_step fparse ev))).
  { unfold ev'. rewrite new_origin_eq. destruct (negb _); [auto|]. destruct (match dget (str_of "id") ev with Some (VStr _) => false | Some VNone => false | _ => true end); [auto|]. destruct (check_place fparse ev); auto. }
  destruct Cases as [[E _]|[E F]].
  { unfold ev' in *. rewrite E. split; [exact D|]. split; [tauto|]. split; [tauto|]. rewrite (surjective_pairing (new_origin fparse ev)) at 1. rewrite E. reflexivity. }
  assert (Ss : settled (settled ev) = settled ev).
  { assert (R : rename_type (settled ev) = settled ev).
    { unfold rename_type. rewrite settled_type. unfold dhas at 2. rewrite settled_mech. destruct (dhas (str_of "mech") ev) eqn:Hm; [|reflexivity]. destruct (dget (str_of "type") ev); reflexivity. }
    unfold OriginProofs.settled at 1. rewrite R, settled_mech. destruct (raw_mech ev) as [[| [|] | | |]|]; reflexivity. }
  unfold ev'. rewrite E. pose proof (settled_distinct _ D) as Ds. split; [exact Ds|]. split; [intros; apply in_settled; assumption|]. split.
  - intro m. rewrite (mechanism_settled _ _ Ds), (mechanism_settled _ _ D), Ss. reflexivity.
  - rewrite F. cbn [snd]. rewrite (new_origin_eq _ (settled ev)). rewrite new_origin_eq in F.
    assert (Hs : forall k, k <> str_of "mech" -> k <> str_of "type" -> dhas k (settled ev) = dhas k ev) by (intros k N1 N2; unfold dhas; rewrite settled_other by assumption; reflexivity).
    assert (Rq : forallb (fun k => dhas k (settled ev)) required = forallb (fun k => dhas k ev) required).
    { cbn [required map forallb]. rewrite !Hs by discriminate. reflexivity. }
    assert (Cp : check_place fparse (settled ev) = check_place fparse ev).
    { unfold check_place, ditem. rewrite !settled_other by discriminate. reflexivity. }
    rewrite Rq, Cp, (settled_other _ (str_of "id")) by discriminate. rewrite Ss.
    replace (last_step fparse (settled ev)) with (last_step fparse ev) by (unfold last_step; rewrite Ss; reflexivity).
    destruct (negb _); [injection F as F1 F2; rewrite <- F2; reflexivity|].
    destruct (match dget (str_of "id") ev with Some (VStr _) => false | Some VNone => false | _ => true end); [injection F as F1 F2; rewrite <- F2; reflexivity|].
    destruct (check_place fparse ev); [reflexivity|]. injection F as F1 F2. rewrite <- F2. reflexivity.
Qed.
Print Assumptions C55_dictionary.
End Props.

(** An event: a text for the latitude, an integer longitude, the mechanism as type. *)
Definition ex_parse (s : str) : option num := if str_eqb s (str_of "34.5") then Some (Fin 34.5) else None.
Definition ex_event (mech : dict value) : dict value :=
  [(str_of "id", VStr (str_of "us1")); (str_of "netid", VStr (str_of "us")); (str_of "network", VNone); (str_of "lat", VStr (str_of "34.5")); (str_of "lon", VInt (-120));
   (str_of "depth", VFloat (Fin 10)); (str_of "locstring", VStr []); (str_of "mag", VFloat NaN); (str_of "time", VObj 0)] ++ mech.
Definition with_type (t : string) : dict value := ex_event [(str_of "type", VStr (str_of t))].
Lemma with_type_distinct t : distinct (with_type t).
Proof.
  unfold distinct, with_type, ex_event. cbn [map app fst].
  repeat (apply NoDup_cons; [cbn [In]; intro H; repeat destruct H as [H|H]; try discriminate; exact H|]). apply NoDup_nil.
Qed.
Lemma with_type_place t : check_place ex_parse (with_type t) = Ok tt.
Proof.
  rewrite (check_place_eq _ _ (VStr (str_of "34.5")) (VInt (-120))) by reflexivity.
  replace (coordinate ex_parse (VStr (str_of "34.5")) (-90) 90) with (Ok tt); [|symmetry; apply coordinate_ok; exists (Fin 34.5); split; [apply n_text; reflexivity|cbn; lra]].
  cbn [bind]. apply coordinate_ok. exists (Fin (IZR (-120))). split; [constructor|cbn; lra].
Qed.
Lemma with_type_origin t : new_origin ex_parse (with_type t) = (settled (with_type t), last_step ex_parse (with_type t)).
Proof. rewrite new_origin_eq, with_type_place. reflexivity. Qed.
Example C55_ex_accepts : distinct (with_type "RS") /\ valid ex_parse (with_type "RS") /\ mechanism (with_type "RS") (str_of "RS").
Proof.
  assert (D := with_type_distinct "RS"). split; [exact D|]. split.
  - apply (C55_accepts ex_parse _ D). rewrite with_type_origin. cbn [snd]. unfold last_step. eexists. reflexivity.
  - apply (by_type _ (VStr (str_of "RS"))).
    + rewrite <- dhas_f. reflexivity.
    + cbn. tauto.
    + constructor. eexists. constructor.
Qed.
Example C55_ex_attributes : exists o, snd (new_origin ex_parse (with_type "RS")) = Ok o /\ In (str_of "rake", VFloat (Fin 90)) o /\ In (str_of "mech", VStr (str_of "RS")) o /\ ~ has o (str_of "type").
Proof.
  rewrite with_type_origin. cbn [snd]. eexists. split; [reflexivity|]. rewrite <- dhas_f. split; [|split; [|reflexivity]]; apply dget_sound; reflexivity.
Qed.
Example C55_ex_errors : fails ex_parse (with_type "XX") ValueError /\ fails ex_parse [] KeyError.
Proof.
  split; apply C55_errors; [apply with_type_distinct| |apply NoDup_nil|reflexivity]. rewrite with_type_origin. reflexivity.
Qed.
(** A refused event has already been changed: its type is now its mech. *)
Theorem C55_type_lost_refuted : exists fparse ev, distinct ev /\ snd (new_origin fparse ev) = Err ValueError /\ fst (new_origin fparse ev) <> ev /\ has ev (str_of "type") /\ ~ has (fst (new_origin fparse ev)) (str_of "type").
Proof.
  exists ex_parse, (with_type "XX"). split; [apply with_type_distinct|]. rewrite with_type_origin. split; [reflexivity|]. split; [|split].
  - cbn [fst]. intro H. apply (f_equal (dget (str_of "type"))) in H. discriminate.
  - apply dhas_iff. reflexivity.
  - apply dhas_f. reflexivity.
Qed.
Print Assumptions C55_type_lost_refuted.
(** A rake given to the constructor is not checked. *)
Theorem C55_rake_refuted : exists fparse ev o, distinct ev /\ snd (new_origin fparse ev) = Ok o /\ In (str_of "rake", VFloat (Fin 1000)) o.
Proof.
  exists (fun _ => Some (Fin 0)), (ex_event [(str_of "rake", VInt 1000)]).
  assert (P : check_place (fun _ => Some (Fin 0)) (ex_event [(str_of "rake", VInt 1000)]) = Ok tt).
  { rewrite (check_place_eq _ _ (VStr (str_of "34.5")) (VInt (-120))) by reflexivity.
    replace (coordinate (fun _ => Some (Fin 0)) (VStr (str_of "34.5")) (-90) 90) with (Ok tt); [|symmetry; apply coordinate_ok; exists (Fin 0); split; [apply n_text; reflexivity|cbn; lra]].
    cbn [bind]. apply coordinate_ok. exists (Fin (IZR (-120))). split; [constructor|cbn; lra]. }
  rewrite new_origin_eq, P. eexists. split; [|split; [reflexivity|]].
  - unfold distinct, ex_event. cbn [map app fst]. repeat (apply NoDup_cons; [cbn [In]; intro H; repeat destruct H as [H|H]; try discriminate; exact H|]). apply NoDup_nil.
  - apply dget_sound. reflexivity.
Qed.
Print Assumptions C55_rake_refuted.

(** ** setMechanism *)
Lemma rake_grid x : is_double x -> 128 <= Rabs x -> exists n, x = IZR n * bpow radix2 (-45).
Proof.
  intros D A. pose proof D as E. unfold is_double, generic_format in E. set (c := cexp radix2 fexp64 x) in E.
  assert (C : (-45 <= c)%Z).
  { unfold c, cexp, fexp64, FLT_exp. assert (8 <= mag radix2 x)%Z; [|lia]. apply mag_ge_bpow. simpl. exact A. }
  exists (Ztrunc (scaled_mantissa radix2 fexp64 x) * 2 ^ (c + 45))%Z. rewrite E at 1. unfold F2R. cbn [Fnum Fexp]. rewrite mult_IZR.
  replace (IZR (2 ^ (c + 45))) with (bpow radix2 (c + 45)) by (rewrite <- IZR_Zpower by lia; reflexivity).
  rewrite Rmult_assoc, <- bpow_plus. do 2 f_equal. lia.
Qed.
Lemma bp45 : bpow radix2 (-45) = / IZR (2 ^ 45).
Proof. reflexivity. Qed.
Lemma grid_360 : 360 = IZR (360 * 2 ^ 45) * bpow radix2 (-45).
Proof. rewrite bp45, mult_IZR, Rmult_assoc, Rinv_r; [ring|]. apply IZR_neq. discriminate. Qed.
Lemma grid_180 : 180 = IZR (180 * 2 ^ 45) * bpow radix2 (-45).
Proof. rewrite bp45, mult_IZR, Rmult_assoc, Rinv_r; [ring|]. apply IZR_neq. discriminate. Qed.
Lemma grid_le m n : IZR m * bpow radix2 (-45) <= IZR n * bpow radix2 (-45) <-> (m <= n)%Z.
Proof.
  split; intro H.
  - apply le_IZR. apply (Rmult_le_reg_r (bpow radix2 (-45))); [apply bpow_gt_0|exact H].
  - apply Rmult_le_compat_r; [apply bpow_ge_0|]. apply IZR_le. exact H.
Qed.
Lemma grid_lt m n : IZR m * bpow radix2 (-45) < IZR n * bpow radix2 (-45) <-> (m < n)%Z.
Proof.
  split; intro H.
  - apply lt_IZR. apply (Rmult_lt_reg_r (bpow radix2 (-45))); [apply bpow_gt_0|exact H].
  - apply Rmult_lt_compat_r; [apply bpow_gt_0|]. apply IZR_lt. exact H.
Qed.
Lemma grid_m180 : -180 = IZR (- (180 * 2 ^ 45)) * bpow radix2 (-45).
Proof. rewrite opp_IZR, <- Ropp_mult_distr_l, <- grid_180. lra. Qed.
Lemma grid_up n : IZR n * bpow radix2 (-45) + 360 = IZR (n + 360 * 2 ^ 45) * bpow radix2 (-45).
Proof. rewrite plus_IZR, Rmult_plus_distr_r, <- grid_360. reflexivity. Qed.
(** x + 360 is exact where it matters. *)
Lemma up_exact x : is_double x -> x < -180 -> -180 <= x + 360 -> rnd (x + 360) = x + 360.
Proof.
  intros D L U. destruct (rake_grid x D) as [n E]; [rewrite Rabs_left by lra; lra|]. subst x. apply rnd_id. rewrite grid_up in *. rewrite grid_m180 in L, U.
  apply grid_lt in L. apply grid_le in U. apply double_F2R; lia.
Qed.
Lemma up_small x : is_double x -> x + 360 < -180 -> rnd (x + 360) < -180.
Proof.
  intros D L. destruct (rake_grid x D) as [n E]; [rewrite Rabs_left by lra; lra|]. subst x. rewrite grid_up in *. rewrite grid_m180 in *. apply grid_lt in L.
  apply Rle_lt_trans with (rnd (IZR (- (180 * 2 ^ 45) - 1) * bpow radix2 (-45))); [apply rnd_le, grid_le; lia|]. rewrite rnd_id by (apply double_F2R; lia). apply grid_lt. lia.
Qed.
Lemma up_below x : x < -180 -> rnd (x + 360) <= 180.
Proof. intro H. rewrite <- (rnd_int 180) by lia. apply rnd_le. lra. Qed.

Definition double_num (x : num) : Prop := match x with Fin x => is_double x | _ => True end.
Definition rake_step (r : num) : res num :=
  let r := if num_below r (-180) then num_add rnd r 360 else r in
  let r := if num_above r 180 then num_add rnd r (-360) else r in
  if num_below r (-180) || num_above r 180 then Err ValueError else Ok r.
Lemma rake_fin x : is_double x -> rake_step (Fin x) =
  if Rle_dec (-180) x then if Rle_dec x 180 then Ok (Fin x) else if Rle_dec x 540 then Ok (Fin (x - 360)) else Err ValueError
  else if Rle_dec (-540) x then Ok (Fin (x + 360)) else Err ValueError.
Proof.
  intro D. unfold rake_step. cbn [num_below num_add]. destruct (Rle_dec (-180) x) as [A|A].
  - rewrite (proj2 (rltb_f x (-180)) A). cbn [num_above]. destruct (Rle_dec x 180) as [B|B].
    + rewrite (proj2 (rltb_f 180 x) B). cbn [num_below num_above]. rewrite (proj2 (rltb_f x (-180)) A), (proj2 (rltb_f 180 x) B). reflexivity.
    + rewrite (proj2 (rltb_iff 180 x)) by lra. cbn [num_add num_below num_above]. assert (Dn : is_double (- x)) by (apply generic_format_opp; exact D).
      replace (x + -360) with (- (- x + 360)) by ring. rewrite rnd_opp. destruct (Rle_dec x 540) as [C|C].
      * rewrite up_exact by (assumption || lra). rewrite !(proj2 (rltb_f _ _)) by lra. cbn [orb]. do 2 f_equal. ring.
      * pose proof (up_small (- x) Dn ltac:(lra)). rewrite (proj2 (rltb_iff 180 _)) by lra. rewrite orb_true_r. reflexivity.
  - rewrite (proj2 (rltb_iff x (-180))) by lra. cbn [num_above]. rewrite (proj2 (rltb_f 180 _)) by (apply up_below; lra). cbn [num_below num_above].
    rewrite (proj2 (rltb_f 180 _)) by (apply up_below; lra). rewrite orb_false_r. destruct (Rle_dec (-540) x) as [C|C].
    + rewrite up_exact by (assumption || lra). rewrite (proj2 (rltb_f _ _)) by lra. reflexivity.
    + rewrite (proj2 (rltb_iff _ _)) by (apply up_small; [assumption|lra]). reflexivity.
Qed.
Lemma turned_iff r r' : double_num r -> (rake_step r = Ok r' <-> turned r r').
Proof.
  destruct r as [x| | |]; intro D.
  - rewrite (rake_fin x D). destruct (Rle_dec (-180) x) as [A|A].
    + destruct (Rle_dec x 180) as [B|B].
      * split; [intros [= <-]; constructor; lra|]. intro H. inversion H; subst; [reflexivity|]. exfalso. lra.
      * destruct (Rle_dec x 540) as [C|C].
        -- split; [intros [= <-]|].
           ++ replace (x - 360) with (x + 360 * IZR (-1)) by (cbn; ring). constructor; [lra|cbn; lra|auto].
           ++ intro H. inversion H as [|? k N I K|]; subst; [exfalso; lra|]. destruct K as [-> | ->]; [exfalso; cbn in I; lra|]. do 2 f_equal. cbn. ring.
        -- split; [discriminate|]. intro H. inversion H as [|? k N I K|]; subst; [exfalso; lra|]. destruct K as [-> | ->]; cbn in I; lra.
    + destruct (Rle_dec (-540) x) as [C|C].
      * split; [intros [= <-]|].
        -- replace (x + 360) with (x + 360 * IZR 1) by (cbn; ring). constructor; [lra|cbn; lra|auto].
        -- intro H. inversion H as [|? k N I K|]; subst; [exfalso; lra|]. destruct K as [-> | ->]; [|exfalso; cbn in I; lra]. do 2 f_equal. cbn. ring.
      * split; [discriminate|]. intro H. inversion H as [|? k N I K|]; subst; [exfalso; lra|]. destruct K as [-> | ->]; cbn in I; lra.
  - split; [discriminate|]. intro H. inversion H.
  - split; [discriminate|]. intro H. inversion H.
  - split; [intros [= <-]; constructor|]. intro H. inversion H. reflexivity.
Qed.
Lemma rake_step_err r e : rake_step r = Err e -> e = ValueError.
Proof. unfold rake_step. cbv zeta. destruct (num_below _ _ || num_above _ _)%bool; [intros [= <-]; reflexivity|discriminate]. Qed.
Lemma set_eq o mech rake dip : set_mechanism rnd o mech rake dip =
  match match mech with Some m => mech_table m | None => None end with
  | None => (o, Err ValueError)
  | Some (rake0, dip0) =>
      match match dip with Some d => if num_below d 0 || num_above d 90 then Err ValueError else Ok d | None => Ok (Fin dip0) end with
      | Err e => (o, Err e)
      | Ok dip => match match rake with Some r => rake_step r | None => Ok (Fin rake0) end with
                  | Err e => (o, Err e)
                  | Ok rake => (dset (str_of "mech") (match mech with Some m => VStr m | None => VNone end) (dset (str_of "rake") (VFloat rake) (dset (str_of "dip") (VFloat dip) o)), Ok tt)
                  end
      end
  end.
Proof. reflexivity. Qed.

(** What is stored: a dip in 0..90 and a rake in -180..180, the given one up to a turn. *)
Theorem C55_set o mech rake dip : distinct o -> (forall r, rake = Some r -> double_num r) ->
  ((exists o', set_mechanism rnd o mech rake dip = (o', Ok tt)) <->
   exists m, mech = Some m /\ known m /\ (forall d, dip = Some d -> within 0 90 d) /\ (forall r, rake = Some r -> within (-540) 540 r)) /\
  forall o', set_mechanism rnd o mech rake dip = (o', Ok tt) ->
    exists m r0 d0 r d, mech = Some m /\ mech_defaults m r0 d0 /\
      match rake with Some x => turned x r | None => r = Fin r0 end /\ match dip with Some x => d = x | None => d = Fin d0 end /\
      within (-180) 180 r /\ within 0 90 d /\
      distinct o' /\ In (str_of "mech", VStr m) o' /\ In (str_of "rake", VFloat r) o' /\ In (str_of "dip", VFloat d) o' /\
      forall k v, k <> str_of "mech" -> k <> str_of "rake" -> k <> str_of "dip" -> (In (k, v) o' <-> In (k, v) o).
Proof.
  intros D Rd. rewrite set_eq. destruct mech as [m|]; [|split; [split; [intros [o' H]; discriminate|intros (m & H & _); discriminate]|discriminate]].
  destruct (mech_table m) as [[r0 d0]|] eqn:T.
  2: { split; [split; [intros [o' H]; discriminate|]|discriminate]. intros (m' & [= <-] & K & _). apply known_table in K. contradiction. }
  assert (K : known m) by (apply known_table; congruence).
  assert (Wd : forall d, (num_below d 0 || num_above d 90)%bool = false <-> within 0 90 d) by (intro d; rewrite orb_comm; apply outside).
  assert (W0 : within (-180) 180 (Fin r0) /\ within 0 90 (Fin d0)) by (apply table_iff in T; destruct T; cbn; lra).
  assert (Wt : forall x r, turned x r -> within (-180) 180 r) by (intros x r [y Hy|y k _ Hy _|]; cbn; auto).
  assert (Wx : forall x, double_num x -> ((exists r, rake_step x = Ok r) <-> within (-540) 540 x)).
  { intros x Dx. split.
    - intros [r H]. apply (turned_iff _ _ Dx) in H. destruct H as [y Hy|y k N Hy [-> | ->]|]; cbn in *; lra.
    - destruct x as [x| | |]; cbn; try contradiction.
      + intro H. rewrite (rake_fin x Dx). destruct (Rle_dec (-180) x); [destruct (Rle_dec x 180); [eauto|destruct (Rle_dec x 540); [eauto|lra]]|destruct (Rle_dec (-540) x); [eauto|lra]].
      + intros _. exists NaN. apply (turned_iff NaN NaN Dx). constructor. }
  set (rr := match rake with Some r => rake_step r | None => Ok (Fin r0) end).
  set (dd := match dip with Some d => if num_below d 0 || num_above d 90 then Err ValueError else Ok d | None => Ok (Fin d0) end).
  assert (HD : (exists d, dd = Ok d) <-> forall d, dip = Some d -> within 0 90 d).
  { unfold dd. destruct dip as [d|]; [|split; [intros _ d; discriminate|eauto]]. split.
    - intros [d' H] d1 [= <-]. apply Wd. destruct (_ || _)%bool; [discriminate|reflexivity].
    - intro H. rewrite (proj2 (Wd d) (H d eq_refl)). eauto. }
  assert (HR : (exists r, rr = Ok r) <-> forall r, rake = Some r -> within (-540) 540 r).
  { unfold rr. destruct rake as [r|]; [|split; [intros _ r; discriminate|eauto]]. rewrite (Wx r (Rd r eq_refl)). split; [intros H r1 [= <-]; exact H|intro H; apply H; reflexivity]. }
  split.
  - split.
    + intros [o' H]. exists m. split; [reflexivity|]. split; [exact K|]. rewrite <- HD, <- HR. destruct dd as [d|]; [|discriminate]. destruct rr as [r|]; [|discriminate]. eauto.
    + intros (m' & _ & _ & Hd & Hr). apply HD in Hd. apply HR in Hr. destruct Hd as [d ->], Hr as [r ->]. eauto.
  - intros o' H. destruct dd as [d|] eqn:Ed; [|discriminate]. destruct rr as [r|] eqn:Er; [|discriminate]. injection H as <-.
    assert (Pd : match dip with Some x => d = x | None => d = Fin d0 end /\ within 0 90 d).
    { unfold dd in Ed. destruct dip as [x|]; [|injection Ed as <-; split; [reflexivity|apply W0]]. destruct (_ || _)%bool eqn:B; [discriminate|]. injection Ed as <-. split; [reflexivity|apply Wd; exact B]. }
    assert (Pr : match rake with Some x => turned x r | None => r = Fin r0 end /\ within (-180) 180 r).
    { unfold rr in Er. destruct rake as [x|]; [|injection Er as <-; split; [reflexivity|apply W0]]. apply (turned_iff _ _ (Rd x eq_refl)) in Er. split; [exact Er|eapply Wt; exact Er]. }
    exists m, r0, d0, r, d. split; [reflexivity|]. split; [apply table_iff; exact T|]. split; [apply Pr|]. split; [apply Pd|]. split; [apply Pr|]. split; [apply Pd|].
    set (o1 := dset (str_of "dip") (VFloat d) o). set (o2 := dset (str_of "rake") (VFloat r) o1).
    assert (D1 : distinct o1) by (apply dset_distinct; exact D). assert (D2 : distinct o2) by (apply dset_distinct; exact D1).
    split; [apply dset_distinct; exact D2|].
    assert (Q : forall k v, In (k, v) (dset (str_of "mech") (VStr m) o2) <-> (k = str_of "mech" /\ v = VStr m) \/ (k <> str_of "mech" /\ ((k = str_of "rake" /\ v = VFloat r) \/ (k <> str_of "rake" /\ ((k = str_of "dip" /\ v = VFloat d) \/ (k <> str_of "dip" /\ In (k, v) o)))))).
    { intros k v. rewrite (dset_in _ _ _ _ _ D2). unfold o2. rewrite (dset_in _ _ _ _ _ D1). unfold o1. rewrite (dset_in _ _ _ _ _ D). reflexivity. }
    split; [apply Q; left; auto|]. split; [apply Q; right; split; [discriminate|]; left; auto|]. split; [apply Q; right; split; [discriminate|]; right; split; [discriminate|]; left; auto|].
    intros k v N1 N2 N3. rewrite Q. tauto.
Qed.
Print Assumptions C55_set.
(** A refused mechanism changes nothing. *)
Theorem C55_set_refused o mech rake dip o' e : set_mechanism rnd o mech rake dip = (o', Err e) -> o' = o /\ e = ValueError.
Proof.
  rewrite set_eq. destruct (match mech with Some m => mech_table m | None => None end) as [[r0 d0]|]; [|intros [= <- <-]; auto].
  destruct dip as [d|].
  - destruct (num_below d 0 || num_above d 90)%bool; [intros [= <- <-]; auto|]. destruct rake as [r|]; [|discriminate]. destruct (rake_step r) as [r'|] eqn:E; [discriminate|]. intros [= <- <-]. split; [reflexivity|]. apply (rake_step_err _ _ E).
  - destruct rake as [r|]; [|discriminate]. destruct (rake_step r) as [r'|] eqn:E; [discriminate|]. intros [= <- <-]. split; [reflexivity|]. apply (rake_step_err _ _ E).
Qed.
Print Assumptions C55_set_refused.
Example C55_ex_set : exists o', set_mechanism rnd [] (Some (str_of "NM")) (Some (Fin 270)) None = (o', Ok tt) /\ In (str_of "rake", VFloat (Fin (-90))) o' /\ In (str_of "dip", VFloat (Fin 50)) o'.
Proof.
  assert (R : rake_step (Fin 270) = Ok (Fin (-90))).
  { apply turned_iff; [apply (double_int 270); lia|]. replace (-90) with (270 + 360 * IZR (-1)) by (cbn; ring). constructor; [lra|cbn; lra|auto]. }
  rewrite set_eq, R. cbn [mech_table]. eexists. split; [reflexivity|]. split; apply dget_sound; reflexivity.
Qed.
Example C55_ex_set_refused : set_mechanism rnd [] (Some (str_of "NM")) (Some PosInf) None = ([], Err ValueError).
Proof. reflexivity. Qed.
(** Without a rake, the mechanism ALL means 0 in the constructor and 45 here. *)
Theorem C55_default_refuted : exists fparse ev o o', distinct ev /\ snd (new_origin fparse ev) = Ok o /\ In (str_of "mech", VStr (str_of "ALL")) o /\ In (str_of "rake", VFloat (Fin 0)) o /\
  set_mechanism rnd o (Some (str_of "ALL")) None None = (o', Ok tt) /\ In (str_of "rake", VFloat (Fin 45)) o'.
Proof.
  exists ex_parse, (with_type "ALL"). rewrite with_type_origin. eexists. eexists. split; [apply with_type_distinct|]. split; [reflexivity|].
  split; [|split; [|split; [reflexivity|]]]; apply dget_sound; reflexivity.
Qed.
Print Assumptions C55_default_refuted.
