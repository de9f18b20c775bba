(** Lemmas for the rupture documents. *)
From Coq Require Import ZArith Reals String Ascii Bool List Lia.
From Verif Require Import PyBase VecModel RuptModel OriginModel OriginSpec OriginProofs PolyModel PolySpec PolyProofs PolyProps JsonModel ComcatSpec ComcatProofs FactoryModel FactorySpec.
Import ListNotations.
Local Arguments str_of _ : simpl never.

Lemma number_iff v x : number_of v = Some x <-> json_number v x.
Proof. split; [destruct v as [| | |[]| | |]; try discriminate; intros [= <-]; constructor|]. intros []; reflexivity. Qed.
Lemma vertex_iff v p : vertex_of v = Some p <-> json_vertex v p.
Proof.
  split.
  - destruct v as [| | | | |l|]; try discriminate. destruct l as [|a [|b [|c [|]]]]; try discriminate. cbn [vertex_of]. destruct (number_of a) eqn:A; [|discriminate]. destruct (number_of b) eqn:B; [|discriminate]. destruct (number_of c) eqn:C; [|discriminate].
    intros [= <-]. constructor; apply number_iff; assumption.
  - intros [a b c x y z A B C]. cbn [vertex_of]. apply number_iff in A, B, C. rewrite A, B, C. reflexivity.
Qed.
Lemma all_iff {A} f (P : json -> A -> Prop) : (forall v a, f v = Some a <-> P v a) -> forall l r, all_of f l = Some r <-> Forall2 P l r.
Proof.
  intros H. induction l as [|v l IH]; intros r; cbn [all_of].
  - split; [intros [= <-]; constructor|]. intros F. inversion F. reflexivity.
  - split.
    + destruct (f v) as [a|] eqn:E; [|discriminate]. destruct (all_of f l) as [t|]; [|discriminate]. intros [= <-]. constructor; [apply H; exact E|apply IH; reflexivity].
    + intros F. inversion F as [|? a ? t Pv F']; subst. apply H in Pv. apply IH in F'. rewrite Pv, F'. reflexivity.
Qed.
Lemma polygon_iff v p : polygon_of v = Some p <-> json_polygon v p.
Proof.
  split.
  - destruct v as [| | | | |l|]; try discriminate. cbn [polygon_of]. intros H. constructor. apply (all_iff _ _ vertex_iff). exact H.
  - intros [l q F]. cbn [polygon_of]. apply (all_iff _ _ vertex_iff). exact F.
Qed.
Lemma polygons_iff v ps : polygons_of v = Ok ps <-> json_polygons v ps.
Proof.
  split.
  - destruct v as [| | | | |l|]; try discriminate. cbn [polygons_of]. destruct (all_of polygon_of l) eqn:E; [|discriminate]. intros [= <-]. constructor. apply (all_iff _ _ polygon_iff). exact E.
  - intros [l q F]. cbn [polygons_of]. apply (all_iff _ _ polygon_iff) in F. rewrite F. reflexivity.
Qed.
Lemma check_all_iff ps : check_all ps = Ok tt <-> Forall well_ordered ps.
Proof.
  induction ps as [|p ps IH]; cbn [check_all]; [split; [constructor|reflexivity]|]. destruct (C50_check p) as [A B]. split.
  - destruct (check_polygon p) as [[]|] eqn:E; [|discriminate]. cbn [bind]. intros H. constructor; [apply A; reflexivity|apply IH; exact H].
  - intros F. inversion F; subst. rewrite (proj2 A) by assumption. cbn [bind]. apply IH. assumption.
Qed.
Lemma check_all_err ps e : check_all ps = Err e -> e = ValueError.
Proof.
  induction ps as [|p ps IH]; cbn [check_all]; [discriminate|]. destruct (C50_check p) as [A B]. destruct (check_polygon p) as [[]|e'] eqn:E; cbn [bind]; [exact IH|]. intros [= <-].
  assert (W : ~ well_ordered p) by (intros W; apply A in W; discriminate). specialize (B W). congruence.
Qed.
Lemma jeq_iff v s : jeq v s = true <-> v = JStr s.
Proof. destruct v; cbn [jeq]; try (split; discriminate). destruct (str_eqb_spec s0 s) as [->|N]; [tauto|]. split; [discriminate|congruence]. Qed.
Lemma jeq_f v s : jeq v s = false <-> v <> JStr s.
Proof. rewrite <- jeq_iff. destruct (jeq v s); split; congruence. Qed.
Lemma has_iff k (m : dict json) : dhas k m = true <-> has m k.
Proof.
  unfold dhas. split.
  - destruct (dget k m) as [v|] eqn:E; [|discriminate]. intros _. apply dget_split in E as (b & a & -> & _). exists v. apply in_elt.
  - intros [v H]. destruct (dget k m) as [w|] eqn:E; [reflexivity|]. exfalso. revert H E. induction m as [|[k' v'] m IH]; [intros []|]. cbn [dget]. destruct (str_eqb_spec k k') as [->|N]; [discriminate|]. intros [H|H]; [congruence|]. apply IH. exact H.
Qed.
Lemma at_one d k v : at_path d [k] v <-> jkey k d = Ok v.
Proof. rewrite jkey_iff. tauto. Qed.
Lemma has_at k d m : at_path d [k] m -> forall o, d = JObj o -> dhas k o = true.
Proof. intros H o ->. apply at_one in H. cbn [jkey] in H. unfold dhas. destruct (dget k o); [reflexivity|discriminate]. Qed.
(** The two kinds of document. *)
Lemma validate_iff d : validate_json d = Ok tt <-> point_doc d \/ exists ps, polygon_doc d ps /\ Forall well_ordered ps.
Proof.
  split.
  - unfold validate_json. destruct (jkey (str_of "type") d) as [t|] eqn:E1; [|discriminate]. cbn [bind]. destruct (jeq t _) eqn:E2; [|discriminate]. cbn [negb]. apply jeq_iff in E2 as ->.
    destruct (jkey (str_of "features") d) as [fs|] eqn:E3; [|discriminate]. cbn [bind]. destruct (jlen fs) as [n|] eqn:E4; [|discriminate]. cbn [bind]. destruct (Nat.eqb_spec n 1) as [->|]; [|discriminate]. cbn [negb].
    destruct (jkey (str_of "metadata") d) as [m|] eqn:E5; [|discriminate]. cbn [bind]. destruct m as [| | | | | |m]; try discriminate. cbn [jhas_key bind]. destruct (dhas (str_of "reference") m) eqn:E6; [|discriminate]. cbn [negb].
    destruct (jindex 0 fs) as [f|] eqn:E7; [|discriminate]. cbn [bind]. destruct (jkey (str_of "type") f) as [ft|] eqn:E8; [|discriminate]. cbn [bind]. destruct (jeq ft _) eqn:E9; [|discriminate]. cbn [negb]. apply jeq_iff in E9 as ->.
    destruct (jkey (str_of "geometry") f) as [g|] eqn:E10; [|discriminate]. cbn [bind]. destruct (jkey (str_of "type") g) as [gt|] eqn:E11; [|discriminate]. cbn [bind].
    assert (Ffs : fs = JArr [f]).
    { destruct fs as [| | | |s|l|o]; try discriminate.
      - destruct s as [|c s]; [discriminate|]. cbn in E7. injection E7 as <-. discriminate.
      - destruct l as [|x [|y l]]; try discriminate. cbn in E7. injection E7 as <-. reflexivity. }
    subst fs.
    assert (Hf : feature d m g).
    { split; [apply at_one; exact E1|]. split; [apply at_one; exact E5|]. split; [apply has_iff; exact E6|]. exists f. split; [apply at_one; exact E3|]. split; apply at_one; assumption. }
    destruct (negb (jeq gt (str_of "MultiPolygon")) && negb (jeq gt (str_of "Point")))%bool eqn:E12; [discriminate|].
    destruct (jhas_key (str_of "coordinates") g) as [hc|] eqn:E13; [|discriminate]. cbn [bind]. destruct hc; [|discriminate]. cbn [negb]. destruct (jkey (str_of "coordinates") g) as [c|] eqn:E14; [|discriminate]. cbn [bind]. destruct (jindex 0 c) as [p|] eqn:E15; [|discriminate]. cbn [bind].
    destruct (jeq gt (str_of "MultiPolygon")) eqn:E16.
    + apply jeq_iff in E16 as ->. destruct (polygons_of p) as [ps|] eqn:E17; [|discriminate]. cbn [bind]. intros Ck. right. exists ps. split; [|apply check_all_iff; exact Ck].
      assert (Fc : exists l, c = JArr (p :: l)).
      { destruct c as [| | | |s|l|o]; try discriminate; [|destruct l as [|x l]; [discriminate|]; cbn in E15; injection E15 as <-; exists l; reflexivity]. destruct s as [|a s]; [discriminate|]. cbn in E15. injection E15 as <-. discriminate. }
      destruct Fc as [l ->]. exists m, g, p, l. split; [exact Hf|]. split; [apply at_one; exact E11|]. split; [apply at_one; exact E14|]. apply polygons_iff. exact E17.
    + intros _. left. cbn [negb andb] in E12. apply Bool.negb_false_iff, jeq_iff in E12 as ->. exists m, g, c. split; [exact Hf|]. split; [apply at_one; exact E11|]. split; [apply at_one; exact E14|].
      destruct c as [| | | |s|l|o]; try discriminate; [destruct s as [|a s]; [discriminate|]; right; eauto|destruct l as [|x l]; [discriminate|]; left; eauto].
  - intros H. assert (G : exists m g gt c p, feature d m g /\ at_path g [str_of "type"] gt /\ at_path g [str_of "coordinates"] c /\ jindex 0 c = Ok p /\ (gt = JStr (str_of "Point") \/ gt = JStr (str_of "MultiPolygon") /\ exists ps, polygons_of p = Ok ps /\ check_all ps = Ok tt)).
    { destruct H as [(m & g & c & F & T & C & S)|(ps & (m & g & p & l & F & T & C & P) & W)].
      - exists m, g, (JStr (str_of "Point")), c. destruct S as [(x & l & ->)|(a & s & ->)]; eexists; (split; [exact F|]; split; [exact T|]; split; [exact C|]; split; [reflexivity|left; reflexivity]).
      - exists m, g, (JStr (str_of "MultiPolygon")), (JArr (p :: l)), p. split; [exact F|]. split; [exact T|]. split; [exact C|]. split; [reflexivity|]. right. split; [reflexivity|]. exists ps. split; [apply polygons_iff; exact P|apply check_all_iff; exact W]. }
    destruct G as (m & g & gt & c & p & (F1 & F2 & F3 & f & F4 & F5 & F6) & T & C & P & K). apply at_one in F1, F2, F4, F5, F6. apply has_iff in F3. assert (Hc : jhas_key (str_of "coordinates") g = Ok true) by (inversion C as [|b k v a ks w Ni Hp]; subst; cbn [jhas_key]; f_equal; apply has_iff; exists v; apply in_elt).
    apply at_one in T, C. unfold validate_json. rewrite F1. cbn [bind]. rewrite (proj2 (jeq_iff _ _) eq_refl). cbn [negb]. rewrite F4. cbn [bind jlen List.length Nat.eqb negb]. rewrite F2. cbn [bind jhas_key]. rewrite F3. cbn [negb jindex nth_error bind]. rewrite F5. cbn [bind]. rewrite (proj2 (jeq_iff _ _) eq_refl). cbn [negb]. rewrite F6. cbn [bind]. rewrite T. cbn [bind].
    destruct K as [->|[-> (ps & Kp & Kc)]].
    + change (jeq (JStr (str_of "Point")) (str_of "MultiPolygon")) with false. rewrite (proj2 (jeq_iff _ _) eq_refl). cbn [negb andb]. rewrite Hc. cbn [bind negb]. rewrite C. cbn [bind]. rewrite P. reflexivity.
    + rewrite (proj2 (jeq_iff _ _) eq_refl). cbn [negb andb]. rewrite Hc. cbn [bind negb]. rewrite C. cbn [bind]. rewrite P. cbn [bind]. rewrite Kp. cbn [bind]. exact Kc.
Qed.
