(** C91, C92: distance measures by name. *)
From Coq Require Import ZArith Reals String Ascii Bool List Lra Lia.
From Verif Require Import PyBase PyStr GeoModel OriginModel OriginSpec OriginProofs DistModel DistSpec.
Import ListNotations.
Open Scope R_scope.

Lemma mem_iff k l : mem k l = true <-> In k l.
Proof. unfold mem. rewrite existsb_exists. split; [intros (x & I & E); apply str_eqb_eq in E; subst; exact I|intro I; exists k; split; [exact I|apply str_eqb_eq; reflexivity]]. Qed.
Lemma mem_no k l : mem k l = false <-> ~ In k l.
Proof. rewrite <- mem_iff. destruct (mem k l); split; congruence. Qed.
Lemma one_of_mem l k : is_one_of l k <-> In k (map str_of l).
Proof. rewrite in_map_iff. split; intros (x & A & B); exists x; auto. Qed.
Lemma known_iff k : mem k measures = true <-> known_measure k.
Proof. unfold known_measure. rewrite mem_iff, one_of_mem. unfold measures. cbn [map In]. tauto. Qed.
Lemma gc2_iff k : mem k gc2_distances = true <-> gc2_measure k.
Proof. unfold gc2_measure. rewrite mem_iff, one_of_mem. unfold gc2_distances. cbn [map In]. tauto. Qed.
Lemma gc2_asked ms : existsb (fun m => mem m gc2_distances) ms = true <-> exists m, gc2_measure m /\ In m ms.
Proof. rewrite existsb_exists. split; intros (m & A & B); exists m; [apply gc2_iff in B|apply gc2_iff in A]; auto. Qed.
Lemma gc2_not k : gc2_measure k -> k <> str_of "rhypo" /\ k <> str_of "repi" /\ k <> str_of "rrup" /\ k <> str_of "rrup_var" /\ k <> str_of "rjb" /\ k <> str_of "rjb_var" /\ k <> str_of "rvolc".
Proof. intros (x & I & ->). cbn [In] in I. destruct I as [<-|[<-|[<-|[<-|[<-|[]]]]]]; repeat split; discriminate. Qed.

Section Dispatch.
Context {V : Type}.
Variable shape : V -> list nat.
Variable zeros_like : V -> V.
Notation rup := (rupture (V := V)).
Definition holds (d : dict V) (A : str -> V -> Prop) : Prop := distinct d /\ forall k v, In (k, v) d <-> A k v.
Lemma set_holds d A k0 v0 : holds d A -> (forall v, ~ A k0 v) -> holds (dset k0 v0 d) (fun k v => A k v \/ (k = k0 /\ v = v0)).
Proof.
  intros [D H] N. split; [apply dset_distinct; exact D|]. intros k v. rewrite dset_in, H by exact D. split; [intros [X|[_ X]]; auto|]. intros [X|X]; [right|left; exact X]. split; [intros ->; exact (N v X)|exact X].
Qed.
Lemma holds_iff d A B : (forall k v, A k v <-> B k v) -> holds d A -> holds d B.
Proof. intros E [D H]. split; [exact D|]. intros. rewrite H. apply E. Qed.
Lemma one_stage ms k0 c d d' A : holds d A -> (forall v, ~ A k0 v) -> (if mem k0 ms then bind c (fun v => Ok (dset k0 v d)) else Ok d) = Ok d' ->
  holds d' (fun k v => A k v \/ (In k0 ms /\ k = k0 /\ c = Ok v)) /\ (In k0 ms -> exists v, c = Ok v).
Proof.
  intros H N. destruct (mem k0 ms) eqn:M; [apply mem_iff in M|apply mem_no in M].
  - destruct c as [v0|e]; cbn [bind]; [|discriminate]. intro E. injection E as <-. split; [|eauto]. eapply holds_iff; [|apply (set_holds d A k0 v0 H N)]. intros k v. split; intros [X|X]; auto; right; [destruct X; subst; auto|]. destruct X as (_ & -> & X). injection X as ->. auto.
  - intro E. injection E as <-. split; [|tauto]. eapply holds_iff; [|exact H]. intros. tauto.
Qed.
Lemma two_stage ms k0 k1 (c : res (V * V)) d d' A : k0 <> k1 -> holds d A -> (forall v, ~ A k0 v) -> (forall v, ~ A k1 v) -> 
  (if mem k0 ms then bind c (fun vv => Ok (dset k1 (snd vv) (dset k0 (fst vv) d))) else Ok d) = Ok d' ->
  holds d' (fun k v => A k v \/ (In k0 ms /\ ((k = k0 /\ exists w, c = Ok (v, w)) \/ (k = k1 /\ exists w, c = Ok (w, v))))) /\ (In k0 ms -> exists v, c = Ok v).
Proof.
  intros K H N0 N1. destruct (mem k0 ms) eqn:M; [apply mem_iff in M|apply mem_no in M].
  - destruct c as [[v0 v1]|e]; cbn [bind fst snd]; [|discriminate]. intro E. injection E as <-. split; [|eauto].
    eapply holds_iff; [|apply set_holds; [apply (set_holds d A k0 v0 H N0)|]]; cbn beta.
    + intros k v. split; [intros [[X|[-> ->]]|[-> ->]]; eauto 8|]. intros [X|(_ & [(-> & w & X)|(-> & w & X)])]; [auto| |]; injection X as -> ->; auto.
    + intros v [X|[X _]]; [exact (N1 v X)|congruence].
  - intro E. injection E as <-. split; [|tauto]. eapply holds_iff; [|exact H]. intros. tauto.
Qed.
Lemma measure_ok ms lat lon dep (r : rup) d : five_measures r -> Forall known_measure ms -> measure zeros_like ms lat lon dep r = Ok d ->
  distinct d /\ (forall k v, In (k, v) d <-> asked ms k /\ value_of zeros_like r lat lon dep k v) /\ forall k, asked ms k -> exists v, value_of zeros_like r lat lon dep k v.
Proof.
  intros F KM. unfold measure.
  destruct (if mem (str_of "rhypo") ms then _ else _) as [d1|] eqn:E1; cbn [bind]; [|discriminate]. apply (one_stage _ _ _ _ _ (fun _ _ => False)) in E1; [|split; [constructor|intros; cbn; tauto]|tauto]. destruct E1 as [H1 S1].
  destruct (if mem (str_of "repi") ms then _ else _) as [d2|] eqn:E2; cbn [bind]; [|discriminate]. eapply one_stage in E2; [|exact H1|]. 2:{ cbn beta. intros v [[]|(_ & X & _)]; discriminate. } destruct E2 as [H2 S2].
  destruct (if mem (str_of "rrup") ms then _ else _) as [d3|] eqn:E3; cbn [bind]; [|discriminate]. eapply two_stage in E3; [|discriminate|exact H2| |].
  2,3: cbn beta; intros v [[[]|(_ & X & _)]|(_ & X & _)]; discriminate. destruct E3 as [H3 S3].
  destruct (if mem (str_of "rjb") ms then _ else _) as [d4|] eqn:E4; cbn [bind]; [|discriminate]. eapply two_stage in E4; [|discriminate|exact H3| |].
  2,3: cbn beta; intros v [[[[]|(_ & X & _)]|(_ & X & _)]|(_ & [(X & _)|(X & _)])]; discriminate. destruct E4 as [H4 S4].
  destruct (if existsb _ ms then _ else _) as [d5|] eqn:E5; cbn [bind]; [|discriminate].
  assert (H5 : holds d5 (fun k v => (((((False \/ (In (str_of "rhypo") ms /\ k = str_of "rhypo" /\ r_rhyp r lon lat dep = Ok v)) \/ (In (str_of "repi") ms /\ k = str_of "repi" /\ r_repi r lon lat dep = Ok v)) \/
      (In (str_of "rrup") ms /\ ((k = str_of "rrup" /\ exists w, r_rrup r (r_mesh r) lon lat dep = Ok (v, w)) \/ (k = str_of "rrup_var" /\ exists w, r_rrup r (r_mesh r) lon lat dep = Ok (w, v))))) \/
      (In (str_of "rjb") ms /\ ((k = str_of "rjb" /\ exists w, r_rjb r (r_mesh r) lon lat dep = Ok (v, w)) \/ (k = str_of "rjb_var" /\ exists w, r_rjb r (r_mesh r) lon lat dep = Ok (w, v)))))) \/
      ((exists m, gc2_measure m /\ In m ms) /\ exists g, r_gc2 r lon lat dep = Ok g /\ In (k, v) g)) /\ ((exists m, gc2_measure m /\ In m ms) -> exists g, r_gc2 r lon lat dep = Ok g)).
  { destruct (existsb (fun m => mem m gc2_distances) ms) eqn:G.
    - apply gc2_asked in G. destruct (r_gc2 r lon lat dep) as [g|] eqn:EG; cbn [bind] in E5; [|discriminate]. injection E5 as <-. split; [|eauto]. destruct (F _ _ _ _ EG) as [DG KG]. destruct H4 as [D4 H4].
      assert (D5 : distinct (dupdate d4 g)) by (apply dupdate_distinct; exact D4). split; [exact D5|]. intros k v. rewrite <- (dget_in k _ v D5), (dupdate_get g DG). destruct (dget k g) as [v'|] eqn:Ek.
      + assert (Hk : gc2_measure k) by (apply KG; exists v'; apply dget_sound; exact Ek). destruct (gc2_not k Hk) as (N1 & N2 & N3 & N4 & N5 & N6 & _). split; [intro X; right; split; [exact G|]; exists g; split; [reflexivity|apply dget_sound; congruence]|].
        intros [[[[[[]|(_ & X & _)]|(_ & X & _)]|(_ & [(X & _)|(X & _)])]|(_ & [(X & _)|(X & _)])]|(_ & g' & X & I)]; try contradiction. injection X as <-. apply (dget_in k g v DG) in I. congruence.
      + rewrite (dget_in k d4 v D4), H4. split; [intro X; left; exact X|]. intros [X|(_ & g' & X & I)]; [exact X|]. injection X as <-. apply dget_none in Ek. elim Ek. exists v. exact I.
    - injection E5 as <-. assert (G' : ~ exists m, gc2_measure m /\ In m ms) by (rewrite <- gc2_asked; congruence). split; [|tauto]. eapply holds_iff; [|exact H4]. intros. tauto. }
  destruct H5 as [H5 S5]. clear H1 H2 H3 H4 E5.
  intro E6. assert (E7 : (if mem (str_of "rvolc") ms then dset (str_of "rvolc") (zeros_like lon) d5 else d5) = d) by congruence. clear E6. assert (H6 : holds d (fun k v => (asked ms k /\ value_of zeros_like r lat lon dep k v))).
  { assert (EQ : forall k v, (asked ms k /\ value_of zeros_like r lat lon dep k v) <-> ((((((False \/ (In (str_of "rhypo") ms /\ k = str_of "rhypo" /\ r_rhyp r lon lat dep = Ok v)) \/ (In (str_of "repi") ms /\ k = str_of "repi" /\ r_repi r lon lat dep = Ok v)) \/
      (In (str_of "rrup") ms /\ ((k = str_of "rrup" /\ exists w, r_rrup r (r_mesh r) lon lat dep = Ok (v, w)) \/ (k = str_of "rrup_var" /\ exists w, r_rrup r (r_mesh r) lon lat dep = Ok (w, v))))) \/
      (In (str_of "rjb") ms /\ ((k = str_of "rjb" /\ exists w, r_rjb r (r_mesh r) lon lat dep = Ok (v, w)) \/ (k = str_of "rjb_var" /\ exists w, r_rjb r (r_mesh r) lon lat dep = Ok (w, v)))))) \/
      ((exists m, gc2_measure m /\ In m ms) /\ exists g, r_gc2 r lon lat dep = Ok g /\ In (k, v) g)) \/ (In (str_of "rvolc") ms /\ k = str_of "rvolc" /\ v = zeros_like lon)).
    { intros k v.
      assert (NV : ~ In (str_of "rrup_var") ms /\ ~ In (str_of "rjb_var") ms). { rewrite Forall_forall in KM. split; intro I; apply KM in I; apply known_iff in I; discriminate. }
      split.
      - intros [A B]. unfold asked in A. destruct B as [(-> & B)|[(-> & B)|[(-> & B)|[(-> & B)|[(-> & B)|[(-> & B)|[(G & B)|(-> & B)]]]]]]].
        + destruct A as [A|[(X & _)|[(X & _)|(X & _)]]]; [tauto|discriminate|discriminate|apply gc2_not in X; tauto].
        + destruct A as [A|[(X & _)|[(X & _)|(X & _)]]]; [tauto|discriminate|discriminate|apply gc2_not in X; tauto].
        + destruct A as [A|[(X & _)|[(X & _)|(X & _)]]]; [tauto|discriminate|discriminate|apply gc2_not in X; tauto].
        + destruct A as [A|[(_ & A)|[(X & _)|(X & _)]]]; [tauto|tauto|discriminate|apply gc2_not in X; tauto].
        + destruct A as [A|[(X & _)|[(X & _)|(X & _)]]]; [tauto|discriminate|discriminate|apply gc2_not in X; tauto].
        + destruct A as [A|[(X & _)|[(_ & A)|(X & _)]]]; [tauto|discriminate|tauto|apply gc2_not in X; tauto].
        + left. right. split; [|exact B]. pose proof (gc2_not k G) as N. destruct A as [A|[(X & _)|[(X & _)|(_ & X)]]]; [exists k; auto|tauto|tauto|exact X].
        + destruct A as [A|[(X & _)|[(X & _)|(X & _)]]]; [tauto|discriminate|discriminate|apply gc2_not in X; tauto].
      - unfold asked, value_of. intros [[[[[[[]|(A & -> & B)]|(A & -> & B)]|(A & [(-> & B)|(-> & B)])]|(A & [(-> & B)|(-> & B)])]|(A & g & B & I)]|(A & -> & B)].
        + tauto. + tauto. + tauto. + tauto. + tauto. + tauto.
        + assert (G : gc2_measure k) by (destruct (F _ _ _ _ B) as [_ X]; apply X; exists v; exact I). split; [tauto|]. do 6 right. left. eauto.
        + tauto. }
    eapply holds_iff; [intros k v; symmetry; apply EQ|]. destruct (mem (str_of "rvolc") ms) eqn:M; [apply mem_iff in M|apply mem_no in M]; rewrite <- E7.
    - eapply holds_iff; [|apply set_holds; [exact H5|]]; [intros; cbn beta; tauto|]. intros v. cbn beta. intros [[[[[[]|(_ & X & _)]|(_ & X & _)]|(_ & [(X & _)|(X & _)])]|(_ & [(X & _)|(X & _)])]|(_ & g & B & I)]; try discriminate.
      destruct (F _ _ _ _ B) as [_ X]. assert (G : gc2_measure (str_of "rvolc")) by (apply X; exists v; exact I). apply gc2_not in G. tauto.
    - eapply holds_iff; [|exact H5]. intros. cbn beta. tauto. }
  destruct H6 as [D6 H6]. split; [exact D6|]. split; [exact H6|]. intros k A. unfold value_of.
  assert (C : In k ms -> exists v, value_of zeros_like r lat lon dep k v).
  { intro I. rewrite Forall_forall in KM. pose proof (KM k I) as (x & X & ->). unfold value_of. cbn [In] in X.
    assert (GC : gc2_measure (str_of x) -> exists v, value_of zeros_like r lat lon dep (str_of x) v).
    { intro G. destruct S5 as (g & Eg); [exists (str_of x); auto|]. destruct (F _ _ _ _ Eg) as [_ K]. apply K in G. destruct G as (v & Iv). exists v. unfold value_of. do 6 right. left. split; [apply K; exists v; exact Iv|eauto]. }
    destruct X as [<-|[<-|[<-|[<-|[<-|[<-|[<-|[<-|[<-|[<-|[]]]]]]]]]]]; try (apply GC; eexists; split; [|reflexivity]; cbn [In]; tauto).
    - destruct (S1 I) as (v & E). exists v. tauto.
    - destruct (S2 I) as (v & E). exists v. tauto.
    - destruct (S3 I) as ([v w] & E). exists v. do 2 right. left. eauto.
    - destruct (S4 I) as ([v w] & E). exists v. do 4 right. left. eauto.
    - exists (zeros_like lon). tauto. }
  destruct A as [I|[(-> & I)|[(-> & I)|(G & I)]]]; [exact (C I)| | |].
  - destruct (S3 I) as ([v w] & E). exists w. do 3 right. left. eauto.
  - destruct (S4 I) as ([v w] & E). exists w. do 5 right. left. eauto.
  - destruct (S5 I) as (g & Eg). destruct (F _ _ _ _ Eg) as [_ K]. pose proof G as G'. apply K in G. destruct G as (v & Iv). exists v. do 6 right. left. eauto.
Qed.

(** The names asked for, given alone or in a list. *)
Definition named (m : request) (ms : list str) : Prop := m = Many ms \/ exists x, m = One x /\ ms = [x].
Lemma named_list m ms : named m ms -> name_list m = ms.
Proof. intros [->|(x & -> & ->)]; reflexivity. Qed.
Lemma set_with (r : rup) dx : with_mesh r (set_mesh r dx) dx.
Proof. repeat split. Qed.
Lemma with_eq (r r1 r2 : rup) dx : with_mesh r r1 dx -> with_mesh r r2 dx -> r1 = r2.
Proof. destruct r1, r2. unfold with_mesh. cbn. intros (-> & -> & -> & -> & -> & -> & ->) (-> & -> & -> & -> & -> & -> & ->). reflexivity. Qed.
Lemma known_all ms : forallb (fun m => mem m measures) ms = true <-> Forall known_measure ms.
Proof. rewrite forallb_forall, Forall_forall. split; intros H x I; apply known_iff, H, I. Qed.
Lemma shape_iff a b : shape_eqb shape a b = true <-> shape a = shape b.
Proof. unfold shape_eqb. destruct (list_eq_dec _ _ _); split; congruence. Qed.
Lemma get_ready m ms lat lon dep (r : rup) dx : named m ms -> Forall known_measure ms -> shape lat = shape lon -> shape lat = shape dep ->
  get_distance shape zeros_like m lat lon dep (Some r) dx = (Some (set_mesh r dx), measure zeros_like ms lat lon dep (set_mesh r dx)).
Proof.
  intros N K S1 S2. unfold get_distance. rewrite (named_list _ _ N). apply known_all in K. rewrite K. apply shape_iff in S1, S2. rewrite S1, S2. reflexivity.
Qed.
Lemma get_cases m ms lat lon dep (r : rup) dx : named m ms ->
  (~ Forall known_measure ms /\ get_distance shape zeros_like m lat lon dep (Some r) dx = (Some (set_mesh r dx), Err NotImplementedErr)) \/
  (Forall known_measure ms /\ (shape lat <> shape lon \/ shape lat <> shape dep) /\ get_distance shape zeros_like m lat lon dep (Some r) dx = (Some (set_mesh r dx), Err ConsistentLengthError)) \/
  (Forall known_measure ms /\ shape lat = shape lon /\ shape lat = shape dep /\ get_distance shape zeros_like m lat lon dep (Some r) dx = (Some (set_mesh r dx), measure zeros_like ms lat lon dep (set_mesh r dx))).
Proof.
  intro N. unfold get_distance. rewrite (named_list _ _ N). destruct (forallb _ ms) eqn:K; cbn [negb].
  - apply known_all in K. right. destruct (shape_eqb shape lat lon) eqn:S1; cbn [negb orb].
    + apply shape_iff in S1. destruct (shape_eqb shape lat dep) eqn:S2; cbn [negb]; [apply shape_iff in S2; auto|]. left. split; [exact K|]. split; [right; intro X; apply shape_iff in X; congruence|reflexivity].
    + left. split; [exact K|]. split; [left; intro X; apply shape_iff in X; congruence|reflexivity].
  - left. split; [intro X; apply known_all in X; congruence|reflexivity].
Qed.

(** What comes back is exactly what was asked for and what comes along with it, each as the rupture
    itself answers with the mesh spacing given. *)
Theorem C91_answer m ms lat lon dep (r : rup) dx r' d : named m ms -> five_measures r -> get_distance shape zeros_like m lat lon dep (Some r) dx = (r', Ok d) ->
  exists r1, r' = Some r1 /\ with_mesh r r1 dx /\ distinct d /\ (forall k v, In (k, v) d <-> asked ms k /\ value_of zeros_like r1 lat lon dep k v) /\ (forall k, asked ms k -> has d k) /\
  Forall known_measure ms /\ shape lat = shape lon /\ shape lat = shape dep.
Proof.
  intros N F E. destruct (get_cases m ms lat lon dep r dx N) as [[_ X]|[(_ & _ & X)|(K & S1 & S2 & X)]]; rewrite X in E; [discriminate|discriminate|]. injection E as <- E. exists (set_mesh r dx). split; [reflexivity|]. split; [apply set_with|].
  destruct (measure_ok ms lat lon dep (set_mesh r dx) d F K E) as (D & H & A). split; [exact D|]. split; [exact H|]. split; [|auto]. intros k Ak. destruct (A k Ak) as (v & Hv). exists v. apply H. auto.
Qed.
Lemma measure_err ms lat lon dep (r : rup) e : measure zeros_like ms lat lon dep r = Err e -> measure_fails r lat lon dep ms e.
Proof.
  unfold measure, measure_fails. intro H.
  destruct (mem (str_of "rhypo") ms) eqn:M1; [apply mem_iff in M1; destruct (r_rhyp r lon lat dep) eqn:C1; cbn [bind] in H; [|injection H as <-; tauto]|]; cbn [bind] in H;
  (destruct (mem (str_of "repi") ms) eqn:M2; [apply mem_iff in M2; destruct (r_repi r lon lat dep) eqn:C2; cbn [bind] in H; [|injection H as <-; tauto]|]; cbn [bind] in H);
  (destruct (mem (str_of "rrup") ms) eqn:M3; [apply mem_iff in M3; destruct (r_rrup r (r_mesh r) lon lat dep) eqn:C3; cbn [bind] in H; [|injection H as <-; tauto]|]; cbn [bind] in H);
  (destruct (mem (str_of "rjb") ms) eqn:M4; [apply mem_iff in M4; destruct (r_rjb r (r_mesh r) lon lat dep) eqn:C4; cbn [bind] in H; [|injection H as <-; tauto]|]; cbn [bind] in H);
  (destruct (existsb (fun m => mem m gc2_distances) ms) eqn:M5; [apply gc2_asked in M5; destruct (r_gc2 r lon lat dep) eqn:C5; cbn [bind] in H; [|injection H as <-; tauto]|]; cbn [bind] in H); discriminate.
Qed.
(** There is an answer just when every measure is known, the shapes agree and nothing asked for fails. *)
Theorem C91_accepts m ms lat lon dep (r : rup) dx : named m ms -> five_measures r ->
  ((exists d, snd (get_distance shape zeros_like m lat lon dep (Some r) dx) = Ok d) <-> 
   Forall known_measure ms /\ shape lat = shape lon /\ shape lat = shape dep /\ forall r1 e, with_mesh r r1 dx -> ~ measure_fails r1 lat lon dep ms e).
Proof.
  intros N F. split.
  - intros (d & E). destruct (get_cases m ms lat lon dep r dx N) as [[_ X]|[(_ & _ & X)|(K & S1 & S2 & X)]]; rewrite X in E; [discriminate|discriminate|]. cbn [snd] in E. repeat (split; [assumption|]).
    intros r1 e W MF. rewrite <- (with_eq _ _ _ _ (set_with r dx) W) in MF. destruct (measure_ok ms lat lon dep (set_mesh r dx) d F K E) as (_ & _ & A). 
    destruct MF as [(I & X1)|[(I & X1)|[(I & X1)|[(I & X1)|((q & G & I) & X1)]]]].
    + destruct (A _ (or_introl I)) as (v & B). unfold value_of in B. rewrite X1 in B. destruct B as [(_ & B)|[(B & _)|[(B & _)|[(B & _)|[(B & _)|[(B & _)|[(B & _)|(B & _)]]]]]]]; try discriminate. apply gc2_not in B. tauto.
    + destruct (A _ (or_introl I)) as (v & B). unfold value_of in B. rewrite X1 in B. destruct B as [(B & _)|[(_ & B)|[(B & _)|[(B & _)|[(B & _)|[(B & _)|[(B & _)|(B & _)]]]]]]]; try discriminate. apply gc2_not in B. tauto.
    + destruct (A _ (or_introl I)) as (v & B). unfold value_of in B. rewrite X1 in B. destruct B as [(B & _)|[(B & _)|[(_ & w & B)|[(B & _)|[(B & _)|[(B & _)|[(B & _)|(B & _)]]]]]]]; try discriminate. apply gc2_not in B. tauto.
    + destruct (A _ (or_introl I)) as (v & B). unfold value_of in B. rewrite X1 in B. destruct B as [(B & _)|[(B & _)|[(B & _)|[(B & _)|[(_ & w & B)|[(B & _)|[(B & _)|(B & _)]]]]]]]; try discriminate. apply gc2_not in B. tauto.
    + destruct (A _ (or_introl I)) as (v & B). unfold value_of in B. rewrite X1 in B. pose proof (gc2_not q G) as NQ. destruct B as [(B & _)|[(B & _)|[(B & _)|[(B & _)|[(B & _)|[(B & _)|[(_ & g & B & _)|(B & _)]]]]]]]; try tauto; discriminate.
  - intros (K & S1 & S2 & NF). rewrite (get_ready m ms lat lon dep r dx N K S1 S2). cbn [snd]. destruct (measure zeros_like ms lat lon dep (set_mesh r dx)) as [d|e] eqn:E; [eauto|]. elim (NF (set_mesh r dx) e (set_with r dx)). apply measure_err. exact E.
Qed.
(** A measure that is not known is refused first, then shapes that differ; a failing measure is passed on. *)
Theorem C91_refused m ms lat lon dep (r : rup) dx e : named m ms -> snd (get_distance shape zeros_like m lat lon dep (Some r) dx) = Err e ->
  (e = NotImplementedErr /\ exists k, In k ms /\ ~ known_measure k) \/
  (e = ConsistentLengthError /\ Forall known_measure ms /\ ~ (shape lat = shape lon /\ shape lat = shape dep)) \/
  (Forall known_measure ms /\ shape lat = shape lon /\ shape lat = shape dep /\ exists r1, with_mesh r r1 dx /\ measure_fails r1 lat lon dep ms e).
Proof.
  intros N E. destruct (get_cases m ms lat lon dep r dx N) as [[K X]|[(K & S & X)|(K & S1 & S2 & X)]]; rewrite X in E; cbn [snd] in E.
  - left. split; [congruence|]. assert (Y : Exists (fun k => ~ known_measure k) ms). { apply neg_Forall_Exists_neg; [|exact K]. intro k. destruct (mem k measures) eqn:M; [left; apply known_iff; exact M|right; intro Z; apply known_iff in Z; congruence]. } apply Exists_exists in Y. exact Y.
  - right. left. split; [congruence|]. split; [exact K|]. tauto.
  - right. right. repeat (split; [assumption|]). exists (set_mesh r dx). split; [apply set_with|]. apply measure_err. exact E.
Qed.
(** The mesh spacing is set on the rupture in any case. *)
Theorem C91_mesh m lat lon dep (r : rup) dx : exists r1, fst (get_distance shape zeros_like m lat lon dep (Some r) dx) = Some r1 /\ with_mesh r r1 dx.
Proof. exists (set_mesh r dx). split; [reflexivity|apply set_with]. Qed.
(** Neither the order of the names nor repetitions matter. *)
Theorem C91_order m m' ms ms' lat lon dep (r : rup) dx : named m ms -> named m' ms' -> (forall k, In k ms <-> In k ms') ->
  get_distance shape zeros_like m lat lon dep (Some r) dx = get_distance shape zeros_like m' lat lon dep (Some r) dx.
Proof.
  intros N N' H. unfold get_distance. rewrite (named_list _ _ N), (named_list _ _ N').
  assert (B : forall a b : bool, (a = true <-> b = true) -> a = b) by (intros [] []; intuition congruence).
  assert (M : forall k, mem k ms = mem k ms') by (intro k; apply B; rewrite !mem_iff; apply H).
  replace (forallb (fun m => mem m measures) ms) with (forallb (fun m => mem m measures) ms') by (apply B; rewrite !forallb_forall; split; intros X x I; apply X, H, I).
  unfold measure. rewrite !M. replace (existsb (fun m => mem m gc2_distances) ms) with (existsb (fun m => mem m gc2_distances) ms') by (apply B; rewrite !existsb_exists; split; intros (x & I & X); exists x; (split; [apply H; exact I|exact X])). reflexivity.
Qed.
Theorem C91_none m lat lon dep dx : get_distance shape zeros_like m lat lon dep None dx = (None, Err AttributeError).
Proof. reflexivity. Qed.

(** C92. *)
Variable order : list str -> list str.
Hypothesis order_ok : forall l k, In k (order l) <-> In k l.
(** The measures needed: four, and those the GMPEs require. *)
Definition objects (g : gmpes) (gs : list gmpe) : Prop := g = ManyGmpes gs \/ exists x, g = OneGmpe x /\ gs = [x].
Definition needed (gs : list gmpe) (k : str) : Prop := is_one_of ["repi"; "rhypo"; "rrup"; "rjb"]%string k \/ exists req, In (Gmpe req) gs /\ In k req.
Definition wanted (gs : list gmpe) (k : str) : Prop := needed gs k \/ k = str_of "rrup_var" \/ k = str_of "rjb_var".
Definition spacing (r : rup) (dx : R) : Prop := (r_edge r = true /\ r_mesh r = Some dx) \/ (r_edge r = false /\ dx = 0.5).
Lemma objects_list g gs : objects g gs -> match g with OneGmpe g => [g] | ManyGmpes l => l end = gs.
Proof. intros [->|(x & -> & ->)]; reflexivity. Qed.
Lemma requires_spec gs : forall req, (In Other gs /\ all_requires gs req = Err TypeError) \/
  (~ In Other gs /\ exists ms, all_requires gs req = Ok ms /\ forall k, In k ms <-> In k req \/ exists r, In (Gmpe r) gs /\ In k r).
Proof.
  induction gs as [|[q|] gs IH]; intro req; cbn [all_requires].
  - right. split; [intros []|]. exists req. split; [reflexivity|]. intro k. split; [auto|intros [X|(r & [] & _)]; exact X].
  - destruct (IH (req ++ q)) as [[I E]|[N (ms & E & H)]]; [left; split; [right; exact I|exact E]|]. right. split; [intros [X|X]; [discriminate|exact (N X)]|]. exists ms. split; [exact E|]. intro k. rewrite H, in_app_iff. split.
    + intros [[X|X]|(r & I & X)]; [auto|right; exists q; split; [left; reflexivity|exact X]|right; exists r; split; [right; exact I|exact X]].
    + intros [X|(r & [I|I] & X)]; [auto|injection I as <-; auto|right; eauto].
  - left. split; [left; reflexivity|reflexivity].
Qed.
Definition covered (req : list str) (k : str) : bool := existsb (fun m => str_eqb k m || (mem m [str_of "rrup"; str_of "rjb"] && str_eqb k (m ++ str_of "_var"))) req.
Lemma covered_iff req k : covered req k = true <-> In k req \/ (k = str_of "rrup_var" /\ In (str_of "rrup") req) \/ (k = str_of "rjb_var" /\ In (str_of "rjb") req).
Proof.
  unfold covered. rewrite existsb_exists. split.
  - intros (m & I & E). apply orb_true_iff in E. destruct E as [E|E]; [apply str_eqb_eq in E; subst; auto|]. apply andb_true_iff in E. destruct E as [M E]. apply mem_iff in M. apply str_eqb_eq in E. cbn [In] in M. destruct M as [<-|[<-|[]]]; auto.
  - intros [I|[(-> & I)|(-> & I)]]; [exists k; split; [exact I|rewrite (proj2 (str_eqb_eq k k) eq_refl); reflexivity]| |]; eexists; (split; [exact I|]); reflexivity.
Qed.
Lemma fill_spec req (dd : dict V) : (forall k, covered req k = true -> has dd k) -> forall ctx, exists c, fill req dd ctx = Ok c /\ (distinct ctx -> distinct c) /\ forall k, dget k c = if covered req k then dget k dd else dget k ctx.
Proof.
  induction req as [|m req IH]; intros H ctx; cbn [fill]; [exists ctx; auto|].
  destruct (dget_has m dd) as (v & Ev); [apply H; apply covered_iff; left; left; reflexivity|]. unfold ditem at 1. rewrite Ev. cbn [bind].
  assert (H' : forall k, covered req k = true -> has dd k) by (intros k X; apply H; unfold covered; cbn [existsb]; fold (covered req k); rewrite X; apply orb_true_r).
  destruct (mem m [str_of "rrup"; str_of "rjb"]) eqn:M.
  - destruct (dget_has (m ++ str_of "_var") dd) as (w & Ew). { apply H. unfold covered. cbn [existsb]. rewrite M, (proj2 (str_eqb_eq (m ++ str_of "_var") _) eq_refl). cbn [andb]. rewrite orb_true_r. reflexivity. }
    unfold ditem. rewrite Ew. cbn [bind]. destruct (IH H' (dset (m ++ str_of "_var") w (dset m v ctx))) as (c & E & D & G). exists c. split; [exact E|]. split; [intro X; apply D, dset_distinct, dset_distinct, X|].
    intro k. rewrite G. unfold covered. cbn [existsb]. fold (covered req k). rewrite M. cbn [andb]. rewrite !dset_get. destruct (str_eqb k m) eqn:K1; cbn [orb].
    + apply str_eqb_eq in K1. subst k. destruct (covered req m); [reflexivity|]. destruct (str_eqb m (m ++ str_of "_var")) eqn:K2; [|congruence]. apply str_eqb_eq in K2. congruence.
    + destruct (str_eqb k (m ++ str_of "_var")) eqn:K2; cbn [orb]; [apply str_eqb_eq in K2; subst k; destruct (covered req (m ++ str_of "_var")); congruence|reflexivity].
  - cbn [bind]. destruct (IH H' (dset m v ctx)) as (c & E & D & G). exists c. split; [exact E|]. split; [intro X; apply D, dset_distinct, X|]. intro k. rewrite G. unfold covered. cbn [existsb]. fold (covered req k). rewrite M. cbn [andb]. rewrite orb_false_r, !dset_get.
    destruct (str_eqb k m) eqn:K1; cbn [orb]; [|reflexivity]. apply str_eqb_eq in K1. subst k. destruct (covered req m); congruence.
Qed.
Lemma context_cases g gs lat lon dep (r : rup) dx : objects g gs -> ~ In Other gs -> spacing r dx -> exists ms, (forall k, In k ms <-> needed gs k) /\
  distance_context shape zeros_like order g lat lon dep (Some r) = let (r', d) := get_distance shape zeros_like (Many ms) lat lon dep (Some r) dx in (r', bind d (fun d => fill ms d [])).
Proof.
  intros O N S. unfold distance_context. rewrite (objects_list _ _ O). destruct (requires_spec gs (map str_of ["repi"; "rhypo"; "rrup"; "rjb"]%string)) as [[X _]|[_ (ms & E & H)]]; [contradiction|]. rewrite E. exists (order ms).
  split; [intro k; rewrite order_ok, H; unfold needed; rewrite one_of_mem; reflexivity|]. destruct S as [[Eg M]|[Eg ->]]; rewrite Eg; [rewrite M|]; reflexivity.
Qed.
(** The context holds exactly the measures needed and the two variances, as the rupture answers, with
    the mesh spacing of its own for edges. *)
Theorem C92_context g gs lat lon dep (r : rup) dx r' ctx : objects g gs -> five_measures r -> spacing r dx ->
  distance_context shape zeros_like order g lat lon dep (Some r) = (r', Ok ctx) ->
  exists r1, r' = Some r1 /\ with_mesh r r1 dx /\ distinct ctx /\ (forall k v, In (k, v) ctx <-> wanted gs k /\ value_of zeros_like r1 lat lon dep k v) /\ forall k, wanted gs k -> has ctx k.
Proof.
  intros O F S E. assert (N : ~ In Other gs). { intro X. unfold distance_context in E. rewrite (objects_list _ _ O) in E. destruct (requires_spec gs (map str_of ["repi"; "rhypo"; "rrup"; "rjb"]%string)) as [[_ Y]|[Y _]]; [rewrite Y in E; discriminate|exact (Y X)]. }
  destruct (context_cases g gs lat lon dep r dx O N S) as (ms & MS & EC). rewrite EC in E. destruct (get_distance shape zeros_like (Many ms) lat lon dep (Some r) dx) as [r2 d] eqn:EG. injection E as <- E. destruct d as [d|e]; cbn [bind] in E; [|discriminate].
  destruct (C91_answer (Many ms) ms lat lon dep r dx r2 d (or_introl eq_refl) F EG) as (r1 & -> & W & D & H & A & _). exists r1. split; [reflexivity|]. split; [exact W|].
  assert (CW : forall k, covered ms k = true <-> wanted gs k). { intro k. rewrite covered_iff, !MS. unfold wanted. assert (needed gs (str_of "rrup") /\ needed gs (str_of "rjb")) by (split; left; eexists; (split; [|reflexivity]); cbn [In]; tauto). tauto. }
  assert (CA : forall k, covered ms k = true -> asked ms k) by (intros k; rewrite covered_iff; unfold asked; tauto).
  destruct (fill_spec ms d) with (ctx := @nil (str * V)) as (c & EF & DC & G); [intros k X; apply A, CA, X|]. rewrite E in EF. injection EF as <-. specialize (DC ltac:(constructor)). split; [exact DC|].
  assert (K : forall k v, In (k, v) ctx <-> wanted gs k /\ value_of zeros_like r1 lat lon dep k v).
  { intros k v. rewrite <- (dget_in k ctx v DC), G. destruct (covered ms k) eqn:C.
    - rewrite (dget_in k d v D), H. assert (asked ms k) by (apply CA, C). apply CW in C. tauto.
    - split; [discriminate|]. intros [X _]. apply CW in X. congruence. }
  split; [exact K|]. intros k X. apply CW in X. pose proof X as X'. apply CA, A in X'. destruct (dget_has k d X') as (v & Ev). exists v. apply (dget_in k ctx v DC). rewrite G, X. exact Ev.
Qed.
(** It is refused for things that are no GMPEs, which leaves the rupture as it was; for measures not known; and without a rupture. *)
Theorem C92_refused g gs lat lon dep : objects g gs ->
  (forall rup, In Other gs -> distance_context shape zeros_like order g lat lon dep rup = (rup, Err TypeError)) /\
  (forall (r : rup) dx, ~ In Other gs -> spacing r dx -> (exists k, needed gs k /\ ~ known_measure k) -> snd (distance_context shape zeros_like order g lat lon dep (Some r)) = Err NotImplementedErr) /\
  (~ In Other gs -> distance_context shape zeros_like order g lat lon dep None = (None, Err AttributeError)) /\
  (forall r : rup, ~ In Other gs -> r_edge r = true -> r_mesh r = None -> distance_context shape zeros_like order g lat lon dep (Some r) = (Some r, Err AttributeError)).
Proof.
  intro O. split; [|split; [|split]].
  - intros rup I. unfold distance_context. rewrite (objects_list _ _ O). destruct (requires_spec gs (map str_of ["repi"; "rhypo"; "rrup"; "rjb"]%string)) as [[_ ->]|[X _]]; [reflexivity|contradiction].
  - intros r dx N S (k & Nk & U). destruct (context_cases g gs lat lon dep r dx O N S) as (ms & MS & ->). destruct (get_cases (Many ms) ms lat lon dep r dx (or_introl eq_refl)) as [[_ X]|[(K & _)|(K & _)]]; [rewrite X; reflexivity| |]; rewrite Forall_forall in K; elim U; apply K, MS, Nk.
  - intro N. unfold distance_context. rewrite (objects_list _ _ O). destruct (requires_spec gs (map str_of ["repi"; "rhypo"; "rrup"; "rjb"]%string)) as [[X _]|[_ (ms & -> & _)]]; [contradiction|reflexivity].
  - intros r N Ed Me. unfold distance_context. rewrite (objects_list _ _ O). destruct (requires_spec gs (map str_of ["repi"; "rhypo"; "rrup"; "rjb"]%string)) as [[X _]|[_ (ms & -> & _)]]; [contradiction|]. rewrite Ed, Me. reflexivity.
Qed.
(** Every context asked for is had as soon as its measures are. *)
Theorem C92_accepts g gs lat lon dep (r : rup) dx : objects g gs -> ~ In Other gs -> five_measures r -> spacing r dx -> (forall k, needed gs k -> known_measure k) -> shape lat = shape lon -> shape lat = shape dep ->
  (forall ms r1 e, (forall k, In k ms <-> needed gs k) -> with_mesh r r1 dx -> ~ measure_fails r1 lat lon dep ms e) -> exists ctx, snd (distance_context shape zeros_like order g lat lon dep (Some r)) = Ok ctx.
Proof.
  intros O N F S K S1 S2 NF. destruct (context_cases g gs lat lon dep r dx O N S) as (ms & MS & ->). destruct (C91_accepts (Many ms) ms lat lon dep r dx (or_introl eq_refl) F) as [_ A].
  destruct A as (d & Ed); [split; [apply Forall_forall; intros k I; apply K, MS, I|]; repeat (split; [assumption|]); intros r1 e W; apply NF; assumption|].
  destruct (get_distance shape zeros_like (Many ms) lat lon dep (Some r) dx) as [r2 d'] eqn:EG. cbn [snd] in *. subst d'. cbn [bind]. destruct (C91_answer (Many ms) ms lat lon dep r dx r2 d (or_introl eq_refl) F EG) as (r1 & -> & W & D & H & Ak & _).
  destruct (fill_spec ms d) with (ctx := @nil (str * V)) as (c & EF & _ & _); [intros k X; apply Ak; apply covered_iff in X; unfold asked; tauto|]. eauto.
Qed.
End Dispatch.
Print Assumptions C91_answer.
Print Assumptions C91_accepts.
Print Assumptions C91_refused.
Print Assumptions C91_mesh.
Print Assumptions C91_order.
Print Assumptions C91_none.
Print Assumptions C92_context.
Print Assumptions C92_refused.
Print Assumptions C92_accepts.

(** A rupture whose answers are numbers; the nearest distance is the mesh spacing. *)
Definition some_rupture : rupture (V := list R) := mkrupture true (Some 2) (fun _ _ _ => Ok [5]) (fun _ _ _ => Ok [3])
  (fun m _ _ _ => match m with Some dx => Ok ([dx], [0]) | None => Err ValueError end) (fun m _ _ _ => match m with Some dx => Ok ([1], [dx]) | None => Err ValueError end) (fun lon _ _ => Ok (point_gc2 (map (fun _ => 0)) lon)).
Lemma point_five : five_measures some_rupture.
Proof.
  intros lon lat dep g E. injection E as <-. split.
  - unfold distinct. cbn [point_gc2 map fst]. repeat constructor; cbn [In]; intuition discriminate.
  - intro k. unfold gc2_measure. rewrite one_of_mem. cbn [point_gc2 map In]. unfold has. cbn [In]. split; [intros (v & H); intuition congruence|]. intro H. exists (map (fun _ => 0) lon). intuition congruence.
Qed.
Example C91_ex : snd (get_distance (fun v => [length v]) (map (fun _ => 0)) (Many [str_of "rrup"; str_of "rx"]) [1] [2] [3] (Some some_rupture) 7) =
  Ok [(str_of "rrup", [7]); (str_of "rrup_var", [0]); (str_of "rx", [0]); (str_of "ry", [0]); (str_of "ry0", [0]); (str_of "U", [0]); (str_of "T", [0])].
Proof. reflexivity. Qed.
Example C91_ex_refused : snd (get_distance (fun v => [length v]) (map (fun _ => 0)) (One (str_of "azimuth")) [1] [2; 2] [3] (Some some_rupture) 7) = Err NotImplementedErr /\
  snd (get_distance (fun v => [length v]) (map (fun _ => 0)) (One (str_of "repi")) [1] [2; 2] [3] (Some some_rupture) 7) = Err ConsistentLengthError.
Proof. split; reflexivity. Qed.
Example C92_ex : exists r, distance_context (fun v => [length v]) (map (fun _ => 0)) (fun l => l) (OneGmpe (Gmpe [str_of "ry0"])) [1] [2] [3] (Some some_rupture) =
  (Some r, Ok [(str_of "repi", [3]); (str_of "rhypo", [5]); (str_of "rrup", [2]); (str_of "rrup_var", [0]); (str_of "rjb", [1]); (str_of "rjb_var", [2]); (str_of "ry0", [0])]) /\ r_mesh r = Some 2.
Proof. eexists. split; reflexivity. Qed.
