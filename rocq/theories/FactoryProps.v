(** Rupture documents (C71), reading ruptures (C72) and writing and reading them (C73). *)
From Coq Require Import ZArith Reals String Ascii Bool List Lia Lra.
From Verif Require Import PyBase VecModel RuptModel OriginModel OriginSpec OriginProofs OriginProps PolyModel PolySpec PolyProofs PolyProps QuadProps ClassProps EdgeProps EquatorProofs JsonModel ComcatSpec ComcatProofs FactoryModel FactorySpec FactoryProofs ReadProofs.
Import ListNotations.
Local Arguments str_of _ : simpl never.

(** Which documents are accepted. *)
Theorem C71_valid d : validate_json d = Ok tt <-> point_doc d \/ exists ps, polygon_doc d ps /\ Forall well_ordered ps.
Proof. apply validate_iff. Qed.
Print Assumptions C71_valid.

Lemma missing_key d k : missing d k -> jkey k d = Err KeyError.
Proof. intros (o & -> & N). cbn [jkey]. apply dget_none in N. rewrite N. reflexivity. Qed.
Lemma missing_has d k : missing d k -> jhas_key k d = Ok false.
Proof. intros (o & -> & N). cbn [jhas_key]. apply dhas_f in N. rewrite N. reflexivity. Qed.
Lemma has_coordinates g k v : at_path g [k] v -> jhas_key k g = Ok true.
Proof. intros H. inversion H; subst. cbn [jhas_key]. f_equal. apply has_iff. eexists. apply in_elt. Qed.
(** The errors. *)
Theorem C71_errors d e : wrong d e -> validate_json d = Err e.
Proof.
  assert (Same : forall s, jeq (JStr s) s = true) by (intros s; apply jeq_iff; reflexivity).
  assert (Geo : forall m g gt, feature d m g -> at_path g [str_of "type"] gt -> validate_json d =
     if negb (jeq gt (str_of "MultiPolygon")) && negb (jeq gt (str_of "Point")) then Err Generic else
     bind (jhas_key (str_of "coordinates") g) (fun hc => if negb hc then Err Generic else
     bind (jkey (str_of "coordinates") g) (fun c => bind (jindex 0 c) (fun polygons => if jeq gt (str_of "MultiPolygon") then bind (polygons_of polygons) check_all else Ok tt)))).
  { intros m g gt (F1 & F2 & F3 & f & F4 & F5 & F6) T. apply at_one in F1, F2, F4, F5, F6, T. apply has_iff in F3. unfold validate_json. rewrite F1. cbn [bind]. rewrite Same. cbn [negb]. rewrite F4. cbn [bind jlen List.length Nat.eqb negb]. rewrite F2. cbn [bind jhas_key]. rewrite F3. cbn [negb jindex nth_error bind]. rewrite F5. cbn [bind]. rewrite Same. cbn [negb]. rewrite F6. cbn [bind]. rewrite T. reflexivity. }
  assert (Kind : forall t, t = JStr (str_of "Point") \/ t = JStr (str_of "MultiPolygon") -> (negb (jeq t (str_of "MultiPolygon")) && negb (jeq t (str_of "Point")))%bool = false) by (intros t [->| ->]; reflexivity).
  destruct 1 as [M|t T N|T M|l T L N|f T L M|f m T L Me M|f m t T L Me H Ft N|m g t F T N1 N2|m g t F T K M|m g t F T K E|ps P W].
  - unfold validate_json. rewrite (missing_key _ _ M). reflexivity.
  - apply at_one in T. unfold validate_json. rewrite T. cbn [bind]. apply jeq_f in N. rewrite N. reflexivity.
  - apply at_one in T. unfold validate_json. rewrite T. cbn [bind]. rewrite Same. cbn [negb]. rewrite (missing_key _ _ M). reflexivity.
  - apply at_one in T, L. unfold validate_json. rewrite T. cbn [bind]. rewrite Same. cbn [negb]. rewrite L. cbn [bind jlen]. apply Nat.eqb_neq in N. rewrite N. reflexivity.
  - apply at_one in T, L. unfold validate_json. rewrite T. cbn [bind]. rewrite Same. cbn [negb]. rewrite L. cbn [bind jlen List.length Nat.eqb negb]. rewrite (missing_key _ _ M). reflexivity.
  - apply at_one in T, L, Me. unfold validate_json. rewrite T. cbn [bind]. rewrite Same. cbn [negb]. rewrite L. cbn [bind jlen List.length Nat.eqb negb]. rewrite Me. cbn [bind]. rewrite (missing_has _ _ M). reflexivity.
  - apply at_one in T, L, Me, Ft. apply has_iff in H. unfold validate_json. rewrite T. cbn [bind]. rewrite Same. cbn [negb]. rewrite L. cbn [bind jlen List.length Nat.eqb negb]. rewrite Me. cbn [bind jhas_key]. rewrite H. cbn [negb bind jindex nth_error]. rewrite Ft. cbn [bind]. apply jeq_f in N. rewrite N. reflexivity.
  - rewrite (Geo _ _ _ F T). apply jeq_f in N1, N2. rewrite N1, N2. reflexivity.
  - rewrite (Geo _ _ _ F T), (Kind _ K), (missing_has _ _ M). reflexivity.
  - rewrite (Geo _ _ _ F T), (Kind _ K), (has_coordinates _ _ _ E). apply at_one in E. cbn [bind negb]. rewrite E. reflexivity.
  - destruct P as (m & g & p & l & F & T & C & P). rewrite (Geo _ _ _ F T), (Kind _ (or_intror eq_refl)), (has_coordinates _ _ _ C). apply at_one in C. cbn [bind negb]. rewrite C. cbn [bind jindex nth_error]. rewrite Same. apply polygons_iff in P. rewrite P. cbn [bind]. destruct (check_all ps) as [[]|e] eqn:E; [exfalso; apply W, check_all_iff, E|]. f_equal. exact (check_all_err _ _ E).
Qed.
Print Assumptions C71_errors.

Local Notation stamp := "%Y-%m-%dT%H:%M:%S.%fZ"%string.
Section Props.
Variable fparse : str -> option num.
Variable timeparse : str -> str -> option nat.
Variable timeshow : str -> nat -> str.
Variable strike_dip : edges -> res unit.
Variable loads : str -> option json.
Notation from_dict_and_origin := (from_dict_and_origin timeshow strike_dip).
Notation from_dict := (from_dict fparse timeparse timeshow strike_dip).
Notation get_rupture := (get_rupture fparse timeshow strike_dip loads).
Notation to_json := (to_json timeshow).
Notation origin_json := (origin_json timeshow).

Lemma from_doc d o dx r : from_dict_and_origin d o dx = Ok r ->
  (point_doc d /\ point_rupture timeshow o (str_of "Origin") = Ok r) \/
  exists ps, polygon_doc d ps /\ Forall well_ordered ps /\
    ((is_quadrupture_class ps = Ok true /\ quad_rupture timeshow d o = Ok r) \/ (is_quadrupture_class ps = Ok false /\ edge_rupture timeshow strike_dip d o dx = Ok r)).
Proof.
  unfold FactoryModel.from_dict_and_origin. destruct (validate_json d) as [[]|] eqn:V; [|discriminate]. cbn [bind]. apply validate_iff in V as [P|(ps & P & W)].
  - destruct (point_parts _ P) as [T _]. unfold quad_class. rewrite T. cbn [bind]. change (jeq (JStr (str_of "Point")) (str_of "Point")) with true. cbn [bind]. intros H. left. auto.
  - destruct (polygon_parts _ _ P) as (T & D & _). unfold quad_class. rewrite T. cbn [bind]. change (jeq (JStr (str_of "MultiPolygon")) (str_of "Point")) with false. cbn [bind]. rewrite D. cbn [bind]. destruct (is_quadrupture_class ps) as [[]|] eqn:Q; [| |discriminate]; cbn [bind]; intros H; right; exists ps; auto.
Qed.
Lemma point_inv o ref r : point_rupture timeshow o ref = Ok r -> r_shape r = SPoint /\ r_origin r = o /\ r_reference r = JStr ref.
Proof. unfold point_rupture. destruct (ditem (str_of "lon") o); [|discriminate]. destruct (ditem (str_of "lat") o); [|discriminate]. destruct (ditem (str_of "depth") o); [|discriminate]. cbn [bind]. intros [= <-]. auto. Qed.

(** The kind of rupture made from a document: a point, quadrilaterals if all the edges of
    the patches are horizontal, or edges. *)
Theorem C72_shape d o dx r : from_dict_and_origin d o dx = Ok r ->
  r_origin r = o /\
  ((point_doc d /\ r_shape r = SPoint) \/
   exists ps, polygon_doc d ps /\ Forall well_ordered ps /\
   forall edges pss, Forall2 (fun e p => outline_of_edges (fst e) (snd e) p) edges ps -> Forall2 (fun e c => patches (fst e) (snd e) c) edges pss ->
     (Forall level_edges (concat pss) /\ exists qs, Forall2 made_from (concat pss) qs /\ r_shape r = SQuad qs (numbered 0 pss)) \/
     (~ Forall level_edges (concat pss) /\ r_shape r = SEdge (mkedges (concat (map fst edges)) (concat (map snd edges)) (numbered 0 (map fst edges))) dx)).
Proof.
  intros H. apply from_doc in H as [[P H]|(ps & P & W & K)]; [destruct (point_inv _ _ _ H) as (A & B & _); auto|]. destruct (polygon_parts _ _ P) as (T & D & m & Hm & Hr). destruct K as [[Q H]|[Q H]].
  - unfold quad_rupture in H. rewrite D, Hm in H. cbn [bind] in H. destruct (ditem _ _); [|discriminate]. cbn [bind] in H. destruct (set_quadrilaterals ps) as [[qs gi]|] eqn:S; [|discriminate]. cbn [bind fst snd] in H. injection H as <-. cbn [r_origin r_shape]. split; [reflexivity|]. right. exists ps. split; [exact P|]. split; [exact W|]. intros edges pss O C. left.
    destruct (C67_class _ _ _ _ O C Q) as [L _]. split; [apply L; reflexivity|]. destruct (C51_quads _ _ _ _ O S) as (pss' & C' & M & -> & _). assert (pss' = pss).
    { assert (F : forall a b x, patches a b x -> forall y, patches a b y -> y = x) by (induction 1 as [|? ? ? ? ? ? ? Hx IH]; intros y Hy; inversion Hy; subst; [reflexivity|f_equal; apply IH; assumption]).
      clear - F C C'. revert pss' C'. induction C as [|e c edges pss Hc C IH]; intros pss' C'; inversion C'; subst; [reflexivity|]. f_equal; [eapply F; eassumption|apply IH; assumption]. }
    subst pss'. eauto.
  - unfold edge_rupture in H. rewrite D, Hm in H. cbn [bind] in H. destruct (ditem _ _); [|discriminate]. cbn [bind] in H. destruct (strike_dip _); [|discriminate]. cbn [bind] in H. injection H as <-. cbn [r_origin r_shape]. split; [reflexivity|]. right. exists ps. split; [exact P|]. split; [exact W|]. intros edges pss O C. right.
    destruct (C67_class _ _ _ _ O C Q) as [L _]. split; [intros X; apply L in X; discriminate|]. rewrite (C53_read _ _ O). reflexivity.
Qed.
Print Assumptions C72_shape.

(** The reference: a point rupture has none of its own; for quadrilaterals an attribute
    of the origin takes the place of the document's, for edges it does not. *)
Theorem C72_reference d o dx r ref : distinct o -> from_dict_and_origin d o dx = Ok r -> at_path d [str_of "metadata"; str_of "reference"] ref ->
  match r_shape r with
  | SPoint => r_reference r = JStr (str_of "Origin")
  | SQuad _ _ => (forall v, In (str_of "reference", v) o -> shown timeshow v (r_reference r)) /\ (~ has o (str_of "reference") -> r_reference r = ref)
  | SEdge _ _ => r_reference r = ref
  end.
Proof.
  intros Do H A. apply from_doc in H as [[P H]|(ps & P & W & K)]; [destruct (point_inv _ _ _ H) as (-> & _ & ->); reflexivity|]. destruct (polygon_parts _ _ P) as (T & D & m & Hm & Hr).
  assert (R : ditem (str_of "reference") m = Ok ref). { apply jpath_iff in A. cbn [jpath] in A. unfold metadata in Hm. destruct (jkey (str_of "metadata") d) as [x|]; [|discriminate]. cbn [bind] in *. destruct x; try discriminate. injection Hm as ->. cbn [jkey] in A. unfold ditem. destruct (dget (str_of "reference") m); [|discriminate]. cbn [bind] in A. exact A. }
  destruct K as [[Q H]|[Q H]].
  - unfold quad_rupture in H. rewrite D, Hm in H. cbn [bind] in H. destruct (ditem _ (dupdate m _)) as [ref'|] eqn:E; [|discriminate]. cbn [bind] in H. destruct (set_quadrilaterals ps) as [[qs gi]|]; [|discriminate]. cbn [bind fst snd] in H. injection H as <-. cbn [r_shape r_reference]. unfold ditem in E, R. rewrite dupdate_get, origin_json_get in E by (apply origin_json_distinct; exact Do). split.
    + intros v Hv. apply dget_in in Hv; [|exact Do]. rewrite Hv in E. cbn [option_map] in E. injection E as <-. destruct v; cbn [FactoryModel.to_json]; constructor; constructor.
    + intros N. apply dget_none in N. rewrite N in E. cbn [option_map] in E. destruct (dget _ m); congruence.
  - unfold edge_rupture in H. rewrite D, Hm in H. cbn [bind] in H. rewrite R in H. cbn [bind] in H. destruct (strike_dip _); [|discriminate]. cbn [bind] in H. injection H as <-. reflexivity.
Qed.
Print Assumptions C72_reference.

(** The document kept: only the metadata change; they are what they were, under the
    origin's attributes, under the spacing of the mesh for edges. *)
Lemma meta_at d m k j : metadata d = Ok m -> (at_path d [str_of "metadata"; k] j <-> dget k m = Some j).
Proof.
  intros H. rewrite <- jpath_iff. cbn [jpath]. unfold metadata in H. destruct (jkey (str_of "metadata") d) as [x|]; [|discriminate]. cbn [bind] in *. destruct x; try discriminate. injection H as ->. cbn [jkey]. destruct (dget k m); cbn [bind]; split; congruence.
Qed.
Lemma meta_set d m M : metadata d = Ok m -> metadata (set_metadata M d) = Ok M.
Proof. unfold metadata. destruct (jkey (str_of "metadata") d) as [x|] eqn:E; [|discriminate]. intros _. rewrite (set_meta _ _ _ E). reflexivity. Qed.
Lemma shown_json v j : shown timeshow v j <-> j = to_json v.
Proof. split; [intros [w i []|t]; reflexivity|]. intros ->. destruct v; cbn [FactoryModel.to_json]; try (apply shown_plain; constructor). exact (shown_time timeshow k). Qed.
Theorem C73_document d o dx r : distinct o -> from_dict_and_origin d o dx = Ok r -> r_shape r <> SPoint ->
  (forall k ks v, k <> str_of "metadata" -> (at_path (r_json r) (k :: ks) v <-> at_path d (k :: ks) v)) /\
  let edge := exists e x, r_shape r = SEdge e x in
  forall k j, at_path (r_json r) [str_of "metadata"; k] j <->
    (edge /\ k = str_of "mesh_dx" /\ j = dx) \/
    (~ (edge /\ k = str_of "mesh_dx") /\ ((exists v, In (k, v) o /\ shown timeshow v j) \/ (~ has o k /\ at_path d [str_of "metadata"; k] j))).
Proof.
  intros Do H N. assert (O : forall M k ks v, k <> str_of "metadata" -> (at_path (set_metadata M d) (k :: ks) v <-> at_path d (k :: ks) v)) by (intros M k ks v Nk; rewrite <- !jpath_iff; cbn [jpath]; rewrite set_key by exact Nk; reflexivity).
  assert (G : forall m k j, metadata d = Ok m -> (dget k (dupdate m (origin_json o)) = Some j <-> (exists v, In (k, v) o /\ shown timeshow v j) \/ (~ has o k /\ at_path d [str_of "metadata"; k] j))).
  { intros m k j Hm. rewrite dupdate_get by (apply origin_json_distinct; exact Do). rewrite origin_json_get, (meta_at _ _ _ _ Hm). destruct (dget k o) as [v|] eqn:E; cbn [option_map].
    - split; [intros [= <-]; left; exists v; split; [apply dget_in; assumption|apply shown_json; reflexivity]|]. intros [(w & I & S)|[X _]].
      + apply dget_in in I; [|exact Do]. apply shown_json in S. congruence.
      + exfalso. apply dget_none in X. congruence.
    - split; [intros X; right; split; [apply dget_none; exact E|exact X]|]. intros [(w & I & S)|[_ X]]; [apply dget_in in I; [congruence|exact Do]|exact X]. }
  apply from_doc in H as [[P H]|(ps & P & W & K)]; [destruct (point_inv _ _ _ H) as (A & _); contradiction|]. destruct (polygon_parts _ _ P) as (T & D & m & Hm & Hr). destruct K as [[Q H]|[Q H]].
  - unfold quad_rupture in H. rewrite D, Hm in H. cbn [bind] in H. destruct (ditem _ (dupdate m _)); [|discriminate]. cbn [bind] in H. destruct (set_quadrilaterals ps); [|discriminate]. cbn [bind] in H. injection H as <-. cbn [r_json r_shape]. split; [apply O|]. intros k j. rewrite (meta_at _ _ k j (meta_set _ _ (dupdate m (origin_json o)) Hm)), (G _ _ _ Hm).
    split; [intros X; right; split; [intros [(? & ? & ?) _]; discriminate|exact X]|]. intros [[(? & ? & ?) _]|[_ X]]; [discriminate|exact X].
  - unfold edge_rupture in H. rewrite D, Hm in H. cbn [bind] in H. destruct (ditem _ m); [|discriminate]. cbn [bind] in H. destruct (strike_dip _); [|discriminate]. cbn [bind] in H. injection H as <-. cbn [r_json r_shape]. split; [apply O|]. intros k j. rewrite (meta_at _ _ k j (meta_set _ _ (dset (str_of "mesh_dx") dx (dupdate m (origin_json o))) Hm)). rewrite dset_get. destruct (str_eqb k (str_of "mesh_dx")) eqn:E.
    + apply seqb in E as ->. split; [intros [= <-]; left; split; [eauto|auto]|]. intros [(_ & _ & ->)|[X _]]; [reflexivity|]. exfalso. apply X. split; [eauto|reflexivity].
    + apply seqb_f in E. rewrite (G _ _ _ Hm). split; [intros X; right; split; [tauto|exact X]|]. intros [(_ & X & _)|[_ X]]; [contradiction|exact X].
Qed.
Print Assumptions C73_document.

(** ** Files *)
Notation json_route s o dx := (bind (read_json loads s) (fun d => from_dict_and_origin d o dx)).
(** Without an origin, without a file, without a readable file. *)
Theorem C72_no_file o dx nf : (forall file, get_rupture None file dx nf = Err TypeError) /\
  (has o (str_of "lon") -> has o (str_of "lat") -> has o (str_of "depth") -> exists r, get_rupture (Some o) None dx nf = Ok r /\ r_shape r = SPoint /\ r_origin r = o /\ r_reference r = JStr (str_of "Origin")) /\
  get_rupture (Some o) (Some (Path None)) dx nf = Err IOErr.
Proof.
  split; [reflexivity|]. split; [|reflexivity]. intros H1 H2 H3. apply dget_has in H1 as [a E1]. apply dget_has in H2 as [b E2]. apply dget_has in H3 as [c E3]. cbn [FactoryModel.get_rupture].
  destruct (point_rupture timeshow o (str_of "Origin")) as [r|] eqn:E; [destruct (point_inv _ _ _ E) as (A & B & C); exists r; auto|]. exfalso. unfold point_rupture, ditem in E. rewrite E1, E2, E3 in E. discriminate.
Qed.
Print Assumptions C72_no_file.
(** A JSON file. *)
Theorem C72_json t d o dx nf r : loads t = Some d -> from_dict_and_origin d o dx = Ok r -> get_rupture (Some o) (Some (Path (Some t))) dx nf = Ok r.
Proof. intros L H. cbn [FactoryModel.get_rupture read_json]. rewrite L. cbn [bind]. rewrite H. reflexivity. Qed.
Print Assumptions C72_json.

Lemma numbers_json (p : R * R * R) : json_vertex (point_json p) p.
Proof. destruct p as [[x y] z]. cbn [point_json]. constructor; constructor. Qed.
Lemma text_doc_ok reference ps : polygon_doc (text_doc reference ps) ps /\ at_path (text_doc reference ps) [str_of "metadata"; str_of "reference"] (JStr reference).
Proof.
  assert (F : Forall2 json_polygon (map (fun p => JArr (map point_json p)) ps) ps) by (induction ps as [|p ps IH]; cbn [map]; constructor; [constructor; induction p as [|v p IHp]; cbn [map]; constructor; [apply numbers_json|exact IHp]|exact IH]).
  split.
  - exists [(str_of "reference", JStr reference)]. eexists. exists (JArr (map (fun p => JArr (map point_json p)) ps)), [].
    split; [split; [apply at_one; reflexivity|]; split; [apply at_one; reflexivity|]; split; [exists (JStr reference); left; reflexivity|]; eexists; split; [apply at_one; reflexivity|]; split; apply at_one; reflexivity|].
    split; [apply at_one; reflexivity|]. split; [apply at_one; reflexivity|]. constructor. exact F.
  - apply jpath_iff. reflexivity.
Qed.
(** A text file: what is not a rupture in JSON is read as lines of vertices. *)
Theorem C72_text s t o dx nf r : file_text s = Some t -> (exists e, json_route s o dx = Err e) ->
  get_rupture (Some o) (Some s) dx nf = Ok r ->
  exists ls items gs ps d, lines_of t ls /\ Forall2 (PolySpec.says (rparse fparse) nf) ls items /\ groups (vertices_of items) gs /\
  (Forall2 (first_start well_ordered) gs ps \/ ps = gs) /\ Forall well_ordered ps /\
  polygon_doc d ps /\ at_path d [str_of "metadata"; str_of "reference"] (JStr (reference_of items)) /\ from_dict_and_origin d o dx = Ok r.
Proof.
  intros T [e E]. cbn [FactoryModel.get_rupture]. rewrite E, T. destruct (text_to_json (rparse fparse) nf (lines_from [] t)) as [[reference ps]|] eqn:X; cbn [bind fst snd].
  - destruct (from_dict_and_origin (text_doc reference ps) o dx) as [r'|e'] eqn:Y; [|destruct (is_value_error e'); discriminate]. intros [= <-]. destruct (C50_text_sound _ _ _ _ _ X) as (items & gs & F & G & -> & W & K). destruct (text_doc_ok (reference_of items) ps) as [D1 D2].
    exists (lines_from [] t), items, gs, ps, (text_doc (reference_of items) ps). split; [apply lines_iff; reflexivity|]. split; [exact F|]. split; [exact G|]. split; [destruct K as [K|[K _]]; auto|]. auto.
  - destruct (is_value_error e0); discriminate.
Qed.
Print Assumptions C72_text.
Theorem C72_text_read s t o dx nf ls items gs : file_text s = Some t -> (exists e, json_route s o dx = Err e) ->
  lines_of t ls -> Forall2 (PolySpec.says (rparse fparse) nf) ls items -> groups (vertices_of items) gs -> Forall well_ordered gs ->
  exists d, polygon_doc d gs /\ at_path d [str_of "metadata"; str_of "reference"] (JStr (reference_of items)) /\ forall r, from_dict_and_origin d o dx = Ok r -> get_rupture (Some o) (Some s) dx nf = Ok r.
Proof.
  intros T [e E] L F G W. apply lines_iff in L. pose proof (C50_text_asis _ _ _ _ _ F G W) as X. destruct (text_doc_ok (reference_of items) gs) as [D1 D2]. exists (text_doc (reference_of items) gs). split; [exact D1|]. split; [exact D2|]. intros r H. cbn [FactoryModel.get_rupture]. rewrite E, T, L, X. cbn [bind fst snd]. rewrite H. reflexivity.
Qed.
Print Assumptions C72_text_read.
(** Nothing but these two errors comes out of a file. *)
Theorem C72_errors s o dx nf e : get_rupture (Some o) (Some s) dx nf = Err e -> e = ValueError \/ e = IOErr.
Proof.
  cbn [FactoryModel.get_rupture]. destruct (json_route s o dx); [discriminate|]. destruct (match file_text s with None => _ | Some t => _ end) as [|e']; [discriminate|]. destruct (is_value_error e'); intros [= <-]; auto.
Qed.
Print Assumptions C72_errors.

(** A text that begins with a brace. *)
Lemma brace_word l a ws : PolySpec.words ("{"%char :: l) (a :: ws) -> exists a', a = "{"%char :: a'.
Proof.
  intros H. inversion H as [|s w rest ws' Bs Nw Fw Hr Hw Eq]; subst. destruct s as [|c s]; [destruct a as [|c w]; [congruence|]; cbn [app] in Eq; injection Eq as -> _; eauto|]. cbn [app] in Eq. injection Eq as -> _. inversion Bs as [|? ? X]; subst. discriminate.
Qed.
Lemma brace_parts l a ws : PolySpec.parts ","%char ("{"%char :: l) (a :: ws) -> exists a', a = "{"%char :: a'.
Proof.
  intros (_ & _ & E). destruct a as [|c a]; [|destruct ws; cbn [join app] in E; injection E as -> _; eauto]. destruct ws; cbn [join app] in E; discriminate.
Qed.
Lemma brace_trim l h t : PolySpec.trimmed ("{"%char :: l) (h :: t) -> h = "{"%char.
Proof. intros (a & b & E & Ba & Bb & N). destruct a as [|c a]; [cbn [app] in E; congruence|]. cbn [app] in E. injection E as <- _. inversion Ba as [|? ? X]; subst. discriminate. Qed.
(** The lines of an object are never read as JSON, and of a JSON file that is not a good
    rupture the reason is lost. *)
Theorem C72_not_json s o dx nf rest : (forall a, fparse ("{"%char :: a) = None) -> file_text s = Some ("{"%char :: rest) ->
  (exists t, s = Object t) \/ (exists e, json_route s o dx = Err e) ->
  exists e, get_rupture (Some o) (Some s) dx nf = Err e /\ ((exists rest', rest = chr 10 :: rest') -> e = IOErr).
Proof.
  intros Nf T K. assert (E : exists e, json_route s o dx = Err e) by (destruct K as [[t ->]|K]; [eexists; reflexivity|exact K]). destruct E as [e E]. cbn [FactoryModel.get_rupture]. rewrite E, T.
  assert (X : exists e', text_to_json (rparse fparse) nf (lines_from [] ("{"%char :: rest)) = Err e' /\ ((exists rest', rest = chr 10 :: rest') -> e' = Generic)).
  { destruct (text_to_json (rparse fparse) nf (lines_from [] ("{"%char :: rest))) as [[reference ps]|e'] eqn:X.
    - exfalso. destruct (C50_text_sound _ _ _ _ _ X) as (items & gs & F & _). assert (L : exists l ls, lines_from [] ("{"%char :: rest) = ("{"%char :: l) :: ls).
      { assert (P : lines_of ("{"%char :: rest) (lines_from [] ("{"%char :: rest))) by (apply lines_iff; reflexivity). inversion P as [|l N Hl|l e0 rest' ls Hl He Hr Eq]; subst; [eauto|]. destruct l as [|c l]; [|cbn [app] in Eq |- *; injection Eq as <- _; eauto]. cbn [app] in Eq. destruct He as [->|[->|[-> _]]]; discriminate. }
      destruct L as (l & ls & L). rewrite L in F. inversion F as [|? it ? its Sl F']; subst. inversion Sl as [B|t' Tr|t' Tr|h t' a b c x y z Tr N1 N2 Fl Na Nb Nc]; subst.
      + inversion B as [|? ? X']; subst. discriminate.
      + apply brace_trim in Tr. discriminate.
      + apply brace_trim in Tr. discriminate.
      + assert (Q : exists a', a = "{"%char :: a') by (destruct Fl as [Wd|(_ & _ & Pt)]; [eapply brace_word; exact Wd|eapply brace_parts; exact Pt]). destruct Q as [a' ->]. unfold rparse in Na. rewrite Nf in Na. discriminate.
    - exists e'. split; [reflexivity|]. intros [rest' ->]. cbn [lines_from] in X. change (Ascii.eqb "{"%char (chr 10)) with false in X. change (Ascii.eqb "{"%char (chr 13)) with false in X. change (Ascii.eqb (chr 10) (chr 10)) with true in X. cbn [rev app] in X. revert X. unfold text_to_json. generalize (lines_from [] rest') as ls. intros ls. cbn [read_lines].
      replace (read_line (rparse fparse) nf ([], [], []) ["{"%char; chr 10]) with (@Err tstate Generic) by (destruct nf; reflexivity). cbn [bind]. congruence. }
  destruct X as (e' & -> & X). cbn [bind]. destruct (is_value_error e') eqn:V; eexists; (split; [reflexivity|]); [|reflexivity]. intros H. rewrite (X H) in V. discriminate.
Qed.
Print Assumptions C72_not_json.

(** ** Writing and reading back *)
Lemma reread_core ev o t : distinct ev -> snd (new_origin fparse ev) = Ok o ->
  In (str_of "time", VObj t) o -> (forall k x, In (k, VObj x) o -> k = str_of "time") -> timeparse stamp (timeshow stamp t) = Some t ->
  forall d' M, metadata d' = Ok M -> distinct M -> (forall k v, dget k o = Some v -> dget k M = Some (to_json v)) ->
     (forall k j, dget k M = Some j -> dget k o = None -> exists v, plain j v) ->
     exists o', (forall k v, In (k, v) o' <-> In (k, v) o \/ (~ has o k /\ exists j, dget k M = Some j /\ plain j v)) /\ distinct o' /\ origin_json o' = M /\
     from_dict d' = bind (validate_json d') (fun _ => bind (geometry_type (set_metadata M d')) (fun gt =>
       if jeq gt (str_of "MultiPolygon") then match dget (str_of "mesh_dx") M with Some dx => edge_rupture timeshow strike_dip (set_metadata M d') o' dx | None => quad_rupture timeshow (set_metadata M d') o' end
       else if jeq gt (str_of "Point") then point_rupture timeshow o' (str_of "Origin") else Err Unbound)).
Proof.
  intros Dev Ho It Ot Tt. destruct (C55_attributes fparse ev o Dev Ho) as (Do & _). intros d' M HM DM GM PM. assert (PlM : forall k j, dget k M = Some j -> exists v, plain j v).
    { intros k j Hj. destruct (dget k o) as [v|] eqn:E; [|eapply PM; eassumption]. rewrite (GM _ _ E) in Hj. injection Hj as <-. destruct v; cbn [FactoryModel.to_json]; eexists; constructor. }
    destruct (values_ok timeshow M (plain_entries M DM PlM)) as (mv & Ev & Ej & Eg). assert (Dmv : distinct mv) by (unfold distinct; rewrite <- (origin_json_keys timeshow mv), Ej; exact DM).
    apply dget_in in It; [|exact Do]. pose proof (GM _ _ It) as Tm. cbn [FactoryModel.to_json] in Tm. change TIMEFMT with (str_of "%Y-%m-%dT%H:%M:%S.%fZ") in Tm.
    set (e2 := dset (str_of "time") (VObj t) mv). assert (D2 : distinct e2) by (apply dset_distinct; exact Dmv).
    assert (J2 : origin_json e2 = M). { unfold e2. rewrite (origin_json_set timeshow (str_of "time") (VObj t) (to_json (VObj t)) mv); [exact Ej| |reflexivity]. rewrite Ej. exact (GM _ _ It). }
    assert (G2 : forall k v, dget k o = Some v -> dget k e2 = Some v).
    { intros k v Hv. unfold e2. rewrite dset_get. destruct (str_eqb k (str_of "time")) eqn:Ek; [apply seqb in Ek as ->; congruence|]. rewrite Eg, (GM _ _ Hv). destruct v; try reflexivity. exfalso. apply seqb_f in Ek. apply Ek. apply (Ot k k0). apply dget_in; assumption. }
    pose proof (origin_again fparse timeshow ev o e2 Dev Ho D2 G2) as Og. exists e2. split; [|split; [exact D2|split; [exact J2|]]].
    - intros k v. rewrite <- (dget_in k e2 v D2), <- (dget_in k o v Do), <- dget_none. split.
      + intros Hk. destruct (dget k o) as [w|] eqn:E; [left; rewrite (G2 _ _ E) in Hk; congruence|]. right. split; [reflexivity|]. unfold e2 in Hk. rewrite dset_get in Hk. destruct (str_eqb k (str_of "time")) eqn:Ek; [apply seqb in Ek as ->; congruence|]. rewrite Eg in Hk. destruct (dget k M) as [j|]; [|discriminate]. exists j. split; [reflexivity|apply plain_iff; exact Hk].
      + intros [Hk|(Hk & j & Hj & Pj)]; [apply G2; exact Hk|]. unfold e2. rewrite dset_get. destruct (str_eqb k (str_of "time")) eqn:Ek; [apply seqb in Ek as ->; congruence|]. rewrite Eg, Hj. apply plain_iff. exact Pj.
    - unfold FactoryModel.from_dict. destruct (validate_json d') as [[]|]; [|reflexivity]. cbn [bind]. rewrite HM. cbn [bind]. unfold ditem. rewrite Tm. cbn [bind]. change TIMEFMT with (str_of "%Y-%m-%dT%H:%M:%S.%fZ"). change (str_of "%Y-%m-%dT%H:%M:%S.%fZ") with ("%Y-%m-%dT%H:%M:%S.%fZ"%string : str) in *. rewrite Tt. cbn [bind]. rewrite Ev. cbn [bind]. fold e2. rewrite Og. cbn [bind]. rewrite J2. reflexivity. 
Qed.
Theorem C73_reread ev d o dx r m t : distinct ev -> snd (new_origin fparse ev) = Ok o ->
  at_path d [str_of "metadata"] (JObj m) -> distinct m -> (forall k j, In (k, j) m -> exists v, plain j v) -> (exists v, plain dx v) ->
  In (str_of "time", VObj t) o -> (forall k x, In (k, VObj x) o -> k = str_of "time") -> timeparse stamp (timeshow stamp t) = Some t ->
  ~ has m (str_of "mesh_dx") -> ~ has o (str_of "mesh_dx") ->
  from_dict_and_origin d o dx = Ok r ->
  exists r', from_dict (r_json r) = Ok r' /\ r_json r' = r_json r /\ r_shape r' = r_shape r /\
  forall k v, In (k, v) (r_origin r') <-> In (k, v) o \/ (~ has o k /\ exists j, at_path (r_json r) [str_of "metadata"; k] j /\ plain j v).
Proof.
  intros Dev Ho Hd Dm Pm Pdx It Ot Tt Nm No H. destruct (C55_attributes fparse ev o Dev Ho) as (Do & _).
  pose proof (reread_core ev o t Dev Ho It Ot Tt) as Core.
  assert (Hm : metadata d = Ok m) by (unfold metadata; apply at_one in Hd; rewrite Hd; reflexivity).
  assert (DM : distinct (dupdate m (origin_json o))) by (apply dupdate_distinct; exact Dm).
  assert (GetM : forall k, dget k (dupdate m (origin_json o)) = match dget k o with Some v => Some (to_json v) | None => dget k m end).
  { intros k. rewrite dupdate_get by (apply origin_json_distinct; exact Do). rewrite origin_json_get. destruct (dget k o); reflexivity. }
  assert (Pm' : forall k j, dget k m = Some j -> exists v, plain j v) by (intros k j Hj; apply (Pm k), dget_in; assumption).
  apply from_doc in H as [[P H]|(ps & P & W & K)].
  - unfold point_rupture in H. destruct (ditem (str_of "lon") o) as [lon|] eqn:E1; [|discriminate]. destruct (ditem (str_of "lat") o) as [lat|] eqn:E2; [|discriminate]. destruct (ditem (str_of "depth") o) as [dep|] eqn:E3; [|discriminate]. cbn [bind] in H. match type of H with Ok ?x = Ok r => assert (Er : r = x) by congruence end. subst r. clear H. cbn [r_json r_shape].
    set (M := dupdate [(str_of "reference", JStr (str_of "Origin"))] (origin_json o)). match goal with |- context [set_metadata M ?x] => set (base := x) end.
    assert (DM' : distinct M) by (apply dupdate_distinct; constructor; [intros []|constructor]).
    assert (GM : forall k, dget k M = match dget k o with Some v => Some (to_json v) | None => if str_eqb k (str_of "reference") then Some (JStr (str_of "Origin")) else None end).
    { intros k. unfold M. rewrite dupdate_get by (apply origin_json_distinct; exact Do). rewrite origin_json_get. destruct (dget k o); [reflexivity|]. cbn [option_map dget]. destruct (str_eqb k (str_of "reference")); reflexivity. }
    assert (Hb : metadata (set_metadata M base) = Ok M) by (apply (meta_set _ [(str_of "reference", JStr (str_of "Origin"))]); reflexivity).
    destruct (Core (set_metadata M base) M Hb DM') as (o' & Io & Do' & Jo & Fd). { intros k v Hv. rewrite GM, Hv. reflexivity. } { intros k j Hj Hn. rewrite GM, Hn in Hj. destruct (str_eqb k (str_of "reference")); [|discriminate]. injection Hj as <-. eexists. constructor. }
    assert (HrM : has M (str_of "reference")) by (apply dhas_iff; unfold dhas; rewrite GM; destruct (dget (str_of "reference") o); reflexivity).
    assert (Pb : point_doc base). { exists [(str_of "reference", JStr (str_of "Origin"))]. eexists. eexists. split; [split; [apply at_one; reflexivity|]; split; [apply at_one; reflexivity|]; split; [eexists; left; reflexivity|]; eexists; split; [apply at_one; reflexivity|]; split; apply at_one; reflexivity|]. split; [apply at_one; reflexivity|]. split; [apply at_one; reflexivity|]. left. eauto. }
    rewrite Fd. rewrite (proj2 (validate_iff _) (or_introl (set_point M base Pb HrM))). cbn [bind]. rewrite set_twice. destruct (point_parts _ (set_point M base Pb HrM)) as [Gt _]. rewrite Gt. cbn [bind]. change (jeq (JStr (str_of "Point")) (str_of "MultiPolygon")) with false. change (jeq (JStr (str_of "Point")) (str_of "Point")) with true. cbv iota.
    assert (Same : forall k v, ditem k o = Ok v -> ditem k o' = Ok v). { intros k v Hv. unfold ditem in *. destruct (dget k o) as [w|] eqn:Ew; [|discriminate]. injection Hv as ->. assert (X : In (k, v) o') by (apply Io; left; apply dget_in; assumption). apply dget_in in X; [|exact Do']. rewrite X. reflexivity. }
    unfold point_rupture. rewrite (Same _ _ E1), (Same _ _ E2), (Same _ _ E3). cbn [bind]. eexists. split; [reflexivity|]. cbn [r_json r_shape r_origin]. fold base. rewrite Jo.
    split; [|split; [reflexivity|]].
    + f_equal. assert (Hd1 : exists v M', M = (str_of "reference", v) :: M'). { assert (Z : forall e (v : json) x, exists v' M', dupdate ((str_of "reference", v) :: x) e = (str_of "reference", v') :: M'). { induction e as [|[k w] e IH]; intros v x; [exists v, x; reflexivity|]. cbn [dupdate fold_left fst snd dset]. destruct (str_eqb k (str_of "reference")) eqn:Ek; [apply seqb in Ek as ->; apply IH|apply IH]. } apply Z. }
      destruct Hd1 as (v & M' & EM). rewrite EM in *. cbn [dupdate fold_left fst snd dset]. rewrite str_eqb_refl.
      assert (Z : forall e x : dict json, distinct (x ++ e) -> dupdate x e = x ++ e). { induction e as [|[k w] e IH]; intros x Dx; [rewrite app_nil_r; reflexivity|]. cbn [dupdate fold_left fst snd]. assert (X : dset k w x = x ++ [(k, w)]). { unfold distinct in Dx. rewrite map_app in Dx. cbn [map fst] in Dx. apply NoDup_remove_2 in Dx. assert (Nk : ~ In k (map fst x)) by (intros I; apply Dx, in_or_app; left; exact I). clear - Nk. induction x as [|[k' w'] x IH]; [reflexivity|]. cbn [dset]. destruct (str_eqb k k') eqn:E; [apply seqb in E as ->; exfalso; apply Nk; left; reflexivity|]. cbn [app]. f_equal. apply IH. intros I. apply Nk. right. exact I. }
        rewrite X. fold (dupdate (x ++ [(k, w)]) e). rewrite (IH (x ++ [(k, w)])); rewrite <- app_assoc; [reflexivity|exact Dx]. }
      apply (Z M' [(str_of "reference", v)]). exact DM'.
    + intros k v. rewrite Io. split; (intros [X|(X & j & Y & Z)]; [left; exact X|right; split; [exact X|]; exists j; split; [|exact Z]]); apply (meta_at _ _ k j Hb); exact Y.
  - destruct (polygon_parts _ _ P) as (T & D & m0 & Hm0 & Hr). assert (m0 = m) by congruence. subst m0. destruct K as [[Q H]|[Q H]].
    + unfold quad_rupture in H. rewrite D, Hm in H. cbn [bind] in H. set (M := dupdate m (origin_json o)) in *. destruct (ditem (str_of "reference") M) as [ref|] eqn:R; [|discriminate]. cbn [bind] in H. destruct (set_quadrilaterals ps) as [[qs gi]|] eqn:S; [|discriminate]. cbn [bind fst snd] in H. injection H as <-. cbn [r_json r_shape].
      pose proof (meta_set d m M Hm) as Hb. destruct (Core (set_metadata M d) M Hb DM) as (o' & Io & Do' & Jo & Fd). { intros k v Hv. rewrite GetM, Hv. reflexivity. } { intros k j Hj Hn. rewrite GetM, Hn in Hj. exact (Pm' _ _ Hj). }
      assert (HrM : has M (str_of "reference")) by (apply dhas_iff; unfold dhas; unfold ditem in R; destruct (dget (str_of "reference") M); [reflexivity|discriminate]).
      pose proof (set_polygon M d ps P HrM) as PM. destruct (polygon_parts _ _ PM) as (TM & DPM & _). rewrite Fd. rewrite (proj2 (validate_iff _) (or_intror (ex_intro _ ps (conj PM W)))). cbn [bind]. rewrite set_twice, TM. cbn [bind]. change (jeq (JStr (str_of "MultiPolygon")) (str_of "MultiPolygon")) with true. cbv iota.
      assert (Nx : dget (str_of "mesh_dx") M = None) by (rewrite GetM; apply dget_none in Nm, No; rewrite No; exact Nm). rewrite Nx. unfold quad_rupture. rewrite DPM, Hb. cbn [bind]. rewrite Jo, (dupdate_self M DM), R. cbn [bind]. rewrite S. cbn [bind fst snd]. eexists. split; [reflexivity|]. cbn [r_json r_shape r_origin]. rewrite set_twice. split; [reflexivity|]. split; [reflexivity|].
      intros k v. rewrite Io. split; (intros [X|(X & j & Y & Z)]; [left; exact X|right; split; [exact X|]; exists j; split; [|exact Z]]); apply (meta_at _ _ k j Hb); exact Y.
    + unfold edge_rupture in H. rewrite D, Hm in H. cbn [bind] in H. destruct (ditem (str_of "reference") m) as [ref|] eqn:R; [|discriminate]. cbn [bind] in H. destruct (strike_dip (edge_init ps)) eqn:S; [|discriminate]. cbn [bind] in H. injection H as <-. cbn [r_json r_shape].
      set (M := dset (str_of "mesh_dx") dx (dupdate m (origin_json o))). assert (DM' : distinct M) by (apply dset_distinct; exact DM). pose proof (meta_set d m M Hm) as Hb.
      assert (GM : forall k, dget k M = if str_eqb k (str_of "mesh_dx") then Some dx else match dget k o with Some v => Some (to_json v) | None => dget k m end) by (intros k; unfold M; rewrite dset_get, GetM; reflexivity).
      destruct (Core (set_metadata M d) M Hb DM') as (o' & Io & Do' & Jo & Fd).
      { intros k v Hv. rewrite GM, Hv. destruct (str_eqb k (str_of "mesh_dx")) eqn:E; [|reflexivity]. exfalso. apply seqb in E as ->. apply dget_none in No. congruence. }
      { intros k j Hj Hn. rewrite GM, Hn in Hj. destruct (str_eqb k (str_of "mesh_dx")); [injection Hj as <-; exact Pdx|exact (Pm' _ _ Hj)]. }
      assert (Rm : exists ref', ditem (str_of "reference") M = Ok ref'). { unfold ditem. rewrite GM. change (str_eqb (str_of "reference") (str_of "mesh_dx")) with false. cbv iota. destruct (dget (str_of "reference") o); [eauto|]. unfold ditem in R. destruct (dget (str_of "reference") m); [eauto|discriminate]. }
      destruct Rm as [ref' Rm]. assert (HrM : has M (str_of "reference")) by (apply dhas_iff; unfold dhas; unfold ditem in Rm; destruct (dget (str_of "reference") M); [reflexivity|discriminate]).
      pose proof (set_polygon M d ps P HrM) as PM. destruct (polygon_parts _ _ PM) as (TM & DPM & _). rewrite Fd. rewrite (proj2 (validate_iff _) (or_intror (ex_intro _ ps (conj PM W)))). cbn [bind]. rewrite set_twice, TM. cbn [bind]. change (jeq (JStr (str_of "MultiPolygon")) (str_of "MultiPolygon")) with true. cbv iota.
      assert (Nx : dget (str_of "mesh_dx") M = Some dx) by (rewrite GM; reflexivity). rewrite Nx. unfold edge_rupture. rewrite DPM, Hb. cbn [bind]. rewrite Rm. cbn [bind]. rewrite S. cbn [bind]. rewrite Jo, (dupdate_self M DM'), (dset_same _ _ _ Nx). eexists. split; [reflexivity|]. cbn [r_json r_shape r_origin]. rewrite set_twice. split; [reflexivity|]. split; [reflexivity|].
      intros k v. rewrite Io. split; (intros [X|(X & j & Y & Z)]; [left; exact X|right; split; [exact X|]; exists j; split; [|exact Z]]); apply (meta_at _ _ k j Hb); exact Y.
Qed.
Print Assumptions C73_reread.

(** Not if the metadata of a document of quadrilaterals have a spacing: these come back
    as edges. *)
Theorem C73_mesh ev d o dx r m t qs gi x : distinct ev -> snd (new_origin fparse ev) = Ok o ->
  at_path d [str_of "metadata"] (JObj m) -> distinct m -> (forall k j, In (k, j) m -> exists v, plain j v) ->
  In (str_of "time", VObj t) o -> (forall k x, In (k, VObj x) o -> k = str_of "time") -> timeparse stamp (timeshow stamp t) = Some t ->
  In (str_of "mesh_dx", x) m -> ~ has o (str_of "mesh_dx") -> (forall e, strike_dip e = Ok tt) ->
  from_dict_and_origin d o dx = Ok r -> r_shape r = SQuad qs gi ->
  exists r' ps, from_dict (r_json r) = Ok r' /\ polygon_doc d ps /\ r_shape r' = SEdge (edge_init ps) x.
Proof.
  intros Dev Ho Hd Dm Pm It Ot Tt Ix No Sd H Sh. destruct (C55_attributes fparse ev o Dev Ho) as (Do & _). pose proof (reread_core ev o t Dev Ho It Ot Tt) as Core.
  assert (Hm : metadata d = Ok m) by (unfold metadata; apply at_one in Hd; rewrite Hd; reflexivity).
  assert (DM : distinct (dupdate m (origin_json o))) by (apply dupdate_distinct; exact Dm).
  assert (GetM : forall k, dget k (dupdate m (origin_json o)) = match dget k o with Some v => Some (to_json v) | None => dget k m end) by (intros k; rewrite dupdate_get by (apply origin_json_distinct; exact Do); rewrite origin_json_get; destruct (dget k o); reflexivity).
  apply from_doc in H as [[P H]|(ps & P & W & K)]; [destruct (point_inv _ _ _ H) as (A & _); congruence|]. destruct (polygon_parts _ _ P) as (T & D & m0 & Hm0 & Hr). assert (m0 = m) by congruence. subst m0. destruct K as [[Q H]|[Q H]].
  - unfold quad_rupture in H. rewrite D, Hm in H. cbn [bind] in H. set (M := dupdate m (origin_json o)) in *. destruct (ditem (str_of "reference") M) as [ref|] eqn:R; [|discriminate]. cbn [bind] in H. destruct (set_quadrilaterals ps) as [[qs' gi']|] eqn:S; [|discriminate]. cbn [bind fst snd] in H. injection H as <-. cbn [r_json].
    pose proof (meta_set d m M Hm) as Hb. destruct (Core (set_metadata M d) M Hb DM) as (o' & Io & Do' & Jo & Fd). { intros k v Hv. rewrite GetM, Hv. reflexivity. } { intros k j Hj Hn. rewrite GetM, Hn in Hj. apply (Pm k), dget_in; assumption. }
    assert (HrM : has M (str_of "reference")) by (apply dhas_iff; unfold dhas; unfold ditem in R; destruct (dget (str_of "reference") M); [reflexivity|discriminate]).
    pose proof (set_polygon M d ps P HrM) as PM. destruct (polygon_parts _ _ PM) as (TM & DPM & _). rewrite Fd. rewrite (proj2 (validate_iff _) (or_intror (ex_intro _ ps (conj PM W)))). cbn [bind]. rewrite set_twice, TM. cbn [bind]. change (jeq (JStr (str_of "MultiPolygon")) (str_of "MultiPolygon")) with true. cbv iota.
    assert (Nx : dget (str_of "mesh_dx") M = Some x) by (rewrite GetM; apply dget_none in No; rewrite No; apply dget_in; assumption). rewrite Nx. unfold edge_rupture. rewrite DPM, Hb. cbn [bind]. rewrite R. cbn [bind]. rewrite Sd. cbn [bind]. eexists. exists ps. split; [reflexivity|]. split; [exact P|reflexivity].
  - unfold edge_rupture in H. rewrite D, Hm in H. cbn [bind] in H. destruct (ditem _ m); [|discriminate]. cbn [bind] in H. destruct (strike_dip _); [|discriminate]. cbn [bind] in H. injection H as <-. discriminate.
Qed.
Print Assumptions C73_mesh.
End Props.

(** A document: one patch along the equator. *)
Definition ex_meta (mesh : dict json) : dict json := (str_of "reference", JStr (str_of "Someone")) :: mesh.
Definition ex_doc (mesh : dict json) : json :=
  JObj [(str_of "type", JStr (str_of "FeatureCollection")); (str_of "metadata", JObj (ex_meta mesh));
        (str_of "features", JArr [JObj [(str_of "type", JStr (str_of "Feature"));
           (str_of "geometry", JObj [(str_of "type", JStr (str_of "MultiPolygon")); (str_of "coordinates", JArr [JArr [JArr (map point_json ex_poly)]])])]])].
Lemma ex_doc_polygon mesh : polygon_doc (ex_doc mesh) [ex_poly].
Proof.
  exists (ex_meta mesh). eexists. exists (JArr [JArr (map point_json ex_poly)]), []. split; [split; [apply at_one; reflexivity|]; split; [apply at_one; reflexivity|]; split; [eexists; left; reflexivity|]; eexists; split; [apply at_one; reflexivity|]; split; apply at_one; reflexivity|]. split; [apply at_one; reflexivity|]. split; [apply at_one; reflexivity|].
  constructor. constructor; [|constructor]. constructor. induction ex_poly as [|v p IHp]; cbn [map]; constructor; [apply numbers_json|exact IHp].
Qed.
Example C71_ex : (exists ps, polygon_doc (ex_doc []) ps /\ Forall well_ordered ps) /\ validate_json (ex_doc []) = Ok tt.
Proof. assert (H : exists ps, polygon_doc (ex_doc []) ps /\ Forall well_ordered ps) by (exists [ex_poly]; split; [apply ex_doc_polygon|apply C51_ex]). split; [exact H|]. apply C71_valid. right. exact H. Qed.
Example C71_ex_errors : wrong (JObj [(str_of "type", JStr (str_of "Feature"))]) Generic /\ wrong (JObj []) KeyError.
Proof. split; [apply (w_type _ (JStr (str_of "Feature"))); [apply at_one; reflexivity|discriminate]|]. apply w_no_type. exists []. split; [reflexivity|]. intros [v []]. Qed.
Definition ex_show (f : str) (t : nat) : str := [].
Definition ex_origin : dict value := ex_event [(str_of "mech", VStr (str_of "RS")); (str_of "rake", VFloat (Fin 90))].
Lemma ex_quad mesh dx o : distinct o -> ~ has o (str_of "reference") -> exists r, from_dict_and_origin ex_show (fun _ => Ok tt) (ex_doc mesh) o dx = Ok r /\ r_shape r = SQuad [wall (-1) 10] [0%nat] /\ r_reference r = JStr (str_of "Someone").
Proof.
  intros Do N. unfold from_dict_and_origin. rewrite (proj2 (C71_valid _) (or_intror (ex_intro _ [ex_poly] (conj (ex_doc_polygon mesh) (proj2 (proj2 C51_ex)))))). cbn [bind]. destruct (polygon_parts _ _ (ex_doc_polygon mesh)) as (T & D & m & Hm & Hr). unfold quad_class. rewrite T. cbn [bind]. change (jeq (JStr (str_of "MultiPolygon")) (str_of "Point")) with false. cbn [bind]. rewrite D. cbn [bind]. rewrite (proj1 C67_ex). cbn [bind].
  unfold quad_rupture. rewrite D. cbn [bind]. change (metadata (ex_doc mesh)) with (Ok (ex_meta mesh)). cbn [bind]. unfold ditem. rewrite dupdate_get, origin_json_get by (apply origin_json_distinct; exact Do). apply dget_none in N. rewrite N. cbn [option_map ex_meta dget]. rewrite str_eqb_refl. cbn [bind]. rewrite (proj1 (proj2 C51_ex)). cbn [bind]. eexists. split; [reflexivity|]. split; reflexivity.
Qed.
Lemma ex_origin_distinct : distinct ex_origin.
Proof. unfold distinct, ex_origin, ex_event. cbn [map app fst]. repeat (apply NoDup_cons; [cbn [In]; intro H; repeat destruct H as [H|H]; try discriminate; exact H|]). apply NoDup_nil. Qed.
Lemma ex_origin_made : snd (new_origin ex_parse ex_origin) = Ok ex_origin.
Proof.
  rewrite new_origin_eq. replace (check_place ex_parse ex_origin) with (Ok tt); [reflexivity|]. symmetry. rewrite (check_place_eq _ _ (VStr (str_of "34.5")) (VInt (-120))) by reflexivity.
  replace (coordinate ex_parse (VStr (str_of "34.5")) (-90) 90) with (Ok tt); [|symmetry; apply coordinate_ok; exists (Fin 34.5); split; [apply n_text; reflexivity|cbn; lra]]. cbn [bind]. apply coordinate_ok. exists (Fin (IZR (-120))). split; [constructor|cbn; lra].
Qed.
Lemma ex_has k : ~ In k (map fst ex_origin) -> ~ has ex_origin k.
Proof. intros N H. apply N, has_keys, H. Qed.
Example C72_ex : exists r, get_rupture ex_parse ex_show (fun _ => Ok tt) (fun _ => Some (ex_doc [])) (Some ex_origin) (Some (Path (Some (str_of "{}")))) JNull true = Ok r /\ r_shape r = SQuad [wall (-1) 10] [0%nat] /\ r_reference r = JStr (str_of "Someone").
Proof.
  destruct (ex_quad [] JNull ex_origin ex_origin_distinct) as (r & H & S & R); [apply ex_has; cbn; intros I; repeat destruct I as [I|I]; try discriminate; exact I|]. exists r. split; [|auto]. eapply C72_json; [reflexivity|exact H].
Qed.
(** The same text in an object. *)
Theorem C72_object_refuted : exists fparse timeshow strike_dip loads o t dx nf r, get_rupture fparse timeshow strike_dip loads (Some o) (Some (Path (Some t))) dx nf = Ok r /\
  forall e, get_rupture fparse timeshow strike_dip loads (Some o) (Some (Object t)) dx nf <> Ok e.
Proof.
  destruct C72_ex as (r & H & _). exists ex_parse, ex_show, (fun _ => Ok tt), (fun _ => Some (ex_doc [])), ex_origin, (str_of "{}"), JNull, true, r. split; [exact H|]. intros e E.
  destruct (C72_not_json ex_parse ex_show (fun _ => Ok tt) (fun _ => Some (ex_doc [])) (Object (str_of "{}")) ex_origin JNull true (str_of "}")) as (e' & E' & _); [reflexivity|reflexivity|left; eauto|congruence].
Qed.
Print Assumptions C72_object_refuted.
Lemma ex_time t : In (str_of "time", VObj 0) ex_origin /\ (forall k x, In (k, VObj x) ex_origin -> k = str_of "time") /\ (fun _ _ : str => Some 0%nat) stamp (ex_show stamp t) = Some 0%nat.
Proof. split; [apply dget_sound; reflexivity|]. split; [|reflexivity]. intros k x I. cbn in I. repeat destruct I as [I|I]; try discriminate; try (injection I as <- _; reflexivity). destruct I. Qed.
Example C73_ex : exists r, from_dict_and_origin ex_show (fun _ => Ok tt) (ex_doc []) ex_origin JNull = Ok r /\ distinct (ex_meta []) /\ (forall k j, In (k, j) (ex_meta []) -> exists v, plain j v) /\ ~ has (ex_meta []) (str_of "mesh_dx") /\ ~ has ex_origin (str_of "mesh_dx") /\
  exists r', from_dict ex_parse (fun _ _ => Some 0%nat) ex_show (fun _ => Ok tt) (r_json r) = Ok r' /\ r_shape r' = SQuad [wall (-1) 10] [0%nat].
Proof.
  destruct (ex_quad [] JNull ex_origin ex_origin_distinct) as (r & H & S & R); [apply ex_has; cbn; intros I; repeat destruct I as [I|I]; try discriminate; exact I|]. exists r. split; [exact H|].
  assert (Dm : distinct (ex_meta [])) by (constructor; [intros []|constructor]). split; [exact Dm|]. assert (Pm : forall k j, In (k, j) (ex_meta []) -> exists v, plain j v) by (intros k j [[= <- <-]|[]]; eexists; constructor). split; [exact Pm|].
  assert (Nm : ~ has (ex_meta []) (str_of "mesh_dx")) by (intros [v [X|[]]]; discriminate). split; [exact Nm|]. assert (No : ~ has ex_origin (str_of "mesh_dx")) by (apply ex_has; cbn; intros I; repeat destruct I as [I|I]; try discriminate; exact I). split; [exact No|]. destruct (ex_time 0) as (T1 & T2 & T3).
  destruct (C73_reread ex_parse (fun _ _ => Some 0%nat) ex_show (fun _ => Ok tt) ex_origin (ex_doc []) ex_origin JNull r (ex_meta []) 0 ex_origin_distinct ex_origin_made) as (r' & A & B & C & _); try assumption; [apply at_one; reflexivity|eexists; constructor|]. exists r'. split; [exact A|]. congruence.
Qed.
(** A document with a spacing. *)
Theorem C73_mesh_refuted : exists fparse timeparse timeshow strike_dip d o dx r r' qs gi e x, from_dict_and_origin timeshow strike_dip d o dx = Ok r /\ r_shape r = SQuad qs gi /\
  from_dict fparse timeparse timeshow strike_dip (r_json r) = Ok r' /\ r_shape r' = SEdge e x.
Proof.
  set (mesh := [(str_of "mesh_dx", JFloat (Fin 1))]). destruct (ex_quad mesh JNull ex_origin ex_origin_distinct) as (r & H & S & R); [apply ex_has; cbn; intros I; repeat destruct I as [I|I]; try discriminate; exact I|]. destruct (ex_time 0) as (T1 & T2 & T3).
  destruct (C73_mesh ex_parse (fun _ _ => Some 0%nat) ex_show (fun _ => Ok tt) ex_origin (ex_doc mesh) ex_origin JNull r (ex_meta mesh) 0 [wall (-1) 10] [0%nat] (JFloat (Fin 1)) ex_origin_distinct ex_origin_made) as (r' & ps & A & B & C); try assumption; try reflexivity.
  - apply at_one. reflexivity.
  - unfold distinct, ex_meta, mesh. cbn [map fst]. constructor; [intros [X|[]]; discriminate|]. constructor; [intros []|constructor].
  - unfold ex_meta, mesh. intros k j [[= <- <-]|[[= <- <-]|[]]]; eexists; constructor.
  - right. left. reflexivity.
  - apply ex_has. cbn. intros I. repeat destruct I as [I|I]; try discriminate; exact I.
  - exists ex_parse, (fun _ _ => Some 0%nat), ex_show, (fun _ => Ok tt), (ex_doc mesh), ex_origin, JNull, r, r', [wall (-1) 10], [0%nat], (edge_init ps), (JFloat (Fin 1)). auto.
Qed.
Print Assumptions C73_mesh_refuted.
(** A text file in an object: a comment and the same patch; CR-LF once. *)
Definition ex_num (s : str) : option num :=
  if str_eqb s (str_of "0") then Some (Fin 0) else if str_eqb s (str_of "-1") then Some (Fin (-1)) else if str_eqb s (str_of "10") then Some (Fin 10) else None.
Definition nl : str := [chr 10].
Definition ex_text : str := str_of "# Me" ++ [chr 13; chr 10] ++ str_of "0 0 0" ++ nl ++ str_of "-1 0 0" ++ nl ++ str_of "-1 0 10" ++ nl ++ str_of "0 0 10" ++ nl ++ str_of "0 0 0".
Definition ex_text_items : list item := IComment (str_of " Me") :: map IVertex ex_poly.
Example C72_ex_text : exists ls, lines_of ex_text ls /\ Forall2 (PolySpec.says (rparse ex_num) true) ls ex_text_items /\ groups (vertices_of ex_text_items) [ex_poly] /\
  exists d, polygon_doc d [ex_poly] /\ at_path d [str_of "metadata"; str_of "reference"] (JStr (str_of " Me")) /\
  forall r, from_dict_and_origin ex_show (fun _ => Ok tt) d ex_origin JNull = Ok r -> get_rupture ex_num ex_show (fun _ => Ok tt) (fun _ => None) (Some ex_origin) (Some (Object ex_text)) JNull true = Ok r.
Proof.
  assert (L : lines_of ex_text (lines_from [] ex_text)) by (apply lines_iff; reflexivity).
  assert (F : Forall2 (PolySpec.says (rparse ex_num) true) (lines_from [] ex_text) ex_text_items).
  { unfold ex_text_items, ex_poly. cbn [map]. apply Forall2_cons; [apply (says_comment _ _ _ (str_of " Me")); apply trimmed_iff; reflexivity|].
    assert (V : forall line h t a b c x y z, strip line = h :: t -> h <> "#"%char -> h <> ">"%char -> split_blanks line = [a; b; c] -> rparse ex_num a = Some x -> rparse ex_num b = Some y -> rparse ex_num c = Some z -> PolySpec.says (rparse ex_num) true line (IVertex (x, y, z))).
    { intros line h t a b c x y z S N1 N2 W A B C. apply (says_vertex (rparse ex_num) true line h t a b c x y z); try assumption; [apply trimmed_iff; exact S|left; apply words_iff; exact W]. }
    repeat apply Forall2_cons; try constructor; (eapply V; [reflexivity|discriminate|discriminate|reflexivity|reflexivity|reflexivity|reflexivity]). }
  assert (G : groups (vertices_of ex_text_items) [ex_poly]) by (change (vertices_of ex_text_items) with (map Some ex_poly ++ []); apply groups_run; [discriminate|auto|constructor]).
  exists (lines_from [] ex_text). split; [exact L|]. split; [exact F|]. split; [exact G|].
  exact (C72_text_read ex_num ex_show (fun _ => Ok tt) (fun _ => None) (Object ex_text) ex_text ex_origin JNull true _ _ _ eq_refl (ex_intro _ _ eq_refl) L F G (proj2 (proj2 C51_ex))).
Qed.
