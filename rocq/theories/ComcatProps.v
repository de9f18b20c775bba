(** ComCat and GeoServe answers. *)
From Coq Require Import ZArith Reals String Ascii Bool List Lia Lra.
From Flocq Require Import Core.
From Verif Require Import PyBase PyStr FloatBase OriginModel PolyModel PolySpec PolyProofs JsonModel ComcatModel ComcatSpec PathProofs PdlSpec PdlProofs ComcatProofs.
Import ListNotations.
Local Arguments str_of _ : simpl never.

(** ** C58: ids and sources *)
Lemma ids_iff d a others : associated_ids d = Ok (a, others) <->
  exists s l i, at_path d [str_of "properties"; str_of "ids"] (JStr s) /\ items s l /\ at_path d [str_of "id"] a /\ a = JStr i /\ without i l others.
Proof.
  unfold associated_ids. split.
  - destruct (jpath _ d) as [v|] eqn:E1; [|discriminate]. cbn [bind]. destruct (listed v) as [l|] eqn:E2; [|discriminate]. cbn [bind]. destruct (jkey _ d) as [x|] eqn:E3; [|discriminate]. cbn [bind]. destruct (remove_first x l) as [r|] eqn:E4; [|discriminate]. cbn [bind]. intros [= <- <-].
    apply jpath_iff in E1. apply listed_iff in E2 as (s & -> & I). apply jkey_iff in E3. apply remove_iff in E4 as (i & -> & W). exists s, l, i. auto.
  - intros (s & l & i & P & I & Q & -> & W). apply jpath_iff in P. rewrite P. cbn [bind]. rewrite (proj2 (listed_iff (JStr s) l)) by eauto. cbn [bind]. apply jkey_iff in Q. rewrite Q. cbn [bind]. rewrite (proj2 (remove_iff (JStr i) l others)) by eauto. reflexivity.
Qed.
(** getAssociatedIds answers with the id of the event and all other ids listed, in
    their order, exactly if the id of the event is among those listed; otherwise, if
    both texts are there, it raises ValueError. *)
Theorem C58_ids d s l i : at_path d [str_of "properties"; str_of "ids"] (JStr s) -> items s l -> at_path d [str_of "id"] (JStr i) ->
  (forall others, associated_ids d = Ok (JStr i, others) <-> without i l others) /\
  (In i l -> exists others, associated_ids d = Ok (JStr i, others)) /\ (~ In i l -> associated_ids d = Err ValueError).
Proof.
  intros P I Q. apply jpath_iff in P. assert (L : listed (JStr s) = Ok l) by (apply listed_iff; eauto). apply jkey_iff in Q.
  unfold associated_ids. rewrite P. cbn [bind]. rewrite L. cbn [bind]. rewrite Q. cbn [bind].
  destruct (remove_first (JStr i) l) as [r|e] eqn:E; cbn [bind].
  - apply remove_iff in E as (a & [= <-] & W). split; [|split].
    + intros others. split; [intros [= <-]; exact W|]. intros W'. f_equal. f_equal. assert (H : remove_first (JStr i) l = Ok others) by (apply remove_iff; eauto). assert (H' : remove_first (JStr i) l = Ok r) by (apply remove_iff; eauto). congruence.
    + intros _. exists r. reflexivity.
    + intros N. exfalso. destruct W as (b & c & -> & _). apply N. apply in_elt.
  - apply remove_err in E as [-> N]. split; [|split].
    + intros others. split; [discriminate|]. intros (b & c & -> & _). exfalso. apply (N i); [apply in_elt|reflexivity].
    + intros H. exfalso. exact (N i H eq_refl).
    + reflexivity.
Qed.
Print Assumptions C58_ids.
(** It answers only then. *)
Theorem C58_ids_only d a others : associated_ids d = Ok (a, others) ->
  exists s l i, at_path d [str_of "properties"; str_of "ids"] (JStr s) /\ items s l /\ at_path d [str_of "id"] (JStr i) /\ a = JStr i /\ without i l others.
Proof. intros H. apply ids_iff in H as (s & l & i & P & I & Q & -> & W). exists s, l, i. auto. Qed.
Print Assumptions C58_ids_only.
(** getAssociatedSources answers with one source for each id, in the order of the ids,
    each belonging to its id, whenever getAssociatedIds answers. *)
Theorem C58_sources d s l i others : at_path d [str_of "properties"; str_of "sources"] (JStr s) -> items s l -> associated_ids d = Ok (JStr i, others) ->
  (exists r, associated_sources d = Ok r) /\
  forall a rest, associated_sources d = Ok (a, rest) <-> Forall2 (belongs l) (i :: others) (a :: rest).
Proof.
  intros P I Q. apply jpath_iff in P. assert (L : listed (JStr s) = Ok l) by (apply listed_iff; eauto). assert (Nl : l <> []) by (destruct I as (t & _ & N & _); exact N).
  unfold associated_sources. rewrite P. cbn [bind]. rewrite L. cbn [bind]. rewrite Q. cbn [bind].
  destruct (picks_ok l (i :: others) Nl) as [ss E]. rewrite E. cbn [bind]. pose proof (proj1 (picks_iff l (i :: others) Nl ss) E) as F. inversion F as [|? a0 ? rest0 B F']; subst ss.
  cbn [remove_first jeq]. rewrite str_eqb_refl. cbn [bind]. split; [exists (a0, rest0); reflexivity|]. intros a rest. split.
  - intros [= <- <-]. exact F.
  - intros G. apply (picks_iff l (i :: others) Nl) in G. rewrite E in G. injection G as <- <-. reflexivity.
Qed.
Print Assumptions C58_sources.
(** If one of the sources begins an id and no longer one does, it is the one chosen. *)
Theorem C58_guarantee d s l i others a rest k id src : at_path d [str_of "properties"; str_of "sources"] (JStr s) -> items s l -> associated_ids d = Ok (JStr i, others) ->
  associated_sources d = Ok (a, rest) -> nth_error (i :: others) k = Some id -> In src l -> prefix src id -> src <> [] -> (forall t, In t l -> prefix t id -> List.length t <= List.length src) ->
  nth_error (a :: rest) k = Some src.
Proof.
  intros P I Q A N Hin Pf Ne Mx. apply (C58_sources d s l i others P I Q) in A. clear - A N Hin Pf Ne Mx. revert k N. induction A as [|x y xs ys B F IH]; intros k N; [destruct k; discriminate|].
  destruct k as [|k]; cbn [nth_error] in *; [|exact (IH k N)]. injection N as ->. f_equal.
  destruct B as [(b & c & E & P & Ny & M)|[Z _]].
  - apply (prefix_same id); [exact P|exact Pf|]. assert (Iy : In y l) by (rewrite E; apply in_elt). specialize (M src Hin Pf). specialize (Mx y Iy P). lia.
  - exfalso. apply Ne. exact (Z src Hin Pf).
Qed.
Print Assumptions C58_guarantee.
Definition event (ids sources id : string) : json :=
  JObj [(str_of "id", JStr (str_of id)); (str_of "properties", JObj [(str_of "ids", JStr (str_of ids)); (str_of "sources", JStr (str_of sources))])].
(** "The output list of other sources is guaranteed to correspond to the list of other
    ids": not if the code of an event begins with what makes its source another one, nor
    if an id has no source at all. *)
Theorem C58_ambiguous_refuted : exists d source code, let id := source ++ code in
  at_path d [str_of "id"] (JStr id) /\ associated_sources d = Ok (str_of "usc", [str_of "usc"]) /\ source = str_of "us" /\ associated_ids d = Ok (JStr id, [str_of "usc77"]).
Proof.
  exists (event ",usc12,usc77," ",us,usc," "usc12"), (str_of "us"), (str_of "c12"). cbv zeta. split; [|split; [vm_compute; reflexivity|split; [reflexivity|vm_compute; reflexivity]]].
  apply jpath_iff. vm_compute. reflexivity.
Qed.
Print Assumptions C58_ambiguous_refuted.
Theorem C58_unmatched_refuted : exists d, associated_ids d = Ok (JStr (str_of "ci38457511"), [str_of "us70004bn0"]) /\ associated_sources d = Ok (str_of "us", [str_of "us"]).
Proof. exists (event ",us70004bn0,ci38457511," ",us,nc," "ci38457511"). split; vm_compute; reflexivity. Qed.
Print Assumptions C58_unmatched_refuted.
Example C58_ex : let d := event ",atlas4567,ci2008,at1234," ",atlas,ci,at," "at1234" in
  associated_ids d = Ok (JStr (str_of "at1234"), [str_of "atlas4567"; str_of "ci2008"]) /\ associated_sources d = Ok (str_of "at", [str_of "atlas"; str_of "ci"]).
Proof. split; vm_compute; reflexivity. Qed.
Example C58_ex_items : items (str_of ",us,nc,") [str_of "us"; str_of "nc"].
Proof. assert (H : listed (JStr (str_of ",us,nc,")) = Ok [str_of "us"; str_of "nc"]) by (vm_compute; reflexivity). apply listed_iff in H as (s & [= <-] & I). exact I. Qed.

(** ** C69: downloads *)
(** A download makes one request; it gives the page, or None for any HTTP error but 503,
    or fails. *)
Theorem C69_download server k url : fst (get_url_data server k url) = [url] /\
  match server k url with
  | Page (Some s) => snd (get_url_data server k url) = Ok (Some s)
  | Page None => snd (get_url_data server k url) = Err UnicodeErr
  | HttpError c => (c = 503%Z -> snd (get_url_data server k url) = Err Generic) /\ (c <> 503%Z -> snd (get_url_data server k url) = Ok None)
  | Failure e => snd (get_url_data server k url) = Err e
  end.
Proof.
  unfold get_url_data. destruct (server k url) as [[s|]|c|e]; try (split; reflexivity). destruct (Z.eqb_spec c 503); (split; [reflexivity|]); split; intros; (reflexivity || contradiction).
Qed.
Print Assumptions C69_download.
(** The second attempt after a 503 is never made. *)
Theorem C69_retry_refuted : exists server url text, server 0%nat url = HttpError 503 /\ (forall k, (0 < k)%nat -> server k url = Page (Some text)) /\
  get_url_data server 0 url = ([url], Err Generic).
Proof. exists (fun k _ => match k with O => HttpError 503 | _ => Page (Some (str_of "{}")) end), [], (str_of "{}"). split; [reflexivity|]. split; [intros [|k]; [lia|reflexivity]|reflexivity]. Qed.
Print Assumptions C69_retry_refuted.

Definition detail (id : str) : str := str_of "https://earthquake.usgs.gov/earthquakes/feed/v1.0/detail/" ++ id ++ str_of ".geojson".
Lemma detail_eq id : py_replace URL_TEMPLATE (str_of "[EVENTID]") id = detail id.
Proof.
  assert (E : URL_TEMPLATE = flat [L (str_of "https://earthquake.usgs.gov/earthquakes/feed/v1.0/detail/"); H (str_of "EVENTID"); L (str_of ".geojson")]) by reflexivity.
  rewrite E. change (str_of "[EVENTID]") with (ob :: str_of "EVENTID" ++ [cb]). rewrite replace_tok; [|apply nameb_ok; reflexivity|repeat (apply Forall_cons; [first [apply nameb_ok; reflexivity | apply openb_ok; reflexivity]|]); apply Forall_nil].
  cbn [subst map subst1]. rewrite str_eqb_refl. unfold flat. cbn [flat_map ftok]. rewrite app_nil_r. reflexivity.
Qed.
(** A ComCatInfo is what the page of the event says, or an Exception. *)
Theorem C69_comcat server loads k id : fst (comcat_info server loads k id) = [detail id] /\
  (forall d, snd (comcat_info server loads k id) = Ok d <-> exists text, server k (detail id) = Page (Some text) /\ loads text = Some d) /\
  (forall e, snd (comcat_info server loads k id) = Err e -> e = Generic).
Proof.
  unfold comcat_info, get_json_content. rewrite detail_eq. unfold get_url_data. destruct (server k (detail id)) as [[s|]|c|e] eqn:E.
  - cbn [bind json_of]. destruct (loads s) as [d'|] eqn:El; cbn [fst snd]; (split; [reflexivity|]); split.
    + intros d. split; [intros [= <-]; eauto|]. intros (t & [= <-] & Ht). congruence.
    + discriminate.
    + intros d. split; [discriminate|]. intros (t & [= <-] & Ht). congruence.
    + intros e [= <-]. reflexivity.
  - cbn. split; [reflexivity|]. split; [intros d; split; [discriminate|intros (t & Et & _); discriminate]|intros e' [= <-]; reflexivity].
  - destruct (c =? 503)%Z; cbn; (split; [reflexivity|]); (split; [intros d; split; [discriminate|intros (t & Et & _); discriminate]|intros e' [= <-]; reflexivity]).
  - cbn. split; [reflexivity|]. split; [intros d; split; [discriminate|intros (t & Et & _); discriminate]|intros e' [= <-]; reflexivity].
Qed.
Print Assumptions C69_comcat.
Definition places_at (lat lon radius pop : str) : str :=
  str_of "http://earthquake.usgs.gov/ws/geoserve/places.json?latitude=" ++ lat ++ str_of "&longitude=" ++ lon ++ str_of "&maxradiuskm=" ++ radius ++ str_of "&minpopulation=" ++ pop ++ str_of "&type=geonames".
Definition regions_at (lat lon : str) : str := str_of "http://earthquake.usgs.gov/ws/geoserve/regions.json?latitude=" ++ lat ++ str_of "&longitude=" ++ lon.
Ltac toks := repeat (apply Forall_cons; [first [apply nameb_ok; reflexivity | apply openb_ok; reflexivity | assumption]|]); apply Forall_nil.
Lemma places_eq lat lon radius pop : no_open lat -> no_open lon -> no_open radius -> places_url lat lon radius pop = places_at lat lon radius pop.
Proof.
  intros H1 H2 H3. unfold places_url.
  assert (E : PLACES_URL = flat [L (str_of "http://earthquake.usgs.gov/ws/geoserve/places.json?latitude="); H (str_of "LAT"); L (str_of "&longitude="); H (str_of "LON"); L (str_of "&maxradiuskm="); H (str_of "RADIUS"); L (str_of "&minpopulation="); H (str_of "POP"); L (str_of "&type=geonames")]) by reflexivity.
  rewrite E. change (str_of "[LAT]") with (ob :: str_of "LAT" ++ [cb]). rewrite replace_tok; [|apply nameb_ok; reflexivity|toks]. cbn [subst map subst1]. rewrite !str_eqb_refl. cbn [str_eqb].
  repeat match goal with |- context [str_eqb (str_of ?a) (str_of ?b)] => change (str_eqb (str_of a) (str_of b)) with false end. cbv iota.
  change (str_of "[LON]") with (ob :: str_of "LON" ++ [cb]). rewrite replace_tok; [|apply nameb_ok; reflexivity|toks]. cbn [subst map subst1]. rewrite !str_eqb_refl.
  repeat match goal with |- context [str_eqb (str_of ?a) (str_of ?b)] => change (str_eqb (str_of a) (str_of b)) with false end. cbv iota.
  change (str_of "[RADIUS]") with (ob :: str_of "RADIUS" ++ [cb]). rewrite replace_tok; [|apply nameb_ok; reflexivity|toks]. cbn [subst map subst1]. rewrite !str_eqb_refl.
  repeat match goal with |- context [str_eqb (str_of ?a) (str_of ?b)] => change (str_eqb (str_of a) (str_of b)) with false end. cbv iota.
  change (str_of "[POP]") with (ob :: str_of "POP" ++ [cb]). rewrite replace_tok; [|apply nameb_ok; reflexivity|toks]. cbn [subst map subst1]. rewrite !str_eqb_refl.
  unfold flat. cbn [flat_map ftok]. rewrite app_nil_r. reflexivity.
Qed.
Lemma regions_eq lat lon : no_open lat -> regions_url lat lon = regions_at lat lon.
Proof.
  intros H1. unfold regions_url.
  assert (E : REGIONS_URL = flat [L (str_of "http://earthquake.usgs.gov/ws/geoserve/regions.json?latitude="); H (str_of "LAT"); L (str_of "&longitude="); H (str_of "LON")]) by reflexivity.
  rewrite E. change (str_of "[LAT]") with (ob :: str_of "LAT" ++ [cb]). rewrite replace_tok; [|apply nameb_ok; reflexivity|toks]. cbn [subst map subst1]. rewrite !str_eqb_refl.
  repeat match goal with |- context [str_eqb (str_of ?a) (str_of ?b)] => change (str_eqb (str_of a) (str_of b)) with false end. cbv iota.
  change (str_of "[LON]") with (ob :: str_of "LON" ++ [cb]). rewrite replace_tok; [|apply nameb_ok; reflexivity|toks]. cbn [subst map subst1]. rewrite !str_eqb_refl.
  unfold flat. cbn [flat_map ftok]. rewrite app_nil_r. reflexivity.
Qed.
(** GeoServe asks for the places, then for the regions, and succeeds exactly if both
    answers are JSON. *)
Theorem C69_geoserve server loads k lat lon radius pop : no_open lat -> no_open lon -> no_open radius ->
  (forall p g, snd (geoserve server loads k lat lon radius pop) = Ok (p, g) <->
     exists t u, server k (places_at lat lon radius pop) = Page (Some t) /\ loads t = Some p /\ server (S k) (regions_at lat lon) = Page (Some u) /\ loads u = Some g) /\
  (forall p g, snd (geoserve server loads k lat lon radius pop) = Ok (p, g) -> fst (geoserve server loads k lat lon radius pop) = [places_at lat lon radius pop; regions_at lat lon]) /\
  (exists n, fst (geoserve server loads k lat lon radius pop) = firstn n [places_at lat lon radius pop; regions_at lat lon]).
Proof.
  intros H1 H2 H3. unfold geoserve. rewrite places_eq, regions_eq by assumption. set (u1 := places_at lat lon radius pop). set (u2 := regions_at lat lon).
  assert (G : forall j u, fst (get_json_content server loads j u) = [u] /\ forall d, snd (get_json_content server loads j u) = Ok d <-> exists t, server j u = Page (Some t) /\ loads t = Some d).
  { clear. intros j u. unfold get_json_content, get_url_data. destruct (server j u) as [[s|]|c|e].
    - cbn. split; [reflexivity|]. intros d. destruct (loads s) eqn:E; (split; [intros [= <-]; eauto|intros (t & [= <-] & Ht); congruence]) || (split; [discriminate|intros (t & [= <-] & Ht); congruence]).
    - cbn. split; [reflexivity|]. intros d. split; [discriminate|intros (t & Et & _); discriminate].
    - destruct (c =? 503)%Z; cbn; (split; [reflexivity|]); intros d; (split; [discriminate|intros (t & Et & _); discriminate]).
    - cbn. split; [reflexivity|]. intros d. split; [discriminate|intros (t & Et & _); discriminate]. }
  destruct (G k u1) as [F1 S1]. destruct (get_json_content server loads k u1) as [r1 [p1|e1]]; cbn [fst snd] in F1, S1; subst r1.
  - change (k + List.length [u1]) with (k + 1). rewrite Nat.add_1_r. destruct (G (S k) u2) as [F2 S2]. destruct (get_json_content server loads (S k) u2) as [r2 [g1|e2]]; cbn [fst snd] in F2, S2; subst r2; cbn [bind fst snd app].
    + split; [|split; [reflexivity|exists 2%nat; reflexivity]]. intros p g. split.
      * intros [= <- <-]. destruct (proj1 (S1 p1) eq_refl) as (t & T1 & T2). destruct (proj1 (S2 g1) eq_refl) as (v & V1 & V2). exists t, v. auto.
      * intros (t & v & T1 & T2 & V1 & V2). assert (A : Ok p1 = Ok p) by (apply S1; eauto). assert (B : Ok g1 = Ok g) by (apply S2; eauto). congruence.
    + split; [|split; [discriminate|exists 2%nat; reflexivity]]. intros p g. split; [discriminate|]. intros (t & v & T1 & T2 & V1 & V2). assert (B : Err e2 = Ok g) by (apply S2; eauto). discriminate.
  - cbn [fst snd]. split; [|split; [discriminate|exists 1%nat; reflexivity]]. intros p g. split; [discriminate|]. intros (t & v & T1 & T2 & V1 & V2). assert (B : Err e1 = Ok p) by (apply S1; eauto). discriminate.
Qed.
Print Assumptions C69_geoserve.
(** getAuthoritative: network and type of the first feature; ('US', 'NA') if there is none. *)
Theorem C69_authoritative d l : at_path d [str_of "authoritative"; str_of "features"] (JArr l) ->
  (l = [] -> get_authoritative d = Ok (JStr (str_of "US"), JStr (str_of "NA"))) /\
  forall f r, l = f :: r -> forall net ty, get_authoritative d = Ok (net, ty) <-> at_path f [str_of "properties"; str_of "network"] net /\ at_path f [str_of "properties"; str_of "type"] ty.
Proof.
  intros P. apply jpath_iff in P. unfold get_authoritative. rewrite P. cbn [bind jlen]. split; [intros ->; reflexivity|]. intros f r -> net ty. cbn [List.length Nat.eqb jindex nth_error bind].
  rewrite <- !jpath_iff. destruct (jpath [str_of "properties"; str_of "network"] f) as [n|]; cbn [bind]; [|split; [discriminate|intros [A _]; discriminate]].
  destruct (jpath [str_of "properties"; str_of "type"] f) as [t|]; cbn [bind]; [|split; [discriminate|intros [_ A]; discriminate]]. split; [intros [= <- <-]; auto|intros [[= <-] [= <-]]; reflexivity].
Qed.
Print Assumptions C69_authoritative.
(** "The 'metadata' dictionary is omitted": it is not. *)
Theorem C69_metadata_refuted : forall d m, at_path d [str_of "metadata"] m -> exists r, get_regions d = Ok r /\ at_path r [str_of "metadata"] m.
Proof. intros d m P. exists d. split; [|exact P]. inversion P; subst. reflexivity. Qed.
Print Assumptions C69_metadata_refuted.

(** getShakeGrid: with no local file the URL; with one, the file with the page in it;
    None for all that goes wrong. *)
Definition grid_at (d u : json) : Prop := exists f r, at_path d [str_of "properties"; str_of "products"; str_of "shakemap"] (JArr (f :: r)) /\
  at_path f [str_of "contents"; str_of "download/grid.xml"; str_of "url"] u.
Lemma grid_some d u : grid_at d u -> grid_url d = Ok u.
Proof. intros (f & r & P & Q). apply jpath_iff in P, Q. unfold grid_url. rewrite P. cbn [bind jindex nth_error]. exact Q. Qed.
Lemma grid_only d u : grid_url d = Ok u -> grid_at d u.
Proof.
  unfold grid_url. destruct (jpath _ d) as [v|] eqn:E; [|discriminate]. cbn [bind]. destruct v as [| | | |s|l|o]; try discriminate.
  - destruct s as [|c s]; [discriminate|]. cbn [jindex nth_error bind jpath jkey]. discriminate.
  - destruct l as [|f r]; [discriminate|]. cbn [jindex nth_error bind]. intros G. exists f, r. rewrite <- !jpath_iff. auto.
Qed.
Theorem C69_grid_url server k d ok u : get_shake_grid server k d ok None = ([], GUrl u, None) <-> grid_at d u.
Proof.
  unfold get_shake_grid. split.
  - destruct (grid_url d) as [v|] eqn:E; [|discriminate]. intros [= <-]. apply grid_only. exact E.
  - intros G. rewrite (grid_some _ _ G). reflexivity.
Qed.
Print Assumptions C69_grid_url.
Theorem C69_grid_file server k d ok name text reqs : get_shake_grid server k d ok (Some name) = (reqs, GFile name, Some text) <->
  exists url, grid_at d (JStr url) /\ server k url = Page (Some text) /\ ok = true /\ reqs = [url].
Proof.
  unfold get_shake_grid. split.
  - destruct (grid_url d) as [v|] eqn:E; [|discriminate]. destruct v as [| | | |url| |]; try discriminate. unfold get_url_data. destruct (server k url) as [[s|]|c|e] eqn:Es; try discriminate.
    + destruct ok; [|discriminate]. intros [= <- <-]. exists url. split; [apply grid_only; exact E|]. auto.
    + destruct (c =? 503)%Z; [discriminate|]. destruct ok; discriminate.
  - intros (url & G & Es & -> & ->). rewrite (grid_some _ _ G). unfold get_url_data. rewrite Es. reflexivity.
Qed.
Print Assumptions C69_grid_file.
(** Whatever else happens, the answer is None, but if the page could not be had because of
    an HTTP error the file has been emptied. *)
Theorem C69_grid_lost server k d ok name reqs a w : get_shake_grid server k d ok (Some name) = (reqs, a, w) ->
  (exists text, a = GFile name /\ w = Some text) \/
  (a = GNone /\ (w = None \/ (w = Some [] /\ exists url c, grid_at d (JStr url) /\ server k url = HttpError c /\ c <> 503%Z /\ ok = true))).
Proof.
  unfold get_shake_grid. destruct (grid_url d) as [v|] eqn:E; [|intros [= <- <- <-]; right; auto]. destruct v as [| | | |url| |]; try (intros [= <- <- <-]; right; auto).
  unfold get_url_data. destruct (server k url) as [[s|]|c|e] eqn:Es.
  - destruct ok; intros [= <- <- <-]; [left; eauto|right; auto].
  - intros [= <- <- <-]; right; auto.
  - destruct (Z.eqb_spec c 503); [intros [= <- <- <-]; right; auto|]. destruct ok; intros [= <- <- <-]; right; (split; [reflexivity|]); [right|left; reflexivity].
    split; [reflexivity|]. exists url, c. split; [apply grid_only; exact E|]. auto.
  - intros [= <- <- <-]; right; auto.
Qed.
Print Assumptions C69_grid_lost.
Definition with_grid (u : string) : json :=
  JObj [(str_of "properties", JObj [(str_of "products", JObj [(str_of "shakemap", JArr [JObj [(str_of "contents", JObj [(str_of "download/grid.xml", JObj [(str_of "url", JStr (str_of u))])])]])])])].
Theorem C69_grid_refuted : exists server d name url, grid_at d (JStr url) /\ server 0%nat url = HttpError 404 /\ get_shake_grid server 0 d true (Some name) = ([url], GNone, Some []).
Proof. exists (fun _ _ => HttpError 404), (with_grid "http://x/grid.xml"), (str_of "grid.xml"), (str_of "http://x/grid.xml"). split; [apply grid_only; vm_compute; reflexivity|]. split; reflexivity. Qed.
Print Assumptions C69_grid_refuted.
Example C69_ex : grid_at (with_grid "http://x/grid.xml") (JStr (str_of "http://x/grid.xml")) /\ no_open (str_of "-32.1") /\
  at_path (JObj [(str_of "authoritative", JObj [(str_of "features", JArr [])])]) [str_of "authoritative"; str_of "features"] (JArr []).
Proof. split; [apply grid_only; vm_compute; reflexivity|]. split; [apply openb_ok; reflexivity|]. apply jpath_iff. vm_compute. reflexivity. Qed.

(** ** C70: the parameters of an event *)
Open Scope R_scope.
Lemma seconds_pos i : (0 <= i <= 2 ^ 51)%Z -> seconds rnd i = (i / 1000)%Z.
Proof.
  intros Hi. unfold seconds. pose proof (Z.div_mod i 1000 ltac:(lia)) as D. pose proof (Z.mod_pos_bound i 1000 ltac:(lia)) as M. set (n := (i / 1000)%Z) in *. set (r := (i mod 1000)%Z) in *.
  assert (Hn : (0 <= n <= 2 ^ 42)%Z) by (unfold n; split; [apply Z.div_pos; lia|]; apply Z.div_le_upper_bound; lia).
  assert (X : IZR i / 1000 = IZR n + IZR r / 1000) by (rewrite D, plus_IZR, mult_IZR; lra).
  assert (R0 : 0 <= IZR r <= 999) by (split; apply IZR_le; lia).
  assert (Lo : IZR n <= rnd (IZR i / 1000)) by (rewrite <- (rnd_int n) by lia; apply rnd_le; lra).
  assert (B : Rabs (IZR i / 1000) <= bpow radix2 42).
  { rewrite Rabs_pos_eq by (assert (0 <= IZR i) by (apply IZR_le; lia); lra). change (bpow radix2 42) with (IZR 4398046511104). assert (IZR i <= IZR (2 ^ 51)) by (apply IZR_le; lia). change (2 ^ 51)%Z with 2251799813685248%Z in *. lra. }
  pose proof (rnd_abs_err _ 42 ltac:(lia) B) as Er.
  assert (Hi' : rnd (IZR i / 1000) < IZR n + 1).
  { apply Rabs_le_inv in Er. simpl bpow in Er. lra. }
  rewrite Ztrunc_floor by (assert (0 <= IZR n) by (apply IZR_le; lia); lra). apply Zfloor_imp. rewrite plus_IZR. lra.
Qed.
(** The time is the given number of milliseconds in whole seconds, rounded towards 1970. *)
Theorem C70_time i : (Z.abs i <= 2 ^ 51)%Z -> seconds rnd i = Z.quot i 1000.
Proof.
  intros Hi. destruct (Z.le_gt_cases 0 i) as [P|P].
  - rewrite seconds_pos by lia. symmetry. apply Z.quot_div_nonneg; lia.
  - assert (E : seconds rnd i = (- seconds rnd (- i))%Z).
    { unfold seconds. rewrite <- Ztrunc_opp, <- rnd_opp. f_equal. f_equal. rewrite opp_IZR. lra. }
    rewrite E, seconds_pos by lia. rewrite <- Z.quot_div_nonneg by lia. rewrite Z.quot_opp_l by lia. lia.
Qed.
Print Assumptions C70_time.
(** So before 1970 it can be later than the event. *)
Theorem C70_later_refuted : exists d p, event_params rnd d = Ok p /\ at_path d [str_of "properties"; str_of "time"] (JInt (-1500)) /\ (m_time p * 1000 > -1500)%Z.
Proof.
  set (d := JObj [(str_of "geometry", JObj [(str_of "coordinates", JArr [JInt 1; JInt 2; JInt 3])]); (str_of "properties", JObj [(str_of "time", JInt (-1500)); (str_of "mag", JNull)])]).
  exists d, {| m_time := -1; m_lat := JInt 2; m_lon := JInt 1; m_depth := JInt 3; m_mag := JNull |}.
  assert (S1 : seconds rnd (-1500) = (-1)%Z) by (rewrite C70_time by (vm_compute; discriminate); reflexivity).
  split; [|split; [apply jpath_iff; vm_compute; reflexivity|reflexivity]].
  unfold event_params. change (jpath [str_of "geometry"; str_of "coordinates"] d) with (@Ok json (JArr [JInt 1; JInt 2; JInt 3])). cbn [bind].
  change (jpath [str_of "properties"; str_of "time"] d) with (@Ok json (JInt (-1500))). cbn [bind]. rewrite S1. reflexivity.
Qed.
Print Assumptions C70_later_refuted.
(** getEventParams: longitude, latitude and depth in this order, the time if datetime can
    hold it, and the magnitude, whatever it is. *)
Theorem C70_params d i : at_path d [str_of "properties"; str_of "time"] (JInt i) -> (Z.abs i <= 2 ^ 51)%Z -> forall p,
  event_params rnd d = Ok p <->
  at_path d [str_of "geometry"; str_of "coordinates"] (JArr [m_lon p; m_lat p; m_depth p]) /\ at_path d [str_of "properties"; str_of "mag"] (m_mag p) /\
  m_time p = Z.quot i 1000 /\ (-62135596800 <= m_time p <= 253402300799)%Z.
Proof.
  intros T Hi p. apply jpath_iff in T. rewrite <- !jpath_iff. unfold event_params. rewrite T. cbn [bind]. rewrite C70_time by exact Hi. unfold EPOCH_MIN, EPOCH_MAX.
  destruct (jpath [str_of "geometry"; str_of "coordinates"] d) as [c|]; cbn [bind]; [|split; [discriminate|intros [A _]; discriminate]]. split.
  - destruct c as [| | | | |[|lon [|lat [|dep [|]]]]|]; try discriminate. destruct (Z.leb_spec (-62135596800) (Z.quot i 1000)) as [Lo|]; [|discriminate]. destruct (Z.leb_spec (Z.quot i 1000) 253402300799) as [Up|]; [|discriminate]. cbn [andb].
    destruct (jpath [str_of "properties"; str_of "mag"] d) as [m|]; [|discriminate]. cbn [bind]. intros [= <-]. cbn [m_time m_lat m_lon m_depth m_mag]. auto.
  - intros ([= ->] & M & Et & Lo & Up). rewrite M. cbn [bind]. rewrite Et in Lo, Up. apply Z.leb_le in Lo, Up. rewrite Lo, Up. cbn [andb]. f_equal. destruct p. cbn in *. congruence.
Qed.
Print Assumptions C70_params.
(** Other getters. *)
Theorem C70_getters d v : (get_location d = Ok v <-> at_path d [str_of "properties"; str_of "place"] v) /\ (get_tsunami d = Ok v <-> at_path d [str_of "properties"; str_of "tsunami"] v) /\
  (get_url d = Ok v <-> at_path d [str_of "properties"; str_of "url"] v) /\ (get_places d = Ok v <-> at_path d [str_of "geonames"; str_of "features"] v).
Proof. repeat split; apply jpath_iff. Qed.
Print Assumptions C70_getters.
Example C70_ex : exists d, at_path d [str_of "properties"; str_of "time"] (JInt 1458000000123) /\ (Z.abs 1458000000123 <= 2 ^ 51)%Z /\ (-62135596800 <= Z.quot 1458000000123 1000 <= 253402300799)%Z.
Proof. exists (JObj [(str_of "properties", JObj [(str_of "time", JInt 1458000000123)])]). split; [apply jpath_iff; vm_compute; reflexivity|]. split; [vm_compute; discriminate|split; vm_compute; discriminate]. Qed.
