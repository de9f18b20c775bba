(** Properties C108 and C109: rupture files written as text, and the outline of ruptures given by their edges. *)
From Coq Require Import ZArith Reals String Ascii Bool List Lia Lra.
From Flocq Require Import Core.
From Verif Require Import PyBase VecModel GeoModel RuptModel PolyModel FactoryModel WriteModel PolySpec TextSpec FactorySpec WriteSpec TextProofs ReadProofs PolyProofs PolyProps EdgeProofs EdgeProps WriteProofs.
Import ListNotations.
Open Scope R_scope.

(** ** C108: a rupture written as text and read again *)
Lemma written number nf reference bytes k quads polys : reads_decimals number -> one_line reference -> utf8 reference bytes -> kept bytes k -> Forall2 (ring_places (arranged nf)) quads polys ->
  let items := IComment k :: flat_map (fun p => map (fun v => IVertex v) p ++ [ISeparator]) polys in
  Forall2 (says number nf) (lines_from [] (file_bytes (rupture_text reference quads))) items /\ groups (vertices_of items) polys /\ reference_of items = k.
Proof.
  intros N O U K F items. rewrite (file_lines _ _ _ U O). split; [cbn [map]; constructor; [apply says_reference; exact K|apply quads_say; assumption]|]. split.
  - unfold items, vertices_of. cbn [flat_map app]. apply ring_groups. clear - F. induction F as [|q p quads polys (a & b & c & d & _ & _ & _ & _ & ->) _ IH]; constructor; [discriminate|exact IH].
  - unfold items, reference_of. cbn [flat_map]. rewrite <- (app_nil_r k) at 2. f_equal. apply ring_reference.
Qed.
(** In the old format each quadrilateral comes back as a polygon of its own, to four decimal places. *)
Theorem C108_old : forall number reference bytes k quads polys, reads_decimals number -> one_line reference -> utf8 reference bytes -> kept bytes k ->
  Forall2 (ring_places as_is) quads polys -> Forall well_ordered polys ->
  text_to_json number false (lines_from [] (file_bytes (rupture_text reference quads))) = Ok (k, polys).
Proof.
  intros number reference bytes k quads polys N O U K F W. destruct (written number false _ _ _ _ _ N O U K F) as (S & G & R). rewrite <- R. apply C50_text_asis with (gs := polys); assumption.
Qed.
Print Assumptions C108_old.
(** In the new format, the default of get_rupture, longitude and latitude are exchanged. *)
Theorem C108_default_refuted : forall number reference bytes k quads polys, reads_decimals number -> one_line reference -> utf8 reference bytes -> kept bytes k ->
  Forall2 (ring_places lat_first) quads polys -> Forall well_ordered polys ->
  text_to_json number true (lines_from [] (file_bytes (rupture_text reference quads))) = Ok (k, polys).
Proof.
  intros number reference bytes k quads polys N O U K F W. destruct (written number true _ _ _ _ _ N O U K F) as (S & G & R). rewrite <- R. apply C50_text_asis with (gs := polys); assumption.
Qed.
Print Assumptions C108_default_refuted.
(** Every rupture has such polygons; they differ from its quadrilaterals by at most half of the last place, and reading
    them back once more changes nothing. *)
Theorem C108_places : forall quads, exists polys, Forall2 (ring_places as_is) quads polys /\ Forall2 (ring_places lat_first) quads (map (map lat_first) polys).
Proof.
  induction quads as [|q quads (polys & IH & IH')]; [exists []; split; constructor|]. destruct (vertex_places_ex (q0 q)) as [a A], (vertex_places_ex (q1 q)) as [b B], (vertex_places_ex (q2 q)) as [c C], (vertex_places_ex (q3 q)) as [d D].
  exists ([a; b; c; d; a] :: polys). split; constructor; try assumption; exists a, b, c, d; auto 10.
Qed.
Print Assumptions C108_places.
Theorem C108_again : forall number reference bytes k quads polys quads', reads_decimals number -> one_line reference -> utf8 reference bytes -> kept bytes k ->
  Forall2 (ring_places as_is) quads polys -> Forall well_ordered polys -> Forall2 (fun p q => p = [q0 q; q1 q; q2 q; q3 q; q0 q]) polys quads' ->
  text_to_json number false (lines_from [] (file_bytes (rupture_text reference quads'))) = Ok (k, polys).
Proof.
  intros number reference bytes k quads polys quads' N O U K F W Q. apply (C108_old _ _ bytes); try assumption. clear - F Q. revert quads' Q. induction F as [|q p quads polys (a & b & c & d & A & B & C & D & ->) _ IH]; intros quads' Q; inversion Q as [|? q' ? ? E Q']; subst; [constructor|]. constructor; [|apply IH; exact Q'].
  unfold as_is in *. injection E as -> -> -> -> . assert (P : forall v w, vertex_places v w -> vertex_places w w) by (intros [[x y] z] [[x' y'] z'] (H1 & H2 & H3); split; [|split]; eapply places_self; eassumption).
  exists (q0 q'), (q1 q'), (q2 q'), (q3 q'). split; [exact (P _ _ A)|]. split; [exact (P _ _ B)|]. split; [exact (P _ _ C)|]. split; [exact (P _ _ D)|]. reflexivity.
Qed.
Print Assumptions C108_again.
(** A quadrilateral whose four depths agree to four places makes the whole file unreadable. *)
Theorem C108_level : forall number nf reference bytes k quads polys q z, reads_decimals number -> one_line reference -> utf8 reference bytes -> kept bytes k ->
  Forall2 (ring_places (if nf : bool then lat_first else as_is)) quads polys -> In q quads ->
  (forall v, In v [q0 q; q1 q; q2 q; q3 q] -> four_places (snd v) z) ->
  text_to_json number nf (lines_from [] (file_bytes (rupture_text reference quads))) = Err ValueError.
Proof.
  intros number nf reference bytes k quads polys q z N O U K F I L. destruct (written number nf _ _ _ _ _ N O U K F) as (S & G & R). rewrite (text_finish _ _ _ _ _ S G). unfold finish.
  assert (C : forall p, In p polys -> closed p). { intros p Ip. clear - F Ip. induction F as [|q p' quads polys (a & b & c & d & _ & _ & _ & _ & ->) _ IH]; [elim Ip|]. destruct Ip as [<-|Ip]; [|auto]. eexists; eexists [_; _; _]; reflexivity. }
  assert (P : exists p, In p polys /\ (length p = 5)%nat /\ forall v, In v p -> snd v = z).
  { clear - F I L. induction F as [|q' p quads polys (a & b & c & d & A & B & C & D & ->) _ IH]; [elim I|]. destruct I as [->|I]; [|destruct (IH I) as (p & I1 & I2); exists p; split; [right; exact I1|exact I2]].
    eexists. split; [left; reflexivity|]. split; [reflexivity|]. assert (V : forall v w, In v [q0 q; q1 q; q2 q; q3 q] -> vertex_places v w -> snd (if nf then lat_first w else as_is w) = z).
    { intros [[x y] d0] [[x' y'] d'] Iv (_ & _ & H). specialize (L _ Iv). cbn [snd] in L. pose proof (places_fun _ _ _ H L) as ->. destruct nf; reflexivity. }
    assert (Vn : forall w, (if nf then lat_first else as_is) w = if nf then lat_first w else as_is w) by (destruct nf; reflexivity).
    intros v Iv. destruct Iv as [<-|[<-|[<-|[<-|[<-|[]]]]]]; rewrite Vn; [apply (V (q0 q))|apply (V (q1 q))|apply (V (q2 q))|apply (V (q3 q))|apply (V (q0 q))]; cbn; auto. }
  destruct P as (p & Ip & Lp & Pz).
  assert (NW : forall p', (forall v, In v p' -> snd v = z) -> (2 <= length p')%nat -> ~ well_ordered p').
  { intros p' Z L2 [[v ->]|(top & bot & (f & rest & Et & Lb & Ep) & Sh)]; [cbn in L2; lia|]. subst top. destruct bot as [|b bot]; [discriminate|]. inversion Sh as [|? ? ? ? H _]; subst. unfold shallower in H. rewrite (Z f), (Z b) in H; [lra| |]; rewrite !in_app_iff, <- in_rev; cbn; auto. }
  destruct (fix_all_spec polys) as [[X _]|(X & gs' & ok & -> & H1 & H2)].
  - exfalso. apply Exists_exists in X. destruct X as (g & Ig & Cg & _). exact (Cg (C g Ig)).
  - cbn [bind]. destruct ok.
    + exfalso. specialize (H1 eq_refl). clear - H1 Ip NW Pz Lp. induction H1 as [|g g' gs gs' (k & Kl & (v & body & a & b & w & r & E1 & E2 & E3 & E4 & E5) & W & _) _ IH]; [elim Ip|]. destruct Ip as [->|Ip]; [|apply IH; exact Ip].
      apply (NW g'); [|subst g'; cbn; rewrite app_length; cbn; lia|exact W]. intros u Iu. apply Pz. rewrite E1. change (v :: body ++ [v]) with ((v :: body) ++ [v]). rewrite E2. rewrite E5, <- E4 in Iu. assert (Iw : In w (a ++ b)) by (assert (Q : In w (b ++ a)) by (rewrite E4; left; reflexivity); rewrite in_app_iff in *; tauto).
      rewrite !in_app_iff in *. cbn in Iu. destruct Iu as [[Iu|Iu]|[<-|[]]]; tauto.
    + destruct (check_all_spec polys) as [[W _]|[_ ->]]; [|reflexivity]. exfalso. rewrite Forall_forall in W. apply (NW p); [exact Pz|lia|exact (W p Ip)].
Qed.
Print Assumptions C108_level.
(** A reference in ASCII without number signs and blanks at its end comes back; one with a line break makes the file
    unreadable and one with a letter outside ASCII comes back as another text. *)
Theorem C108_reference : forall s, Forall (fun c => (nat_of_ascii c < 128)%nat /\ c <> "#"%char) s -> (forall r c, s = r ++ [c] -> blank c = false) -> utf8 s s /\ kept s s.
Proof.
  intros s A L. split.
  - clear L. induction A as [|c s [H _] _ IH]; constructor; assumption.
  - exists s, []. split; [symmetry; apply app_nil_r|]. split; [constructor|]. split; [exact L|]. clear L. induction A as [|c s [_ H] _ IH]; [reflexivity|]. cbn [filter]. destruct (Ascii.eqb_spec c "#"%char); [contradiction|]. cbn [negb]. f_equal. exact IH.
Qed.
Print Assumptions C108_reference.
Theorem C108_reference_refuted :
  (forall number quads, text_to_json number false (lines_from [] (file_bytes (rupture_text (str_of "A" ++ [chr 10] ++ str_of "B") quads))) = Err Generic) /\
  (exists reference bytes, one_line reference /\ utf8 reference bytes /\ kept bytes bytes /\ bytes <> reference).
Proof.
  split; [reflexivity|]. exists [chr 233], [chr 195; chr 169]. split; [constructor; [split; discriminate|constructor]|]. split; [|split; [|discriminate]].
  - apply utf8_two; [vm_compute; lia|vm_compute; lia|vm_compute; lia|reflexivity|constructor].
  - exists [chr 195; chr 169], []. split; [reflexivity|]. split; [constructor|]. split; [|reflexivity]. intros r c E. destruct r as [|? [|? [|? r]]]; [discriminate|injection E as _ <-; reflexivity|discriminate|discriminate].
Qed.
Print Assumptions C108_reference_refuted.
(** A reader of decimal numerals. *)
Definition unsigned_decimal (s : str) : option R :=
  let (w, r) := span is_digit s in
  match w, r with
  | _ :: _, c :: f => if Ascii.eqb c "."%char then Some (IZR (digits_value w) + IZR (digits_value f) / 10 ^ length f) else None
  | _, _ => None
  end.
Definition signed_decimal (s : str) : option R :=
  match s with
  | c :: r => if Ascii.eqb c "-"%char then option_map Ropp (unsigned_decimal r) else unsigned_decimal s
  | [] => None
  end.
Lemma unsigned_reads w f : all_digits w -> w <> [] -> unsigned_decimal (w ++ str_of "." ++ f) = Some (IZR (digits_value w) + IZR (digits_value f) / 10 ^ length f).
Proof.
  intros W N. unfold unsigned_decimal. assert (E : span is_digit (w ++ str_of "." ++ f) = (w, str_of "." ++ f)).
  { clear N. induction W as [|c w D _ IH]; [reflexivity|]. cbn [app span]. rewrite D, IH. reflexivity. }
  rewrite E. destruct w as [|c w]; [congruence|]. reflexivity.
Qed.
Example C108_ex_reader : reads_decimals signed_decimal.
Proof.
  intros w f W W0 F F0 x. split.
  - unfold x. rewrite <- (unsigned_reads w f W W0). destruct w as [|c w]; [congruence|]. cbn [app signed_decimal]. destruct (Ascii.eqb_spec c "-"%char) as [->|]; [|reflexivity]. inversion W as [|? ? D]; discriminate.
  - cbn [app str_of list_ascii_of_string signed_decimal]. change (Ascii.eqb "-"%char "-"%char) with true. cbv iota. change (w ++ "."%char :: f) with (w ++ str_of "." ++ f). rewrite (unsigned_reads w f W W0). reflexivity.
Qed.
(** A quadrilateral below 120 degrees west, 35 degrees north, from the surface to 10 km. *)
Definition ex_quad : quad := mkquad (-120.00004, 35, 0) (-120, 35.5, 0) (-120, 35.5, 10) (-120, 35, 10).
Definition ex_ring : list vertex := [(-120, 35, 0); (-120, 35.5, 0); (-120, 35.5, 10); (-120, 35, 10); (-120, 35, 0)].
Lemma place_int x r n : r = IZR n / 10000 -> Rabs (x - r) < 1 / 20000 -> four_places x r.
Proof. intros E H. exists n. split; [exact E|]. split; [lra|intro Q; lra]. Qed.
Ltac place_tac n := apply (place_int _ _ n); [lra|apply Rabs_def1; lra].
Example C108_ex : one_line (str_of "Smith") /\ utf8 (str_of "Smith") (str_of "Smith") /\ kept (str_of "Smith") (str_of "Smith") /\
  Forall2 (ring_places as_is) [ex_quad] [ex_ring] /\ Forall well_ordered [ex_ring] /\ fixed4 0 = str_of "0.0000".
Proof.
  split; [repeat (constructor; [split; discriminate|]); constructor|]. destruct (C108_reference (str_of "Smith")) as [A B]; [repeat (constructor; [split; [vm_compute; lia|discriminate]|]); constructor| |].
  { intros r c E. destruct r as [|? [|? [|? [|? [|? [|? r]]]]]]; try discriminate E. injection E as _ _ _ _ <-. reflexivity. }
  split; [exact A|]. split; [exact B|]. split; [|split].
  - constructor; [|constructor]. exists (-120, 35, 0), (-120, 35.5, 0), (-120, 35.5, 10), (-120, 35, 10). unfold ex_quad. cbn [q0 q1 q2 q3 vertex_places].
    assert (P1 : four_places (-120.00004) (-120)) by place_tac (-1200000)%Z. assert (P2 : four_places (-120) (-120)) by place_tac (-1200000)%Z. assert (P3 : four_places 35 35) by place_tac 350000%Z. assert (P4 : four_places 35.5 35.5) by place_tac 355000%Z. assert (P5 : four_places 0 0) by place_tac 0%Z. assert (P6 : four_places 10 10) by place_tac 100000%Z.
    repeat split; assumption.
  - constructor; [|constructor]. right. exists [(-120, 35, 0); (-120, 35.5, 0)], [(-120, 35, 10); (-120, 35.5, 10)]. split; [eexists; eexists; repeat split|]. repeat constructor; unfold shallower; cbn; lra.
  - unfold fixed4. destruct (Rlt_dec 0 0) as [H|_]; [lra|]. rewrite Rabs_R0, Rmult_0_l. assert (E : ZnearestE 0 = 0%Z) by (apply Znearest_imp; rewrite Rminus_0_r, Rabs_R0; lra). rewrite E. reflexivity.
Qed.
(** One of 2 cm depth extent cannot be read back. *)
Example C108_ex_level : let q := mkquad (0, 0, 0) (1, 0, 0) (1, 0, 0.00002) (0, 0, 0.00002) in forall v, In v [q0 q; q1 q; q2 q; q3 q] -> four_places (snd v) 0.
Proof.
  intros q v I. assert (P : forall x, -0.00004 < x < 0.00004 -> four_places x 0) by (intros x H; place_tac 0%Z). apply P. cbn in I. destruct I as [<-|[<-|[<-|[<-|[]]]]]; cbn; lra.
Qed.

(** ** C109: the outline of a rupture given by its edges is made of the polygons it was read from, each followed by nan *)
Lemma pick_picks g gi : forall l r, picks g gi l r -> pick gi g l = r.
Proof.
  intros l r H. unfold pick. induction H as [|gs l r x _ IH|g' gs l r x N _ IH]; [reflexivity| |]; cbn [combine filter fst].
  - rewrite Nat.eqb_refl. cbn [map snd]. f_equal. exact IH.
  - destruct (Nat.eqb_spec g' g); [contradiction|exact IH].
Qed.
Lemma rings_all e : forall gs es polys, Forall2 (fun g t => pick (e_group e) g (e_top e) = fst t /\ pick (e_group e) g (e_bot e) = snd t) gs es ->
  Forall2 (fun e p => outline_of_edges (fst e) (snd e) p) es polys -> edge_rings e gs = Ok (flat_map (fun p => map Some p ++ [None]) polys).
Proof.
  intros gs es polys G. revert polys. induction G as [|g t gs es [T B] _ IH]; intros polys O; inversion O as [|? p ? polys' (f & rest & E & L & ->) O']; subst; [reflexivity|]. cbn [edge_rings flat_map]. cbv zeta. rewrite T, B, E, (IH _ O'). cbn [bind]. rewrite <- app_assoc. reflexivity.
Qed.
Theorem C109_outline : forall es polys, Forall2 (fun e p => outline_of_edges (fst e) (snd e) p) es polys ->
  edge_outline (edge_init polys) = Ok (flat_map (fun p => map Some p ++ [None]) polys).
Proof.
  intros es polys F. rewrite (C53_read _ _ F). unfold edge_outline. cbn [e_group].
  assert (NE : Forall (fun l => l <> []) (map fst es)). { clear - F. induction F as [|[t b] p es polys H O IH]; constructor; [|exact IH]. destruct H as (f & r & X & _). cbn [fst] in *. congruence. }
  assert (SH : Forall2 (fun l m => length l = length m) (map fst es) (map snd es)). { clear - F. induction F as [|[t b] p es polys H O IH]; constructor; [|exact IH]. destruct H as (f & r & _ & X & _). cbn [fst snd] in *. auto. }
  rewrite (unique_numbered _ NE). apply (rings_all _ _ es); [|exact F]. cbn [e_group e_top e_bot].
  assert (K : forall k t, nth_error es k = Some t -> pick (numbered 0 (map fst es)) k (concat (map fst es)) = fst t /\ pick (numbered 0 (map fst es)) k (concat (map snd es)) = snd t).
  { intros k t H. split; apply pick_picks; [|rewrite (numbered_shape _ _ SH)]; apply (picks_block _ 0 k); rewrite nth_error_map, H; reflexivity. }
  rewrite map_length. clear - K. revert K. generalize (numbered 0 (map fst es)) as gi, (concat (map fst es)) as ts, (concat (map snd es)) as bs. intros gi ts bs K.
  assert (G : forall es' i, (forall k t, nth_error es' k = Some t -> pick gi (i + k) ts = fst t /\ pick gi (i + k) bs = snd t) -> Forall2 (fun g t => pick gi g ts = fst t /\ pick gi g bs = snd t) (seq i (length es')) es').
  { induction es' as [|t es' IH]; intros i H; [constructor|]. cbn [length seq]. constructor; [specialize (H 0%nat t eq_refl); rewrite Nat.add_0_r in H; exact H|]. apply IH. intros k t' E. replace (S i + k)%nat with (i + S k)%nat by lia. apply H. exact E. }
  apply G. exact K.
Qed.
Print Assumptions C109_outline.
Example C109_ex : outline_of_edges [(0, 0, 0); (1, 0, 0)] [(0, 0, 10); (1, 0, 10)] [(0, 0, 0); (1, 0, 0); (1, 0, 10); (0, 0, 10); (0, 0, 0)].
Proof. eexists; eexists; repeat split. Qed.
