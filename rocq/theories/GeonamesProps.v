(** Property C111: GeoNames files. *)
From Coq Require Import ZArith Reals String Ascii Bool List Lia.
From Verif Require Import PyBase PyStr CityModel CitySpec CityProofs VecModel RuptModel PolyModel PolySpec PolyProofs OriginModel JsonModel FactoryModel FactorySpec ReadProofs GeonamesModel GeonamesSpec.
Import ListNotations.
Local Arguments str_of _ : simpl never.

Lemma field_iff i ps t : field i ps t <-> exists s, nth_error ps i = Some s /\ strip s = t.
Proof. split; intros (s & A & B); exists s; (split; [exact A|]); apply trimmed_iff; exact B. Qed.
Lemma name_iff n : ascii_name n <-> n <> [] /\ existsb (fun c => Nat.ltb 127 (nat_of_ascii c)) n = false.
Proof.
  unfold ascii_name. split; intros [A B]; (split; [exact A|]).
  - clear A. induction B as [|c n H _ IH]; [reflexivity|]. cbn [existsb]. apply orb_false_iff. split; [apply Nat.ltb_ge; lia|exact IH].
  - clear A. induction n as [|c n IH]; [constructor|]. cbn [existsb] in B. apply orb_false_iff in B. destruct B as [B1 B2]. constructor; [apply Nat.ltb_ge in B1; lia|apply IH; exact B2].
Qed.
Section Geo.
Variable to_float : str -> option fl.
Variable to_int : str -> option Z.
Lemma part_ex i (ps : list str) : (exists s, nth_error ps i = Some s /\ (i < length ps)%nat) \/ (nth_error ps i = None /\ (length ps <= i)%nat).
Proof. destruct (nth_error ps i) eqn:E; [left; eexists; split; [reflexivity|apply nth_error_Some; congruence]|right; split; [reflexivity|apply nth_error_None; exact E]]. Qed.
Definition row_entry (r : place_row) : entry := (r_name r, r_ccode r, r_lat r, r_lon r, r_iscap r, r_pop r).
Lemma line_outcome line : match geo_line to_float to_int line with
  | Ok o => line_says to_float to_int line (option_map row_entry o)
  | Err e => line_fails to_float to_int line e end.
Proof.
  assert (Cs : columns line (split_at (chr 9) line)) by apply split_at_parts. unfold geo_line. set (ps := split_at (chr 9) line) in *. clearbody ps. cbv zeta. unfold part, parsed.
  destruct (part_ex 2 ps) as [(p2 & E2 & L2)|[E2 L2]]; rewrite E2; cbn [bind]; [|eapply fails_short; [exact Cs|lia]].
  assert (F2 : field 2 ps (strip p2)) by (apply field_iff; eauto). destruct (strip p2) as [|c r] eqn:Es; [eapply says_nothing; [exact Cs|exact F2|intros [H _]; congruence]|]. rewrite <- Es. rewrite <- Es in F2.
  destruct (existsb _ (strip p2)) eqn:Ex; [eapply says_nothing; [exact Cs|exact F2|rewrite name_iff; intros [_ H]; congruence]|]. assert (N : ascii_name (strip p2)) by (apply name_iff; split; [congruence|exact Ex]). clear Es c r.
  destruct (part_ex 8 ps) as [(p8 & E8 & L8)|[E8 L8]]; rewrite E8; cbn [bind]; [|eapply fails_country; eauto; lia].
  destruct (part_ex 4 ps) as [(p4 & E4 & L4)|[E4 L4]]; [|lia]. rewrite E4; cbn [bind]. assert (F4 : field 4 ps (strip p4)) by (apply field_iff; eauto). destruct (to_float (strip p4)) as [lat|] eqn:T4; cbn [bind]; [|eapply fails_place; eauto; lia].
  destruct (part_ex 5 ps) as [(p5 & E5 & L5)|[E5 L5]]; [|lia]. rewrite E5; cbn [bind]. assert (F5 : field 5 ps (strip p5)) by (apply field_iff; eauto). destruct (to_float (strip p5)) as [lon|] eqn:T5; cbn [bind]; [|eapply fails_place; eauto; lia].
  destruct (part_ex 7 ps) as [(p7 & E7 & L7)|[E7 L7]]; [|lia]. rewrite E7; cbn [bind].
  destruct (part_ex 14 ps) as [(p14 & E14 & L14)|[E14 L14]]; rewrite E14; cbn [bind]; [|eapply fails_people; eauto; lia]. assert (F14 : field 14 ps (strip p14)) by (apply field_iff; eauto).
  destruct (to_int (strip p14)) as [pop|] eqn:T14; cbn [bind option_map row_entry r_name r_ccode r_lat r_lon r_iscap r_pop]; [|eapply fails_count; eauto].
  apply says_entry with ps (strip p4) (strip p5) (strip p7) (strip p14); try assumption; [apply field_iff; eauto|apply field_iff; eauto|]. cbn [r_iscap]. rewrite orb_true_iff, !str_eqb_eq. reflexivity.
Qed.
Lemma columns_eq line ps : columns line ps -> ps = split_at (chr 9) line.
Proof. intro H. symmetry. apply parts_split. exact H. Qed.
Lemma field_eq i ps t u : field i ps t -> field i ps u -> t = u.
Proof. rewrite !field_iff. intros (s & A & B) (s' & A' & B'). congruence. Qed.
Lemma field_len i ps t : field i ps t -> (i < length ps)%nat.
Proof. intros (s & A & _). apply nth_error_Some. congruence. Qed.
Ltac cols := repeat match goal with H : columns ?l ?p |- _ => is_var p; apply columns_eq in H; subst p end; repeat match goal with H : field ?i ?p ?t, H' : field ?i ?p ?u |- _ => first [is_var u; assert (u = t) by (exact (field_eq i p u t H' H)); subst u; clear H' | is_var t; assert (t = u) by (exact (field_eq i p t u H H')); subst t; clear H] end.
Ltac lens := repeat match goal with H : field ?i ?p ?t |- _ => lazymatch goal with _ : (i < length p)%nat |- _ => fail | _ => pose proof (field_len i p t H) end end.
Lemma says_unique line o o' : line_says to_float to_int line o -> line_says to_float to_int line o' -> o = o'.
Proof.
  intros H H'; destruct H; destruct H'; cols; try congruence; try contradiction. do 2 f_equal; [|congruence]. f_equal; [f_equal; congruence|]. destruct cap, cap0; try reflexivity; [symmetry|]; tauto.
Qed.
Lemma says_fails line o e : line_says to_float to_int line o -> line_fails to_float to_int line e -> False.
Proof.
  intros H H'; destruct H; destruct H'; cols; lens; try lia; try contradiction; try congruence. all: match goal with H : _ \/ _ |- _ => destruct H end; cols; congruence.
Qed.
Lemma fails_unique line e e' : line_fails to_float to_int line e -> line_fails to_float to_int line e' -> e = e'.
Proof.
  intros H H'; destruct H; destruct H'; cols; lens; try reflexivity; try lia; try congruence. all: match goal with H : _ \/ _ |- _ => destruct H end; cols; lens; try lia; try congruence.
Qed.
Lemma line_ok line o : line_says to_float to_int line o -> exists x, geo_line to_float to_int line = Ok x /\ option_map row_entry x = o.
Proof. intro H. pose proof (line_outcome line) as L. destruct (geo_line _ _ line) as [x|e]; [exists x; split; [reflexivity|eapply says_unique; eassumption]|destruct (says_fails _ _ _ H L)]. Qed.
Lemma line_err line e : line_fails to_float to_int line e -> geo_line to_float to_int line = Err e.
Proof. intro H. pose proof (line_outcome line) as L. destruct (geo_line _ _ line) as [x|e']; [destruct (says_fails _ _ _ L H)|f_equal; eapply fails_unique; eassumption]. Qed.
Lemma lines_ok ls es : entries to_float to_int ls es -> exists rs, geo_lines to_float to_int ls = Ok rs /\ map row_entry rs = es.
Proof.
  induction 1 as [|l ls es H _ (rs & E & M)|l ls e es H _ (rs & E & M)]; cbn [geo_lines]; [exists []; split; reflexivity| |]; destruct (line_ok _ _ H) as (x & -> & Ex); cbn [bind]; rewrite E; cbn [bind]; destruct x; try discriminate.
  - exists rs. split; [reflexivity|exact M].
  - exists (p :: rs). split; [reflexivity|]. cbn [map]. injection Ex as Ex. congruence.
Qed.
Lemma lines_bad ls es l rest e : entries to_float to_int ls es -> line_fails to_float to_int l e -> geo_lines to_float to_int (ls ++ l :: rest) = Err e.
Proof.
  intros H F. induction H as [|l' ls es H _ IH|l' ls x es H _ IH]; cbn [geo_lines app]; [rewrite (line_err _ _ F); reflexivity| |]; destruct (line_ok _ _ H) as (y & -> & _); cbn [bind]; rewrite IH; reflexivity.
Qed.

(** ** C111 *)
(** Of a file whose lines all say something the entries make the table, in order. *)
Theorem C111_read : forall text ls es, lines_of text ls -> entries to_float to_int ls es ->
  exists f, from_geonames to_float to_int text = Ok f /\ Forall2 as_entry (f_rows f) es /\ complete f /\ In (str_of "pop") (f_cols f) /\
    get_cities f = (map (fun e : entry => let '(_, _, lat, _, _, _) := e in lat) es, map (fun e : entry => let '(_, _, _, lon, _, _) := e in lon) es, map (fun e : entry => let '(n, _, _, _, _, _) := e in n) es).
Proof.
  intros text ls es L H. apply lines_iff in L. destruct (lines_ok _ _ H) as (rs & E & <-). unfold from_geonames. rewrite L, E. cbn [bind]. exists {| f_cols := geo_columns; f_rows := map city_of rs |}. split; [reflexivity|]. cbn [f_rows f_cols]. split.
  - clear. induction rs as [|r rs IH]; constructor; [|exact IH]. unfold as_entry, row_entry, city_of. cbn [c_other c_lat c_lon c_pop]. repeat split; reflexivity.
  - split; [unfold complete; cbn [f_cols]; repeat split; vm_compute; tauto|]. split; [vm_compute; tauto|]. unfold get_cities. cbn [f_rows]. rewrite !map_map. reflexivity.
Qed.
(** The first line that can not be read decides. *)
Theorem C111_fails : forall text ls es l rest e, lines_of text (ls ++ l :: rest) -> entries to_float to_int ls es -> line_fails to_float to_int l e -> from_geonames to_float to_int text = Err e.
Proof. intros text ls es l rest e L H F. apply lines_iff in L. unfold from_geonames. rewrite L, (lines_bad _ _ _ _ _ H F). reflexivity. Qed.
(** Every line says one thing or fails in one way; so the two cases are all. *)
Theorem C111_lines : forall line, (exists o, line_says to_float to_int line o /\ (forall o', line_says to_float to_int line o' -> o' = o) /\ forall e, ~ line_fails to_float to_int line e) \/
  (exists e, line_fails to_float to_int line e /\ (forall e', line_fails to_float to_int line e' -> e' = e) /\ forall o, ~ line_says to_float to_int line o).
Proof.
  intro line. pose proof (line_outcome line) as L. destruct (geo_line _ _ line) as [o|e].
  - left. eexists. split; [exact L|]. split; [intros o' H; exact (says_unique _ _ _ H L)|intros e H; exact (says_fails _ _ _ L H)].
  - right. eexists. split; [exact L|]. split; [intros e' H; exact (fails_unique _ _ _ H L)|intros o H; exact (says_fails _ _ _ H L)].
Qed.
(** Finding: a blank line, also at the end, is not passed over. *)
Theorem C111_blank_refuted : forall text ls es l rest, lines_of text (ls ++ l :: rest) -> entries to_float to_int ls es -> (forall c, In c l -> c = " "%char \/ c = chr 10) ->
  from_geonames to_float to_int text = Err IndexError.
Proof.
  intros text ls es l rest L H B. eapply C111_fails; [exact L|exact H|]. apply fails_short with [l]; [|cbn; lia]. split; [discriminate|]. split; [|reflexivity]. constructor; [|constructor]. intro I. destruct (B _ I); discriminate.
Qed.
(** Downloading: the folder is removed again, unless a line can not be read. *)
Theorem C111_web : forall text ls es, lines_of text ls -> entries to_float to_int ls es -> from_geonames_web to_float to_int (Some text) = (from_geonames to_float to_int text, false).
Proof. intros text ls es L H. apply lines_iff in L. unfold from_geonames_web, from_geonames. rewrite L. destruct (lines_ok _ _ H) as (rs & -> & _). reflexivity. Qed.
Theorem C111_web_refuted : forall text ls es l rest e, lines_of text (ls ++ l :: rest) -> entries to_float to_int ls es -> line_fails to_float to_int l e -> from_geonames_web to_float to_int (Some text) = (Err e, true).
Proof. intros text ls es l rest e L H F. apply lines_iff in L. unfold from_geonames_web. rewrite L, (lines_bad _ _ _ _ _ H F). reflexivity. Qed.
End Geo.
Print Assumptions C111_read.
Print Assumptions C111_fails.
Print Assumptions C111_lines.
Print Assumptions C111_blank_refuted.
Print Assumptions C111_web.
Print Assumptions C111_web_refuted.
Definition ex_float (s : str) : option fl := if str_eqb s (str_of "1") then Some (Some 1%R) else if str_eqb s (str_of "2") then Some (Some 2%R) else None.
Definition ex_int (s : str) : option Z := if str_eqb s (str_of "7") then Some 7%Z else None.
Definition ex_geo_line (name : str) : str := join [chr 9] [str_of "id"; str_of "x"; name; str_of ""; str_of "1"; str_of " 2"; str_of "P"; str_of "PPLA"; str_of "NA"; []; []; []; []; []; str_of "7"; str_of "q"] ++ [chr 10].
Definition ex_geo : str := ex_geo_line (str_of " Otavi ") ++ ex_geo_line [chr 233] ++ ex_geo_line (str_of "Ur").
Example C111_ex : lines_of ex_geo [ex_geo_line (str_of " Otavi "); ex_geo_line [chr 233]; ex_geo_line (str_of "Ur")] /\
  entries ex_float ex_int [ex_geo_line (str_of " Otavi "); ex_geo_line [chr 233]; ex_geo_line (str_of "Ur")]
    [(str_of "Otavi", str_of "NA", Some 1%R, Some 2%R, true, 7%Z); (str_of "Ur", str_of "NA", Some 1%R, Some 2%R, true, 7%Z)].
Proof.
  split; [apply lines_iff; vm_compute; reflexivity|].
  assert (G : forall line o, geo_line ex_float ex_int line = Ok o -> line_says ex_float ex_int line (option_map row_entry o)) by (intros line o E; pose proof (line_outcome ex_float ex_int line) as L; rewrite E in L; exact L).
  apply entries_take; [exact (G (ex_geo_line (str_of " Otavi ")) (Some (mkrow (str_of "Otavi") (str_of "NA") (Some 1%R) (Some 2%R) true 7%Z)) eq_refl)|]. apply entries_skip; [exact (G (ex_geo_line [chr 233]) None eq_refl)|]. apply entries_take; [exact (G (ex_geo_line (str_of "Ur")) (Some (mkrow (str_of "Ur") (str_of "NA") (Some 1%R) (Some 2%R) true 7%Z)) eq_refl)|constructor].
Qed.
