(** Properties of palette files, of setting the range and of arrays of values (C104-C107). *)
From Coq Require Import ZArith Reals String Ascii Bool List Lia Lra.
From Flocq Require Import Core.
From Verif Require Import PyBase PyStr ColorModel ColorSpec ColorProofs ColorLut ColorBytes ColorMore PolyModel PolySpec PolyProofs PaletteModel PaletteSpec PaletteProofs.
Import ListNotations.
Open Scope R_scope.

(** ** C104: palette files *)
(** The columns are found by name, in any order and with any others between them; the
    rows are the bands, and the definitions at the head give colour for missing values, name
    and resolution. *)
Theorem C104_reads : forall rd int_of float_of field_of lines hs rs z0 z1 r0 g0 b0 r1 g1 b1,
  lists lines (hs :: rs) -> Forall (fun r => List.length r = List.length hs) rs -> Forall (good_line int_of float_of) lines ->
  holds field_of hs rs "Z0" z0 -> holds field_of hs rs "Z1" z1 -> holds field_of hs rs "R0" r0 -> holds field_of hs rs "G0" g0 -> holds field_of hs rs "B0" b0 ->
  holds field_of hs rs "R1" r1 -> holds field_of hs rs "G1" g1 -> holds field_of hs rs "B1" b1 ->
  exists nan name resolution rgb0 rgb1,
    last_given (gives_nan int_of) lines [0; 0; 0; 0]%Z nan /\ last_given gives_name lines (str_of "generic") name /\ last_given (gives_resolution float_of) lines None resolution /\
    List.length rgb0 = List.length rs /\ List.length rgb1 = List.length rs /\
    (forall i r g b, nth_error r0 i = Some r -> nth_error g0 i = Some g -> nth_error b0 i = Some b -> nth_error rgb0 i = Some (r, g, b)) /\
    (forall i r g b, nth_error r1 i = Some r -> nth_error g1 i = Some g -> nth_error b1 i = Some b -> nth_error rgb1 i = Some (r, g, b)) /\
    from_file rd int_of float_of field_of lines = match new_palette rd z0 z1 rgb0 rgb1 resolution (NanSeq (map IZR nan)) false with inl p => inl (name, p) | inr e => inr e end.
Proof.
  intros rd int_of float_of field_of lines hs rs z0 z1 r0 g0 b0 r1 g1 b1 L F G Hz0 Hz1 Hr0 Hg0 Hb0 Hr1 Hg1 Hb1. destruct (read_good _ _ _ G) as (h & E & N1 & N2 & N3).
  exists (h_nan h), (h_name h), (h_resolution h), (zip3 r0 g0 b0), (zip3 r1 g1 b1). split; [exact N1|]. split; [exact N2|]. split; [exact N3|].
  split; [apply zip3_length; eapply column_length; eassumption|]. split; [apply zip3_length; eapply column_length; eassumption|].
  split; [intros; apply zip3_nth; assumption|]. split; [intros; apply zip3_nth; assumption|].
  unfold from_file. rewrite E, (read_rows _ _ _ L F). cbn [bind].
  rewrite (column_ok _ _ _ _ _ Hr0), (column_ok _ _ _ _ _ Hg0), (column_ok _ _ _ _ _ Hb0), (column_ok _ _ _ _ _ Hr1), (column_ok _ _ _ _ _ Hg1), (column_ok _ _ _ _ _ Hb1), (column_ok _ _ _ _ _ Hz0), (column_ok _ _ _ _ _ Hz1).
  reflexivity.
Qed.
Print Assumptions C104_reads.

(** A file without one of the columns is refused, and so is one without any line but
    comments. *)
Theorem C104_refused : forall rd int_of float_of field_of lines, Forall (good_line int_of float_of) lines ->
  (lists lines [] -> from_file rd int_of float_of field_of lines = inr (Raised ValueError)) /\
  (forall hs rs name, lists lines (hs :: rs) -> Forall (fun r => List.length r = List.length hs) rs ->
     (forall n, In n ["Z0"; "Z1"; "R0"; "G0"; "B0"; "R1"; "G1"; "B1"]%string -> n <> name -> exists vs, holds field_of hs rs n vs) ->
     In name ["Z0"; "Z1"; "R0"; "G0"; "B0"; "R1"; "G1"; "B1"]%string -> ~ In (str_of name) hs -> from_file rd int_of float_of field_of lines = inr (Raised AttributeError)).
Proof.
  intros rd int_of float_of field_of lines G. destruct (read_good _ _ _ G) as (h & E & _). split.
  - intro L. apply lists_rows in L as (a & b & c). unfold from_file. rewrite E. unfold read_table. rewrite a, b, c. reflexivity.
  - intros hs rs name L F O K N. unfold from_file. rewrite E, (read_rows _ _ _ L F). cbn [bind].
    assert (X : column field_of hs rs (str_of name) = Err AttributeError).
    { unfold column. destruct (position (str_of name) hs) as [i|] eqn:P; [|reflexivity]. exfalso. apply position_iff in P as (P & _). apply N. eapply nth_error_In. exact P. }
    assert (Y : forall n, In n ["Z0"; "Z1"; "R0"; "G0"; "B0"; "R1"; "G1"; "B1"]%string -> n <> name -> exists vs, column field_of hs rs (str_of n) = Ok vs).
    { intros n Hi Ne. destruct (O n Hi Ne) as (vs & H). exists vs. exact (column_ok _ _ _ _ _ H). }
    assert (Step : forall A n (k : list R -> res A), In n ["Z0"; "Z1"; "R0"; "G0"; "B0"; "R1"; "G1"; "B1"]%string -> (n <> name -> forall vs, k vs = Err AttributeError) -> bind (column field_of hs rs (str_of n)) k = Err AttributeError).
    { intros A n k Hi Hk. destruct (string_dec n name) as [->|Ne]; [rewrite X; reflexivity|]. destruct (Y n Hi Ne) as (vs & ->). exact (Hk Ne vs). }
    rewrite Step; [reflexivity|cbn; tauto|intros N1 v1]. apply Step; [cbn; tauto|intros N2 v2]. apply Step; [cbn; tauto|intros N3 v3]. apply Step; [cbn; tauto|intros N4 v4].
    apply Step; [cbn; tauto|intros N5 v5]. apply Step; [cbn; tauto|intros N6 v6]. apply Step; [cbn; tauto|intros N7 v7]. apply Step; [cbn; tauto|intros N8 v8].
    exfalso. cbn in K. intuition congruence.
Qed.
Print Assumptions C104_refused.

(** ** C105: definitions *)
(** Of several definitions the last counts; without any there are defaults. *)
Theorem C105_last : forall rd int_of float_of field_of lines n p, from_file rd int_of float_of field_of lines = inl (n, p) ->
  (forall s, last_given gives_name lines (str_of "generic") s <-> s = n) /\
  (forall l, last_given (gives_nan int_of) lines [0; 0; 0; 0]%Z l -> to_rgba (nan_list rd (NanSeq (map IZR l))) = Some (p_bad p)) /\
  (forall r, last_given (gives_resolution float_of) lines None r -> (r = None -> p_n p = 256%Z) /\
     forall s, r = Some s -> s <> 0 -> p_n p = Z.max 256 (Zceil (rd (rd (p_vmax p - p_vmin p) / s)))) /\
  p_log p = false.
Proof.
  intros rd int_of float_of field_of lines n p H. unfold from_file in H. destruct (PaletteModel.read_head int_of float_of lines) as [h|] eqn:E; [|discriminate].
  pose proof (read_ok _ _ _ _ E) as G. destruct (read_good _ _ _ G) as (h' & E' & N1 & N2 & N3). assert (h' = h) by congruence. subst h'. cbv zeta in H.
  match type of H with match ?M with _ => _ end = _ => destruct M as [[[[z0 z1] rgb0] rgb1]|] end; [|discriminate].
  destruct (new_palette _ _ _ _ _ _ _ _) as [q|] eqn:Q; [|discriminate]. injection H as <- <-. split.
  { intro s. split; [intro L; exact (last_fun _ _ _ _ _ _ name_fun L N2)|intros ->; exact N2]. }
  unfold new_palette in Q. destruct (_ && _ && _); [discriminate|]. destruct (amin z0) as [vmin|]; [|discriminate]. destruct (amax z1) as [vmax|]; [|discriminate]. cbv zeta in Q.
  do 3 (match type of Q with match ?M with _ => _ end = _ => destruct M; [|discriminate] end).
  match type of Q with match ?M with _ => _ end = _ => destruct M as [k|] eqn:Ek; [|discriminate] end. destruct (to_rgba _) as [bad|] eqn:Eb in Q; [|discriminate]. injection Q as <-. cbn [p_bad p_n p_vmin p_vmax p_log].
  split; [intros ll L; rewrite (last_fun _ _ _ _ _ _ (nan_fun _) L N1); exact Eb|]. split; [|reflexivity].
  intros rr L. rewrite (last_fun _ _ _ _ _ _ (resolution_fun _) L N3). split.
  - intro R. rewrite R in Ek. congruence.
  - intros s R Ns. rewrite R in Ek. destruct (reqb s 0) eqn:Z; [apply reqb_iff in Z; contradiction|]. congruence.
Qed.
Print Assumptions C105_last.

(** The first definition that can not be read decides how the file fails, whatever else is
    wrong with it. *)
Theorem C105_bad : forall rd int_of float_of field_of good bad rest, Forall (good_line int_of float_of) good ->
  (forall key, In key ["nan_color"; "name"; "resolution"]%string -> about key bad -> ~ In ":"%char bad -> from_file rd int_of float_of field_of (good ++ bad :: rest) = inr (Raised IndexError)) /\
  (forall v ps x, defines "nan_color" bad v -> parts "," v ps -> In x ps -> int_of x = None -> from_file rd int_of float_of field_of (good ++ bad :: rest) = inr (Raised ValueError)) /\
  (forall v s, defines "resolution" bad v -> trimmed v s -> float_of s = None -> from_file rd int_of float_of field_of (good ++ bad :: rest) = inr (Raised ValueError)).
Proof.
  intros rd int_of float_of field_of good bad rest G. unfold from_file. split; [|split].
  - intros key K A N. rewrite (read_bad _ _ _ _ _ IndexError G); [reflexivity|]. intro h. exact (no_colon _ _ _ _ _ K A N).
  - intros v ps x D P Hi N. rewrite (read_bad _ _ _ _ _ ValueError G); [reflexivity|]. intro h. exact (bad_nan _ _ _ _ _ _ _ D P Hi N).
  - intros v s D T N. rewrite (read_bad _ _ _ _ _ ValueError G); [reflexivity|]. intro h. exact (bad_resolution _ _ _ _ _ _ D T N).
Qed.
Print Assumptions C105_bad.

(** A name is not all that follows the colon: it ends before a second one. *)
Theorem C105_colon_refuted : gives_name (str_of "#$name: Peak: log") (str_of "Peak") /\ forall s, gives_name (str_of "#$name: Peak: log") s -> s = str_of "Peak".
Proof.
  assert (G : gives_name (str_of "#$name: Peak: log") (str_of "Peak")).
  { apply gives_name_iff. split; [reflexivity|]. exists (str_of "name"), (str_of " Peak"), [str_of " log"]. split; reflexivity. }
  split; [exact G|]. intros s H. exact (name_fun _ _ _ H G).
Qed.
Print Assumptions C105_colon_refuted.
(** A comment that only begins with a known word is a definition. *)
Theorem C105_begins_refuted : gives_name (str_of "#$names are free: see below") (str_of "see below").
Proof. apply gives_name_iff. split; [reflexivity|]. exists (str_of "names are free"), (str_of " see below"), []. split; reflexivity. Qed.
Print Assumptions C105_begins_refuted.


(** ** Example: the file in the documentation *)
Definition doc_lines : list str := map str_of [
  "#This file is a test file for ColorPalette."; "#For example, the following line defines a variable called nan_color.";
  "#$nan_color: 0,0,0,0"; "#$name: test"; "#$resolution: 0.01";
  "Z0 R0  G0  B0  Z1  R1  G1  B1"; "0   0   0   0   1  85  85  85"; "1  85  85  85   2 170 170 170"; "2 170 170 170   3 255 255 255"]%string.
(** whole numbers and 0.01 *)
Definition int_of_str (s : str) : option Z :=
  match s with [] => None | _ => fold_left (fun acc c => let n := Z.of_nat (nat_of_ascii c) in match acc with Some k => if ((48 <=? n) && (n <=? 57))%Z then Some (10 * k + (n - 48))%Z else None | None => None end) s (Some 0%Z) end.
Definition doc_int (s : str) : option Z := int_of_str (strip s).
Definition doc_float (s : str) : option R := if str_eqb s (str_of "0.01") then Some 0.01 else None.
Definition doc_field (s : str) : option R := option_map IZR (int_of_str s).
Ltac spell := repeat (first [apply Forall_cons; [first [reflexivity|vm_compute; reflexivity]|]|apply Forall_nil]).
Ltac row w := apply (lists_row _ w); [discriminate|eexists; exists []; split; [rewrite app_nil_r; reflexivity|]; split; [cbn; intuition discriminate|]; split; [vm_compute; intuition discriminate|]; split; [left; reflexivity|apply words_iff; vm_compute; reflexivity]|].
Definition doc_head : list str := map str_of ["Z0"; "R0"; "G0"; "B0"; "Z1"; "R1"; "G1"; "B1"]%string.
Definition doc_rows : list (list str) := map (map str_of) [["0"; "0"; "0"; "0"; "1"; "85"; "85"; "85"]; ["1"; "85"; "85"; "85"; "2"; "170"; "170"; "170"]; ["2"; "170"; "170"; "170"; "3"; "255"; "255"; "255"]]%string.
Lemma doc_lists : lists doc_lines (doc_head :: doc_rows).
Proof. unfold doc_lines. cbn [map]. do 5 apply lists_comment. row doc_head. row (map str_of ["0"; "0"; "0"; "0"; "1"; "85"; "85"; "85"]%string). row (map str_of ["1"; "85"; "85"; "85"; "2"; "170"; "170"; "170"]%string). row (map str_of ["2"; "170"; "170"; "170"; "3"; "255"; "255"; "255"]%string). apply lists_none. Qed.
Lemma doc_good : Forall (good_line doc_int doc_float) doc_lines.
Proof. apply (read_ok doc_int doc_float doc_lines {| h_nan := [0; 0; 0; 0]%Z; h_name := str_of "test"; h_resolution := Some 0.01 |}). reflexivity. Qed.

Ltac col i := exists i; split; [reflexivity|]; split; [intros j Lj; do 8 (destruct j as [|j]; [first [lia|vm_compute; discriminate]|]); lia|]; repeat (constructor; [eexists; split; [reflexivity|vm_compute; reflexivity]|]); constructor.
Lemma doc_columns : holds doc_field doc_head doc_rows "Z0" [0; 1; 2] /\ holds doc_field doc_head doc_rows "Z1" [1; 2; 3] /\
  holds doc_field doc_head doc_rows "R0" [0; 85; 170] /\ holds doc_field doc_head doc_rows "G0" [0; 85; 170] /\ holds doc_field doc_head doc_rows "B0" [0; 85; 170] /\
  holds doc_field doc_head doc_rows "R1" [85; 170; 255] /\ holds doc_field doc_head doc_rows "G1" [85; 170; 255] /\ holds doc_field doc_head doc_rows "B1" [85; 170; 255].
Proof. split; [col 0%nat|]. split; [col 4%nat|]. split; [col 1%nat|]. split; [col 2%nat|]. split; [col 3%nat|]. split; [col 5%nat|]. split; [col 6%nat|]. col 7%nat. Qed.
Example C104_ex : lists doc_lines (doc_head :: doc_rows) /\ Forall (fun r => List.length r = List.length doc_head) doc_rows /\ Forall (good_line doc_int doc_float) doc_lines /\ holds doc_field doc_head doc_rows "Z0" [0; 1; 2].
Proof. split; [exact doc_lists|]. split; [repeat constructor|]. split; [exact doc_good|exact (proj1 doc_columns)]. Qed.
Example C104_ex_refused : lists [str_of "# nothing"] [] /\ lists (map str_of ["Z0 Z1 R0 G0 B0 R1 G1"; "0 1 0 0 0 9 9"]%string) [map str_of ["Z0"; "Z1"; "R0"; "G0"; "B0"; "R1"; "G1"]%string; map str_of ["0"; "1"; "0"; "0"; "0"; "9"; "9"]%string].
Proof.
  split; [apply lists_comment; apply lists_none|]. cbn [map]. row (map str_of ["Z0"; "Z1"; "R0"; "G0"; "B0"; "R1"; "G1"]%string). row (map str_of ["0"; "1"; "0"; "0"; "0"; "9"; "9"]%string). apply lists_none.
Qed.

Notation ex := (fun x : R => x).
Definition doc_rgb0 : list rgb := [(0, 0, 0); (85, 85, 85); (170, 170, 170)].
Definition doc_rgb1 : list rgb := [(85, 85, 85); (170, 170, 170); (255, 255, 255)].
Lemma doc_valid : valid [0; 1; 2] [1; 2; 3] doc_rgb0 doc_rgb1 0 3.
Proof.
  constructor; cbn [List.length doc_rgb0 doc_rgb1]; [|reflexivity|discriminate|reflexivity|cbn; intros y Hy; intuition (subst; lra)|cbn; intros y Hy; intuition (subst; lra)|lia|lia].
  intros i a b Ea Eb. do 2 (destruct i as [|i]; [cbn in Ea, Eb; injection Ea as <-; injection Eb as <-; lra|]). cbn in Eb. destruct i; discriminate.
Qed.
Lemma doc_file : from_file ex doc_int doc_float doc_field doc_lines =
  match new_palette ex [0; 1; 2] [1; 2; 3] doc_rgb0 doc_rgb1 (Some 0.01) (NanSeq [0; 0; 0; 0]) false with inl p => inl (str_of "test", p) | inr e => inr e end.
Proof.
  unfold from_file. replace (PaletteModel.read_head doc_int doc_float doc_lines) with (Ok {| h_nan := [0; 0; 0; 0]%Z; h_name := str_of "test"; h_resolution := Some 0.01 |}) by reflexivity.
  rewrite (read_rows _ _ _ doc_lists) by repeat constructor. cbn [bind]. destruct doc_columns as (H1 & H2 & H3 & H4 & H5 & H6 & H7 & H8).
  rewrite (column_ok _ _ _ _ _ H1), (column_ok _ _ _ _ _ H2), (column_ok _ _ _ _ _ H3), (column_ok _ _ _ _ _ H4), (column_ok _ _ _ _ _ H5), (column_ok _ _ _ _ _ H6), (column_ok _ _ _ _ _ H7), (column_ok _ _ _ _ _ H8). reflexivity.
Qed.
Lemma doc_palette : exists p, from_file ex doc_int doc_float doc_field doc_lines = inl (str_of "test", p) /\ p_n p = 300%Z /\ p_log p = false /\ p_vmin p = 0 /\ p_vmax p = 3 /\ lut_checks ex p = true /\
  forall i c, (0 < i < 299)%Z -> lut ex 300 (p_rows p c) i = Ok (IZR i / 299).
Proof.
  pose proof doc_valid as V. assert (Hb : to_rgba (nan_list ex (NanSeq [0; 0; 0; 0])) = Some (0, 0, 0, 0)).
  { unfold to_rgba, nan_list. cbn [map forallb]. replace (0 / 255) with 0 by lra. rewrite (proj2 (rle_iff 0 0)), (proj2 (rle_iff 0 1)) by lra. reflexivity. }
  assert (Hn : colours_of (Some 0.01) ((3 - 0) / 0.01) 300).
  { split; [lra|]. replace ((3 - 0) / 0.01) with (IZR 300) by lra. rewrite Zceil_IZR. reflexivity. }
  destruct (new_ok ex _ _ _ _ (Some 0.01) _ false _ _ 300%Z _ V ltac:(left; reflexivity) Hn Hb) as (p & E & Hp & En & _ & El).
  exists p. rewrite doc_file, E. split; [reflexivity|]. split; [exact En|]. split; [exact El|]. split; [exact (h_min _ _ _ _ _ _ _ Hp)|]. split; [exact (h_max _ _ _ _ _ _ _ Hp)|].
  destruct (zs_facts _ _ _ _ _ _ V) as (F1 & F2 & F3 & F4 & F5 & F6 & Lt). pose proof (sound_exact 300 ltac:(lia)) as Sd.
  assert (Pd : 0 < 3 - 0) by lra. assert (Ck := checks_ok ex _ Sd p _ _ _ _ _ Hp Pd F1 F2 F3 F4). split; [exact Ck|].
  intros i c Hi. destruct (lut_inner ex 300 Sd p _ _ _ _ _ Hp Pd F1 F2 F3 F4 F5 i ltac:(lia)) as (k & za & zb & a & b & Ka & Kb & Ea & Eb & Hv & Hl).
  rewrite Hl. f_equal. unfold scale, adjust, xind in *. change (300 - 1)%Z with 299%Z in *. assert (I : 0 < IZR i < 299) by (split; apply IZR_lt; lia).
  cbn [app last] in Ka, Kb. assert (C : clip01 (IZR i / 299) = IZR i / 299) by (unfold clip01; rewrite Rmax_left, Rmin_left by lra; reflexivity).
  destruct k as [|[|[|k]]]; cbn in Ka, Kb, Ea, Eb; [| | |destruct k; discriminate]; injection Ka as <-; injection Kb as <-; injection Ea as <-; injection Eb as <-; rewrite <- C; f_equal; destruct c; cbn [chan]; field_simplify; lra.
Qed.

(** The value 0.5 is said to get (42.5/255, 42.5/255, 42.5/255): in exact arithmetic it gets 50/299. *)
Theorem C104_documented_refuted : exists p, from_file ex doc_int doc_float doc_field doc_lines = inl (str_of "test", p) /\
  get_data_color ex ex p (Fin 0.5) (str_of "mlab") = Ok (Mlab (50 / 299, 50 / 299, 50 / 299, 1)) /\ 50 / 299 > 42.5 / 255.
Proof.
  destruct doc_palette as (p & E & En & El & Hmin & Hmax & Ck & Hl). exists p. split; [exact E|]. split; [|lra].
  unfold get_data_color, color. rewrite Ck, El, En. cbn [negb norm lut_index]. rewrite Hmin, Hmax. unfold adjust. replace ((0.5 - 0) / (3 - 0) * 300) with (IZR 50) by lra.
  rewrite (proj2 (rlt_f _ _)) by lra. destruct (rle 300 50) eqn:Q; [apply rle_iff in Q; lra|]. rewrite Ztrunc_IZR, !Hl by lia. reflexivity.
Qed.
Print Assumptions C104_documented_refuted.
Example C105_ex : exists p, from_file ex doc_int doc_float doc_field doc_lines = inl (str_of "test", p) /\ last_given gives_name doc_lines (str_of "generic") (str_of "test").
Proof.
  destruct doc_palette as (p & E & _). exists p. split; [exact E|]. apply (C105_last _ _ _ _ _ _ _ E). reflexivity.
Qed.
Example C105_ex_bad : about "name" (str_of "#$name test") /\ ~ In ":"%char (str_of "#$name test") /\ defines "nan_color" (str_of "#$nan_color: 0,x") (str_of " 0,x") /\ parts "," (str_of " 0,x") [str_of " 0"; str_of "x"] /\ doc_int (str_of "x") = None /\
  defines "resolution" (str_of "#$resolution: fine") (str_of " fine") /\ trimmed (str_of " fine") (str_of "fine") /\ doc_float (str_of "fine") = None.
Proof.
  split; [apply about_iff; reflexivity|]. split; [cbn; intuition discriminate|]. split; [apply defines_iff; [exact key1|]; split; [reflexivity|exists (str_of "nan_color"), []; reflexivity]|].
  split; [apply parts_iff; reflexivity|]. split; [reflexivity|]. split; [apply defines_iff; [exact key3|]; split; [reflexivity|exists (str_of "resolution"), []; reflexivity]|]. split; [apply trimmed_iff; reflexivity|reflexivity].
Qed.

(** ** C106: setting the range *)
Lemma checks_set : forall rd p a b, rd (b - a) <> 0 -> rd (p_vmax p - p_vmin p) <> 0 -> lut_checks rd (set_vmax b (set_vmin a p)) = lut_checks rd p.
Proof.
  intros rd p a b N1 N2. unfold lut_checks, set_vmax, set_vmin. cbn [p_rows p_vmin p_vmax]. destruct (reqb (rd (b - a)) 0) eqn:E1; [apply reqb_iff in E1; contradiction|].
  destruct (reqb (rd (p_vmax p - p_vmin p)) 0) eqn:E2; [apply reqb_iff in E2; contradiction|]. reflexivity.
Qed.
Lemma set_same : forall rd ln p a b v w f, rd (b - a) <> 0 -> rd (p_vmax p - p_vmin p) <> 0 ->
  norm rd (set_vmax b (set_vmin a p)) (if p_log p then np_log ln v else v) = norm rd p (if p_log p then np_log ln w else w) ->
  color_in rd ln (set_vmax b (set_vmin a p)) v f = color_in rd ln p w f.
Proof.
  intros rd ln p a b v w f N1 N2 E. unfold color_in. cbn [set_vmax set_vmin p_vmin p_vmax]. destruct (reqb (rd (b - a)) 0) eqn:E1; [apply reqb_iff in E1; contradiction|].
  destruct (reqb (rd (p_vmax p - p_vmin p)) 0) eqn:E2; [apply reqb_iff in E2; contradiction|]. unfold get_data_color, color. rewrite checks_set by assumption. cbn [set_vmax set_vmin p_log p_n p_rows p_bad].
  change {| p_log := p_log p; p_vmin := a; p_vmax := b; p_bad := p_bad p; p_rows := p_rows p; p_n := p_n p |} with (set_vmax b (set_vmin a p)). rewrite E. reflexivity.
Qed.
(** The colours are stretched over the new range: in exact arithmetic the value which divides
    it as another divided the old one gets the colour of that.  A range may run backwards. *)
Theorem C106_stretched : forall ln p a b f, p_log p = false -> p_vmin p <> p_vmax p -> a <> b -> let q := set_vmax b (set_vmin a p) in
  (forall t, color_in ex ln q (Fin (a + t * (b - a))) f = color_in ex ln p (Fin (p_vmin p + t * (p_vmax p - p_vmin p))) f) /\
  color_in ex ln q NaN f = color_in ex ln p NaN f /\
  ((a < b <-> p_vmin p < p_vmax p) -> color_in ex ln q PosInf f = color_in ex ln p PosInf f /\ color_in ex ln q NegInf f = color_in ex ln p NegInf f) /\
  ((b < a <-> p_vmin p < p_vmax p) -> color_in ex ln q PosInf f = color_in ex ln p NegInf f /\ color_in ex ln q NegInf f = color_in ex ln p PosInf f).
Proof.
  intros ln p a b f L Np Nq q. unfold q. assert (N1 : b - a <> 0) by lra. assert (N2 : p_vmax p - p_vmin p <> 0) by lra.
  assert (B : forall x y, x < y -> rlt y x = false) by (intros; apply rlt_f; lra).
  split; [|split; [|split]].
  - intro t. apply set_same; try assumption. rewrite L. unfold norm, adjust. cbn [set_vmax set_vmin p_vmin p_vmax]. f_equal. field. lra.
  - apply set_same; try assumption. rewrite L. reflexivity.
  - intro W. split; apply set_same; try assumption; rewrite L; unfold norm; cbn [set_vmax set_vmin p_vmin p_vmax]; replace (rlt (p_vmax p - p_vmin p) 0) with (rlt (b - a) 0); try reflexivity;
      destruct (Rtotal_order a b) as [H|[H|H]]; try lra; try (pose proof (proj1 W H)); try (rewrite !(proj2 (rlt_f _ _)) by lra; reflexivity);
      rewrite (proj2 (rlt_iff _ _)) by lra; symmetry; apply rlt_iff; destruct (Rtotal_order (p_vmin p) (p_vmax p)) as [K|[K|K]]; lra.
  - intro W. split; apply set_same; try assumption; rewrite L; unfold norm; cbn [set_vmax set_vmin p_vmin p_vmax]; destruct (Rtotal_order a b) as [H|[H|H]]; try lra.
    + rewrite (proj2 (rlt_f (b - a) _)) by lra. rewrite (proj2 (rlt_iff (p_vmax p - p_vmin p) _)); [reflexivity|]. destruct (Rtotal_order (p_vmin p) (p_vmax p)) as [K|[K|K]]; lra.
    + rewrite (proj2 (rlt_iff (b - a) _)) by lra. pose proof (proj1 W H). rewrite (proj2 (rlt_f (p_vmax p - p_vmin p) _)) by lra. reflexivity.
    + rewrite (proj2 (rlt_f (b - a) _)) by lra. rewrite (proj2 (rlt_iff (p_vmax p - p_vmin p) _)); [reflexivity|]. destruct (Rtotal_order (p_vmin p) (p_vmax p)) as [K|[K|K]]; lra.
    + rewrite (proj2 (rlt_iff (b - a) _)) by lra. pose proof (proj1 W H). rewrite (proj2 (rlt_f (p_vmax p - p_vmin p) _)) by lra. reflexivity.
Qed.
Print Assumptions C106_stretched.
(** With rounding this holds at the ends. *)
Theorem C106_ends : forall rd ln p a b f, rd 0 = 0 -> p_log p = false -> rd (p_vmax p - p_vmin p) <> 0 -> rd (b - a) <> 0 -> let q := set_vmax b (set_vmin a p) in
  color_in rd ln q (Fin a) f = color_in rd ln p (Fin (p_vmin p)) f /\ color_in rd ln q (Fin b) f = color_in rd ln p (Fin (p_vmax p)) f.
Proof.
  intros rd ln p a b f Z L Np Nq q. unfold q. split; apply set_same; try assumption; rewrite L; unfold norm, adjust; cbn [set_vmax set_vmin p_vmin p_vmax]; do 2 f_equal.
  - rewrite !Rminus_eq_0, Z. field. auto.
  - field. auto.
Qed.
Print Assumptions C106_ends.
(** The range of a logarithmic palette is one of logarithms. *)
Theorem C106_log : forall ln p a b f x y t, p_log p = true -> p_vmin p <> p_vmax p -> a <> b -> 0 < x -> 0 < y -> ln x = a + t * (b - a) -> ln y = p_vmin p + t * (p_vmax p - p_vmin p) ->
  color_in ex ln (set_vmax b (set_vmin a p)) (Fin x) f = color_in ex ln p (Fin y) f.
Proof.
  intros ln p a b f x y t L Np Nq Px Py Ex Ey. apply set_same; try lra. rewrite L. unfold np_log. rewrite (proj2 (rlt_iff 0 x) Px), (proj2 (rlt_iff 0 y) Py). unfold norm, adjust. cbn [set_vmax set_vmin p_vmin p_vmax].
  rewrite Ex, Ey. f_equal. field. lra.
Qed.
Print Assumptions C106_log.
(** Both ends may be set in either order, and setting them back undoes it. *)
Theorem C106_restored : forall p a b, set_vmin a (set_vmax b p) = set_vmax b (set_vmin a p) /\ set_vmax (p_vmax p) (set_vmin (p_vmin p) (set_vmax b (set_vmin a p))) = p.
Proof. intros p a b. split; [reflexivity|]. destruct p; reflexivity. Qed.
Print Assumptions C106_restored.
(** The number of colours stays, so that a resolution is lost: after the range has been
    widened, values a hundred times 0.01 apart get one colour. *)
Theorem C106_resolution_refuted : exists p, from_file ex doc_int doc_float doc_field doc_lines = inl (str_of "test", p) /\ last_given (gives_resolution doc_float) doc_lines None (Some 0.01) /\
  (exists c d, color_in ex ex p (Fin 1) (str_of "mlab") = Ok (Mlab c) /\ color_in ex ex p (Fin 1.01) (str_of "mlab") = Ok (Mlab d) /\ c <> d) /\
  let q := set_vmax 600 p in exists c, color_in ex ex q (Fin 2) (str_of "mlab") = Ok (Mlab c) /\ color_in ex ex q (Fin 3) (str_of "mlab") = Ok (Mlab c).
Proof.
  destruct doc_palette as (p & E & En & El & Hmin & Hmax & Ck & Hl). exists p. split; [exact E|]. split.
  { destruct (read_good _ _ _ doc_good) as (h & Eh & _ & _ & N3). replace (h_resolution h) with (Some 0.01) in N3; [exact N3|].
    assert (Eq : PaletteModel.read_head doc_int doc_float doc_lines = Ok {| h_nan := [0; 0; 0; 0]%Z; h_name := str_of "test"; h_resolution := Some 0.01 |}) by reflexivity. rewrite Eh in Eq. injection Eq as ->. reflexivity. }
  assert (G : forall q x i, p_n q = 300%Z -> p_log q = false -> lut_checks ex q = true -> p_rows q = p_rows p -> p_vmax q - p_vmin q <> 0 -> (0 < i < 299)%Z -> IZR i <= (x - p_vmin q) / (p_vmax q - p_vmin q) * 300 < IZR i + 1 ->
    color_in ex ex q (Fin x) (str_of "mlab") = Ok (Mlab (IZR i / 299, IZR i / 299, IZR i / 299, 1))).
  { intros q x i Qn Ql Qc Qr Qz Hi Hx. unfold color_in. destruct (reqb (p_vmax q - p_vmin q) 0) eqn:Q0; [apply reqb_iff in Q0; contradiction|]. unfold get_data_color, color. rewrite Qc, Ql, Qn, Qr. cbn [negb norm lut_index]. unfold adjust.
    assert (I : 0 < IZR i < 299) by (split; apply IZR_lt; lia). rewrite (proj2 (rlt_f _ _)) by lra. destruct (rle 300 ((x - p_vmin q) / (p_vmax q - p_vmin q) * 300)) eqn:Q.
    { apply rle_iff in Q. assert (IZR i + 1 <= 299) by (rewrite <- plus_IZR; apply IZR_le; lia). lra. }
    rewrite Ztrunc_floor by lra. rewrite (Zfloor_imp i) by (rewrite plus_IZR; exact Hx). rewrite !Hl by lia. reflexivity. }
  split.
  - do 2 eexists. split; [apply (G p 1 100%Z); try assumption; try lia; try reflexivity; rewrite Hmin, Hmax; lra|]. split; [apply (G p 1.01 101%Z); try assumption; try lia; try reflexivity; rewrite Hmin, Hmax; lra|]. intro H. apply (f_equal (fun c => fst (fst (fst c)))) in H. cbn [fst] in H. lra.
  - cbv zeta. assert (Cq : lut_checks ex (set_vmax 600 p) = true).
    { rewrite <- Ck. replace (set_vmax 600 p) with (set_vmax 600 (set_vmin 0 p)); [apply checks_set; [lra|rewrite Hmin, Hmax; lra]|]. destruct p; cbn in Hmin; subst; reflexivity. }
    eexists. split; apply (G (set_vmax 600 p) _ 1%Z); try assumption; try lia; try reflexivity; cbn [set_vmax p_vmax p_vmin]; rewrite Hmin; lra.
Qed.
Print Assumptions C106_resolution_refuted.
Example C106_ex : exists p, from_file ex doc_int doc_float doc_field doc_lines = inl (str_of "test", p) /\ p_log p = false /\ p_vmin p <> p_vmax p.
Proof. destruct doc_palette as (p & E & _ & El & Hmin & Hmax & _). exists p. split; [exact E|]. split; [exact El|]. rewrite Hmin, Hmax. lra. Qed.

(** ** C107: arrays *)
Lemma colors_fold : forall rd ln p vs cs, fold_right (fun v acc => bind (color rd ln p v) (fun c => bind acc (fun l => Ok (c :: l)))) (Ok []) vs = Ok cs <-> Forall2 (fun v c => color rd ln p v = Ok c) vs cs.
Proof.
  intros rd ln p vs. induction vs as [|v vs IH]; intro cs; cbn [fold_right].
  - split; [intro E; injection E as <-; constructor|intro H; inversion H; reflexivity].
  - split.
    + intro E. destruct (color rd ln p v) as [c|] eqn:Ec; [|discriminate]. cbn [bind] in E. destruct (fold_right _ _ vs) as [l|] eqn:Ef in E; [|discriminate]. cbn [bind] in E. injection E as <-. constructor; [exact Ec|apply IH; exact Ef].
    + intro H. inversion H as [|a b c d Ea Fb]; subst. rewrite Ea. apply IH in Fb. rewrite Fb. reflexivity.
Qed.
(** For an array the formats 'mlab' and 'array' give what the formats 'mlab' and '255' give
    for each of its values. *)
Theorem C107_each : forall rd ln p vs, lut_checks rd p = true ->
  (forall cs, get_data_colors rd ln p vs (str_of "mlab") = Ok (MlabArray cs) <-> Forall2 (fun v c => get_data_color rd ln p v (str_of "mlab") = Ok (Mlab c)) vs cs) /\
  (forall bs, get_data_colors rd ln p vs (str_of "array") = Ok (Bytes bs) <-> Forall2 (fun v b => let '(r, g, b, a) := b in get_data_color rd ln p v (str_of "255") = Ok (C255 r g b a)) vs bs).
Proof.
  intros rd ln p vs Ck. unfold get_data_colors. rewrite Ck. cbn [negb]. split.
  - intro cs. split.
    + intro E. destruct (fold_right _ _ vs) as [l|] eqn:Ef in E; [|discriminate]. cbn [bind] in E. change (str_eqb (str_of "mlab") (str_of "mlab")) with true in E. injection E as <-. apply colors_fold in Ef.
      induction Ef as [|v c vs cs Hc _ IH]; constructor; [|exact IH]. unfold get_data_color. rewrite Hc. destruct c as [[[r g] b] a]. reflexivity.
    + intro H. assert (X : Forall2 (fun v c => color rd ln p v = Ok c) vs cs).
      { induction H as [|v c vs cs Hc _ IH]; constructor; [|exact IH]. unfold get_data_color in Hc. destruct (color rd ln p v) as [[[[r g] b] a]|]; [|discriminate]. cbn in Hc. congruence. }
      apply colors_fold in X. rewrite X. reflexivity.
  - intro bs. split.
    + intro E. destruct (fold_right _ _ vs) as [l|] eqn:Ef in E; [|discriminate]. cbn [bind] in E. change (str_eqb (str_of "array") (str_of "mlab")) with false in E. change (str_eqb (str_of "array") (str_of "255")) with false in E.
      change (str_eqb (str_of "array") (str_of "array")) with true in E. injection E as <-. apply colors_fold in Ef.
      induction Ef as [|v c vs cs Hc _ IH]; cbn [map]; constructor; [|exact IH]. unfold get_data_color. rewrite Hc. destruct c as [[[r g] b] a]. reflexivity.
    + intro H. assert (X : exists cs, Forall2 (fun v c => color rd ln p v = Ok c) vs cs /\ bs = map (fun c => let '(r, g, b, a) := c in (to255 rd r, to255 rd g, to255 rd b, to255 rd a)) cs).
      { induction H as [|v c vs cs Hc _ IH]; [exists []; split; [constructor|reflexivity]|]. destruct IH as (cs' & F & ->). destruct c as [[[r g] b] a]. unfold get_data_color in Hc.
        destruct (color rd ln p v) as [[[[r' g'] b'] a']|] eqn:Ec; [|discriminate]. cbn [bind] in Hc. change (str_eqb (str_of "255") (str_of "mlab")) with false in Hc. change (str_eqb (str_of "255") (str_of "255")) with true in Hc. injection Hc as <- <- <- <-.
        exists ((r', g', b', a') :: cs'). split; [constructor; assumption|reflexivity]. }
      destruct X as (cs & F & ->). apply colors_fold in F. rewrite F. reflexivity.
Qed.
Print Assumptions C107_each.
(** The other formats are not for arrays. *)
Theorem C107_no_format : forall rd ln p vs f, lut_checks rd p = true -> (forall v, In v vs -> exists c, color rd ln p v = Ok c) ->
  (vs <> [] -> f = str_of "255" \/ f = str_of "hex" -> get_data_colors rd ln p vs f = Err TypeError) /\
  (~ In f (map str_of ["mlab"; "255"; "array"; "hex"]%string) -> get_data_colors rd ln p vs f = Err AttributeError).
Proof.
  intros rd ln p vs f Ck H. assert (X : exists cs, Forall2 (fun v c => color rd ln p v = Ok c) vs cs).
  { clear f. induction vs as [|v vs IH]; [exists []; constructor|]. destruct (H v) as (c & Hc); [left; reflexivity|]. destruct IH as (cs & F); [intros w Hw; apply H; right; exact Hw|]. exists (c :: cs). constructor; assumption. }
  destruct X as (cs & F). pose proof F as F'. apply colors_fold in F'. unfold get_data_colors. rewrite Ck, F'. cbn [negb bind]. split.
  - intros N [->| ->]; inversion F as [|a b c d Ea Fb]; subst; try congruence; reflexivity.
  - intro N. cbn [map In] in N. repeat match goal with |- context [str_eqb f ?n] => destruct (str_eqb_spec f n) as [->|_]; [exfalso; apply N; tauto|] end. reflexivity.
Qed.
Print Assumptions C107_no_format.
(** An array without values. *)
Theorem C107_empty : forall rd ln p, lut_checks rd p = true -> get_data_colors rd ln p [] (str_of "mlab") = Ok (MlabArray []) /\ get_data_colors rd ln p [] (str_of "array") = Ok (Bytes []) /\
  get_data_colors rd ln p [] (str_of "255") = Ok NoColors /\ get_data_colors rd ln p [] (str_of "hex") = Err IndexError.
Proof. intros rd ln p Ck. unfold get_data_colors. rewrite Ck. repeat split. Qed.
Print Assumptions C107_empty.
Example C107_ex : exists p, from_file ex doc_int doc_float doc_field doc_lines = inl (str_of "test", p) /\ lut_checks ex p = true /\ forall v, In v [Fin 0.5; NaN] -> exists c, color ex ex p v = Ok c.
Proof.
  destruct doc_palette as (p & E & En & El & Hmin & Hmax & Ck & Hl). exists p. split; [exact E|]. split; [exact Ck|]. intros v [<-|[<-|[]]]; unfold color; rewrite Ck, El, En; cbn [negb norm lut_index]; [|eexists; reflexivity].
  rewrite Hmin, Hmax. unfold adjust. replace ((0.5 - 0) / (3 - 0) * 300) with (IZR 50) by lra. rewrite (proj2 (rlt_f _ _)) by lra. destruct (rle 300 50) eqn:Q; [apply rle_iff in Q; lra|]. rewrite Ztrunc_IZR, !Hl by lia. eexists. reflexivity.
Qed.
