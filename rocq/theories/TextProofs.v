(** Proofs about the text-formatting model. *)
From Coq Require DecimalPos DecimalZ.
From Coq Require Import ZArith String Ascii Bool DecimalString List Lia.
From Verif Require Import PyBase TextModel TextSpec.
Import ListNotations.
Open Scope Z_scope.

(** ** Roman numerals *)

Lemma roman_rec_fuel_mono : forall f f' num s decs romans r,
  dec_to_roman_rec f num s decs romans = Some r -> (f <= f')%nat ->
  dec_to_roman_rec f' num s decs romans = Some r.
Proof.
  induction f as [|f IH]; intros f' num s decs romans r H Hle; [discriminate|].
  destruct f' as [|f']; [lia|]. cbn [dec_to_roman_rec] in *.
  destruct decs as [|d decs]; [assumption|].
  destruct (num <? d).
  - apply IH with (1 := H). lia.
  - destruct romans as [|rm romans]; [assumption|]. apply IH with (1 := H). lia.
Qed.

Definition roman_check (n : Z) : bool :=
  match dec_to_roman 40 n, roman_value (roman_text n) with
  | Some (Ok s), Some v => str_eqb s (roman_text n) && (v =? n)
  | _, _ => false
  end.

Lemma roman_check_all : forallb (fun k => roman_check (Z.of_nat k + 1)) (seq 0 (Z.to_nat 3999)) = true.
Proof. vm_compute. reflexivity. Qed.

Lemma roman_check_range : forall n, 1 <= n < 4000 -> roman_check n = true.
Proof.
  intros n Hn. pose proof roman_check_all as H. rewrite forallb_forall in H.
  specialize (H (Z.to_nat (n - 1))).
  replace (Z.of_nat (Z.to_nat (n - 1)) + 1) with n in H by lia.
  apply H. apply in_seq. lia.
Qed.

Lemma dec_to_roman_text : forall fuel n, 1 <= n < 4000 -> (40 <= fuel)%nat ->
  dec_to_roman fuel n = Some (Ok (roman_text n)).
Proof.
  intros fuel n Hn Hf. pose proof (roman_check_range n Hn) as H. unfold roman_check in H.
  destruct (dec_to_roman 40 n) as [[s|e]|] eqn:E; try discriminate.
  destruct (roman_value (roman_text n)) as [v|]; try discriminate.
  apply andb_prop in H. destruct H as [H1 _]. apply str_eqb_eq in H1. subst s.
  unfold dec_to_roman in *.
  destruct (n <=? 0) eqn:E0; [lia|]. destruct (4000 <=? n) eqn:E1; [lia|].
  eapply roman_rec_fuel_mono; eauto.
Qed.

Lemma roman_value_text : forall n, 1 <= n < 4000 -> roman_value (roman_text n) = Some n.
Proof.
  intros n Hn. pose proof (roman_check_range n Hn) as H. unfold roman_check in H.
  destruct (dec_to_roman 40 n) as [[s|e]|] eqn:E; try discriminate.
  destruct (roman_value (roman_text n)) as [v|]; try discriminate.
  apply andb_prop in H. destruct H as [_ H]. f_equal. lia.
Qed.

Lemma dec_to_roman_error : forall fuel n, (n <= 0 \/ 4000 <= n) ->
  dec_to_roman fuel n = Some (Err ValueError).
Proof.
  intros fuel n H. unfold dec_to_roman.
  destruct (n <=? 0) eqn:E0; [reflexivity|]. destruct (4000 <=? n) eqn:E1; [reflexivity|]. lia.
Qed.

Lemma dec_to_roman_correct : forall fuel n, (40 <= fuel)%nat ->
  (1 <= n < 4000 ->
     dec_to_roman fuel n = Some (Ok (roman_text n)) /\ roman_value (roman_text n) = Some n) /\
  (n <= 0 \/ 4000 <= n -> dec_to_roman fuel n = Some (Err ValueError)).
Proof.
  intros fuel n Hf. split.
  - intro Hn. split; [apply dec_to_roman_text; assumption | apply roman_value_text; assumption].
  - apply dec_to_roman_error.
Qed.

Lemma dec_to_roman_injective : forall fuel m n s, (40 <= fuel)%nat ->
  dec_to_roman fuel m = Some (Ok s) -> dec_to_roman fuel n = Some (Ok s) -> m = n.
Proof.
  intros fuel m n s Hf Hm Hn.
  assert (Hr : forall k, dec_to_roman fuel k = Some (Ok s) -> roman_value s = Some k).
  { intros k Hk. destruct (Z_le_dec k 0) as [H0|H0].
    - rewrite dec_to_roman_error in Hk by (left; assumption). discriminate.
    - destruct (Z_le_dec 4000 k) as [H1|H1].
      + rewrite dec_to_roman_error in Hk by (right; assumption). discriminate.
      + rewrite dec_to_roman_text in Hk by lia. inversion Hk; subst s.
        apply roman_value_text; lia. }
  apply Hr in Hm. apply Hr in Hn. congruence.
Qed.

(** ** commify *)

Lemma all_digits_forallb : forall s, all_digits s <-> forallb is_digit s = true.
Proof. intro s. unfold all_digits. rewrite forallb_forall, Forall_forall. reflexivity. Qed.

Lemma no_digit_head_span : forall s, no_digit_head s ->
  s = [] \/ exists c b', s = c :: b' /\ is_digit c = false.
Proof. intros [|c s] H; [left; reflexivity|right; exists c, s; auto]. Qed.

Lemma is_digit_minus : is_digit minus = false.
Proof. reflexivity. Qed.


Lemma commify_match_shape : forall sign ds rest,
  sign_ok sign -> all_digits ds -> no_digit_head rest ->
  (sign = [] -> ds = [] -> rest = [] \/ exists c r, rest = c :: r /\ c <> minus) ->
  commify_match (sign ++ ds ++ rest) =
    if (4 <=? List.length ds)%nat
    then Some (sign ++ firstn (List.length ds - 3) ds, skipn (List.length ds - 3) ds, rest)
    else None.
Proof.
  intros sign ds rest Hs Hd Hr Hne. unfold commify_match.
  assert (Hspan : span is_digit (ds ++ rest) = (ds, rest)).
  { apply span_unique; [apply all_digits_forallb; assumption | apply no_digit_head_span; assumption]. }
  destruct Hs as [->| ->].
  - cbn [app]. destruct (ds ++ rest) as [|c r] eqn:E.
    + apply app_eq_nil in E. destruct E as [-> ->]. reflexivity.
    + assert (Hc : Ascii.eqb c minus = false).
      { destruct ds as [|d ds].
        - cbn [app] in E. specialize (Hne eq_refl eq_refl). destruct Hne as [->|(c' & r' & -> & Hc')]; [discriminate|].
          inversion E; subst. apply Ascii.eqb_neq. assumption.
        - inversion E; subst. inversion Hd; subst.
          apply Ascii.eqb_neq. intros ->. rewrite is_digit_minus in H1. discriminate. }
      rewrite Hc. rewrite Hspan. reflexivity.
  - cbn [app]. rewrite Ascii.eqb_refl. rewrite Hspan. reflexivity.
Qed.

Lemma all_digits_app : forall a b, all_digits (a ++ b) <-> all_digits a /\ all_digits b.
Proof. intros; unfold all_digits; apply Forall_app. Qed.

Lemma all_digits_firstn : forall n s, all_digits s -> all_digits (firstn n s).
Proof. intros n s H. rewrite <- (firstn_skipn n s) in H. apply all_digits_app in H. tauto. Qed.

Lemma grouped_short : forall sep ds, (1 <= List.length ds <= 3)%nat -> grouped sep ds ds.
Proof. intros sep ds H. exists ds, []. simpl. rewrite !app_nil_r. auto. Qed.

Lemma grouped_snoc : forall sep ds out g3, grouped sep ds out -> List.length g3 = 3%nat ->
  grouped sep (ds ++ g3) (out ++ sep ++ g3).
Proof.
  intros sep ds out g3 (g & gs & -> & Hg & Hgs & ->) H3.
  exists g, (gs ++ [g3]). rewrite concat_app, map_app, concat_app. simpl. rewrite !app_nil_r, <- !app_assoc.
  repeat split; try lia. apply Forall_app; split; [assumption|]. constructor; [assumption|constructor].
Qed.


Lemma parse_plain : forall sep, plain_sep sep -> parse_template sep = Ok [TGrp1; TLit sep; TGrp2].
Proof.
  intros sep [Hs Hb]. unfold parse_template.
  destruct (existsb (Ascii.eqb backslash) sep) eqn:E.
  - exfalso. apply Hb. apply existsb_exists in E. destruct E as (x & Hx & Hy).
    apply Ascii.eqb_eq in Hy. subst. assumption.
  - destruct sep as [|c r]; [contradiction|]. rewrite Hs. reflexivity.
Qed.

Lemma commify_loop_correct : forall n fuel sep sign ds rest,
  (List.length ds <= n)%nat -> (n < fuel)%nat ->
  plain_sep sep -> sign_ok sign -> all_digits ds -> ds <> [] -> no_digit_head rest ->
  exists out, commify_loop fuel [TGrp1; TLit sep; TGrp2] (sign ++ ds ++ rest) = Some (sign ++ out ++ rest)
              /\ grouped sep ds out.
Proof.
  induction n as [|n IH]; intros fuel sep sign ds rest Hn Hf Hsep Hsg Hd Hne Hr.
  - destruct ds; [congruence|simpl in Hn; lia].
  - destruct fuel as [|fuel]; [lia|]. cbn [commify_loop].
    rewrite commify_match_shape by (auto; intros; congruence).
    destruct (4 <=? List.length ds)%nat eqn:E4.
    + apply Nat.leb_le in E4.
      set (a := firstn (List.length ds - 3) ds). set (b := skipn (List.length ds - 3) ds).
      assert (Hab : ds = a ++ b) by (unfold a, b; rewrite firstn_skipn; reflexivity).
      assert (Hla : List.length a = (List.length ds - 3)%nat) by (unfold a; rewrite firstn_length; lia).
      assert (Hlb : List.length b = 3%nat) by (unfold b; rewrite skipn_length; lia).
      assert (Hda : all_digits a) by (apply all_digits_firstn; assumption).
      destruct (IH fuel sep sign a (sep ++ b ++ rest)) as (out & Ho & Hg); try assumption; try lia.
      { destruct a; [simpl in Hla; lia|congruence]. }
      { destruct Hsep as [Hs _]. destruct sep; [contradiction|]. simpl. assumption. }
      exists (out ++ sep ++ b). split.
      * unfold expand. cbn [flat_map]. rewrite app_nil_r.
        rewrite <- !app_assoc in *. rewrite Ho. reflexivity.
      * rewrite Hab. apply grouped_snoc; assumption.
    + apply Nat.leb_gt in E4. exists ds. split; [reflexivity|].
      apply grouped_short. destruct ds; [congruence|simpl in *; lia].
Qed.

Lemma commify_correct : forall fuel sep sign ds rest,
  (List.length ds < fuel)%nat ->
  plain_sep sep -> sign_ok sign -> all_digits ds -> ds <> [] -> no_digit_head rest ->
  exists out, commify fuel (sign ++ ds ++ rest) sep = Some (Ok (sign ++ out ++ rest)) /\ grouped sep ds out.
Proof.
  intros fuel sep sign ds rest Hf Hsep Hsg Hd Hne Hr.
  destruct (commify_loop_correct (List.length ds) fuel sep sign ds rest) as (out & Ho & Hg); auto.
  exists out. split; [|assumption]. unfold commify. rewrite parse_plain by assumption. rewrite Ho. reflexivity.
Qed.

(** Texts without a leading number are returned unchanged. *)
Lemma commify_no_number : forall fuel sep sign rest,
  (0 < fuel)%nat -> plain_sep sep -> sign_ok sign -> no_digit_head rest ->
  (sign = [] -> rest = [] \/ exists c r, rest = c :: r /\ c <> minus) ->
  commify fuel (sign ++ rest) sep = Some (Ok (sign ++ rest)).
Proof.
  intros fuel sep sign rest Hf Hsep Hsg Hr Hne. unfold commify. rewrite parse_plain by assumption.
  destruct fuel as [|fuel]; [lia|]. cbn [commify_loop].
  pose proof (commify_match_shape sign [] rest Hsg) as H. cbn [app] in H. rewrite H.
  - reflexivity.
  - constructor.
  - assumption.
  - intros; auto.
Qed.

(** The empty separator: the loop never stops on four or more digits. *)
Lemma commify_empty_loops : forall fuel sign ds rest,
  sign_ok sign -> all_digits ds -> (4 <= List.length ds)%nat -> no_digit_head rest ->
  commify fuel (sign ++ ds ++ rest) [] = None.
Proof.
  intros fuel sign ds rest Hsg Hd H4 Hr. unfold commify. cbn [parse_template existsb].
  assert (H : commify_loop fuel [TGrp1; TGrp2] (sign ++ ds ++ rest) = None).
  { induction fuel as [|fuel IH]; [reflexivity|]. cbn [commify_loop].
    rewrite commify_match_shape; auto.
    - assert (E : (4 <=? List.length ds)%nat = true) by (apply Nat.leb_le; assumption). rewrite E.
      unfold expand. cbn [flat_map]. rewrite app_nil_r.
      rewrite <- !app_assoc. rewrite (app_assoc (firstn _ _)), firstn_skipn. exact IH.
    - intros _ ->. simpl in H4. lia. }
  rewrite H. reflexivity.
Qed.

Lemma commify_empty_short : forall fuel sign ds rest,
  (0 < fuel)%nat -> sign_ok sign -> all_digits ds -> (1 <= List.length ds <= 3)%nat -> no_digit_head rest ->
  commify fuel (sign ++ ds ++ rest) [] = Some (Ok (sign ++ ds ++ rest)).
Proof.
  intros fuel sign ds rest Hf Hsg Hd H4 Hr. unfold commify. cbn [parse_template existsb].
  destruct fuel as [|fuel]; [lia|]. cbn [commify_loop].
  rewrite commify_match_shape; auto.
  - assert (E : (4 <=? List.length ds)%nat = false) by (apply Nat.leb_gt; lia). rewrite E. reflexivity.
  - intros _ ->. simpl in H4. lia.
Qed.

Lemma commify_digit_sep : forall fuel num c,
  is_digit c = true -> commify fuel num [c] = Some (Err ReError).
Proof.
  intros fuel num c Hc. unfold commify, parse_template.
  assert (E : existsb (Ascii.eqb backslash) [c] = false).
  { cbn [existsb]. destruct (Ascii.eqb_spec backslash c) as [<-|]; [discriminate|reflexivity]. }
  rewrite E, Hc. reflexivity.
Qed.

(** ** Decimal text of integers *)

Lemma las_uint_digits : forall u, all_digits (list_ascii_of_string (NilEmpty.string_of_uint u)).
Proof. induction u; simpl; constructor; auto. Qed.

Definition dstep (acc : Z) (c : ascii) : Z := 10 * acc + (Z.of_nat (nat_of_ascii c) - 48).

Lemma las_uint_acc : forall u acc,
  fold_left dstep (list_ascii_of_string (NilEmpty.string_of_uint u)) (Zpos acc) = Zpos (Pos.of_uint_acc u acc).
Proof.
  induction u; intro acc; cbn [NilEmpty.string_of_uint list_ascii_of_string fold_left Pos.of_uint_acc];
    try reflexivity;
    match goal with |- fold_left dstep _ ?x = Zpos (Pos.of_uint_acc _ ?y) =>
      replace x with (Zpos y); [apply IHu|] end; unfold dstep;
    match goal with |- context [Z.of_nat (nat_of_ascii ?c) - 48] =>
      let v := eval vm_compute in (Z.of_nat (nat_of_ascii c) - 48) in
      change (Z.of_nat (nat_of_ascii c) - 48) with v end; lia.
Qed.

Lemma las_uint_value : forall u,
  fold_left dstep (list_ascii_of_string (NilEmpty.string_of_uint u)) 0 = Z.of_uint u.
Proof.
  unfold Z.of_uint. induction u; cbn [NilEmpty.string_of_uint list_ascii_of_string fold_left Pos.of_uint];
    try reflexivity; try exact IHu; cbn [Z.of_N];
    rewrite <- las_uint_acc; reflexivity.
Qed.

Lemma str_of_Z_nonneg : forall n, 0 <= n ->
  all_digits (str_of_Z n) /\ str_of_Z n <> [] /\ digits_value (str_of_Z n) = n.
Proof.
  intros n Hn. pose proof (DecimalZ.of_to n) as Hot. unfold str_of_Z.
  destruct n as [|p|p]; [| |lia].
  - simpl. repeat split; try congruence. repeat constructor.
  - cbn [Z.to_int] in *. cbn [NilZero.string_of_int Z.of_int] in *.
    unfold NilZero.string_of_uint.
    destruct (Pos.to_uint p) eqn:E; cbn [list_ascii_of_string];
    try (split; [rewrite <- E in *; apply las_uint_digits|split; [rewrite <- E; rewrite E; discriminate|]];
         unfold digits_value; fold dstep; rewrite las_uint_value; exact Hot).
    exfalso. simpl in Hot. discriminate.
Qed.

Lemma str_of_Z_neg : forall n, n < 0 -> str_of_Z n = minus :: str_of_Z (- n).
Proof.
  intros [|p|p] H; try lia. unfold str_of_Z. simpl. reflexivity.
Qed.

Lemma str_of_Z_inj : forall m n, str_of_Z m = str_of_Z n -> m = n.
Proof.
  intros m n H. unfold str_of_Z in H.
  assert (Hs : NilZero.string_of_int (Z.to_int m) = NilZero.string_of_int (Z.to_int n)).
  { rewrite <- (string_of_list_ascii_of_string (NilZero.string_of_int (Z.to_int m))).
    rewrite <- (string_of_list_ascii_of_string (NilZero.string_of_int (Z.to_int n))). rewrite H. reflexivity. }
  pose proof (f_equal NilZero.int_of_string Hs) as Hi.
  assert (Hnn : forall k, NilZero.int_of_string (NilZero.string_of_int (Z.to_int k)) = Some (Z.to_int k)).
  { intro k. apply NilZero.isi; destruct k as [|p|p]; simpl; try discriminate.
    - intro E; inversion E. apply (DecimalPos.Unsigned.to_uint_nonnil p). assumption.
    - intro E; inversion E. apply (DecimalPos.Unsigned.to_uint_nonnil p). assumption. }
  rewrite !Hnn in Hi. inversion Hi as [Hk].
  rewrite <- (DecimalZ.of_to m), <- (DecimalZ.of_to n), Hk. reflexivity.
Qed.

(** Integer form of the commify property. *)

Lemma str_of_Z_split : forall n, str_of_Z n = sign_text n ++ str_of_Z (Z.abs n).
Proof.
  intro n. unfold sign_text. destruct (n <? 0) eqn:E.
  - rewrite str_of_Z_neg by lia. simpl. f_equal. f_equal. lia.
  - simpl. f_equal. lia.
Qed.

Lemma sign_text_ok : forall n, sign_ok (sign_text n).
Proof. intro n; unfold sign_text, sign_ok; destruct (n <? 0); auto. Qed.

Lemma commify_int : forall n sep fuel, plain_sep sep ->
  (List.length (str_of_Z (Z.abs n)) < fuel)%nat ->
  exists out, commify fuel (str_of_Z n) sep = Some (Ok (sign_text n ++ out)) /\
              grouped sep (str_of_Z (Z.abs n)) out.
Proof.
  intros n sep fuel Hsep Hf.
  destruct (str_of_Z_nonneg (Z.abs n)) as (Hd & Hne & _); [lia|].
  destruct (commify_correct fuel sep (sign_text n) (str_of_Z (Z.abs n)) [] Hf Hsep (sign_text_ok n) Hd Hne I)
    as (out & Ho & Hg).
  rewrite !app_nil_r in Ho. rewrite <- str_of_Z_split in Ho. eauto.
Qed.

Lemma strip_app : forall c a b, strip_char c (a ++ b) = strip_char c a ++ strip_char c b.
Proof. intros; unfold strip_char; apply filter_app. Qed.

Lemma strip_digits : forall c s, is_digit c = false -> all_digits s -> strip_char c s = s.
Proof.
  intros c s Hc Hs. unfold strip_char. induction Hs as [|x s Hx Hs IH]; simpl; [reflexivity|].
  destruct (Ascii.eqb_spec x c) as [->|]; [congruence|]. simpl. f_equal. assumption.
Qed.

Lemma strip_concat : forall c gs, is_digit c = false -> Forall all_digits gs ->
  strip_char c (concat (map (fun x => [c] ++ x) gs)) = concat gs.
Proof.
  intros c gs Hc H. induction H as [|g gs Hg Hgs IH]; [reflexivity|].
  cbn [map concat]. rewrite !strip_app, IH. unfold strip_char at 1. simpl.
  rewrite Ascii.eqb_refl. simpl. rewrite strip_digits by assumption. reflexivity.
Qed.

Lemma all_digits_concat : forall gs, all_digits (concat gs) -> Forall all_digits gs.
Proof.
  induction gs as [|g gs IH]; simpl; intro H; constructor; apply all_digits_app in H; tauto.
Qed.

Lemma grouped_strip : forall c ds out, is_digit c = false -> all_digits ds ->
  grouped [c] ds out -> strip_char c out = ds.
Proof.
  intros c ds out Hc Hd (g & gs & -> & _ & _ & ->).
  apply all_digits_app in Hd. destruct Hd as [Hg Hgs].
  rewrite strip_app, strip_digits by assumption. f_equal.
  apply strip_concat; [assumption|]. apply all_digits_concat. assumption.
Qed.

(** With a one-character separator other than the minus sign, removing it
    gives back the decimal text. *)
Lemma commify_strip : forall n c fuel, is_digit c = false -> c <> backslash -> c <> minus ->
  (List.length (str_of_Z (Z.abs n)) < fuel)%nat ->
  exists s, commify fuel (str_of_Z n) [c] = Some (Ok s) /\ strip_char c s = str_of_Z n.
Proof.
  intros n c fuel Hc Hb Hm Hf.
  assert (Hp : plain_sep [c]).
  { split; [assumption|]. intros [E|[]]. congruence. }
  destruct (commify_int n [c] fuel Hp Hf) as (out & Ho & Hg).
  exists (sign_text n ++ out). split; [assumption|].
  rewrite strip_app. rewrite (str_of_Z_split n). f_equal.
  - unfold sign_text. destruct (n <? 0); [|reflexivity]. unfold strip_char. cbn [filter].
    destruct (Ascii.eqb_spec minus c) as [<-|]; [congruence|reflexivity].
  - eapply grouped_strip; eauto. apply str_of_Z_nonneg. lia.
Qed.

(** The grouping is unique: the specification determines the text. *)
Lemma groups_unique : forall gs gs' : list str,
  Forall (fun x => List.length x = 3%nat) gs -> Forall (fun x => List.length x = 3%nat) gs' ->
  concat gs = concat gs' -> gs = gs'.
Proof.
  induction gs as [|g gs IH]; intros [|g' gs'] H H' E; auto.
  - simpl in E. inversion H'; subst. destruct g'; simpl in *; congruence.
  - simpl in E. inversion H; subst. destruct g; simpl in *; congruence.
  - inversion H; subst. inversion H'; subst. simpl in E.
    assert (g = g') as ->.
    { apply (f_equal (firstn 3)) in E. rewrite !firstn_app in E.
      replace (3 - List.length g)%nat with 0%nat in E by lia.
      replace (3 - List.length g')%nat with 0%nat in E by lia.
      rewrite !firstn_O, !app_nil_r in E.
      rewrite !firstn_all2 in E by lia. assumption. }
    f_equal. apply IH; auto. apply app_inv_head in E. assumption.
Qed.

Lemma length_concat3 : forall gs : list str, Forall (fun x => List.length x = 3%nat) gs ->
  List.length (concat gs) = (3 * List.length gs)%nat.
Proof. induction 1 as [|g gs Hg H IH]; simpl; [reflexivity|]. rewrite app_length, IH. lia. Qed.

Lemma grouped_unique : forall sep ds o1 o2, grouped sep ds o1 -> grouped sep ds o2 -> o1 = o2.
Proof.
  intros sep ds o1 o2 (g & gs & E & Hg & Hgs & ->) (g' & gs' & E' & Hg' & Hgs' & ->).
  assert (El : List.length g = List.length g').
  { pose proof (f_equal (@List.length ascii) E) as L. pose proof (f_equal (@List.length ascii) E') as L'.
    rewrite app_length, length_concat3 in L, L' by assumption. lia. }
  assert (Eg : g = g' /\ concat gs = concat gs').
  { rewrite E in E'. clear -El E'. revert g' El E'. induction g as [|x g IH]; intros [|y g'] El E'; simpl in *; try discriminate.
    - auto.
    - inversion E'. subst. destruct (IH g') as [-> ->]; auto. }
  destruct Eg as [-> Eg]. apply groups_unique in Eg; try assumption. subst. reflexivity.
Qed.
