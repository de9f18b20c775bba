(** Lemmas for tables in files. *)
From Coq Require Import ZArith Reals String Ascii Bool List Lia.
From Verif Require Import PyBase PyStr CityModel CitySpec CityProofs VecModel RuptModel PolyModel OriginModel JsonModel FactoryModel FactorySpec ReadProofs WriteModel WriteSpec WriteProofs TextSpec TextProofs TableModel TableSpec.
Import ListNotations.
Local Arguments str_of _ : simpl never.

(** ** Fields *)
Definition comma : ascii := ","%char.
Lemma plain_run s : existsb special s = false -> forall cur, fields_from Plain cur s = Some [rev cur ++ s].
Proof.
  induction s as [|c s IH]; intros E cur; cbn [fields_from]; [rewrite app_nil_r; reflexivity|]. cbn [existsb] in E. apply orb_false_iff in E. destruct E as [E1 E2]. unfold special in E1. apply orb_false_iff in E1. destruct E1 as [E1 _]. rewrite E1, (IH E2). cbn [rev]. rewrite <- app_assoc. reflexivity.
Qed.
Lemma plain_run_more s rest : existsb special s = false -> forall cur, fields_from Plain cur (s ++ ","%char :: rest) = option_map (cons (rev cur ++ s)) (fields_from Start [] rest).
Proof.
  induction s as [|c s IH]; intros E cur; cbn [fields_from app]; [rewrite app_nil_r; reflexivity|]. cbn [existsb] in E. apply orb_false_iff in E. destruct E as [E1 E2]. unfold special in E1. apply orb_false_iff in E1. destruct E1 as [E1 _]. rewrite E1, (IH E2). cbn [rev]. rewrite <- app_assoc. reflexivity.
Qed.
Lemma quoted_run s rest : forall cur, fields_from Quoted cur (double_quotes s ++ quot :: rest) = fields_from Closing (rev s ++ cur) rest.
Proof.
  induction s as [|c s IH]; intro cur; [cbn [double_quotes flat_map app fields_from]; rewrite Ascii.eqb_refl; reflexivity|]. unfold double_quotes. cbn [flat_map]. fold (double_quotes s). destruct (Ascii.eqb c quot) eqn:E; cbn [app fields_from].
  - apply Ascii.eqb_eq in E. subst c. rewrite !Ascii.eqb_refl, IH. cbn [rev]. rewrite <- app_assoc. reflexivity.
  - rewrite E, IH. cbn [rev]. rewrite <- app_assoc. reflexivity.
Qed.
Lemma field_last s : fields (csv_field s) = Some [s].
Proof.
  unfold fields, csv_field. destruct (existsb special s) eqn:E.
  - cbn [fields_from]. rewrite Ascii.eqb_refl, quoted_run. cbn [fields_from]. rewrite app_nil_r, rev_involutive. reflexivity.
  - destruct s as [|c s]; [reflexivity|]. cbn [fields_from]. cbn [existsb] in E. apply orb_false_iff in E. destruct E as [E1 E2]. unfold special in E1. apply orb_false_iff in E1. destruct E1 as [E1 E3]. rewrite E1, E3. apply plain_run. exact E2.
Qed.
Lemma field_more s rest : fields (csv_field s ++ ","%char :: rest) = option_map (cons s) (fields rest).
Proof.
  unfold fields, csv_field. destruct (existsb special s) eqn:E.
  - cbn [fields_from app]. rewrite Ascii.eqb_refl, <- app_assoc. cbn [app]. rewrite quoted_run. cbn [fields_from]. rewrite app_nil_r, rev_involutive. reflexivity.
  - destruct s as [|c s]; [reflexivity|]. cbn [fields_from app]. cbn [existsb] in E. apply orb_false_iff in E. destruct E as [E1 E2]. unfold special in E1. apply orb_false_iff in E1. destruct E1 as [E1 E3]. rewrite E1, E3. apply (plain_run_more s rest E2 [c]).
Qed.
Lemma row_fields fs : fs <> [] -> fields (csv_row fs) = Some fs.
Proof.
  unfold csv_row. induction fs as [|s fs IH]; [congruence|]. intros _. destruct fs as [|s' fs]; [apply field_last|]. transitivity (fields (csv_field s ++ ","%char :: join [","%char] (map csv_field (s' :: fs)))); [reflexivity|].
  rewrite (field_more s _). unfold str in *. rewrite IH by discriminate. reflexivity.
Qed.
(** ** Lines *)
Lemma unbroken_end s : unbroken s <-> no_end s.
Proof. unfold unbroken, no_end. reflexivity. Qed.
Lemma unbroken_app a b : unbroken a -> unbroken b -> unbroken (a ++ b).
Proof. intros A B. apply Forall_app. split; assumption. Qed.
Lemma unbroken_field s : unbroken s -> unbroken (csv_field s).
Proof.
  intro H. unfold csv_field. destruct (existsb special s); [|exact H]. change (quot :: double_quotes s ++ [quot]) with ([quot] ++ double_quotes s ++ [quot]). assert (Q : unbroken [quot]) by (constructor; [split; discriminate|constructor]). apply unbroken_app; [exact Q|]. apply unbroken_app; [|exact Q].
  induction H as [|c s Hc _ IH]; [constructor|]. unfold double_quotes. cbn [flat_map]. apply unbroken_app; [|exact IH]. destruct (Ascii.eqb c quot); [exact (unbroken_app [quot] [quot] Q Q)|constructor; [exact Hc|constructor]].
Qed.
Lemma unbroken_row fs : Forall unbroken fs -> unbroken (csv_row fs).
Proof.
  unfold csv_row. induction 1 as [|s fs H F IH]; [constructor|]. destruct fs as [|s' fs]; [apply unbroken_field; exact H|]. cbn [map join]. cbn [map join] in IH. apply unbroken_app; [apply unbroken_field; exact H|]. apply unbroken_app; [constructor; [split; discriminate|constructor]|exact IH].
Qed.
Lemma body_ended l : body (l ++ [chr 10]) = l.
Proof. unfold body. rewrite rev_app_distr. cbn [rev app]. rewrite Ascii.eqb_refl. apply rev_involutive. Qed.
Lemma row_comma f fs : fs <> [] -> exists a b, csv_row (f :: fs) = a ++ ","%char :: b.
Proof. destruct fs as [|s fs]; [congruence|]. intros _. unfold csv_row. cbn [map join]. eexists _, _. reflexivity. Qed.
Lemma lines_saved rows : Forall (Forall unbroken) rows -> Forall (fun r => exists f fs, r = f :: fs /\ fs <> []) rows ->
  csv_lines (flat_map (fun l => l ++ [chr 10]) (map csv_row rows)) = map csv_row rows.
Proof.
  intros U L. unfold csv_lines. change (fun l : list ascii => l ++ [chr 10]) with ended. rewrite lines_ended by (apply Forall_map; eapply Forall_impl; [|exact U]; intros r H; apply unbroken_end, unbroken_row; exact H).
  rewrite map_map. rewrite (map_ext _ (fun l => l)) by (intro l; apply body_ended). rewrite map_id. clear U. induction L as [|r rows (f & fs & -> & N) _ IH]; [reflexivity|]. cbn [map filter].
  destruct (row_comma f fs N) as (a & b & E). assert (B : forallb is_blank (csv_row (f :: fs)) = false) by (rewrite E, forallb_app; cbn [forallb]; rewrite andb_false_r; reflexivity). rewrite B. cbn [negb]. f_equal. exact IH.
Qed.
Lemma all_fields rows : Forall (fun r => r <> []) rows -> all_some fields (map csv_row rows) = Some rows.
Proof. induction 1 as [|r rows N _ IH]; [reflexivity|]. cbn [map all_some]. rewrite row_fields, IH by exact N. reflexivity. Qed.
(** ** Rows and columns *)
Lemma rows_length n cols : length (rows_of n cols) = n.
Proof. revert cols. induction n as [|n IH]; intro cols; cbn [rows_of length]; [reflexivity|]. rewrite IH. reflexivity. Qed.
Lemma rows_width n : forall cols, Forall (fun r => length r = length cols) (rows_of n cols).
Proof. induction n as [|n IH]; intro cols; cbn [rows_of]; constructor; [apply map_length|]. eapply Forall_impl; [|apply IH]. cbv beta. intros r H. rewrite H. apply map_length. Qed.
Lemma rows_in n : forall (P : str -> Prop) cols, Forall (fun c => length c = n /\ Forall P c) cols -> Forall (Forall P) (rows_of n cols).
Proof.
  induction n as [|n IH]; intros P cols H; cbn [rows_of]; constructor.
  - apply Forall_map. eapply Forall_impl; [|exact H]. cbv beta. intros [|s c] [L F]; [discriminate|]. inversion F; assumption.
  - apply IH. apply Forall_map. eapply Forall_impl; [|exact H]. cbv beta. intros [|s c] [L F]; [discriminate|]. inversion F; subst. split; [cbn in *; lia|assumption].
Qed.
Lemma heads_rows n : forall c cols, length c = n -> map (hd []) (rows_of n (c :: cols)) = c /\ map (@tl str) (rows_of n (c :: cols)) = rows_of n cols.
Proof.
  induction n as [|n IH]; intros c cols L; [destruct c; [split; reflexivity|discriminate]|]. destruct c as [|s c]; [discriminate|]. cbn [rows_of map hd tl]. destruct (IH c (map (@tl str) cols) ltac:(cbn in *; lia)) as [A B]. rewrite A, B. split; reflexivity.
Qed.
Lemma columns_rows n : forall cols, Forall (fun c => length c = n) cols -> columns_of (length cols) (rows_of n cols) = cols.
Proof. induction 1 as [|c cols L _ IH]; [reflexivity|]. cbn [length columns_of]. destruct (heads_rows n c cols L) as [-> ->]. rewrite IH. reflexivity. Qed.
(** ** Reading columns *)
Lemma is_na_iff s : is_na s = true <-> missing_text s.
Proof. unfold is_na, missing_text. rewrite existsb_exists. change (map str_of _) with na_texts. split; [intros (x & I & E); apply str_eqb_eq in E; subst; exact I|intro I; exists s; split; [exact I|apply str_eqb_eq; reflexivity]]. Qed.
Lemma bool_of_none s : bool_of s = None <-> ~ truth_text s.
Proof.
  unfold bool_of, truth_text. set (a := map str_of ["True"; "TRUE"; "true"]%string). set (b := map str_of ["False"; "FALSE"; "false"]%string). change (map str_of ["True"; "TRUE"; "true"; "False"; "FALSE"; "false"]%string) with (a ++ b). rewrite in_app_iff.
  assert (E : forall l, existsb (str_eqb s) l = true <-> In s l) by (intro l; rewrite existsb_exists; split; [intros (x & I & X); apply str_eqb_eq in X; subst; exact I|intro I; exists s; split; [exact I|apply str_eqb_eq; reflexivity]]).
  destruct (existsb (str_eqb s) a) eqn:A; [apply E in A; split; [discriminate|tauto]|]. destruct (existsb (str_eqb s) b) eqn:B; [apply E in B; split; [discriminate|tauto]|].
  split; [intros _ [H|H]; apply E in H; congruence|reflexivity].
Qed.
Lemma all_some_map {A B C} (f : B -> option C) (g : A -> B) (h : A -> C) l : (forall a, In a l -> f (g a) = Some (h a)) -> all_some f (map g l) = Some (map h l).
Proof. induction l as [|a l IH]; intro H; [reflexivity|]. cbn [map all_some]. rewrite (H a (or_introl eq_refl)), IH by (intros b I; apply H; right; exact I). reflexivity. Qed.
Lemma all_some_none {A B} (f : A -> option B) l a : In a l -> f a = None -> all_some f l = None.
Proof. induction l as [|b l IH]; [intros []|]. intros [->|I] E; cbn [all_some]; [rewrite E; reflexivity|]. rewrite (IH I E). destruct (f b); reflexivity. Qed.
(** Integers *)
Definition numeral (c : ascii) : bool := is_digit c || Ascii.eqb c minus.
Lemma int_numeral z : str_of_Z z <> [] /\ forallb numeral (str_of_Z z) = true.
Proof.
  assert (P : forall n, (0 <= n)%Z -> str_of_Z n <> [] /\ forallb numeral (str_of_Z n) = true). { intros n Hn. destruct (str_of_Z_nonneg n Hn) as (D & N & _). split; [exact N|]. apply forallb_forall. intros c I. unfold numeral. unfold all_digits in D. rewrite Forall_forall in D. rewrite (D c I). reflexivity. }
  destruct (Z.ltb_spec z 0) as [L|L]; [|apply P; exact L]. rewrite str_of_Z_neg by exact L. split; [discriminate|]. cbn [forallb]. apply andb_true_iff. split; [reflexivity|apply P; lia].
Qed.
Lemma int_not_na z : is_na (str_of_Z z) = false.
Proof.
  destruct (int_numeral z) as [N F]. unfold is_na. apply not_true_is_false. intro H. apply existsb_exists in H. destruct H as (x & I & E). apply str_eqb_eq in E. subst x.
  assert (A : forallb (fun x : str => match x with [] => true | _ => negb (forallb numeral x) end) na_texts = true) by reflexivity. rewrite forallb_forall in A. specialize (A _ I). cbv beta in A. destruct (str_of_Z z); [congruence|]. rewrite F in A. discriminate.
Qed.
Lemma int_unbroken z : unbroken (str_of_Z z).
Proof. destruct (int_numeral z) as [_ F]. apply Forall_forall. intros c I. rewrite forallb_forall in F. specialize (F c I). split; intros ->; vm_compute in F; discriminate. Qed.
Section Read.
Variable show : R -> str.
Variable number : str -> option fl.
Variable integer : str -> option Z.
Hypothesis SN : shows_numbers show number integer.
Let read_column := read_column number integer.
Lemma read_ints l : l <> [] -> read_column (map str_of_Z l) = Ok (CInts l).
Proof.
  intro N. unfold read_column, TableModel.read_column. rewrite (all_some_map _ _ (fun z => z)) by (intros z _; rewrite int_not_na; apply SN). rewrite map_id. destruct l; [congruence|reflexivity].
Qed.
Lemma float_not_na x : is_na (show x) = false.
Proof. apply not_true_is_false. intro H. apply is_na_iff in H. destruct SN as (_ & F & _). destruct (F x) as (_ & _ & M & _). contradiction. Qed.
Lemma na_empty : is_na [] = true.
Proof. reflexivity. Qed.
Lemma read_floats l : l <> [] -> exists l', read_column (map (show_float show) l) = Ok (CFloats l') /\ Forall2 (fun x y => match x with None => y = None | Some r => number (show r) = Some y end) l l'.
Proof.
  intro N. destruct SN as (_ & F & _). set (back := fun x : fl => match x with Some r => match number (show r) with Some y => y | None => None end | None => None end). exists (map back l). split.
  - unfold read_column, TableModel.read_column. destruct l as [|x l]; [congruence|]. rewrite (all_some_none _ _ (show_float show x)); [|left; reflexivity|destruct x as [r|]; [cbn [show_float]; rewrite float_not_na; apply F|reflexivity]].
    rewrite (all_some_map _ _ back); [reflexivity|]. intros [r|] _; [|reflexivity]. cbn [show_float back]. rewrite float_not_na. destruct (F r) as (_ & M & _). destruct (number (show r)); [reflexivity|congruence].
  - clear N. induction l as [|x l IH]; constructor; [|exact IH]. destruct x as [r|]; [|reflexivity]. unfold back. destruct (F r) as (_ & M & _). destruct (number (show r)); [reflexivity|congruence].
Qed.
Lemma show_bool_truth b : truth_text (show_bool b) /\ is_na (show_bool b) = false /\ bool_of (show_bool b) = Some b.
Proof. split; [destruct b; vm_compute; tauto|]. split; destruct b; reflexivity. Qed.
Lemma read_bools l : l <> [] -> read_column (map show_bool l) = Ok (CBools l).
Proof.
  intro N. destruct SN as (_ & _ & F). unfold read_column, TableModel.read_column. destruct l as [|b l]; [congruence|]. destruct (show_bool_truth b) as (T & A & _). destruct (F _ T) as [F1 F2].
  rewrite (all_some_none _ _ (show_bool b)); [|left; reflexivity|rewrite A; exact F1]. rewrite (all_some_none _ _ (show_bool b)); [|left; reflexivity|rewrite A; exact F2]. rewrite (all_some_map _ _ (fun b => b)) by (intros b' _; apply show_bool_truth). rewrite map_id. reflexivity.
Qed.
Lemma read_texts l : (exists s, In (Some s) l /\ word number integer s) -> exists l', read_column (map show_text l) = Ok (CTexts l') /\
  Forall2 (fun a b => match a with Some s => (missing_text s /\ b = None) \/ (~ missing_text s /\ b = Some s) | None => b = None end) l l'.
Proof.
  intros (s & I & M & T & Ei & En). exists (map (fun s => if is_na s then None else Some s) (map show_text l)). split.
  - unfold read_column, TableModel.read_column. assert (I' : In s (map show_text l)) by (apply in_map_iff; exists (Some s); split; [reflexivity|exact I]). assert (A : is_na s = false) by (apply not_true_is_false; intro H; apply is_na_iff in H; contradiction). apply bool_of_none in T.
    rewrite (all_some_none _ _ s I') by (rewrite A; exact Ei). rewrite (all_some_none _ _ s I') by (rewrite A; exact En). rewrite (all_some_none _ _ s I' T). rewrite (all_some_none _ _ s I') by (rewrite A; exact T). reflexivity.
  - clear. induction l as [|[s|] l IH]; cbn [map]; constructor; try exact IH; [|reflexivity]. cbn [show_text]. destruct (is_na s) eqn:E; [left; split; [apply is_na_iff; exact E|reflexivity]|right; split; [intro H; apply is_na_iff in H; congruence|reflexivity]].
Qed.
Lemma read_cells c n : clen c = n -> n <> 0%nat -> (forall l, c = CTexts l -> exists s, In (Some s) l /\ word number integer s) -> exists c', read_column (cells show c) = Ok c' /\ comes_back show number integer c c'.
Proof.
  intros L N W. assert (K : forall A (l : list A), length l = n -> l <> []) by (intros A [|x l] H; [cbn in H; congruence|discriminate]). destruct c as [l|l|l|l]; cbn [cells clen] in *.
  - eexists. split; [apply read_ints; eauto|constructor].
  - destruct (read_floats l (K _ _ L)) as (l' & E & F). eexists. split; [exact E|constructor; exact F].
  - eexists. split; [apply read_bools; eauto|constructor].
  - destruct (read_texts l (W l eq_refl)) as (l' & E & F). eexists. split; [exact E|constructor; [apply W; reflexivity|exact F]].
Qed.
Lemma cells_length c : length (cells show c) = clen c.
Proof. destruct c; apply map_length. Qed.
Lemma read_all n cols : n <> 0%nat -> Forall (fun p : str * column => clen (snd p) = n) cols -> wordy number integer (mktable [] cols) ->
  exists cs, all_ok read_column (map (fun p => cells show (snd p)) cols) = Ok cs /\ Forall2 (fun p c => comes_back show number integer (snd p) c) cols cs.
Proof.
  intros N L W. unfold wordy in W. cbn [t_columns] in W. induction L as [|[k c] cols L _ IH]; [exists []; split; [reflexivity|constructor]|]. inversion W as [|? ? Wc W']; subst. cbn [snd] in *. destruct (IH W') as (cs & E & F).
  destruct (read_cells c (clen c) eq_refl N) as (c' & Ec & B); [intros l ->; exact Wc|]. exists (c' :: cs). split; [|constructor; assumption]. cbn [map all_ok snd]. rewrite Ec. cbn [bind]. rewrite E. reflexivity.
Qed.
End Read.
Lemma header_named i h : Forall (fun s => s <> []) h -> header_names i h = h.
Proof. intro H. revert i. induction H as [|s h N _ IH]; intro i; [reflexivity|]. cbn [header_names]. rewrite IH. destruct s; [congruence|reflexivity]. Qed.
Lemma twice_iff l : has_twice l = false <-> NoDup l.
Proof.
  induction l as [|s l IH]; cbn [has_twice]; [split; [constructor|reflexivity]|]. rewrite orb_false_iff, IH. split.
  - intros [A B]. constructor; [|exact B]. intro I. assert (col_in s l = true) by (apply existsb_exists; exists s; split; [exact I|apply str_eqb_eq; reflexivity]). congruence.
  - intro H. inversion H as [|? ? N D]; subst. split; [|exact D]. apply not_true_is_false. intro E. apply existsb_exists in E. destruct E as (x & I & X). apply str_eqb_eq in X. subst. contradiction.
Qed.
