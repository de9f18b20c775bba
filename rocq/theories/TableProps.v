(** Property C112: saving and loading tables of cities. *)
From Coq Require Import ZArith Reals String Ascii Bool List Lia DecimalString DecimalZ DecimalPos.
From Verif Require Import PyBase PyStr CityModel CitySpec CityProofs TableModel TableSpec TableProofs.
Import ListNotations.
Local Arguments str_of _ : simpl never.

Lemma make_table_ok t : (forall n, In n (map str_of ["name"; "lat"; "lon"]%string) -> In n (map fst (t_columns t))) -> make_table t = Ok t.
Proof.
  intro H. unfold make_table, reqfields. cbn [map filter]. assert (A : forall n, In n (map str_of ["name"; "lat"; "lon"]%string) -> col_in n (map fst (t_columns t)) = true) by (intros n I; apply col_in_iff, H, I).
  rewrite !A by (vm_compute; tauto). reflexivity.
Qed.
Lemma make_table_inv t t' : make_table t = Ok t' -> t' = t /\ forall n, In n (map str_of ["name"; "lat"; "lon"]%string) -> In n (map fst (t_columns t)).
Proof.
  unfold make_table, reqfields. cbn [map filter]. intro H. destruct (col_in "name"%string _) eqn:A; destruct (col_in "lat"%string _) eqn:B; destruct (col_in "lon"%string _) eqn:C; cbn [length Nat.ltb Nat.leb] in H; try discriminate. injection H as <-. split; [reflexivity|]. apply col_in_iff in A, B, C. cbn [map In]. intros n [<-|[<-|[<-|[]]]]; assumption.
Qed.
Section Tables.
Variable show : R -> str.
Variable number : str -> option fl.
Variable integer : str -> option Z.
(** ** C112 *)
(** What is loaded from a file that was saved: the labels as a first column, and the columns with missing texts. *)
Theorem C112_saved : forall t, shows_numbers show number integer -> savable t -> wordy number integer t ->
  exists t', from_csv number integer (save show t) = Ok t' /\ t_index t' = map Z.of_nat (seq 0 (length (t_index t))) /\
    exists cols, t_columns t' = (str_of "Unnamed: 0", CInts (t_index t)) :: cols /\ Forall2 (fun p p' => fst p' = fst p /\ comes_back show number integer (snd p) (snd p')) (t_columns t) cols.
Proof.
  intros [index cols] SN (N & D & F & Rq) W. cbn [t_index t_columns] in *. set (names := map fst cols) in *.
  set (data := map str_of_Z index :: map (fun p => cells show (snd p)) cols). set (n := length index) in *. assert (Nz : n <> 0%nat) by (destruct index; [congruence|discriminate]).
  assert (Ln : Forall (fun p : str * column => clen (snd p) = n) cols) by (eapply Forall_impl; [|exact F]; intros [k c] (_ & _ & _ & H); cbn [snd] in *; destruct c; cbn [clen]; tauto).
  assert (Ld : Forall (fun c => length c = n) data) by (constructor; [apply map_length|]; apply Forall_map; eapply Forall_impl; [|exact Ln]; intros p H; rewrite cells_length; exact H).
  assert (Ud : Forall (fun c => length c = n /\ Forall unbroken c) data). { constructor; [split; [apply map_length|apply Forall_map, Forall_forall; intros z _; apply int_unbroken]|]. apply Forall_map. eapply Forall_impl; [|exact F]. intros [k c] (_ & _ & _ & H). cbn [snd] in *. split; [rewrite cells_length; destruct c; cbn [clen]; tauto|]. destruct c as [l|l|l|l]; cbn [cells]; apply Forall_map.
    - apply Forall_forall. intros z _. apply int_unbroken.
    - apply Forall_forall. intros [x|] _; [|constructor]. cbn [show_float]. destruct SN as (_ & G & _). destruct (G x) as (_ & _ & _ & U). eapply Forall_impl; [|exact U]. intros c (_ & _ & A & B). exact (conj A B).
    - apply Forall_forall. intros b _. destruct b; repeat (constructor; [split; discriminate|]); constructor.
    - destruct H as [_ H]. eapply Forall_impl; [|exact H]. intros [s|] U; [exact U|constructor]. }
  assert (Nn : cols <> []) by (intros ->; exact (Rq (str_of "name") ltac:(left; reflexivity))).
  assert (Hn : Forall (fun s => s <> []) names) by (apply Forall_map; eapply Forall_impl; [|exact F]; cbv beta; tauto).
  unfold from_csv, save. cbn [t_index t_columns]. fold names n data. change (csv_row ([] :: names) :: map csv_row (rows_of n data)) with (map csv_row (([] :: names) :: rows_of n data)).
  assert (Wd : Forall (fun r => length r = S (length cols)) (rows_of n data)) by (eapply Forall_impl; [|apply rows_width]; intros r H; rewrite H; unfold data; cbn [length]; rewrite map_length; reflexivity).
  rewrite lines_saved; [rewrite all_fields| |].
  2: { constructor; [discriminate|]. eapply Forall_impl; [|exact Wd]. intros [|x r] H; discriminate. }
  2: { constructor; [constructor; [constructor|apply Forall_map; eapply Forall_impl; [|exact F]; intros p (_ & _ & U & _); exact U]|]. apply rows_in. exact Ud. }
  2: { constructor; [exists [], names; split; [reflexivity|]; unfold names; destruct cols; [congruence|discriminate]|]. eapply Forall_impl; [|exact Wd]. intros [|x r] H; [discriminate|]. exists x, r. split; [reflexivity|]. destruct r; [|discriminate]. destruct cols; [congruence|discriminate]. }
  cbv zeta. cbn [header_names]. rewrite header_named by exact Hn. change (str_of "Unnamed: " ++ digit 0) with (str_of "Unnamed: 0").
  assert (T : has_twice (str_of "Unnamed: 0" :: names) = false). { apply twice_iff. constructor; [|exact D]. intro I. apply in_map_iff in I. destruct I as (p & E & I). rewrite Forall_forall in F. destruct (F p I) as (_ & X & _). contradiction. }
  assert (A : forallb (fun r => Nat.eqb (length r) (length ([] :: names))) (rows_of n data) = true) by (apply forallb_forall; intros r I; apply Nat.eqb_eq; rewrite Forall_forall in Wd; rewrite (Wd r I); unfold names; cbn [length]; rewrite map_length; reflexivity).
  destruct (read_all show number integer SN n cols Nz Ln W) as (cs & E & B). assert (All : all_ok (read_column number integer) data = Ok (CInts index :: cs)) by (unfold data; cbn [all_ok]; rewrite (read_ints show number integer SN index N); cbn [bind]; rewrite E; reflexivity).
  unfold str in *. rewrite T, A. cbn [orb negb]. assert (Lh : length ([] :: names) = length data) by (unfold names, data; cbn [length]; rewrite !map_length; reflexivity). match goal with |- context [columns_of ?k ?r] => assert (Cr : columns_of k r = data) by (transitivity (columns_of (length data) (rows_of n data)); [f_equal; exact Lh|apply columns_rows; exact Ld]); rewrite Cr end. rewrite rows_length.
  match goal with |- exists t', bind ?x ?f = Ok t' /\ _ => assert (Bx : bind x f = f (CInts index :: cs)) by (transitivity (bind (Ok (CInts index :: cs)) f); [f_equal; exact All|reflexivity]); rewrite Bx end. cbn [bind combine].
  assert (Fs : map fst (combine names cs) = names). { clear - B. unfold names. induction B as [|p c cols cs _ _ IH]; [reflexivity|]. cbn [map combine fst]. f_equal. exact IH. }
  eexists. split; [apply make_table_ok; cbn [t_columns map fst]; intros k I; right; assert (Q : In k (map fst (combine names cs))) by (rewrite Fs; apply Rq; exact I); exact Q|]. cbn [t_index t_columns]. split; [reflexivity|]. eexists. split; [reflexivity|].
  clear - B. unfold names. induction B as [|p c cols cs H _ IH]; [constructor|]. cbn [map combine]. constructor; [split; [reflexivity|exact H]|exact IH].
Qed.
(** Finding: so the table is never the one that was saved. *)
Theorem C112_same_refuted : forall t, shows_numbers show number integer -> savable t -> wordy number integer t -> from_csv number integer (save show t) <> Ok t.
Proof.
  intros t SN S W E. destruct (C112_saved t SN S W) as (t' & E' & _ & cols & C & F). rewrite E in E'. injection E' as <-. assert (L : length (t_columns t) = length cols) by (clear C E S W; induction F; cbn; congruence). rewrite C in L. cbn [length] in L. lia.
Qed.
(** Finding: the country code of Namibia, and a city called so, is lost. *)
Theorem C112_namibia_refuted : forall t k l i, shows_numbers show number integer -> savable t -> wordy number integer t -> In (k, CTexts l) (t_columns t) -> nth_error l i = Some (Some (str_of "NA")) ->
  exists t' l', from_csv number integer (save show t) = Ok t' /\ In (k, CTexts l') (t_columns t') /\ nth_error l' i = Some None.
Proof.
  intros t k l i SN S W I E. destruct (C112_saved t SN S W) as (t' & E' & _ & cols & C & F). exists t'. assert (G : exists c', In (k, c') cols /\ comes_back show number integer (CTexts l) c'). { clear - F I. induction F as [|p [k' c'] ps cols [Hk Hc] _ IH]; [destruct I|]. destruct I as [->|I]; [exists c'; cbn [fst snd] in *; subst; split; [left; reflexivity|exact Hc]|]. destruct (IH I) as (c & A & B). exists c. split; [right; exact A|exact B]. }
  destruct G as (c' & Ic & B). inversion B as [| | |? l' _ Fl]; subst. exists l'. split; [exact E'|]. split; [rewrite C; right; exact Ic|]. clear - Fl E. revert i E. induction Fl as [|a b l l' H _ IH]; intros [|i] E; try discriminate; cbn [nth_error] in *; [|apply IH; exact E]. injection E as ->. destruct H as [[_ ->]|[M _]]; [reflexivity|]. exfalso. apply M. vm_compute. tauto.
Qed.
(** Whatever is loaded has the three columns, and columns as long as its list of labels. *)
Lemma read_column_len l c : TableModel.read_column number integer l = Ok c -> clen c = length l.
Proof.
  assert (K : forall A B (f : A -> option B) l bs, all_some f l = Some bs -> length bs = length l). { intros A B f. induction l0 as [|a r IH]; cbn [all_some]; intros bs H; [injection H as <-; reflexivity|]. destruct (f a); [|discriminate]. destruct (all_some f r) as [bs'|] eqn:E; [|discriminate]. injection H as <-. cbn [length]. f_equal. apply IH. reflexivity. }
  unfold TableModel.read_column. destruct (all_some _ l) as [zs|] eqn:E1; [intro H; destruct l; injection H as <-; [reflexivity|exact (K _ _ _ _ _ E1)]|]. destruct (all_some (fun s => if is_na s then Some None else number s) l) as [xs|] eqn:E2; [intro H; injection H as <-; exact (K _ _ _ _ _ E2)|]. destruct (all_some bool_of l) as [bs|] eqn:E3; [intro H; injection H as <-; exact (K _ _ _ _ _ E3)|].
  match goal with |- match ?x with _ => _ end = _ -> _ => destruct x end; intro H; [discriminate|]. injection H as <-. cbn [clen]. apply map_length.
Qed.
Lemma columns_of_len n : forall rows, Forall (fun c => length c = length rows) (columns_of n rows).
Proof. induction n as [|n IH]; intro rows; cbn [columns_of]; constructor; [apply map_length|]. eapply Forall_impl; [|apply IH]. cbv beta. intros c ->. apply map_length. Qed.
Lemma all_ok_forall (P : column -> Prop) ls cs : (forall l c, In l ls -> TableModel.read_column number integer l = Ok c -> P c) -> all_ok (TableModel.read_column number integer) ls = Ok cs -> Forall P cs.
Proof.
  revert cs. induction ls as [|l ls IH]; intros cs H E; cbn [all_ok] in E; [injection E as <-; constructor|]. destruct (TableModel.read_column number integer l) as [c|] eqn:Ec; [|discriminate]. cbn [bind] in E. destruct (all_ok _ ls) as [cs'|] eqn:Es; [|discriminate]. cbn [bind] in E. injection E as <-. constructor; [apply (H l); [left; reflexivity|exact Ec]|]. apply IH; [|reflexivity]. intros l' c' I. apply H. right. exact I.
Qed.
Theorem C112_shape : forall text t, from_csv number integer text = Ok t -> (forall n, In n (map str_of ["name"; "lat"; "lon"]%string) -> In n (map fst (t_columns t))) /\ Forall (fun p => clen (snd p) = length (t_index t)) (t_columns t).
Proof.
  intros text t. unfold from_csv. destruct (all_some fields _) as [[|h rows]|]; try discriminate. cbv zeta. destruct (_ || _)%bool; [discriminate|]. destruct (all_ok _ _) as [cs|] eqn:E; [|discriminate]. cbn [bind]. intro M. apply make_table_inv in M. destruct M as [-> R]. split; [exact R|]. cbn [t_columns t_index]. rewrite map_length, seq_length.
  assert (A : Forall (fun c => clen c = length rows) cs). { apply (all_ok_forall _ _ _) with (2 := E). intros l c I Ec. rewrite (read_column_len _ _ Ec). pose proof (columns_of_len (length h) rows) as L. rewrite Forall_forall in L. apply L. exact I. }
  clear - A. revert A. generalize (header_names 0 h). intro ns. revert cs. induction ns as [|n ns IH]; intros [|c cs] A; cbn [combine]; constructor; inversion A; subst; [assumption|apply IH; assumption].
Qed.
End Tables.
Print Assumptions C112_saved.
Print Assumptions C112_same_refuted.
Print Assumptions C112_namibia_refuted.
Print Assumptions C112_shape.
Definition ex_show (x : R) : str := str_of "0.5".
Definition ex_number (s : str) : option fl := if str_eqb s (str_of "0.5") then Some (Some (1 / 2)%R) else None.
Definition ex_integer (s : str) : option Z := option_map Z.of_int (NilZero.int_of_string (string_of_list_ascii s)).
Definition ex_table : table := mktable [4%Z; 9%Z] [(str_of "name", CTexts [Some (str_of "Ur, ""old"""); Some (str_of "Otavi")]); (str_of "ccode", CTexts [Some (str_of "IQ"); Some (str_of "NA")]);
  (str_of "lat", CFloats [Some (1 / 2)%R; None]); (str_of "lon", CFloats [Some 7%R; Some 8%R]); (str_of "iscap", CBools [true; false]); (str_of "pop", CInts [-3; 5000]%Z)].
Example C112_ex : shows_numbers ex_show ex_number ex_integer /\ savable ex_table /\ wordy ex_number ex_integer ex_table /\
  from_csv ex_number ex_integer (save ex_show ex_table) = Ok (mktable [0%Z; 1%Z] [(str_of "Unnamed: 0", CInts [4%Z; 9%Z]); (str_of "name", CTexts [Some (str_of "Ur, ""old"""); Some (str_of "Otavi")]); (str_of "ccode", CTexts [Some (str_of "IQ"); None]);
  (str_of "lat", CFloats [Some (1 / 2)%R; None]); (str_of "lon", CFloats [Some (1 / 2)%R; Some (1 / 2)%R]); (str_of "iscap", CBools [true; false]); (str_of "pop", CInts [-3; 5000]%Z)]).
Proof.
  split; [|split; [|split; [|vm_compute; reflexivity]]].
  - split; [|split].
    + intro z. unfold ex_integer, str_of_Z. rewrite string_of_list_ascii_of_string, NilZero.isi. { cbn [option_map]. rewrite DecimalZ.of_to. reflexivity. }
      * destruct z; cbn; try discriminate. intro H. injection H as H. exact (DecimalPos.Unsigned.to_uint_nonnil _ H).
      * destruct z; cbn; try discriminate. intro H. injection H as H. exact (DecimalPos.Unsigned.to_uint_nonnil _ H).
    + intro x. split; [reflexivity|]. split; [discriminate|]. split; [intro H; vm_compute in H; repeat (destruct H as [H|H]; [discriminate|]); destruct H|]. repeat (constructor; [repeat split; discriminate|]). constructor.
    + intros s H. unfold truth_text in H. cbn [map In] in H. repeat (destruct H as [<-|H]; [split; reflexivity|]). destruct H.
  - split; [discriminate|]. split; [apply twice_iff; reflexivity|]. split.
    + repeat (constructor; [split; [discriminate|]; split; [discriminate|]; split; [repeat (constructor; [split; discriminate|]); constructor|]; first [reflexivity|split; [reflexivity|repeat (constructor; [repeat (constructor; [split; discriminate|]); constructor|]); constructor]]|]). constructor.
    + intros n H. vm_compute in H |- *. tauto.
  - assert (D : forall s, is_na s = false -> bool_of s = None -> ex_integer s = None -> ex_number s = None -> word ex_number ex_integer s) by (intros s A B C E; split; [intro H; apply is_na_iff in H; congruence|]; split; [apply bool_of_none; exact B|split; assumption]).
    constructor; [exists (str_of "Otavi"); split; [right; left; reflexivity|apply D; reflexivity]|]. constructor; [exists (str_of "IQ"); split; [left; reflexivity|apply D; reflexivity]|]. repeat (constructor; [exact I|]). constructor.
Qed.
(** Finding: names that are numbers come back as numbers. *)
Theorem C112_retyped_refuted : exists show number integer t t' z, shows_numbers show number integer /\ savable t /\ In (str_of "name", CTexts [Some (str_of "1770")]) (t_columns t) /\
  from_csv number integer (save show t) = Ok t' /\ In (str_of "name", CInts [z]) (t_columns t').
Proof.
  exists ex_show, ex_number, ex_integer, (mktable [0%Z] [(str_of "name", CTexts [Some (str_of "1770")]); (str_of "lat", CFloats [Some 7%R]); (str_of "lon", CFloats [Some 8%R])]). eexists _, 1770%Z. split; [apply C112_ex|]. split; [|split; [left; reflexivity|split; [vm_compute; reflexivity|right; left; reflexivity]]].
  split; [discriminate|]. split; [apply twice_iff; reflexivity|]. split.
  - repeat (constructor; [split; [discriminate|]; split; [discriminate|]; split; [repeat (constructor; [split; discriminate|]); constructor|]; first [reflexivity|split; [reflexivity|repeat (constructor; [repeat (constructor; [split; discriminate|]); constructor|]); constructor]]|]). constructor.
  - intros n H. vm_compute in H |- *. tauto.
Qed.
Print Assumptions C112_retyped_refuted.

(** A newline more or less at the end of the file makes no difference. *)
Lemma csv_lines_newline text : csv_lines (text ++ [chr 10]) = csv_lines text.
Proof.
  unfold csv_lines. set (g := fun ls => filter (fun l => negb (forallb is_blank l)) (map body ls)). change (g (FactoryModel.lines_from [] (text ++ [chr 10])) = g (FactoryModel.lines_from [] text)).
  assert (G : forall n text cur, (length text <= n)%nat -> ~ In (chr 10) cur -> g (FactoryModel.lines_from cur (text ++ [chr 10])) = g (FactoryModel.lines_from cur text)); [|apply (G (length text)); [lia|intros []]].
  assert (C : forall x a b, g a = g b -> g (x :: a) = g (x :: b)) by (intros x a b E; unfold g in *; cbn [map filter]; rewrite E; reflexivity).
  induction n as [|n IH]; intros [|c s] cur L N; cbn [length] in L; try lia.
  1,2: cbn [app FactoryModel.lines_from]; change (Ascii.eqb (chr 10) (chr 10)) with true; cbn iota; destruct cur as [|d cur]; [reflexivity|]; unfold g; cbn [map filter]; unfold body; rewrite !rev_involutive; change (Ascii.eqb (chr 10) (chr 10)) with true; cbn iota;
       destruct (Ascii.eqb_spec d (chr 10)) as [->|D]; [elim N; left; reflexivity|reflexivity].
  cbn [app FactoryModel.lines_from]. destruct (Ascii.eqb c (chr 10)) eqn:E1; [apply C, IH; [lia|intros []]|]. destruct (Ascii.eqb c (chr 13)) eqn:E2.
  - destruct s as [|c' s]; [reflexivity|]. cbn [app]. destruct (Ascii.eqb c' (chr 10)); apply C; [apply IH; [cbn [length] in L; lia|intros []]|]. apply (IH (c' :: s) []); [lia|intros []].
  - apply IH; [lia|]. intros [->|I]; [|exact (N I)]. rewrite Ascii.eqb_refl in E1. discriminate.
Qed.
Theorem C112_newline : forall number integer text, from_csv number integer (text ++ [chr 10]) = from_csv number integer text.
Proof. intros. unfold from_csv. rewrite csv_lines_newline. reflexivity. Qed.
Print Assumptions C112_newline.
(** A file of blank lines is not a table. *)
Theorem C112_blank : forall number integer text, (forall c, In c text -> c = " "%char \/ c = chr 9 \/ c = chr 10) -> from_csv number integer text = Err ValueError.
Proof.
  intros number integer text H. assert (E : csv_lines text = []); [|unfold from_csv; rewrite E; reflexivity]. unfold csv_lines.
  assert (B : forall cur, forallb is_blank cur = true -> negb (forallb is_blank (body (rev (chr 10 :: cur)))) = false). { intros cur F. unfold body. rewrite rev_involutive. change (Ascii.eqb (chr 10) (chr 10)) with true. cbn iota. rewrite forallb_forall in F. apply negb_false_iff, forallb_forall. intros c I. apply F. apply in_rev. exact I. }
  assert (G : forall text cur, (forall c, In c text -> c = " "%char \/ c = chr 9 \/ c = chr 10) -> forallb is_blank cur = true -> filter (fun l => negb (forallb is_blank l)) (map body (FactoryModel.lines_from cur text)) = []); [|apply G; [exact H|reflexivity]].
  clear H text. induction text as [|c text IH]; intros cur H F; cbn [FactoryModel.lines_from].
  - destruct cur as [|d cur]; [reflexivity|]. cbn [map filter]. assert (X : body (rev (d :: cur)) = rev (d :: cur)). { unfold body. rewrite rev_involutive. destruct (Ascii.eqb_spec d (chr 10)) as [->|]; [discriminate|reflexivity]. } rewrite X.
    assert (Y : forallb is_blank (rev (d :: cur)) = true) by (apply forallb_forall; intros c I; rewrite forallb_forall in F; apply F; apply in_rev; exact I). rewrite Y. reflexivity.
  - assert (H' : forall c, In c text -> c = " "%char \/ c = chr 9 \/ c = chr 10) by (intros; apply H; right; assumption). destruct (H c ltac:(left; reflexivity)) as [->|[->| ->]].
    + change (Ascii.eqb " "%char (chr 10)) with false. change (Ascii.eqb " "%char (chr 13)) with false. cbn iota. apply IH; [exact H'|]. cbn [forallb]. rewrite F. reflexivity.
    + change (Ascii.eqb (chr 9) (chr 10)) with false. change (Ascii.eqb (chr 9) (chr 13)) with false. cbn iota. apply IH; [exact H'|]. cbn [forallb]. rewrite F. reflexivity.
    + change (Ascii.eqb (chr 10) (chr 10)) with true. cbn iota. cbn [map filter]. rewrite B by exact F. apply IH; [exact H'|reflexivity].
Qed.
Print Assumptions C112_blank.
(** A column without a name is called after its place. *)
Example C112_unnamed : from_csv ex_number ex_integer (str_of "name,lat,,lon" ++ [chr 10] ++ str_of "a,1,2,3") =
  Ok (mktable [0%Z] [(str_of "name", CTexts [Some (str_of "a")]); (str_of "lat", CInts [1%Z]); (str_of "Unnamed: 2", CInts [2%Z]); (str_of "lon", CInts [3%Z])]).
Proof. vm_compute. reflexivity. Qed.
