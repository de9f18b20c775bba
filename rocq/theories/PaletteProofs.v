(** Lemmas about palette files. *)
From Coq Require Import ZArith Reals String Ascii Bool List Lia.
From Verif Require Import PyBase PyStr ColorModel PolyModel PolySpec PolyProofs PaletteModel PaletteSpec.
Import ListNotations.

Lemma starts_iff : forall a s, starts a s = true <-> exists r, s = a ++ r.
Proof.
  induction a as [|x a IH]; intro s; cbn [starts]; [split; [intros _; exists s; reflexivity|reflexivity]|]. destruct s as [|y s]; [split; [discriminate|intros (r & E); discriminate]|].
  rewrite andb_true_iff, IH. split.
  - intros (E & r & ->). apply Ascii.eqb_eq in E as ->. exists r. reflexivity.
  - intros (r & E). injection E as -> ->. split; [apply Ascii.eqb_refl|exists r; reflexivity].
Qed.
Lemma split_at_in : forall sep k m, ~ In sep k -> exists h t, split_at sep m = h :: t /\ split_at sep (k ++ m) = (k ++ h) :: t.
Proof.
  intros sep k m. induction k as [|c k IH]; intro N.
  - destruct (split_at sep m) as [|h t] eqn:E; [exfalso; exact (proj1 (split_at_parts sep m) E)|]. exists h, t. auto.
  - destruct IH as (h & t & E1 & E2); [intro Hi; apply N; right; exact Hi|]. exists h, t. split; [exact E1|]. cbn [app split_at].
    destruct (Ascii.eqb_spec c sep) as [->|]; [exfalso; apply N; left; reflexivity|]. rewrite E2. reflexivity.
Qed.
Lemma defines_iff : forall key line v, ~ In ":"%char (str_of key) ->
  (defines key line v <-> starts (str_of "#$" ++ str_of key) (strip line) = true /\ exists a tl, split_at ":" (skipn 2 (strip line)) = a :: v :: tl).
Proof.
  intros key line v Nk. split.
  - intros (t & more & rest & T & E & Nm & Nv & R). apply trimmed_iff in T. rewrite T. clear T. split.
    + apply starts_iff. exists (more ++ str_of ":" ++ v ++ rest). rewrite E, <- app_assoc. reflexivity.
    + subst t. change (skipn 2 (str_of "#$" ++ str_of key ++ more ++ str_of ":" ++ v ++ rest)) with (str_of key ++ more ++ ":"%char :: (v ++ rest)).
      rewrite app_assoc. rewrite split_at_app by (rewrite in_app_iff; tauto). exists (str_of key ++ more). destruct R as [->|(r & ->)].
      * rewrite app_nil_r, split_at_one by exact Nv. eauto.
      * rewrite split_at_app by exact Nv. eauto.
  - intros (S & a & tl & E). apply starts_iff in S as (m & S). rewrite <- app_assoc in S. rewrite S in E.
    change (skipn 2 (str_of "#$" ++ str_of key ++ m)) with (str_of key ++ m) in E. destruct (split_at_in ":" (str_of key) m Nk) as (h & t & E1 & E2). rewrite E2 in E.
    assert (Et : t = v :: tl) by congruence. subst t. destruct (split_at_parts ":" m) as (_ & F & J). rewrite E1 in F, J.
    inversion F as [|x y Fh F2]; subst x y. inversion F2 as [|x y Fv F3]; subst x y.
    assert (Jm : exists rest, m = h ++ ":"%char :: v ++ rest /\ (rest = [] \/ exists r, rest = ":"%char :: r)).
    { destruct tl as [|w tl].
      - exists []. rewrite app_nil_r. auto.
      - exists (":"%char :: join [":"%char] (w :: tl)). split; [exact J|eauto]. }
    destruct Jm as (rest & -> & R). exists (str_of "#$" ++ str_of key ++ h ++ ":"%char :: v ++ rest), h, rest. split; [apply trimmed_iff; exact S|]. auto.
Qed.
Lemma about_iff : forall key line, about key line <-> starts (str_of "#$" ++ str_of key) (strip line) = true.
Proof.
  intros key line. rewrite starts_iff. split.
  - intros (t & more & T & E). apply trimmed_iff in T. exists more. rewrite T, E, app_assoc. reflexivity.
  - intros (r & E). exists (strip line), r. split; [apply trimmed_iff; reflexivity|]. rewrite E, <- app_assoc. reflexivity.
Qed.
Lemma defines_about : forall key line v, defines key line v -> about key line.
Proof. intros key line v (t & more & rest & T & E & _). exists t, (more ++ str_of ":" ++ v ++ rest). auto. Qed.
(** the three keys exclude each other *)
Ltac apart := let E1 := fresh in let E2 := fresh in let r1 := fresh in let r2 := fresh in
  intros E1 E2; apply starts_iff in E1 as (r1 & E1); apply starts_iff in E2 as (r2 & E2); rewrite E1 in E2; vm_compute in E2; discriminate E2.
Lemma apart1 : forall t, starts (str_of "#$nan_color") t = true -> starts (str_of "#$name") t = true -> False. Proof. intro t. apart. Qed.
Lemma apart2 : forall t, starts (str_of "#$nan_color") t = true -> starts (str_of "#$resolution") t = true -> False. Proof. intro t. apart. Qed.
Lemma apart3 : forall t, starts (str_of "#$name") t = true -> starts (str_of "#$resolution") t = true -> False. Proof. intro t. apart. Qed.

Section Palette.
Variable int_of : str -> option Z.
Variables float_of field_of : str -> option R.
Notation head_line := (head_line int_of float_of). Notation read_head := (read_head int_of float_of).
Notation gives_nan := (gives_nan int_of). Notation gives_resolution := (gives_resolution float_of).
Lemma all_ints_iff : forall l ns, all_ints int_of l = Some ns <-> Forall2 (fun p n => int_of p = Some n) l ns.
Proof.
  induction l as [|x l IH]; intro ns; cbn [all_ints].
  - split; [intro H; injection H as <-; constructor|intro H; inversion H; reflexivity].
  - destruct (int_of x) as [n|] eqn:E.
    + destruct (all_ints int_of l) as [m|] eqn:F.
      * split; [intro H; injection H as <-; constructor; [exact E|apply IH; reflexivity]|]. intro H. inversion H as [|a b c d h1 h2]; subst. apply IH in h2. congruence.
      * split; [discriminate|]. intro H. inversion H as [|a b c d h1 h2]; subst. apply IH in h2. discriminate.
    + split; [discriminate|]. intro H. inversion H as [|a b c d h1 h2]; subst. congruence.
Qed.
Lemma key1 : ~ In ":"%char (str_of "nan_color"). Proof. cbn. intuition discriminate. Qed.
Lemma key2 : ~ In ":"%char (str_of "name"). Proof. cbn. intuition discriminate. Qed.
Lemma key3 : ~ In ":"%char (str_of "resolution"). Proof. cbn. intuition discriminate. Qed.
Lemma gives_nan_iff : forall line l, gives_nan line l <-> starts (str_of "#$nan_color") (strip line) = true /\ exists a v tl, split_at ":" (skipn 2 (strip line)) = a :: v :: tl /\ all_ints int_of (split_at "," v) = Some l.
Proof.
  intros line l. split.
  - intros (v & ps & D & P & F). apply defines_iff in D as (S & a & tl & E); [|exact key1]. split; [exact S|]. exists a, v, tl. split; [exact E|]. apply parts_iff in P. rewrite P. apply all_ints_iff. exact F.
  - intros (S & a & v & tl & E & F). exists v, (split_at "," v). split; [apply defines_iff; [exact key1|]; split; [exact S|eauto]|]. split; [apply parts_iff; reflexivity|]. apply all_ints_iff. exact F.
Qed.
Lemma gives_name_iff : forall line s, gives_name line s <-> starts (str_of "#$name") (strip line) = true /\ exists a v tl, split_at ":" (skipn 2 (strip line)) = a :: v :: tl /\ s = strip v.
Proof.
  intros line s. split.
  - intros (v & D & T). apply defines_iff in D as (S & a & tl & E); [|exact key2]. split; [exact S|]. exists a, v, tl. split; [exact E|]. symmetry. apply trimmed_iff. exact T.
  - intros (S & a & v & tl & E & ->). exists v. split; [apply defines_iff; [exact key2|]; split; [exact S|eauto]|apply trimmed_iff; reflexivity].
Qed.
Lemma gives_resolution_iff : forall line r, gives_resolution line r <-> starts (str_of "#$resolution") (strip line) = true /\ exists a v tl x, split_at ":" (skipn 2 (strip line)) = a :: v :: tl /\ float_of (strip v) = Some x /\ r = Some x.
Proof.
  intros line r. split.
  - intros (v & s & x & D & T & F & E'). apply defines_iff in D as (S & a & tl & E); [|exact key3]. split; [exact S|]. apply trimmed_iff in T. exists a, v, tl, x. subst s. auto.
  - intros (S & a & v & tl & x & E & F & ->). exists v, (strip v), x. split; [apply defines_iff; [exact key3|]; split; [exact S|eauto]|]. split; [apply trimmed_iff; reflexivity|auto].
Qed.
(** one line of the head *)
Definition given {A} (gives : str -> A -> Prop) (line : str) (d v : A) : Prop := gives line v \/ ((forall w, ~ gives line w) /\ v = d).
Lemma head_good : forall h line, good_line int_of float_of line -> exists h', head_line h line = Ok h' /\
  given gives_nan line (h_nan h) (h_nan h') /\ given gives_name line (h_name h) (h_name h') /\ given gives_resolution line (h_resolution h) (h_resolution h').
Proof.
  intros h line (G1 & G2 & G3). rewrite about_iff in G1, G2, G3. change (str_of "#$" ++ str_of "nan_color") with (str_of "#$nan_color") in G1. change (str_of "#$" ++ str_of "name") with (str_of "#$name") in G2.
  change (str_of "#$" ++ str_of "resolution") with (str_of "#$resolution") in G3. unfold PaletteModel.head_line.
  destruct (starts (str_of "#$nan_color") (strip line)) eqn:E1; [|destruct (starts (str_of "#$name") (strip line)) eqn:E2; [|destruct (starts (str_of "#$resolution") (strip line)) eqn:E3]].
  - destruct (G1 eq_refl) as (l & G). pose proof G as G'. apply gives_nan_iff in G as (_ & a & v & tl & -> & ->). eexists. split; [reflexivity|]. cbn [h_nan h_name h_resolution]. split; [left; exact G'|].
    split; right; (split; [|reflexivity]); intros w H.
    + apply gives_name_iff in H as (S & _). exact (apart1 _ E1 S).
    + apply gives_resolution_iff in H as (S & _). exact (apart2 _ E1 S).
  - destruct (G2 eq_refl) as (l & G). pose proof G as G'. apply gives_name_iff in G as (_ & a & v & tl & -> & ->). eexists. split; [reflexivity|]. cbn [h_nan h_name h_resolution].
    split; [right; split; [|reflexivity]; intros w H; apply gives_nan_iff in H as (S & _); congruence|]. split; [left; exact G'|].
    right; (split; [|reflexivity]); intros w H. apply gives_resolution_iff in H as (S & _). exact (apart3 _ E2 S).
  - destruct (G3 eq_refl) as (l & G). pose proof G as G'. apply gives_resolution_iff in G as (_ & a & v & tl & x & -> & -> & ->). eexists. split; [reflexivity|]. cbn [h_nan h_name h_resolution].
    split; [right; split; [|reflexivity]; intros w H; apply gives_nan_iff in H as (S & _); congruence|]. split; [right; split; [|reflexivity]; intros w H; apply gives_name_iff in H as (S & _); congruence|].
    left. exact G'.
  - eexists. split; [reflexivity|].
    split; [right; split; [|reflexivity]; intros w H; apply gives_nan_iff in H as (S & _); congruence|]. split; [right; split; [|reflexivity]; intros w H; apply gives_name_iff in H as (S & _); congruence|].
    right; split; [|reflexivity]; intros w H; apply gives_resolution_iff in H as (S & _); congruence.
Qed.
Lemma last_snoc : forall A (gives : str -> A -> Prop) lines line d v w, last_given gives lines d v -> given gives line v w -> last_given gives (lines ++ [line]) d w.
Proof.
  intros A gives lines line d v w L [G|(N & ->)].
  - left. exists lines, line, []. split; [reflexivity|]. split; [exact G|]. intros l' w' [].
  - destruct L as [(a & l & b & -> & G & Nb)|(Nl & ->)].
    + left. exists a, l, (b ++ [line]). split; [rewrite <- app_assoc; reflexivity|]. split; [exact G|]. intros l' w' Hi. apply in_app_or in Hi as [Hi|[<-|[]]]; [exact (Nb _ _ Hi)|exact (N w')].
    + right. split; [|reflexivity]. intros l' w' Hi. apply in_app_or in Hi as [Hi|[<-|[]]]; [exact (Nl _ _ Hi)|exact (N w')].
Qed.
Lemma read_good : forall lines, Forall (good_line int_of float_of) lines -> exists h, read_head lines = Ok h /\
  last_given gives_nan lines [0; 0; 0; 0]%Z (h_nan h) /\ last_given gives_name lines (str_of "generic") (h_name h) /\ last_given gives_resolution lines None (h_resolution h).
Proof.
  intros lines. induction lines as [|line lines IH] using rev_ind; intro G.
  - eexists. split; [reflexivity|]. cbn [h_nan h_name h_resolution]. split; [right; split; [intros l w []|reflexivity]|]. split; right; (split; [intros l w []|reflexivity]).
  - apply Forall_app in G as (G1 & G2). inversion G2 as [|x y G3 _]; subst. destruct (IH G1) as (h & E & a & b & c). destruct (head_good h line G3) as (h' & E' & a' & b' & c').
    exists h'. split; [unfold PaletteModel.read_head in *; rewrite fold_left_app, E; exact E'|].
    split; [exact (last_snoc _ _ _ _ _ _ _ a a')|]. split; [exact (last_snoc _ _ _ _ _ _ _ b b')|exact (last_snoc _ _ _ _ _ _ _ c c')].
Qed.
Lemma last_fun : forall A (gives : str -> A -> Prop) lines d v w, (forall l x y, gives l x -> gives l y -> x = y) -> last_given gives lines d v -> last_given gives lines d w -> v = w.
Proof.
  intros A gives lines d v w Fu [(a & l & b & -> & G & N)|(N & ->)] [(a' & l' & b' & E & G' & N')|(N' & ->)].
  - assert (X : l = l'); [|subst; eapply Fu; eassumption]. revert a' E. induction a as [|x a IH]; intros a' E.
    + destruct a' as [|y a']; [injection E as -> ->; reflexivity|]. injection E as -> E. exfalso. apply (N l' w); [rewrite E; apply in_or_app; right; left; reflexivity|exact G'].
    + destruct a' as [|y a']; [|injection E as -> E; exact (IH _ E)]. injection E as -> E. exfalso. apply (N' l v); [rewrite <- E; apply in_or_app; right; left; reflexivity|exact G].
  - exfalso. apply (N' l v); [apply in_or_app; right; left; reflexivity|exact G].
  - exfalso. apply (N l' w); [rewrite E; apply in_or_app; right; left; reflexivity|exact G'].
  - reflexivity.
Qed.
Lemma nan_fun : forall l x y, gives_nan l x -> gives_nan l y -> x = y.
Proof. intros l x y G H. apply gives_nan_iff in G as (_ & a & v & tl & E & F). apply gives_nan_iff in H as (_ & a' & v' & tl' & E' & F'). rewrite E in E'. injection E' as <- <- <-. congruence. Qed.
Lemma name_fun : forall l x y, gives_name l x -> gives_name l y -> x = y.
Proof. intros l x y G H. apply gives_name_iff in G as (_ & a & v & tl & E & F). apply gives_name_iff in H as (_ & a' & v' & tl' & E' & F'). rewrite E in E'. injection E' as <- <- <-. congruence. Qed.
Lemma resolution_fun : forall l x y, gives_resolution l x -> gives_resolution l y -> x = y.
Proof. intros l x y G H. apply gives_resolution_iff in G as (_ & a & v & tl & z & E & F & ->). apply gives_resolution_iff in H as (_ & a' & v' & tl' & z' & E' & F' & ->). rewrite E in E'. injection E' as <- <- <-. congruence. Qed.
(** a line that can not be read *)
Lemma head_ok : forall h line h', head_line h line = Ok h' -> good_line int_of float_of line.
Proof.
  intros h line h' H. unfold PaletteModel.head_line in H. unfold good_line. rewrite !about_iff. change (str_of "#$" ++ str_of "nan_color") with (str_of "#$nan_color"). change (str_of "#$" ++ str_of "name") with (str_of "#$name").
  change (str_of "#$" ++ str_of "resolution") with (str_of "#$resolution").
  destruct (starts (str_of "#$nan_color") (strip line)) eqn:E1; [|destruct (starts (str_of "#$name") (strip line)) eqn:E2; [|destruct (starts (str_of "#$resolution") (strip line)) eqn:E3]].
  - split; [|split; intro S; exfalso; [exact (apart1 _ E1 S)|exact (apart2 _ E1 S)]]. intros _. destruct (split_at ":" _) as [|a [|v tl]] eqn:E; try discriminate. destruct (all_ints _ _) as [l|] eqn:F; [|discriminate].
    exists l. apply gives_nan_iff. split; [exact E1|]. exists a, v, tl. auto.
  - split; [discriminate|]. split; [|intro S; exfalso; exact (apart3 _ E2 S)]. intros _. destruct (split_at ":" _) as [|a [|v tl]] eqn:E; try discriminate.
    exists (strip v). apply gives_name_iff. split; [exact E2|]. exists a, v, tl. auto.
  - split; [discriminate|]. split; [discriminate|]. intros _. destruct (split_at ":" _) as [|a [|v tl]] eqn:E; try discriminate. destruct (float_of (strip v)) as [x|] eqn:F; [|discriminate].
    exists (Some x). apply gives_resolution_iff. split; [exact E3|]. exists a, v, tl, x. auto.
  - split; [|split]; discriminate.
Qed.
Lemma fold_err : forall lines e, fold_left (fun acc line => bind acc (fun h => head_line h line)) lines (Err e) = Err e.
Proof. induction lines as [|l lines IH]; intro e; [reflexivity|]. exact (IH e). Qed.
Lemma read_ok : forall lines h, read_head lines = Ok h -> Forall (good_line int_of float_of) lines.
Proof.
  intros lines. induction lines as [|line lines IH] using rev_ind; intros h H; [constructor|]. unfold PaletteModel.read_head in H. rewrite fold_left_app in H. cbn [fold_left] in H.
  destruct (fold_left _ lines _) as [h'|] eqn:E in H; [|discriminate]. apply Forall_app. split; [exact (IH _ E)|]. constructor; [exact (head_ok _ _ _ H)|constructor].
Qed.
Lemma no_colon : forall line h key, In key ["nan_color"; "name"; "resolution"]%string -> about key line -> ~ In ":"%char line -> head_line h line = Err IndexError.
Proof.
  intros line h key K A N. apply about_iff in A. assert (N' : ~ In ":"%char (skipn 2 (strip line))).
  { intro Hi. apply N. destruct (strip_trimmed line) as (a & b & E & _). rewrite E. apply in_or_app. right. apply in_or_app. left. rewrite <- (firstn_skipn 2 (strip line)). apply in_or_app. right. exact Hi. }
  unfold PaletteModel.head_line. rewrite (split_at_one _ _ N'). destruct (starts (str_of "#$nan_color") (strip line)) eqn:E1; [reflexivity|]. destruct (starts (str_of "#$name") (strip line)) eqn:E2; [reflexivity|].
  destruct (starts (str_of "#$resolution") (strip line)) eqn:E3; [reflexivity|]. exfalso. destruct K as [<-|[<-|[<-|[]]]].
  - change (str_of "#$" ++ str_of "nan_color") with (str_of "#$nan_color") in A. congruence.
  - change (str_of "#$" ++ str_of "name") with (str_of "#$name") in A. congruence.
  - change (str_of "#$" ++ str_of "resolution") with (str_of "#$resolution") in A. congruence.
Qed.
Lemma all_ints_none : forall l x, In x l -> int_of x = None -> all_ints int_of l = None.
Proof. induction l as [|y l IH]; intros x Hi N; [destruct Hi|]. cbn [all_ints]. destruct Hi as [->|Hi]; [rewrite N; reflexivity|]. rewrite (IH x Hi N). destruct (int_of y); reflexivity. Qed.
Lemma bad_nan : forall line h v ps x, defines "nan_color" line v -> parts "," v ps -> In x ps -> int_of x = None -> head_line h line = Err ValueError.
Proof.
  intros line h v ps x D P Hi N. apply defines_iff in D as (S & a & tl & E); [|exact key1]. change (str_of "#$" ++ str_of "nan_color") with (str_of "#$nan_color") in S. unfold PaletteModel.head_line. rewrite S, E.
  apply parts_iff in P. rewrite P, (all_ints_none _ _ Hi N). reflexivity.
Qed.
Lemma bad_resolution : forall line h v s, defines "resolution" line v -> trimmed v s -> float_of s = None -> head_line h line = Err ValueError.
Proof.
  intros line h v s D T N. apply defines_iff in D as (S & a & tl & E); [|exact key3]. change (str_of "#$" ++ str_of "resolution") with (str_of "#$resolution") in S. unfold PaletteModel.head_line. rewrite S, E.
  destruct (starts (str_of "#$nan_color") (strip line)) eqn:E1; [exfalso; exact (apart2 _ E1 S)|]. destruct (starts (str_of "#$name") (strip line)) eqn:E2; [exfalso; exact (apart3 _ E2 S)|].
  apply trimmed_iff in T. rewrite T, N. reflexivity.
Qed.
Lemma read_bad : forall good bad rest e, Forall (good_line int_of float_of) good -> (forall h, head_line h bad = Err e) -> read_head (good ++ bad :: rest) = Err e.
Proof.
  intros good bad rest e G H. destruct (read_good good G) as (h & E & _). unfold PaletteModel.read_head in *. rewrite fold_left_app, E. cbn [fold_left bind]. rewrite H. apply fold_err.
Qed.

(** ** The table *)
Lemma data_app : forall d c, ~ In "#"%char d -> (c = [] \/ exists r, c = "#"%char :: r) -> data_of (d ++ c) = d.
Proof.
  intros d c N C. unfold data_of. induction d as [|x d IH]; cbn [app].
  - destruct C as [->|(r & ->)]; [reflexivity|]. cbn [span]. change (Ascii.eqb "#" hash) with true. reflexivity.
  - cbn [span]. destruct (Ascii.eqb_spec x hash) as [->|]; [exfalso; apply N; left; reflexivity|]. cbn [negb].
    assert (N' : ~ In "#"%char d) by (intro Hi; apply N; right; exact Hi). specialize (IH N'). destruct (span _ (d ++ c)) as [a b]. cbn [fst] in *. congruence.
Qed.
Lemma blanks_no : forall c l, blank c = false -> blanks l -> ~ In c l.
Proof. intros c l B F Hi. unfold blanks in F. rewrite Forall_forall in F. specialize (F _ Hi). congruence. Qed.
Lemma quoted_iff : forall s, existsb (fun c => Nat.eqb (nat_of_ascii c) 34) s = false <-> ~ In (chr 34) s.
Proof.
  intro s. split.
  - intros H Hi. assert (X : existsb (fun c => Nat.eqb (nat_of_ascii c) 34) s = true) by (apply existsb_exists; exists (chr 34); split; [exact Hi|reflexivity]). congruence.
  - intro N. destruct (existsb _ s) eqn:E; [|reflexivity]. exfalso. apply existsb_exists in E as (c & Hi & E). apply Nat.eqb_eq in E. apply N. replace (chr 34) with c; [exact Hi|].
    rewrite <- (ascii_nat_embedding c), E. reflexivity.
Qed.
Lemma words_first : forall d w ws, words d (w :: ws) -> exists a x r, d = a ++ x :: r /\ blanks a /\ blank x = false.
Proof.
  intros d w ws H. inversion H as [|s w' rest ws' B Nw Fw R W]; subst. destruct w as [|x w]; [congruence|]. inversion Fw; subst. exists s, x, (w ++ rest). auto.
Qed.
Lemma snoc_split : forall (t b u : str) x, u ++ [x] = b ++ t -> blanks b -> blank x = false -> exists y, t = y ++ [x].
Proof.
  intros t b u x E B N. destruct t as [|c t].
  - exfalso. rewrite app_nil_r in E. subst b. apply blanks_app in B as (_ & B). inversion B; subst. congruence.
  - destruct (exists_last (l := c :: t)) as (y & z & Ez); [discriminate|]. rewrite Ez in *. rewrite app_assoc in E. apply app_inj_tail in E as (_ & ->). exists y. reflexivity.
Qed.
Lemma lists_rows : forall lines t, lists lines t -> existsb indented lines = false /\ existsb quoted lines = false /\ table_rows lines = t.
Proof.
  intros lines t H. induction H as [|r ls t H (i1 & i2 & i3)|l ls t B H (i1 & i2 & i3)|l ws ls t Nw C H (i1 & i2 & i3)].
  - auto.
  - cbn [existsb]. rewrite i1, i2. unfold table_rows. cbn [map filter]. unfold quoted. change (data_of ("#"%char :: r)) with (data_of ([] ++ "#"%char :: r)). rewrite data_app by (eauto || intros []).
    split; [|split; [reflexivity|exact i3]]. unfold indented. change (is_space "#") with false. destruct (strip ("#"%char :: r)); reflexivity.
  - cbn [existsb]. rewrite i1, i2. unfold table_rows. cbn [map filter]. unfold quoted. pose proof (data_app l [] (blanks_no "#" l eq_refl B) (or_introl eq_refl)) as D. rewrite app_nil_r in D. rewrite D.
    replace (split_blanks l) with (@nil str) by (symmetry; apply words_iff; constructor; exact B). rewrite (proj2 (quoted_iff l)) by (apply blanks_no; [reflexivity|exact B]).
    split; [|split; [reflexivity|exact i3]]. unfold indented. pose proof (proj1 (blanks_strip l) B) as Z. destruct l; [reflexivity|]. rewrite Z. reflexivity.
  - destruct C as (d & c & -> & Nh & Nq & Cc & W). cbn [existsb]. rewrite i1, i2. unfold table_rows. cbn [map filter]. unfold quoted. rewrite data_app by assumption. rewrite (proj2 (quoted_iff d)) by exact Nq.
    rewrite (proj1 (words_iff d ws) W). split; [|split; [reflexivity|]].
    + destruct ws as [|w ws]; [congruence|]. destruct (words_first _ _ _ W) as (a & x & r & -> & Ba & Bx). rewrite orb_false_r. unfold indented.
      assert (S : exists y, strip ((a ++ x :: r) ++ c) = x :: y).
      { unfold strip. rewrite <- app_assoc. cbn [app]. rewrite lstrip_app by (try exact Ba; intros c' r' E; injection E as <- <-; exact Bx). cbn [rev].
        destruct (lstrip_spec (rev (r ++ c) ++ [x])) as (b & E & Bb & _). destruct (snoc_split (lstrip (rev (r ++ c) ++ [x])) b (rev (r ++ c)) x E Bb Bx) as (y & ->). rewrite rev_app_distr. exists (rev y). reflexivity. }
      destruct S as (y & Sy). destruct ((a ++ x :: r) ++ c); [reflexivity|]. rewrite Sy. destruct (Ascii.eqb_spec x hash) as [->|]; [|apply andb_false_r].
      exfalso. apply Nh. apply in_or_app. right. left. reflexivity.
    + destruct ws; [congruence|]. f_equal. exact i3.
Qed.
Lemma position_iff : forall name hs i, position name hs = Some i <-> nth_error hs i = Some name /\ forall j, (j < i)%nat -> nth_error hs j <> Some name.
Proof.
  intros name hs. induction hs as [|h hs IH]; intro i; cbn [position].
  - split; [discriminate|]. intros (E & _). destruct i; discriminate.
  - destruct (str_eqb_spec h name) as [->|Ne].
    + split.
      * intro E. injection E as <-. split; [reflexivity|]. intros j L. lia.
      * intros (E & N). destruct i as [|i]; [reflexivity|]. exfalso. apply (N 0%nat); [lia|reflexivity].
    + destruct i as [|i].
      * split; [destruct (position name hs); discriminate|]. intros (E & _). cbn in E. congruence.
      * split.
        -- intro E. assert (Ek : position name hs = Some i) by (destruct (position name hs); [injection E as ->; reflexivity|discriminate]). apply IH in Ek as (E' & N). split; [exact E'|]. intros [|j] L; cbn; [congruence|]. apply N. lia.
        -- intros (E & N). replace (position name hs) with (Some i); [reflexivity|]. symmetry. apply IH. split; [exact E|]. intros j L. apply (N (Datatypes.S j)). lia.
Qed.
Lemma all_fields_iff : forall i rs vs, all_fields field_of (map (fun r => nth_error r i) rs) = Some vs <-> Forall2 (fun (r : list str) v => exists x, nth_error r i = Some x /\ field_of x = Some v) rs vs.
Proof.
  intros i rs. induction rs as [|r rs IH]; intro vs; cbn [map all_fields].
  - split; [intro E; injection E as <-; constructor|intro H; inversion H; reflexivity].
  - split.
    + destruct (nth_error r i) as [x|] eqn:E; [|discriminate]. destruct (field_of x) as [v|] eqn:F; [|discriminate]. destruct (all_fields _ _) as [l|] eqn:G; [|discriminate]. intro H. injection H as <-.
      constructor; [eauto|apply IH; reflexivity].
    + intro H. inversion H as [|a b c d (x & E & F) G]; subst. rewrite E, F. apply IH in G. rewrite G. reflexivity.
Qed.
Lemma column_ok : forall hs rs name vs, holds field_of hs rs name vs -> column field_of hs rs (str_of name) = Ok vs.
Proof. intros hs rs name vs (i & E & N & F). unfold column. rewrite (proj2 (position_iff _ _ i) (conj E N)). apply all_fields_iff in F. rewrite F. reflexivity. Qed.
Lemma column_length : forall hs rs name vs, holds field_of hs rs name vs -> List.length vs = List.length rs.
Proof. intros hs rs name vs (i & _ & _ & F). induction F; cbn; congruence. Qed.
Lemma read_rows : forall lines hs rs, lists lines (hs :: rs) -> Forall (fun r => List.length r = List.length hs) rs -> read_table lines = Ok (hs, rs).
Proof.
  intros lines hs rs L F. apply lists_rows in L as (a & b & c). unfold read_table. rewrite a, b, c. cbn [orb]. replace (forallb _ rs) with true; [reflexivity|]. symmetry. apply forallb_forall. intros r Hi.
  rewrite Forall_forall in F. apply Nat.eqb_eq. exact (F r Hi).
Qed.
Lemma zip3_nth : forall a b c i x y z, nth_error a i = Some x -> nth_error b i = Some y -> nth_error c i = Some z -> nth_error (zip3 a b c) i = Some (x, y, z).
Proof. induction a as [|p a IH]; intros [|q b] [|r c] [|i] x y z A B C; cbn in *; try discriminate; [congruence|]. apply IH; assumption. Qed.
Lemma zip3_length : forall a b c n, List.length a = n -> List.length b = n -> List.length c = n -> List.length (zip3 a b c) = n.
Proof. induction a as [|p a IH]; intros [|q b] [|r c] n A B C; cbn in *; try lia. destruct n; [discriminate|]. f_equal. apply IH; lia. Qed.
End Palette.
