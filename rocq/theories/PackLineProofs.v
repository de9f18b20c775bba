(** Lemmas for C128 and C129: lines. *)
From Coq Require Import ZArith String Ascii Bool List Lia.
From Verif Require Import PyBase PyStr PolyModel PolySpec PolyProofs VersionModel VersionSpec VersionProofs PackModel PackSpec PackProofs.
Import ListNotations.
Open Scope nat_scope.

Lemma lines_from_nl l b cur : ~ In newline l -> lines_from cur (l ++ newline :: b) = (rev cur ++ l ++ [newline]) :: lines_from [] b.
Proof.
  revert cur. induction l as [|c l IH]; intros cur N; cbn [app lines_from].
  - change (Ascii.eqb newline newline) with true. cbn iota. cbn [rev]. reflexivity.
  - destruct (Ascii.eqb_spec c newline) as [->|_]; [elim N; left; reflexivity|]. rewrite IH by (intro I; apply N; right; exact I). cbn [rev]. rewrite <- !app_assoc. reflexivity.
Qed.
Lemma lines_from_end l cur : ~ In newline l -> lines_from cur l = match rev cur ++ l with [] => [] | x => [x] end.
Proof.
  revert cur. induction l as [|c l IH]; intros cur N; cbn [lines_from].
  - rewrite app_nil_r. destruct cur as [|x cur]; [reflexivity|]. cbn [rev]. destruct (rev cur ++ [x]) eqn:E; [|reflexivity]. apply app_eq_nil in E as (_ & E). discriminate.
  - destruct (Ascii.eqb_spec c newline) as [->|_]; [elim N; left; reflexivity|]. rewrite IH by (intro I; apply N; right; exact I). cbn [rev]. rewrite <- app_assoc. reflexivity.
Qed.
Lemma first_newline s : ~ In newline s \/ exists l b, s = l ++ newline :: b /\ ~ In newline l.
Proof.
  induction s as [|c s IH]; [left; intros []|]. destruct (Ascii.eqb_spec c newline) as [->|N]; [right; exists [], s; split; [reflexivity|intros []]|].
  destruct IH as [IH|(l & b & -> & H)]; [left; intros [E|I]; congruence|right]. exists (c :: l), b. split; [reflexivity|]. intros [E|I]; [congruence|exact (H I)].
Qed.
Lemma app_newline l b l' b' : ~ In newline l -> ~ In newline l' -> l ++ newline :: b = l' ++ newline :: b' -> l = l' /\ b = b'.
Proof.
  revert l'. induction l as [|c l IH]; intros [|c' l'] N N' E; cbn [app] in E; injection E; intros; subst.
  - split; reflexivity.
  - elim N'. left. reflexivity.
  - elim N. left. reflexivity.
  - destruct (IH l') as (-> & ->); try assumption; [| |split; reflexivity]; intro I; [apply N|apply N']; right; exact I.
Qed.
Lemma line_of_cons l b x : ~ In newline l -> (line_of (l ++ newline :: b) x <-> x = l ++ [newline] \/ line_of b x).
Proof.
  intro N. split.
  - intro H. remember (l ++ newline :: b) as s eqn:E. revert l b N E.
    assert (P : forall a' t l b, ~ In newline l -> (a' ++ [chr 10]) ++ t = l ++ newline :: b -> exists a, (a = [] \/ exists a'', a = a'' ++ [chr 10]) /\ b = a ++ t).
    { intros a' t l b N E. rewrite <- app_assoc in E. cbn [app] in E. change (chr 10) with newline in *. destruct (first_newline a') as [A|(p & q & -> & A)].
      - apply app_newline in E as (_ & <-); [|assumption|assumption]. exists []. split; [left; reflexivity|reflexivity].
      - rewrite <- app_assoc in E. cbn [app] in E. apply app_newline in E as (_ & <-); [|assumption|assumption]. exists (q ++ [newline]). split; [right; exists q; reflexivity|rewrite <- app_assoc; reflexivity]. }
    destruct H as [a l' b' A N'|a l' A N' NE]; intros l b N E.
    + destruct A as [->|(a' & ->)].
      * cbn [app] in E. apply app_newline in E as (<- & _); [|assumption|assumption]. left. reflexivity.
      * destruct (P _ _ _ _ N E) as (a & A & ->). right. apply line_full; assumption.
    + destruct A as [->|(a' & ->)].
      * cbn [app] in E. elim N'. rewrite E. apply in_or_app. right. left. reflexivity.
      * destruct (P _ _ _ _ N E) as (a & A & ->). right. apply line_last; assumption.
  - intros [->|H]; [exact (line_full [] l b (or_introl eq_refl) N)|]. destruct H as [a l' b' A N'|a l' A N' NE].
    + replace (l ++ newline :: a ++ l' ++ chr 10 :: b') with ((l ++ newline :: a) ++ l' ++ chr 10 :: b') by (rewrite <- app_assoc; reflexivity). apply line_full; [|exact N'].
      right. destruct A as [->|(a' & ->)]; [exists l; reflexivity|exists (l ++ newline :: a'); rewrite <- app_assoc; reflexivity].
    + replace (l ++ newline :: a ++ l') with ((l ++ newline :: a) ++ l') by (rewrite <- app_assoc; reflexivity). apply line_last; [|exact N'|exact NE].
      right. destruct A as [->|(a' & ->)]; [exists l; reflexivity|exists (l ++ newline :: a'); rewrite <- app_assoc; reflexivity].
Qed.
Lemma line_of_end s x : ~ In newline s -> (line_of s x <-> s <> [] /\ x = s).
Proof.
  intro N. split.
  - destruct 1 as [a l b A N'|a l A N' NE].
    + elim N. apply in_or_app. right. apply in_or_app. right. left. reflexivity.
    + destruct A as [->|(a' & ->)]; [cbn [app]; split; [exact NE|reflexivity]|]. elim N. apply in_or_app. left. apply in_or_app. right. left. reflexivity.
  - intros (NE & ->). exact (line_last [] s (or_introl eq_refl) N NE).
Qed.
Lemma lines_from_iff s x : In x (lines_from [] s) <-> line_of s x.
Proof.
  remember (length s) as n eqn:L. revert s L. induction n as [n IH] using lt_wf_ind. intros s L. destruct (first_newline s) as [N|(l & b & -> & N)].
  - rewrite line_of_end, lines_from_end by exact N. cbn [rev app]. destruct s; cbn [In]; intuition congruence.
  - rewrite line_of_cons, lines_from_nl by exact N. cbn [rev app In]. rewrite (IH (length b)); [intuition|subst; rewrite app_length; cbn [length]; lia|reflexivity].
Qed.
Lemma lines_iff s x : unix s -> (In x (lines s) <-> line_of s x).
Proof. intro U. unfold lines. rewrite universal_unix by exact U. apply lines_from_iff. Qed.
Lemma lines_complete a b : lines_from [] (a ++ newline :: b) = lines_from [] (a ++ [newline]) ++ lines_from [] b.
Proof.
  remember (length a) as n eqn:L. revert a L. induction n as [n IH] using lt_wf_ind. intros a L. destruct (first_newline a) as [N|(l & r & -> & N)].
  - rewrite !lines_from_nl by exact N. reflexivity.
  - rewrite <- !app_assoc. cbn [app]. rewrite (lines_from_nl l (r ++ newline :: b)), (lines_from_nl l (r ++ [newline])) by exact N. cbn [app]. rewrite (IH (length r)); [reflexivity|subst; rewrite app_length; cbn [length]; lia|reflexivity].
Qed.
Lemma universal_app_nl a b : universal (a ++ newline :: b) = universal (a ++ [newline]) ++ universal b.
Proof.
  remember (length a) as n eqn:L. revert a L. induction n as [n IH] using lt_wf_ind. intros a L. destruct a as [|c a]; [reflexivity|].
  cbn [app universal]. destruct (Ascii.eqb_spec c (chr 13)) as [->|NC].
  - destruct a as [|d a]; [reflexivity|]. cbn [app]. destruct (Ascii.eqb_spec d newline) as [->|ND].
    + cbn [app]. f_equal. apply (IH (length a)); [subst; cbn [length]; lia|reflexivity].
    + cbn [app]. f_equal. change (d :: a ++ newline :: b) with ((d :: a) ++ newline :: b). change (d :: a ++ [newline]) with ((d :: a) ++ [newline]). apply (IH (length (d :: a))); [subst; cbn [length]; lia|reflexivity].
  - cbn [app]. f_equal. apply (IH (length a)); [subst; cbn [length]; lia|reflexivity].
Qed.
Lemma universal_ends a : exists a', universal (a ++ [newline]) = a' ++ [newline].
Proof.
  remember (length a) as n eqn:L. revert a L. induction n as [n IH] using lt_wf_ind. intros a L. destruct a as [|c a]; [exists []; reflexivity|].
  cbn [app universal]. destruct (Ascii.eqb_spec c (chr 13)) as [->|NC].
  - destruct a as [|d a]; [exists []; reflexivity|]. cbn [app]. destruct (Ascii.eqb_spec d newline) as [->|ND].
    + destruct (IH (length a)) with (a := a) as (a' & E); [subst; cbn [length]; lia|reflexivity|]. rewrite E. exists (newline :: a'). reflexivity.
    + change (d :: a ++ [newline]) with ((d :: a) ++ [newline]). destruct (IH (length (d :: a))) with (a := d :: a) as (a' & E); [subst; cbn [length]; lia|reflexivity|]. rewrite E. exists (newline :: a'). reflexivity.
  - destruct (IH (length a)) with (a := a) as (a' & E); [subst; cbn [length]; lia|reflexivity|]. rewrite E. exists (c :: a'). reflexivity.
Qed.
Lemma lines_app a b : complete a -> lines (a ++ b) = lines a ++ lines b.
Proof.
  intros [->|(a' & ->)]; [reflexivity|]. unfold lines. rewrite <- app_assoc. change ([chr 10] ++ b) with (newline :: b). change (chr 10) with newline. rewrite universal_app_nl.
  destruct (universal_ends a') as (u & ->). rewrite <- app_assoc. cbn [app]. apply lines_complete.
Qed.

(** ** Blanks *)
Lemma is_space_nl : is_space newline = true.
Proof. reflexivity. Qed.
Lemma lstrip_word c s : is_space c = false -> lstrip (c :: s) = c :: s.
Proof. intro H. unfold lstrip. cbn [span]. rewrite H. reflexivity. Qed.
Lemma lstrip_blanks u t : Forall (fun c => is_space c = true) u -> lstrip (u ++ t) = lstrip t.
Proof. unfold lstrip. induction 1 as [|c u H _ IH]; [reflexivity|]. cbn [app span]. rewrite H. destruct (span is_space (u ++ t)). exact IH. Qed.
Lemma strip_keeps a c s d b : Forall (fun c => is_space c = true) a -> Forall (fun c => is_space c = true) b -> is_space c = false -> is_space d = false ->
  strip (a ++ (c :: s ++ [d]) ++ b) = c :: s ++ [d].
Proof.
  intros A B C D. unfold strip.
  rewrite lstrip_blanks by exact A. cbn [app]. rewrite lstrip_word by exact C. change (c :: (s ++ [d]) ++ b) with ((c :: s ++ [d]) ++ b). rewrite rev_app_distr. rewrite lstrip_blanks by (apply Forall_rev; exact B).
  change (c :: s ++ [d]) with ((c :: s) ++ [d]). rewrite rev_app_distr. cbn [rev app]. rewrite lstrip_word by exact D. cbn [rev]. rewrite rev_app_distr, rev_involutive. reflexivity.
Qed.
Lemma words_from_app w b cur : Forall (fun c => is_space c = false) w -> words_from cur (w ++ b) = words_from (rev w ++ cur) b.
Proof. revert cur. induction w as [|c w IH]; intros cur F; [reflexivity|]. inversion F; subst. cbn [app words_from rev]. rewrite H1. rewrite IH by assumption. rewrite <- app_assoc. reflexivity. Qed.
Lemma words_one w b c : w <> [] -> Forall (fun c => is_space c = false) w -> is_space c = true -> words_from [] (w ++ c :: b) = w :: words_from [] b.
Proof.
  intros N F C. rewrite words_from_app by exact F. rewrite app_nil_r. cbn [words_from]. rewrite C. destruct (rev w) eqn:E; [apply (f_equal (@rev ascii)) in E; rewrite rev_involutive in E; contradiction|]. rewrite <- E, rev_involutive. reflexivity.
Qed.
Lemma words_last w : w <> [] -> Forall (fun c => is_space c = false) w -> words_from [] w = [w].
Proof.
  intros N F. rewrite <- (app_nil_r w) at 1. rewrite words_from_app by exact F. rewrite app_nil_r. cbn [words_from]. destruct (rev w) eqn:E; [apply (f_equal (@rev ascii)) in E; rewrite rev_involutive in E; contradiction|]. rewrite <- E, rev_involutive. reflexivity.
Qed.
(** A text whose first character that is not blank is [c] keeps it in front. *)
Lemma strip_head a c s : Forall (fun c => is_space c = true) a -> is_space c = false -> exists r, strip (a ++ c :: s) = c :: r.
Proof.
  intros A C. unfold strip. rewrite lstrip_blanks by exact A. rewrite lstrip_word by exact C.
  assert (L : forall t, exists p, lstrip (t ++ [c]) = p ++ [c]).
  { induction t as [|x t (p & IH)]; [exists []; apply lstrip_word; exact C|]. destruct (is_space x) eqn:X.
    - exists p. rewrite <- IH. cbn [app]. apply (lstrip_blanks [x]). constructor; [exact X|constructor].
    - exists (x :: t). cbn [app]. apply lstrip_word. exact X. }
  cbn [rev]. destruct (L (rev s)) as (p & ->). rewrite rev_app_distr. exists (rev p). reflexivity.
Qed.
(** ** Lines of the version file *)
Lemma no_keywords ls : Forall (fun l => (exists a c s, l = a ++ c :: s /\ Forall (fun c => is_space c = true) a /\ is_space c = false /\ c <> "g"%char) \/ Forall (fun c => is_space c = true) l) ls ->
  git_get_keywords (Some ls) = [].
Proof.
  unfold git_get_keywords. induction 1 as [|l ls H _ IH]; [reflexivity|]. cbn [fold_left].
  assert (N : forall name : str, starts_with (str_of "git_") name = true -> starts_with name (strip l) = false).
  { intros name S. destruct name as [|x name]; [discriminate|]. assert (x = "g"%char) as -> by (cbn [str_of list_ascii_of_string starts_with] in S; apply andb_prop in S as (S & _); apply Ascii.eqb_eq in S; congruence).
    destruct H as [(a & c & s & -> & A & C & G)|B].
    - destruct (strip_head a c s A C) as (r & ->). cbn [starts_with]. destruct (Ascii.eqb_spec "g" c); [elim G; symmetry; assumption|reflexivity].
    - unfold strip. rewrite <- (app_nil_r l), lstrip_blanks by exact B. reflexivity. }
  replace (keyword_line [] l) with (@nil (str * str)); [exact IH|]. unfold keyword_line. rewrite !N by reflexivity. reflexivity.
Qed.
Lemma lines_from_all ls : Forall (fun l => ~ In newline l) ls -> lines_from [] (flat_map (fun l => l ++ [newline]) ls) = map (fun l => l ++ [newline]) ls.
Proof.
  induction 1 as [|l ls N _ IH]; [reflexivity|]. cbn [flat_map map]. rewrite <- app_assoc. cbn [app]. rewrite lines_from_nl by exact N. cbn [rev app]. f_equal. exact IH.
Qed.
Lemma escape_no_nl s : ~ In newline (flat_map escape s).
Proof.
  induction s as [|c s IH]; [intros []|]. cbn [flat_map]. intro I. apply in_app_or in I as [I|I]; [|exact (IH I)]. revert I. clear.
  assert (E : existsb (Ascii.eqb newline) (escape c) = false) by (destruct c as [[|] [|] [|] [|] [|] [|] [|] [|]]; reflexivity).
  intro I. assert (T : existsb (Ascii.eqb newline) (escape c) = true) by (apply existsb_exists; exists newline; split; [exact I|reflexivity]). congruence.
Qed.
Lemma no_nl_app a b : ~ In newline a -> ~ In newline b -> ~ In newline (a ++ b).
Proof. intros A B I. apply in_app_or in I as [I|I]; auto. Qed.
Lemma no_nl_const a : existsb (Ascii.eqb newline) a = false -> ~ In newline a.
Proof. intros E I. assert (T : existsb (Ascii.eqb newline) a = true) by (apply existsb_exists; exists newline; split; [exact I|reflexivity]). congruence. Qed.
Lemma member_no_nl kv : ~ In newline (member (flat_map escape) kv).
Proof.
  destruct kv as (k, v). unfold member. cbn [fst snd]. assert (T : forall s, ~ In newline (quote :: flat_map escape s ++ [quote])).
  { intros s [I|I]; [discriminate|]. apply in_app_or in I as [I|[I|[]]]; [exact (escape_no_nl s I)|discriminate]. }
  repeat apply no_nl_app; [apply T|apply no_nl_const; reflexivity|]. destruct v as [s|[|]|]; [apply T| | |]; apply no_nl_const; reflexivity.
Qed.
Definition head_lines : list str :=
  map str_of [""; "# This file was generated by 'versioneer.py' (0.18) from"; "# revision-control system data, or from the parent directory name of an";
    "# unpacked source archive. Distribution tarballs contain a pre-generated copy"; "# of this file."; ""; "import json"; ""; "version_json = '''"; "{"]%string.
Definition tail_lines : list str := map str_of ["}"; "'''  # END VERSION_JSON"; ""; ""; "def get_versions():"; "    return json.loads(version_json)"]%string.
Definition member_lines (v : versions) : list str :=
  match to_dict v with [a; b; c; d; e] => map (fun kv => str_of " " ++ member (flat_map escape) kv ++ str_of ",") [a; b; c; d] ++ [str_of " " ++ member (flat_map escape) e ++ []] | _ => [] end.
Definition file_lines (v : versions) : list str := head_lines ++ member_lines v ++ tail_lines.
Lemma version_lines v : version_text v = flat_map (fun l => l ++ [newline]) (file_lines v).
Proof.
  unfold version_text. rewrite dumps_document. unfold document, body, file_lines, member_lines, to_dict. cbn [map join].
  generalize (member (flat_map escape) (str_of "date", opt_text (v_date v))). intro m1.
  generalize (member (flat_map escape) (str_of "dirty", match v_dirty v with Some b => JTruth b | None => JNone end)). intro m2.
  generalize (member (flat_map escape) (str_of "error", opt_text (v_error v))). intro m3.
  generalize (member (flat_map escape) (str_of "full-revisionid", opt_text (v_full v))). intro m4.
  generalize (member (flat_map escape) (str_of "version", JText (v_version v))). intro m5.
  rewrite !flat_map_app. cbn [flat_map map]. rewrite <- !app_assoc. reflexivity.
Qed.
Definition quiet (l : str) : Prop := (exists a c s, l ++ [newline] = a ++ c :: s /\ Forall (fun c => is_space c = true) a /\ is_space c = false /\ c <> "g"%char) \/ Forall (fun c => is_space c = true) (l ++ [newline]).
Lemma quiet_blank : quiet [].
Proof. right. repeat constructor. Qed.
Lemma quiet_word c s : is_space c = false -> c <> "g"%char -> quiet (c :: s).
Proof. intros C G. left. exists [], c, (s ++ [newline]). repeat split; auto. Qed.
Lemma quiet_space s : quiet s -> quiet (" "%char :: s).
Proof.
  intros [(a & c & t & E & A & C & G)|B]; [left|right].
  - exists (" "%char :: a), c, t. cbn [app]. rewrite E. repeat split; auto.
  - constructor; [reflexivity|exact B].
Qed.
Lemma file_lines_ok v : Forall (fun l => ~ In newline l) (file_lines v) /\ Forall quiet (file_lines v).
Proof.
  assert (M : forall kv r, ~ In newline r -> ~ In newline (str_of " " ++ member (flat_map escape) kv ++ r) /\ quiet (str_of " " ++ member (flat_map escape) kv ++ r)).
  { intros kv r R. split; [apply no_nl_app; [apply no_nl_const; reflexivity|apply no_nl_app; [apply member_no_nl|exact R]]|]. apply quiet_space. apply quiet_word; [reflexivity|discriminate]. }
  assert (C : ~ In newline (str_of ",")) by (apply no_nl_const; reflexivity). assert (E : ~ In newline []) by (intros []).
  unfold file_lines. rewrite !Forall_app. split.
  - split; [|split].
    + repeat (apply Forall_cons; [apply no_nl_const; reflexivity|]). apply Forall_nil.
    + unfold member_lines, to_dict. cbn [map app]. repeat (apply Forall_cons; [apply M; assumption|]). apply Forall_nil.
    + repeat (apply Forall_cons; [apply no_nl_const; reflexivity|]). apply Forall_nil.
  - split; [|split].
    + repeat (apply Forall_cons; [first [apply quiet_blank | apply quiet_word; [reflexivity|discriminate]]|]). apply Forall_nil.
    + unfold member_lines, to_dict. cbn [map app]. repeat (apply Forall_cons; [apply M; assumption|]). apply Forall_nil.
    + repeat (apply Forall_cons; [repeat apply quiet_space; first [apply quiet_blank | apply quiet_word; [reflexivity|discriminate]]|]). apply Forall_nil.
Qed.
Lemma version_no_keywords v t : universal t = version_text v -> git_get_keywords (Some (lines t)) = [].
Proof.
  intro U. unfold lines. destruct (file_lines_ok v) as (N & Q). rewrite U, version_lines, lines_from_all by exact N. apply no_keywords. apply Forall_map. exact Q.
Qed.

(** ** Setup *)
Lemma starts_iff p s : starts_with p s = true <-> exists r, s = p ++ r.
Proof.
  split; [|intros (r & ->); apply starts_with_app]. revert s. induction p as [|x p IH]; intros s H; [exists s; reflexivity|]. destruct s as [|y s]; [discriminate|]. cbn [starts_with] in H. apply andb_prop in H as (E & H). apply Ascii.eqb_eq in E. subst. destruct (IH s H) as (r & ->). exists r. reflexivity.
Qed.
Lemma str_mem x l : existsb (str_eqb x) l = true <-> In x l.
Proof.
  rewrite existsb_exists. split.
  - intros (y & I & E). destruct (str_eqb_spec x y); [subst; exact I|discriminate].
  - intro I. exists x. split; [exact I|]. destruct (str_eqb_spec x x); congruence.
Qed.
Lemma mark_line source : name_ok source -> marked_line source (source ++ str_of " export-subst" ++ nl) = true.
Proof.
  intros (NE & B). unfold marked_line.
  assert (S : strip (source ++ str_of " export-subst" ++ nl) = source ++ str_of " export-subst").
  { destruct source as [|c s]; [congruence|]. pose proof (strip_keeps [] c (s ++ str_of " export-subs") "t" nl ltac:(constructor) ltac:(repeat constructor) (B c (or_introl eq_refl)) eq_refl) as K.
    cbn [app] in K. rewrite <- !app_assoc in K. exact K. }
  rewrite S, starts_with_app. cbn [andb]. unfold split_blanks. change (source ++ str_of " export-subst") with (source ++ " "%char :: str_of "export-subst").
  rewrite words_one; [|exact NE|apply Forall_forall; exact B|reflexivity]. reflexivity.
Qed.
Lemma name_no_nl s : name_ok s -> ~ In newline s.
Proof. intros (_ & B) I. specialize (B _ I). discriminate. Qed.
Lemma name_unix s : name_ok s -> unix s.
Proof. intros (_ & B) I. specialize (B _ I). discriminate. Qed.
Lemma unix_app a b : unix a -> unix b -> unix (a ++ b).
Proof. intros A B I. apply in_app_or in I as [I|I]; auto. Qed.
Lemma lines_one l : unix l -> ~ In newline l -> lines (l ++ [newline]) = [l ++ [newline]].
Proof. intros U N. unfold lines. rewrite universal_unix by (apply unix_app; [exact U|intros [I|[]]; discriminate]). rewrite lines_from_nl by exact N. reflexivity. Qed.
Lemma complete_app a b : complete (a ++ b ++ [newline]).
Proof. right. exists (a ++ b). rewrite app_assoc. reflexivity. Qed.
