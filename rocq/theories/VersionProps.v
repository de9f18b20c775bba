(** C95 and C96: what git says, and the version shown. *)
From Coq Require Import ZArith String Ascii Bool List Lia.
From Verif Require Import PyBase PyStr PathProofs TextSpec TextProofs PolyModel PolySpec PolyProofs VersionModel VersionSpec VersionProofs.
Import ListNotations.
Open Scope nat_scope.

(** ** C95 *)
(** The first command there is decides. *)
Theorem C95_commands : forall popen commands args cwd,
  (Forall (fun c => popen cwd c args = NoSuch) commands /\ run_command popen commands args cwd = (None, None)) \/
  exists before c after, commands = before ++ c :: after /\ Forall (fun c => popen cwd c args = NoSuch) before /\
    ((popen cwd c args = Refused /\ run_command popen commands args cwd = (None, None)) \/
     (exists out rc, popen cwd c args = Ran out rc /\ rc <> 0%Z /\ run_command popen commands args cwd = (None, Some rc)) \/
     (exists out t, popen cwd c args = Ran out 0 /\ without ascii_blank out t /\ run_command popen commands args cwd = (Some t, Some 0%Z))).
Proof.
  intros popen commands args cwd. induction commands as [|c l IH]; [left; split; [constructor|reflexivity]|]. cbn [run_command]. destruct (popen cwd c args) as [out rc| |] eqn:P.
  - right. exists [], c, l. split; [reflexivity|]. split; [constructor|]. right. destruct (Z.eqb_spec rc 0) as [->|N]; [right; exists out, (strip_by ascii_space out); split; [exact P|split; [apply (strip_by_iff _ _ ascii_space_iff); reflexivity|reflexivity]]|left; exists out, rc; auto].
  - destruct IH as [[F E]|(b & d & a & -> & F & H)]; [left; split; [constructor; assumption|exact E]|]. right. exists (c :: b), d, a. split; [reflexivity|]. split; [constructor; assumption|exact H].
  - right. exists [], c, l. split; [reflexivity|]. split; [constructor|]. left. auto.
Qed.
Print Assumptions C95_commands.
Section Git.
Variable popen : str -> str -> list str -> launch.
Variable iparse : str -> option Z.
Variables prefix root : str.
Notation ans := (answers popen root).
Notation sil := (silent popen root).
Lemma answers_run args out : ans args out -> run_command popen GITS args root = (Some (strip_by ascii_space out), Some 0%Z).
Proof. unfold answers, GITS. cbn [run_command]. intros ->. reflexivity. Qed.
Lemma run_cases args : (exists out, ans args out) \/ (sil args /\ fst (run_command popen GITS args root) = None /\ snd (run_command popen GITS args root) <> Some 0%Z).
Proof.
  unfold silent, answers, GITS. cbn [run_command]. destruct (popen root (str_of "git") args) as [out rc| |].
  - destruct (Z.eqb_spec rc 0) as [->|N]; [left; eauto|right]. split; [intros o E; congruence|]. split; [reflexivity|cbn [snd]; congruence].
  - right. split; [discriminate|]. split; [reflexivity|discriminate].
  - right. split; [discriminate|]. split; [reflexivity|discriminate].
Qed.
Lemma silent_run args : sil args -> fst (run_command popen GITS args root) = None /\ snd (run_command popen GITS args root) <> Some 0%Z.
Proof. intro S. destruct (run_cases args) as [(o & O)|(_ & H)]; [elim (S o O)|exact H]. Qed.
(** What happens after the first three commands. *)
Definition rest (F D : str) (dirty : bool) (T : str) : attempt pieces :=
  let finish (p : pieces) : attempt pieces :=
    match fst (run_command popen GITS ask_date root) with
    | None => Raised AttributeError
    | Some date => Got (mkpieces (p_long p) (p_short p) (p_error p) (p_dirty p) (p_tag p) (p_distance p) (Some (iso_date date)))
    end in
  if has_char dash T then
    match match_describe T with
    | None => Got (mkpieces F (firstn 7 F) (Some (str_of "unable to parse git-describe output: '" ++ D ++ str_of "'")) dirty None None None)
    | Some (tag, num, hex) =>
        if negb (starts_with prefix tag) then
          Got (mkpieces F (firstn 7 F) (Some (str_of "tag '" ++ tag ++ str_of "' doesn't start with prefix '" ++ prefix ++ str_of "'")) dirty None None None)
        else finish (mkpieces F hex None dirty (Some (Some (skipn (length prefix) tag))) (Some (int_of_digits num)) None)
    end
  else
    match fst (run_command popen GITS ask_count root) with
    | None => Raised TypeError
    | Some count => match iparse count with None => Raised ValueError | Some n => finish (mkpieces F (firstn 7 F) None dirty (Some None) (Some n) None) end
    end.
Lemma git_told F D dirty T : told popen prefix root F D dirty T -> git_pieces popen iparse prefix root = rest F D dirty T.
Proof.
  intros (o1 & o2 & o3 & A1 & A2 & TD & M & A3 & TF). unfold git_pieces. change (map str_of ["rev-parse"; "--git-dir"]%string) with ask_dir. change (describe_args prefix) with (ask_tags prefix). change (map str_of ["rev-parse"; "HEAD"]%string) with ask_head.
  rewrite (answers_run _ _ A1), (answers_run _ _ A2), (answers_run _ _ A3). cbv beta iota. cbn [fst]. rewrite !strip_twice. apply trimmed_strip in TD, TF. rewrite TD, TF. apply marked_iff in M. destruct M as [-> ->]. reflexivity.
Qed.
Lemma git_cases : (git_pieces popen iparse prefix root = NotThis /\ (sil ask_dir \/ sil (ask_tags prefix) \/ sil ask_head)) \/ (exists F D dirty T, told popen prefix root F D dirty T).
Proof.
  destruct (run_cases ask_dir) as [(o1 & A1)|(S & _ & N)].
  2:{ left. split; [|auto]. unfold git_pieces. change (map str_of ["rev-parse"; "--git-dir"]%string) with ask_dir. destruct (run_command popen GITS ask_dir root) as [x rc]. cbn [snd] in N. destruct rc as [[| |]|]; try reflexivity. elim N. reflexivity. }
  destruct (run_cases (ask_tags prefix)) as [(o2 & A2)|(S & N & _)].
  2:{ left. split; [|auto]. unfold git_pieces. change (map str_of ["rev-parse"; "--git-dir"]%string) with ask_dir. change (describe_args prefix) with (ask_tags prefix). rewrite (answers_run _ _ A1), N. reflexivity. }
  destruct (run_cases ask_head) as [(o3 & A3)|(S & N & _)].
  2:{ left. split; [|auto]. unfold git_pieces. change (map str_of ["rev-parse"; "--git-dir"]%string) with ask_dir. change (describe_args prefix) with (ask_tags prefix). change (map str_of ["rev-parse"; "HEAD"]%string) with ask_head. rewrite (answers_run _ _ A1), (answers_run _ _ A2), N. reflexivity. }
  right. exists (strip o3), (strip o2). eexists. eexists. exists o1, o2, o3. split; [exact A1|]. split; [exact A2|]. split; [apply strip_trimmed|]. split; [apply marked_iff; split; reflexivity|]. split; [exact A3|apply strip_trimmed].
Qed.
Lemma iso_strip o : iso_date (strip_by ascii_space o) = iso_date o.
Proof. unfold iso_date. rewrite strip_twice. reflexivity. Qed.
Lemma prefix_tag tag : (starts_with prefix tag = true /\ tag = prefix ++ skipn (length prefix) tag) \/ (starts_with prefix tag = false /\ forall t, tag <> prefix ++ t).
Proof.
  destruct (starts_with prefix tag) eqn:E; [left|right]; split; try reflexivity.
  - apply starts_with_app in E. destruct E as (r & ->). rewrite skipn_app, skipn_all, Nat.sub_diag. reflexivity.
  - intros t ->. assert (X : starts_with prefix (prefix ++ t) = true) by (apply starts_with_app; eauto). congruence.
Qed.
Lemma strip_count o : without ascii_blank o (strip_by ascii_space o).
Proof. apply (strip_by_iff _ _ ascii_space_iff). reflexivity. Qed.
Lemma pieces_sound : pieces_from popen iparse prefix root (git_pieces popen iparse prefix root).
Proof.
  destruct git_cases as [(E & [S|[S|S]])|(F & D & dirty & T & H)]; [rewrite E; apply no_git; exact S|rewrite E; apply no_description; exact S|rewrite E; apply no_commit; exact S|].
  rewrite (git_told _ _ _ _ H). unfold rest. destruct (has_char dash T) eqn:Hd.
  - apply has_char_iff in Hd. destruct (match_describe T) as [[[tag d] h]|] eqn:M.
    + apply match_iff in M. destruct (prefix_tag tag) as [[-> Et]|[-> Nt]]; cbn [negb].
      * destruct (run_cases ask_date) as [(o & O)|(S & N & _)].
        -- rewrite (answers_run _ _ O). cbn [fst p_long p_short p_error p_dirty p_tag p_distance]. rewrite iso_strip. eapply tagged; [exact H|exact M|exact Et|exact O|]. apply dated_iff. reflexivity.
        -- rewrite N. eapply tagged_undated; [exact H|exact M|exact Et|exact S].
      * eapply other_tag; [exact H|exact M|exact Nt].
    + eapply strange; [exact H|exact Hd|]. apply match_none. exact M.
  - apply has_char_no in Hd. destruct (run_cases ask_count) as [(o & O)|(S & N & _)].
    + rewrite (answers_run _ _ O). cbn [fst]. destruct (iparse (strip_by ascii_space o)) as [n|] eqn:P.
      * destruct (run_cases ask_date) as [(o' & O')|(S & N & _)].
        -- rewrite (answers_run _ _ O'). cbn [fst p_long p_short p_error p_dirty p_tag p_distance]. rewrite iso_strip. eapply untagged; [exact H|exact Hd|exact O|apply strip_count|exact P|exact O'|]. apply dated_iff. reflexivity.
        -- rewrite N. eapply untagged_undated; [exact H|exact Hd|exact O|apply strip_count|exact P|exact S].
      * eapply miscounted; [exact H|exact Hd|exact O|apply strip_count|exact P].
    + rewrite N. eapply uncounted; [exact H|exact Hd|exact S].
Qed.
Lemma has_dash T : In (chr 45) T -> has_char dash T = true.
Proof. apply has_char_iff. Qed.
Lemma pieces_complete a : pieces_from popen iparse prefix root a -> git_pieces popen iparse prefix root = a.
Proof.
  assert (Out : forall args, sil args -> forall o, ~ ans args o) by (intros args S; exact S).
  assert (Sil : (sil ask_dir \/ sil (ask_tags prefix) \/ sil ask_head) -> git_pieces popen iparse prefix root = NotThis).
  { intro S. destruct git_cases as [[E _]|(F & D & dirty & T & o1 & o2 & o3 & A1 & A2 & _ & _ & A3 & _)]; [exact E|exfalso]. destruct S as [S|[S|S]]; eapply S; eassumption. }
  assert (Cnt : forall o c, without ascii_blank o c -> strip_by ascii_space o = c) by (intros o c W; apply (strip_by_iff _ _ ascii_space_iff); exact W).
  intros [S|S|S|F D dirty T tag d h t o date H M Et O Da|F D dirty T tag d h t H M Et S|F D dirty T tag d h H M Nt|F D dirty T H Hd N|F D dirty T o c n o' date H Hd O W P O' Da|F D dirty T o c n H Hd O W P S|F D dirty T H Hd S|F D dirty T o c H Hd O W P]; try (apply Sil; auto; fail); rewrite (git_told _ _ _ _ H); unfold rest.
  - rewrite (has_dash _ (describes_dash _ _ _ _ M)). apply match_iff in M. rewrite M. destruct (prefix_tag tag) as [[-> Et']|[_ Nt]]; [|elim (Nt t Et)]. cbn [negb]. rewrite (answers_run _ _ O). cbn [fst p_long p_short p_error p_dirty p_tag p_distance]. rewrite iso_strip. apply dated_iff in Da. rewrite Da. assert (X : skipn (length prefix) tag = t) by (rewrite Et' in Et; apply app_inv_head in Et; exact Et). rewrite X. reflexivity.
  - rewrite (has_dash _ (describes_dash _ _ _ _ M)). apply match_iff in M. rewrite M. destruct (prefix_tag tag) as [[-> Et']|[_ Nt]]; [|elim (Nt t Et)]. cbn [negb]. destruct (silent_run _ S) as [-> _]. reflexivity.
  - rewrite (has_dash _ (describes_dash _ _ _ _ M)). apply match_iff in M. rewrite M. destruct (prefix_tag tag) as [[_ Et']|[-> _]]; [elim (Nt _ Et')|]. reflexivity.
  - rewrite (has_dash _ Hd). apply match_none in N. rewrite N. reflexivity.
  - apply has_char_no in Hd. unfold dash. rewrite Hd, (answers_run _ _ O). cbn [fst]. rewrite (Cnt _ _ W), P, (answers_run _ _ O'). cbn [fst p_long p_short p_error p_dirty p_tag p_distance]. rewrite iso_strip. apply dated_iff in Da. rewrite Da. reflexivity.
  - apply has_char_no in Hd. unfold dash. rewrite Hd, (answers_run _ _ O). cbn [fst]. rewrite (Cnt _ _ W), P. destruct (silent_run _ S) as [-> _]. reflexivity.
  - apply has_char_no in Hd. unfold dash. rewrite Hd. destruct (silent_run _ S) as [-> _]. reflexivity.
  - apply has_char_no in Hd. unfold dash. rewrite Hd, (answers_run _ _ O). cbn [fst]. rewrite (Cnt _ _ W), P. reflexivity.
Qed.
End Git.

(** What is found out is what the repository's answers say, in every case. *)
Theorem C95_pieces : forall popen iparse prefix root a, git_pieces popen iparse prefix root = a <-> pieces_from popen iparse prefix root a.
Proof. intros. split; [intros <-; apply pieces_sound|apply pieces_complete]. Qed.
(** A description can be read in one way only, whatever dashes there are in the tag. *)
Theorem C95_one_reading : forall T tag d h tag' d' h', describes T tag d h -> describes T tag' d' h' -> tag = tag' /\ d = d' /\ h = h'.
Proof. intros T tag d h tag' d' h' A B. apply match_iff in A, B. split; [|split]; congruence. Qed.
Definition some_git (cwd cmd : str) (args : list str) : launch :=
  if str_eqb (concat args) (str_of "rev-parse--git-dir") then Ran (str_of ".git" ++ [chr 10]) 0
  else if str_eqb (concat args) (str_of "rev-parseHEAD") then Ran (str_of "89abcdef01234567" ++ [chr 10]) 0
  else if str_eqb (concat args) (str_of "show-s--format=%ciHEAD") then Ran (str_of "2020-01-02 03:04:05 -0700" ++ [chr 10]) 0
  else if starts_with (str_of "describe") (concat args) then Ran (str_of "v1.0-2-g3-14-g89abcde-dirty" ++ [chr 10]) 0
  else Ran [] 1.
Definition no_parse (s : str) : option Z := None.
Example C95_ex : git_pieces some_git no_parse (str_of "v") (str_of "/src") =
  Got (mkpieces (str_of "89abcdef01234567") (str_of "89abcde") None true (Some (Some (str_of "1.0-2-g3"))) (Some 14%Z) (Some (str_of "2020-01-02T03:04:05-0700"))).
Proof. vm_compute. reflexivity. Qed.
Print Assumptions C95_pieces.
Print Assumptions C95_one_reading.

(** ** C96 *)
Lemma style_eqs s :
  (str_eqb (style_name s) (str_of "default") = false) /\
  (match style_name s with [] => str_of "pep440" | x => if str_eqb x (str_of "default") then str_of "pep440" else x end) = style_name s.
Proof. destruct s; split; reflexivity. Qed.
Definition by_style (s : style) (p : pieces) : res str :=
  match s with pep440 => render_pep440 p | pre => render_pep440_pre p | post => render_pep440_post p | old => render_pep440_old p | describe => render_git_describe p | describe_long => render_git_describe_long p end.
Lemma render_style p s : p_error p = None -> render p (Some (style_name s)) = bind (by_style s p) (fun r => Ok (mkversions r (Some (p_long p)) (Some (p_dirty p)) None (p_date p))).
Proof. intro E. unfold render. rewrite E. destruct s; reflexivity. Qed.
Lemma sep_of t : local_sep t (plus_or_dot t).
Proof. unfold plus_or_dot. destruct (has_char plus t) eqn:E; [right; apply has_char_iff in E; auto|left; apply has_char_no in E; auto]. Qed.
Lemma sep_is t sep : local_sep t sep -> sep = plus_or_dot t.
Proof. unfold plus_or_dot. intros [[N ->]|[I ->]]; [apply has_char_no in N; change plus with (chr 43); rewrite N; reflexivity|apply has_char_iff in I; change plus with (chr 43); rewrite I; reflexivity]. Qed.
Lemma when_mark b s : when b (str_of s) = mark b s.
Proof. destruct b; reflexivity. Qed.
Lemma moved n dirty : (negb (Z.eqb n 0) || dirty = true /\ ~ at_tag n dirty) \/ (negb (Z.eqb n 0) || dirty = false /\ at_tag n dirty).
Proof. unfold at_tag. destruct (Z.eqb_spec n 0) as [->|N], dirty; cbn [negb orb]; intuition congruence. Qed.
Lemma moved_n n : (negb (Z.eqb n 0) = true /\ n <> 0%Z) \/ (negb (Z.eqb n 0) = false /\ n = 0%Z).
Proof. destruct (Z.eqb_spec n 0); cbn [negb]; auto. Qed.
Lemma shown_style p s t t' n v : p_tag p = Some t -> p_distance p = Some n -> real_tag t t' -> (by_style s p = Ok v <-> shown n (p_short p) (p_dirty p) t' s v).
Proof.
  intros Ht Hn R. assert (Q : exists w, by_style s p = Ok w /\ shown n (p_short p) (p_dirty p) t' s w).
  { assert (Un : t' = None -> forall f, by_tag p f = fun u => u) by (intros E f; unfold by_tag, tag_of; rewrite Ht; destruct R; [reflexivity|reflexivity|discriminate E]).
    assert (Ta : forall u, t' = Some u -> forall f g, by_tag p f g = f u) by (intros u E f g; unfold by_tag, tag_of; rewrite Ht; destruct R; [discriminate E|discriminate E|injection E as <-; reflexivity]).
    assert (Di : distance_of p = Ok n) by (unfold distance_of; rewrite Hn; reflexivity). clear R Ht Hn.
    destruct t' as [u|]; [specialize (Ta u eq_refl); clear Un|specialize (Un eq_refl); clear Ta];
      destruct s; cbn [by_style]; unfold render_pep440, render_pep440_pre, render_pep440_post, render_pep440_old, render_git_describe, render_git_describe_long; first [rewrite Ta|rewrite Un]; rewrite ?Di; cbn [bind]; rewrite ?when_mark.
    - destruct (moved n (p_dirty p)) as [[-> M]|[-> M]]; eexists; (split; [reflexivity|]); [apply pep440_later; [exact M|apply sep_of]|apply at_the_tag; [exact M|discriminate]].
    - destruct (moved_n n) as [[-> M]|[-> M]]; eexists; (split; [reflexivity|]); [apply pre_later; exact M|]. destruct (p_dirty p) eqn:Ed; [apply pre_dirty; auto|apply at_the_tag; [split; auto|discriminate]].
    - destruct (moved n (p_dirty p)) as [[-> M]|[-> M]]; eexists; (split; [reflexivity|]); [apply post_later; [exact M|apply sep_of]|apply at_the_tag; [exact M|discriminate]].
    - destruct (moved n (p_dirty p)) as [[-> M]|[-> M]]; eexists; (split; [reflexivity|]); [apply old_later; exact M|apply at_the_tag; [exact M|discriminate]].
    - destruct (moved_n n) as [[-> M]|[-> M]]; eexists; (split; [reflexivity|]).
      + rewrite <- !app_assoc. apply describe_later; exact M.
      + destruct (p_dirty p) eqn:Ed; [apply describe_dirty; auto|cbn [mark]; rewrite app_nil_r; apply at_the_tag; [split; auto|discriminate]].
    - eexists. split; [reflexivity|]. apply long_any.
    - eexists. split; [reflexivity|]. apply pep440_none.
    - eexists. split; [reflexivity|]. apply pre_none.
    - eexists. split; [reflexivity|]. apply post_none.
    - eexists. split; [reflexivity|]. apply old_none.
    - eexists. split; [reflexivity|]. apply describe_none. auto.
    - eexists. split; [reflexivity|]. apply describe_none. auto. }
  destruct Q as (w & Q & S). split; [intro E; replace v with w by congruence; exact S|]. intro S'. rewrite Q. f_equal. revert S'. clear Q R Ht Hn t. unfold at_tag in *. unfold at_tag in S.
  destruct S; intro S'; inversion S'; subst; unfold at_tag in *; try reflexivity; try (exfalso; intuition congruence);
    repeat match goal with H : local_sep _ _ |- _ => apply sep_is in H; subst end; try reflexivity.
Qed.
(** For each documented style the version shown is the documented one. *)
Theorem C96_shown : forall p s t t' n v, p_error p = None -> p_tag p = Some t -> p_distance p = Some n -> real_tag t t' ->
  (render p (Some (style_name s)) = Ok v <-> exists text, shown n (p_short p) (p_dirty p) t' s text /\ v = mkversions text (Some (p_long p)) (Some (p_dirty p)) None (p_date p)).
Proof.
  intros p s t t' n v E Ht Hn R. rewrite (render_style p s E). split.
  - destruct (by_style s p) as [w|e] eqn:B; cbn [bind]; [|discriminate]. intro X. exists w. split; [apply (shown_style p s t t' n w Ht Hn R); exact B|congruence].
  - intros (w & S & ->). apply (shown_style p s t t' n w Ht Hn R) in S. rewrite S. reflexivity.
Qed.
Theorem C96_some_text : forall n h dirty t s, exists v, shown n h dirty t s v.
Proof.
  intros n h dirty t s. destruct t as [t|].
  - destruct s; try (eexists; first [apply long_any|fail]; fail); destruct (Z.eq_dec n 0) as [->|N]; destruct dirty; try (eexists; apply at_the_tag; [split; reflexivity|discriminate]); try (eexists; first [eapply pep440_later; [intros []; congruence|apply sep_of]|eapply post_later; [intros []; congruence|apply sep_of]|apply old_later; intros []; congruence|apply pre_later; assumption|apply pre_dirty; reflexivity|apply describe_later; assumption|apply describe_dirty; reflexivity]).
  - destruct s; eexists; constructor; auto.
Qed.
(** Without a style, or with "default", it is pep440; nothing else is accepted. *)
Theorem C96_default : forall p, render p None = render p (Some (style_name pep440)) /\ render p (Some []) = render p (Some (style_name pep440)) /\ render p (Some (str_of "default")) = render p (Some (style_name pep440)).
Proof. intro p. unfold render. destruct (p_error p) as [[|c e]|]; repeat split; reflexivity. Qed.
Theorem C96_unknown_style : forall p name, p_error p = None -> name <> [] -> name <> str_of "default" -> (forall s, name <> style_name s) -> render p (Some name) = Err ValueError.
Proof.
  intros p name E N0 Nd N. unfold render. rewrite E. destruct name as [|c name]; [congruence|]. set (w := c :: name) in *. clearbody w. apply str_eqb_neq in Nd. rewrite Nd.
  pose proof (N pep440) as N1. pose proof (N pre) as N2. pose proof (N post) as N3. pose proof (N old) as N4. pose proof (N describe) as N5. pose proof (N describe_long) as N6. unfold style_name in *. apply str_eqb_neq in N1, N2, N3, N4, N5, N6. rewrite N1, N2, N3, N4, N5, N6. reflexivity.
Qed.
(** When something went wrong the version is "unknown", with the commit, for every style. *)
Theorem C96_error : forall p style e, p_error p = Some e -> e <> [] -> render p style = Ok (mkversions (str_of "unknown") (Some (p_long p)) None (Some e) None).
Proof. intros p style e E N. unfold render. rewrite E. destruct e as [|c e]; [congruence|reflexivity]. Qed.
Theorem C96_missing : forall p s, p_error p = None -> p_tag p = None -> render p (Some (style_name s)) = Err KeyError.
Proof. intros p s E T. rewrite (render_style p s E). destruct s; cbn [by_style]; unfold render_pep440, render_pep440_pre, render_pep440_post, render_pep440_old, render_git_describe, render_git_describe_long, by_tag, tag_of; rewrite T; reflexivity. Qed.
Lemma cut_char (x : ascii) a b a' b' : ~ In x a -> ~ In x a' -> a ++ x :: b = a' ++ x :: b' -> a = a' /\ b = b'.
Proof.
  revert a'. induction a as [|c a IH]; intros [|c' a'] N N' E; cbn [app] in E.
  - split; congruence.
  - elim N'. left. congruence.
  - elim N. left. congruence.
  - assert (c = c') by congruence. subst c'. destruct (IH a') as [-> ->]; [intro I; apply N; right; exact I|intro I; apply N'; right; exact I|congruence|]. split; reflexivity.
Qed.
Lemma digits_end n m c r r' : (0 <= n)%Z -> (0 <= m)%Z -> is_digit c = false -> str_of_Z n ++ c :: r = str_of_Z m ++ c :: r' -> n = m /\ r = r'.
Proof.
  intros Hn Hm Hc E. destruct (str_of_Z_nonneg n Hn) as (Dn & _ & _). destruct (str_of_Z_nonneg m Hm) as (Dm & _ & _).
  assert (N : forall s, all_digits s -> ~ In c s) by (intros s D I; unfold all_digits in D; rewrite Forall_forall in D; specialize (D c I); congruence).
  apply cut_char in E; [|apply N; exact Dn|apply N; exact Dm]. destruct E as [E ->]. split; [apply str_of_Z_inj; exact E|reflexivity].
Qed.
Lemma hex_end h h' d d' : Forall hexdigit h -> Forall hexdigit h' -> h ++ mark d ".dirty" = h' ++ mark d' ".dirty" -> h = h' /\ d = d'.
Proof.
  intros H H' E. assert (N : forall s, Forall hexdigit s -> ~ In (chr 46) s) by (intros s F I; rewrite Forall_forall in F; specialize (F _ I); revert F; unfold hexdigit; vm_compute; intro X; repeat destruct X as [X|X]; try discriminate X; exact X).
  destruct d, d'; cbn [mark] in E; rewrite ?app_nil_r in E.
  - apply app_inv_tail in E. auto.
  - exfalso. apply (N h' H'). rewrite <- E. apply in_app_iff. right. left. reflexivity.
  - exfalso. apply (N h H). rewrite E. apply in_app_iff. right. left. reflexivity.
  - auto.
Qed.
Inductive pep440_shape (n : Z) (h : str) (dirty : bool) : option str -> str -> Prop :=
| shape_at t : at_tag n dirty -> ~ In (chr 43) t -> pep440_shape n h dirty (Some t) t
| shape_later t : ~ at_tag n dirty -> ~ In (chr 43) t -> pep440_shape n h dirty (Some t) (t ++ chr 43 :: str_of_Z n ++ chr 46 :: chr 103 :: h ++ mark dirty ".dirty")
| shape_none : pep440_shape n h dirty None (str_of "0" ++ chr 43 :: str_of "untagged." ++ str_of_Z n ++ chr 46 :: chr 103 :: h ++ mark dirty ".dirty").
Lemma shape_of n h dirty t v : plain_tag t -> shown n h dirty t pep440 v -> pep440_shape n h dirty t v.
Proof.
  intros P S. inversion S; subst.
  - apply shape_at; [assumption|apply P; reflexivity].
  - match goal with H : local_sep _ _ |- _ => destruct H as [[N ->]|[I _]] end; [|elim (P _ eq_refl I)]. apply shape_later; [assumption|exact N].
  - apply shape_none.
  - match goal with H : _ \/ _ |- _ => destruct H as [H|H]; discriminate H end.
Qed.
(** Different states have different versions, as long as tags have no plus sign.  (At a
    tag without changes the commit itself is not shown.) *)
Theorem C96_pep440_faithful : forall n h dirty t n' h' dirty' t' v, (0 <= n)%Z -> (0 <= n')%Z -> Forall hexdigit h -> Forall hexdigit h' -> plain_tag t -> plain_tag t' ->
  shown n h dirty t pep440 v -> shown n' h' dirty' t' pep440 v ->
  t = t' /\ n = n' /\ dirty = dirty' /\ (h = h' \/ t <> None /\ at_tag n dirty).
Proof.
  intros n h dirty t n' h' dirty' t' v Hn Hn' H H' P P' S S'. apply (shape_of _ _ _ _ _ P) in S. apply (shape_of _ _ _ _ _ P') in S'. clear P P'.
  assert (NotU : forall m w r, (0 <= m)%Z -> str_of_Z m ++ r = str_of "untagged." ++ w -> False).
  { intros m w r Hm E. destruct (str_of_Z_nonneg m Hm) as (D & Ne & _). destruct (str_of_Z m) as [|c x]; [congruence|]. inversion D as [|c' l Dc _]; subst. injection E as -> _. discriminate Dc. }
  assert (Z0 : ~ In (chr 43) (str_of "0")) by (intros [X|[]]; discriminate X).
  remember v as w eqn:E2 in S'. destruct S as [t A N|t A N|]; destruct S' as [t1 A' N'|t1 A' N'|].
  - subst t1. destruct A as [-> ->], A' as [-> ->]. repeat split; auto. right. split; [discriminate|split; reflexivity].
  - elim N. rewrite <- E2. apply in_app_iff. right. left. reflexivity.
  - elim N. rewrite <- E2. apply in_app_iff. right. left. reflexivity.
  - elim N'. rewrite E2. apply in_app_iff. right. left. reflexivity.
  - apply cut_char in E2; [|assumption|assumption]. destruct E2 as [-> E2]. apply digits_end in E2; [|assumption|assumption|reflexivity]. destruct E2 as [-> E2]. assert (E3 : h' ++ mark dirty' ".dirty" = h ++ mark dirty ".dirty") by congruence. apply hex_end in E3; [|assumption|assumption]. destruct E3 as [-> ->]. repeat split; auto.
  - apply cut_char in E2; [|assumption|assumption]. destruct E2 as [_ E2]. symmetry in E2. exfalso. exact (NotU _ _ _ Hn E2).
  - elim N'. rewrite E2. apply in_app_iff. right. left. reflexivity.
  - apply cut_char in E2; [|assumption|assumption]. destruct E2 as [_ E2]. exfalso. exact (NotU _ _ _ Hn' E2).
  - apply cut_char in E2; [|assumption|assumption]. destruct E2 as [_ E2]. apply app_inv_head in E2. apply digits_end in E2; [|assumption|assumption|reflexivity]. destruct E2 as [-> E2]. assert (E3 : h' ++ mark dirty' ".dirty" = h ++ mark dirty ".dirty") by congruence. apply hex_end in E3; [|assumption|assumption]. destruct E3 as [-> ->]. repeat split; auto.
Qed.
(** The long description gives back what git said. *)
Theorem C96_description_back : forall popen iparse prefix root F D dirty T tag c t d h o, told popen prefix root F D dirty T -> describes T tag d h -> tag = prefix ++ c :: t -> answers popen root ask_date o ->
  str_of_Z (digits_value d) = d -> ~ In (chr 10) D ->
  exists p v, git_pieces popen iparse prefix root = Got p /\ render p (Some (style_name describe_long)) = Ok v /\ prefix ++ v_version v = D.
Proof.
  intros popen iparse prefix root F D dirty T tag c t d h o H M Et O Ed Nn. eexists. eexists. split.
  - apply C95_pieces. eapply tagged; [exact H|exact M|exact Et|exact O|]. apply dated_iff. reflexivity.
  - split.
    + apply (C96_shown _ describe_long (Some (c :: t)) (Some (c :: t)) (digits_value d)); [reflexivity|reflexivity|reflexivity|constructor|]. eexists. split; [apply long_any|reflexivity].
    + cbn [v_version p_short p_dirty]. rewrite Ed. destruct H as (_ & o2 & _ & _ & _ & _ & K & _). destruct M as (E & _).
      assert (ET : T = tag ++ str_of "-" ++ d ++ str_of "-g" ++ h). { destruct E as [E|E]; [exact E|]. exfalso. apply Nn. destruct K as [T' _|T']; rewrite E; rewrite !in_app_iff; cbn [In]; tauto. }
      destruct K as [T' _|T']; rewrite ET, Et; cbn [mark]; rewrite ?app_nil_r, <- !app_assoc; reflexivity.
Qed.
(** "pep440-pre" does not show changed files. *)
Theorem C96_pre_hides_changes_refuted : exists n h t v, shown n h true (Some t) pre v /\ shown n h false (Some t) pre v.
Proof. exists 0%Z, (str_of "89abcde"), (str_of "1.0"), (str_of "1.0"). split; [apply pre_dirty; reflexivity|apply at_the_tag; [split; reflexivity|discriminate]]. Qed.
(** A plus sign in a tag: the same version for a state after one tag and for another tag. *)
Theorem C96_plus_refuted : exists n h t n' h' t' v, (t, n) <> (t', n') /\ shown n h false (Some t) pep440 v /\ shown n' h' false (Some t') pep440 v.
Proof.
  exists 3%Z, (str_of "89abcde"), (str_of "1.0"), 0%Z, (str_of "0123456"), (str_of "1.0+3.g89abcde"), (str_of "1.0+3.g89abcde"). split; [discriminate|]. split; [|apply at_the_tag; [split; reflexivity|discriminate]].
  change (str_of "1.0+3.g89abcde") with (str_of "1.0" ++ str_of "+" ++ str_of_Z 3 ++ str_of ".g" ++ str_of "89abcde" ++ mark false ".dirty"). apply pep440_later; [intros [X _]; discriminate X|]. left. split; [|reflexivity]. vm_compute. intro X. repeat destruct X as [X|X]; try discriminate X; exact X.
Qed.
(** A tag that is the prefix alone is shown as no tag at all. *)
Definition bare_git (cwd cmd : str) (args : list str) : launch := if starts_with (str_of "describe") (concat args) then Ran (str_of "v-0-g89abcde" ++ [chr 10]) 0 else some_git cwd cmd args.
Theorem C96_bare_tag_refuted : exists popen iparse prefix root p v, git_pieces popen iparse prefix root = Got p /\ p_tag p = Some (Some []) /\ p_distance p = Some 0%Z /\
  render p None = Ok v /\ v_version v = str_of "0+untagged.0.g89abcde".
Proof. exists bare_git, no_parse, (str_of "v"), (str_of "/src"). eexists. eexists. split; [vm_compute; reflexivity|]. split; [reflexivity|]. split; [reflexivity|]. split; vm_compute; reflexivity. Qed.
Definition some_pieces : pieces := mkpieces (str_of "89abcdef01234567") (str_of "89abcde") None true (Some (Some (str_of "1.0"))) (Some 14%Z) (Some (str_of "2020-01-02T03:04:05-0700")).
Example C96_ex : map (fun s => match render some_pieces (Some (style_name s)) with Ok v => v_version v | Err _ => [] end) [pep440; pre; post; old; describe; describe_long] =
  map str_of ["1.0+14.g89abcde.dirty"; "1.0.post.dev14"; "1.0.post14.dev0+g89abcde"; "1.0.post14.dev0"; "1.0-14-g89abcde-dirty"; "1.0-14-g89abcde-dirty"]%string.
Proof. vm_compute. reflexivity. Qed.
Example C96_ex_back : told some_git (str_of "v") (str_of "/src") (str_of "89abcdef01234567") (str_of "v1.0-2-g3-14-g89abcde-dirty") true (str_of "v1.0-2-g3-14-g89abcde") /\
  describes (str_of "v1.0-2-g3-14-g89abcde") (str_of "v1.0-2-g3") (str_of "14") (str_of "89abcde") /\ str_of_Z (digits_value (str_of "14")) = str_of "14".
Proof.
  split; [|split; [|vm_compute; reflexivity]].
  - do 3 eexists. split; [vm_compute; reflexivity|]. split; [vm_compute; reflexivity|]. split; [apply trimmed_iff; vm_compute; reflexivity|]. split; [apply (mark_dirty (str_of "v1.0-2-g3-14-g89abcde"))|]. split; [vm_compute; reflexivity|apply trimmed_iff; vm_compute; reflexivity].
  - apply match_iff. vm_compute. reflexivity.
Qed.
Print Assumptions C96_shown.
Print Assumptions C96_some_text.
Print Assumptions C96_default.
Print Assumptions C96_unknown_style.
Print Assumptions C96_error.
Print Assumptions C96_missing.
Print Assumptions C96_pep440_faithful.
Print Assumptions C96_description_back.
Print Assumptions C96_pre_hides_changes_refuted.
Print Assumptions C96_plus_refuted.
Print Assumptions C96_bare_tag_refuted.
