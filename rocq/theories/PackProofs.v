(** Lemmas for C126 to C129. *)
From Coq Require Import ZArith String Ascii Bool List Lia Permutation.
From Verif Require Import PyBase PyStr PolyModel PolySpec PolyProofs VersionModel PackModel PackSpec.
Import ListNotations.
Open Scope nat_scope.

(** ** Reading what was written *)
Definition consr (c : ascii) (r : res (str * str)) : res (str * str) := bind r (fun p => Ok (c :: fst p, snd p)).
Lemma read_escape c t : read_text (escape c ++ t) = consr c (read_text t).
Proof. destruct c as [[|] [|] [|] [|] [|] [|] [|] [|]]; reflexivity. Qed.
Lemma read_escaped s r : read_text (flat_map escape s ++ quote :: r) = Ok (s, r).
Proof.
  induction s as [|c s IH]; [reflexivity|]. cbn [flat_map]. rewrite <- app_assoc, read_escape, IH. reflexivity.
Qed.
(** Raw texts are read, too. *)
Definition readable (c : ascii) : Prop := c <> chr 34 /\ c <> chr 92 /\ 32 <= nat_of_ascii c.
Lemma read_raw s r : Forall readable s -> read_text (s ++ quote :: r) = Ok (s, r).
Proof.
  induction 1 as [|c s (Q & B & L) _ IH]; [reflexivity|]. cbn [app read_text].
  destruct (Ascii.eqb_spec c quote); [elim Q; assumption|]. destruct (Ascii.eqb_spec c backslash); [elim B; assumption|].
  destruct (Nat.ltb_spec (nat_of_ascii c) 32); [lia|]. rewrite IH. reflexivity.
Qed.
Lemma skip_cons c s : json_space c = true -> skip_spaces (c :: s) = skip_spaces s.
Proof. unfold skip_spaces. cbn [span]. intros ->. destruct (span json_space s). reflexivity. Qed.
(** Dictionaries written with another way of showing texts. *)
Section Dump.
Variable enc : str -> str.
Definition show_value (v : jval) : str := match v with JText s => quote :: enc s ++ [quote] | JTruth b => str_of (if b then "true" else "false") | JNone => str_of "null" end.
Definition member (kv : str * jval) : str := (quote :: enc (fst kv) ++ [quote]) ++ str_of ": " ++ show_value (snd kv).
Definition body (d : jdict) : str := join (str_of "," ++ [newline]) (map (fun kv => str_of " " ++ member kv) d).
Definition document (d : jdict) : str := str_of "{" ++ [newline] ++ body d ++ [newline] ++ str_of "}".
Definition good_text (s : str) : Prop := forall r, read_text (enc s ++ quote :: r) = Ok (s, r).
Definition good_member (kv : str * jval) : Prop := good_text (fst kv) /\ match snd kv with JText s => good_text s | _ => True end.
Lemma read_shown v r : match v with JText s => good_text s | _ => True end -> read_value (show_value v ++ r) = Ok (v, r).
Proof.
  destruct v as [s|[|]|]; intro G; try reflexivity. cbn [show_value app read_value]. cbn [Ascii.eqb]. change (Ascii.eqb quote quote) with true. cbn iota.
  rewrite <- app_assoc. cbn [app]. rewrite G. reflexivity.
Qed.
Lemma skip_shown v r : skip_spaces (show_value v ++ r) = show_value v ++ r.
Proof. destruct v as [s|[|]|]; reflexivity. Qed.
Lemma read_body d rest : d <> [] -> Forall good_member d -> forall fuel, length d <= fuel ->
  read_members fuel (skip_spaces (body d ++ [newline] ++ str_of "}" ++ rest)) = Ok (d, rest).
Proof.
  induction d as [|(k, v) d IH]; [congruence|]. intros _ F fuel L. inversion F as [|? ? (GK & GV) F']; subst.
  destruct fuel as [|fuel]; [cbn [length] in L; lia|].
  cbn [fst snd] in GK, GV.
  assert (E : forall tl, skip_spaces ((str_of " " ++ member (k, v)) ++ tl) = quote :: enc k ++ quote :: str_of ": " ++ show_value v ++ tl)
    by (intro tl; unfold member; cbn [fst snd]; rewrite <- !app_assoc; change (skip_spaces (str_of " " ++ ?x)) with (skip_spaces x); cbn [app]; rewrite <- !app_assoc; reflexivity).
  destruct d as [|kv d].
  - unfold body. cbn [map join]. rewrite E. cbn [read_members]. change (Ascii.eqb quote quote) with true. cbn [negb]. rewrite GK. cbn [bind fst snd].
    change (skip_spaces (str_of ": " ++ ?x)) with (str_of ": " ++ x). cbn [str_of list_ascii_of_string app].
    change (Ascii.eqb ":" ":") with true. cbn [negb]. rewrite skip_cons by reflexivity. rewrite skip_shown, read_shown by exact GV. cbn [bind fst snd].
    reflexivity.
  - unfold body. change (map (fun kv => str_of " " ++ member kv) ((k, v) :: kv :: d)) with ((str_of " " ++ member (k, v)) :: map (fun kv => str_of " " ++ member kv) (kv :: d)).
    change (join ?s (?x :: map ?f (?y :: ?l))) with (x ++ s ++ join s (map f (y :: l))). fold (body (kv :: d)).
    rewrite <- !app_assoc. rewrite app_assoc. rewrite E. cbn [read_members]. change (Ascii.eqb quote quote) with true. cbn [negb]. rewrite GK. cbn [bind fst snd].
    change (skip_spaces (str_of ": " ++ ?x)) with (str_of ": " ++ x). cbn [str_of list_ascii_of_string app].
    change (Ascii.eqb ":" ":") with true. cbn [negb]. rewrite skip_cons by reflexivity. rewrite skip_shown, read_shown by exact GV. cbn [bind fst snd].
    change (skip_spaces (","%char :: ?x)) with (","%char :: x). cbn iota. change (Ascii.eqb "," "}") with false. change (Ascii.eqb "," ",") with true. cbn iota.
    rewrite skip_cons by reflexivity.
    specialize (IH ltac:(discriminate) F' fuel ltac:(cbn [length] in *; lia)). cbn [str_of list_ascii_of_string app] in IH. rewrite IH. reflexivity.
Qed.
Lemma body_length d : length d <= length (body d).
Proof.
  induction d as [|x [|y d] IH]; [cbn; lia| |].
  - unfold body. cbn [map join app length]. rewrite !app_length. cbn. lia.
  - unfold body in *. change (map (fun kv => str_of " " ++ member kv) (x :: y :: d)) with ((str_of " " ++ member x) :: map (fun kv => str_of " " ++ member kv) (y :: d)).
    change (join ?s (?x :: map ?f (?y :: ?l))) with (x ++ s ++ join s (map f (y :: l))). rewrite !app_length. cbn [length] in *. lia.
Qed.
Lemma body_skip d tl : d <> [] -> exists r, skip_spaces (body d ++ tl) = quote :: r.
Proof.
  destruct d as [|x [|y d]]; [congruence| |]; intros _; unfold body.
  - cbn [map join]. exists ((enc (fst x) ++ [quote]) ++ str_of ": " ++ show_value (snd x) ++ tl). unfold member. rewrite <- !app_assoc. cbn [app]. rewrite <- !app_assoc. reflexivity.
  - change (map (fun kv => str_of " " ++ member kv) (x :: y :: d)) with ((str_of " " ++ member x) :: map (fun kv => str_of " " ++ member kv) (y :: d)).
    change (join ?s (?x :: map ?f (?y :: ?l))) with (x ++ s ++ join s (map f (y :: l))). eexists. unfold member. rewrite <- !app_assoc. cbn [app]. reflexivity.
Qed.
Lemma loads_document d before after : d <> [] -> Forall good_member d -> Forall (fun c => json_space c = true) before -> Forall (fun c => json_space c = true) after ->
  loads (before ++ document d ++ after) = Ok d.
Proof.
  intros N F B A. unfold loads.
  assert (SB : forall b t, Forall (fun c => json_space c = true) b -> skip_spaces (b ++ t) = skip_spaces t)
    by (intros b t; unfold skip_spaces; induction 1 as [|c b H _ IH]; [reflexivity|]; cbn [app span]; rewrite H; destruct (span json_space (b ++ t)); exact IH).
  rewrite SB by exact B. unfold document. rewrite <- !app_assoc.
  change (skip_spaces (str_of "{" ++ ?x)) with ("{"%char :: x). cbn iota. change (Ascii.eqb "{" "{") with true. cbn iota.
  change ([newline] ++ body d ++ ?y) with (newline :: body d ++ y). rewrite skip_cons by reflexivity. destruct (body_skip d ([newline] ++ str_of "}" ++ after) N) as (r & E). rewrite E.
  cbn iota. change (Ascii.eqb quote "}") with false. cbn iota. rewrite <- E. rewrite read_body; [| exact N | exact F |].
  - cbn [bind snd fst]. rewrite <- (app_nil_r after), SB by exact A. reflexivity.
  - cbn [length]. rewrite !app_length. pose proof (body_length d). lia.
Qed.
End Dump.
Lemma dumps_document d : dumps d = document (flat_map escape) d.
Proof.
  reflexivity.
Qed.
Lemma to_dict_ne v : to_dict v <> [].
Proof. discriminate. Qed.
Lemma loads_dumps d before after : d <> [] -> Forall (fun c => json_space c = true) before -> Forall (fun c => json_space c = true) after ->
  loads (before ++ dumps d ++ after) = Ok d.
Proof.
  intros. rewrite dumps_document. apply loads_document; try assumption. apply Forall_forall. intros (k, v) _. split; [intro; apply read_escaped|]. destruct v; try exact I. intro. apply read_escaped.
Qed.
Lemma to_dict_shows v : shows (to_dict v) v.
Proof.
  unfold shows, to_dict. split; [|split; [|repeat split]].
  - cbn [map fst]. apply NoDup_Permutation.
    + repeat constructor; cbn; intuition discriminate.
    + repeat constructor; cbn; intuition discriminate.
    + intro x. cbn. tauto.
  - cbn. tauto.
  - intros j H. cbn in H. repeat (destruct H as [H|H]; [injection H; intros; subst; try discriminate|]); try contradiction. destruct (v_full v); reflexivity.
  - intros j H. cbn in H. repeat (destruct H as [H|H]; [injection H; intros; subst; try discriminate|]); try contradiction. destruct (v_dirty v) as [[|]|]; reflexivity.
  - intros j H. cbn in H. repeat (destruct H as [H|H]; [injection H; intros; subst; try discriminate|]); try contradiction. destruct (v_error v); reflexivity.
  - intros j H. cbn in H. repeat (destruct H as [H|H]; [injection H; intros; subst; try discriminate|]); try contradiction. destruct (v_date v); reflexivity.
Qed.

(** ** The characters of the file *)
Lemma ascii_app a b : ascii_text a -> ascii_text b -> ascii_text (a ++ b).
Proof. intros A B c I. apply in_app_or in I as [I|I]; auto. Qed.
Definition ascii_textb (s : str) : bool := forallb (fun c => (nat_of_ascii c =? 10) || ((32 <=? nat_of_ascii c) && (nat_of_ascii c <=? 126))) s.
Lemma ascii_textb_true s : ascii_textb s = true -> ascii_text s.
Proof.
  unfold ascii_textb. rewrite forallb_forall. intros F c I. specialize (F c I). apply orb_prop in F as [F|F].
  - left. apply Nat.eqb_eq in F. rewrite <- (ascii_nat_embedding c), F. reflexivity.
  - right. apply andb_prop in F as (A & B). apply Nat.leb_le in A, B. lia.
Qed.
Lemma ascii_escaped s : ascii_text (flat_map escape s).
Proof.
  induction s as [|c s IH]; [intros ? []|]. cbn [flat_map]. apply ascii_app; [|exact IH]. apply ascii_textb_true. destruct c as [[|] [|] [|] [|] [|] [|] [|] [|]]; reflexivity.
Qed.
Lemma ascii_dumps_text s : ascii_text (dumps_text s).
Proof. unfold dumps_text. change (quote :: ?x ++ ?y) with ([quote] ++ x ++ y). repeat apply ascii_app; try apply ascii_escaped; apply ascii_textb_true; reflexivity. Qed.
Lemma ascii_value v : ascii_text (dumps_value v).
Proof. destruct v as [s|[|]|]; cbn [dumps_value]; [apply ascii_dumps_text| | |]; apply ascii_textb_true; reflexivity. Qed.
Lemma ascii_join sep l : ascii_text sep -> Forall ascii_text l -> ascii_text (join sep l).
Proof.
  intro S. induction l as [|x [|y l] IH]; intro F; [intros ? []|inversion F; assumption|]. inversion F; subst. change (join sep (x :: y :: l)) with (x ++ sep ++ join sep (y :: l)).
  repeat apply ascii_app; auto.
Qed.
Lemma ascii_dumps d : ascii_text (dumps d).
Proof.
  unfold dumps. repeat apply ascii_app; try (apply ascii_textb_true; reflexivity). apply ascii_join; [apply ascii_textb_true; reflexivity|].
  apply Forall_map, Forall_forall. intros (k, v) _. repeat apply ascii_app; try apply ascii_dumps_text; try apply ascii_value; apply ascii_textb_true; reflexivity.
Qed.
Lemma ascii_version_text v : ascii_text (version_text v).
Proof. unfold version_text. repeat first [apply ascii_dumps | apply ascii_app]; apply ascii_textb_true; vm_compute; reflexivity. Qed.
Lemma universal_unix s : unix s -> universal s = s.
Proof.
  unfold unix. induction s as [|c s IH]; [reflexivity|]. intro N. cbn [universal]. destruct (Ascii.eqb_spec c (chr 13)) as [->|_]; [elim N; left; reflexivity|]. f_equal. apply IH. intro I. apply N. right. exact I.
Qed.
Lemma ascii_unix s : ascii_text s -> unix s.
Proof. intros A I. specialize (A _ I). cbv in A. destruct A as [A|A]; [discriminate|lia]. Qed.
Lemma universal_crlf s : unix s -> universal (crlf s) = s.
Proof.
  unfold unix, crlf. induction s as [|c s IH]; [reflexivity|]. intro N. cbn [flat_map]. destruct (Ascii.eqb_spec c (chr 10)) as [->|NL].
  - cbn [app universal]. change (Ascii.eqb (chr 13) (chr 13)) with true. cbn iota. change (Ascii.eqb (chr 10) newline) with true. cbn iota. f_equal. apply IH. intro I. apply N. right. exact I.
  - cbn [app universal]. destruct (Ascii.eqb_spec c (chr 13)) as [->|_]; [elim N; left; reflexivity|]. f_equal. apply IH. intro I. apply N. right. exact I.
Qed.

(** ** Finding it in the file *)
Lemma starts_with_app p r : starts_with p (p ++ r) = true.
Proof. induction p as [|c p IH]; [reflexivity|]. cbn [app starts_with]. rewrite Ascii.eqb_refl. exact IH. Qed.
Lemma after_start r : after_first (json_start ++ [newline]) (file_start ++ json_start ++ nl ++ r) = Some r.
Proof. reflexivity. Qed.
Lemma before_stop r : before_last json_end (r ++ json_end ++ file_end) = Some r.
Proof.
  unfold before_last. rewrite !rev_app_distr, <- app_assoc.
  assert (E : forall t, after_first (rev json_end) (rev file_end ++ rev json_end ++ t) = Some t) by (intro t; reflexivity).
  rewrite E, rev_involutive. reflexivity.
Qed.
Lemma search_text v : search (json_start ++ [newline]) json_end (version_text v) = Some (dumps (to_dict v) ++ nl).
Proof.
  unfold search, version_text. rewrite after_start. rewrite app_assoc. apply before_stop.
Qed.
Lemma from_text v t : universal t = version_text v -> versions_from_file (Some t) = Got (to_dict v).
Proof.
  intro U. unfold versions_from_file. rewrite U, search_text. change (dumps (to_dict v) ++ nl) with ([] ++ dumps (to_dict v) ++ nl). rewrite loads_dumps; [reflexivity|discriminate|constructor|repeat constructor].
Qed.

(** ** Importing the file *)
Definition esc2 (c : ascii) : str := if nat_of_ascii c <=? 126 then [c] else escape c.
Lemma esc2_cases c : (nat_of_ascii c <= 126 /\ esc2 c = [c]) \/
  (126 < nat_of_ascii c /\ exists a b, esc2 c = backslash :: "u"%char :: "0"%char :: "0"%char :: [a; b] /\ hex_value a = Some (nat_of_ascii c / 16) /\ hex_value b = Some (nat_of_ascii c mod 16)).
Proof.
  unfold esc2. destruct (Nat.leb_spec (nat_of_ascii c) 126) as [L|L]; [left; split; [exact L|reflexivity]|right]. split; [exact L|].
  exists (hex_digit (nat_of_ascii c / 16)), (hex_digit (nat_of_ascii c mod 16)). revert L.
  destruct c as [[|] [|] [|] [|] [|] [|] [|] [|]]; intro L; try (exfalso; revert L; vm_compute; lia); repeat split; reflexivity.
Qed.
Lemma starts_q3 R : starts_with q3 (flat_map esc2 R) = starts_with q3 R.
Proof.
  assert (A : forall R p, (forall c, In c p -> c = "'"%char) -> starts_with p (flat_map esc2 R) = starts_with p R).
  { clear R. induction R as [|c R IH]; intros p P; destruct p as [|x p]; try reflexivity. cbn [flat_map].
    assert (X : x = "'"%char) by (apply P; left; reflexivity). destruct (esc2_cases c) as [(L & E)|(L & a & b & E & _)]; rewrite E; cbn [app starts_with].
    - rewrite IH by (intros; apply P; right; assumption). reflexivity.
    - subst x. change (Ascii.eqb "'" backslash) with false. destruct (Ascii.eqb_spec "'" c) as [<-|_]; [exfalso; revert L; vm_compute; lia|reflexivity]. }
  apply A. intros c I. cbn in I. intuition congruence.
Qed.
Lemma literal_raw R : ~ In backslash R -> has_text q3 R = false -> literal (flat_map esc2 R) = Ok R.
Proof.
  induction R as [|c R IH]; [reflexivity|]. intros NB NQ. assert (S : starts_with q3 (c :: R) = false) by (cbn [has_text] in NQ; apply orb_false_elim in NQ; tauto).
  assert (NQ' : has_text q3 R = false) by (cbn [has_text] in NQ; apply orb_false_elim in NQ; tauto).
  assert (NB' : ~ In backslash R) by (intro I; apply NB; right; exact I). specialize (IH NB' NQ').
  rewrite <- starts_q3 in S. cbn [flat_map] in S |- *. destruct (esc2_cases c) as [(L & E)|(L & a & b & E & HA & HB)]; rewrite E in *; cbn [app] in S |- *.
  - cbn [literal]. rewrite S. destruct (Ascii.eqb_spec c backslash) as [->|_]; [elim NB; left; reflexivity|]. rewrite IH. reflexivity.
  - change (literal (backslash :: "u"%char :: "0"%char :: "0"%char :: a :: b :: flat_map esc2 R)) with
      (match hex_value a, hex_value b with Some x, Some y => bind (literal (flat_map esc2 R)) (fun t => Ok (chr (16 * x + y) :: t)) | _, _ => Err NotModelled end).
    rewrite HA, HB, IH. cbn [bind]. f_equal. f_equal. rewrite <- (Nat.div_mod (nat_of_ascii c) 16) by lia. unfold chr. apply ascii_nat_embedding.
Qed.
(** Texts without three apostrophes next to each other. *)
Lemma has_text_cons p c s : has_text p (c :: s) = starts_with p (c :: s) || has_text p s.
Proof. reflexivity. Qed.
Lemma starts_with_sep p a x b : (forall c, In c p -> c <> x) -> starts_with p (a ++ x :: b) = starts_with p a.
Proof.
  revert p. induction a as [|c a IH]; intros [|y p] N; try reflexivity; cbn [app starts_with].
  - destruct (Ascii.eqb_spec y x) as [->|_]; [elim (N x); [left|]; reflexivity|reflexivity].
  - rewrite IH; [reflexivity|]. intros z I. apply N. right. exact I.
Qed.
Lemma has_q3_sep a x b : x <> "'"%char -> has_text q3 (a ++ x :: b) = has_text q3 a || has_text q3 b.
Proof.
  intro N. assert (P : forall c, In c q3 -> c <> x) by (intros c I; cbn in I; intuition congruence). induction a as [|c a IH].
  - cbn [app]. rewrite has_text_cons. rewrite (starts_with_sep q3 [] x b P : starts_with q3 (x :: b) = starts_with q3 []). reflexivity.
  - cbn [app]. rewrite !has_text_cons, IH. rewrite (starts_with_sep q3 (c :: a) x b P : starts_with q3 (c :: a ++ x :: b) = starts_with q3 (c :: a)). apply orb_assoc.
Qed.
Lemma has_text_occurs p s : has_text p s = true <-> occurs p s.
Proof.
  unfold occurs. split.
  - induction s as [|c s IH]; cbn [has_text]; intro H.
    + rewrite orb_false_r in H. destruct p; [exists [], []; reflexivity|discriminate].
    + apply orb_prop in H as [H|H].
      * exists [], (skipn (length p) (c :: s)). cbn [app]. revert H. generalize (c :: s). clear. induction p as [|x p IH]; intros [|y l] H; cbn in H; try discriminate; try reflexivity.
        apply andb_prop in H as (E & H). apply Ascii.eqb_eq in E. subst. cbn [app length skipn]. f_equal. apply IH. exact H.
      * destruct (IH H) as (a & b & ->). exists (c :: a), b. reflexivity.
  - intros (a & b & ->). induction a as [|c a IH]; [|cbn [app has_text]; rewrite IH; apply orb_true_r]. cbn [app]. destruct (p ++ b) eqn:E.
    + cbn [has_text]. apply app_eq_nil in E as (-> & _). reflexivity.
    + rewrite has_text_cons. rewrite <- E, starts_with_app. reflexivity.
Qed.
Lemma esc2_escape c : readable c -> esc2 c = escape c.
Proof.
  unfold esc2. intros (Q & B & L). destruct (Nat.leb_spec (nat_of_ascii c) 126) as [H|H]; [|reflexivity]. revert Q B L H.
  destruct c as [[|] [|] [|] [|] [|] [|] [|] [|]]; intros Q B L H; try reflexivity; exfalso; try (elim Q; reflexivity); try (elim B; reflexivity); first [revert L; vm_compute; lia | revert H; vm_compute; lia].
Qed.
Lemma esc2_text s : Forall readable s -> flat_map esc2 s = flat_map escape s.
Proof. induction 1 as [|c s R _ IH]; [reflexivity|]. cbn [flat_map]. rewrite IH, esc2_escape by exact R. reflexivity. Qed.
Definition raw (s : str) : str := s.
Lemma flat_map_app {A B} (f : A -> list B) a b : flat_map f (a ++ b) = flat_map f a ++ flat_map f b.
Proof. induction a as [|x a IH]; [reflexivity|]. cbn [app flat_map]. rewrite IH. apply app_assoc. Qed.
Definition plain_value (v : jval) : Prop := match v with JText s => plain s | _ => True end.
Lemma plain_readable s : plain s -> Forall readable s.
Proof. intros (P & _). apply Forall_forall. exact P. Qed.
Lemma esc2_value v : plain_value v -> flat_map esc2 (show_value raw v) = show_value (flat_map escape) v.
Proof.
  destruct v as [s|[|]|]; intro P; try reflexivity. cbn [show_value]. unfold raw. change (quote :: s ++ [quote]) with ([quote] ++ s ++ [quote]). rewrite !flat_map_app, (esc2_text s) by (apply plain_readable; exact P). reflexivity.
Qed.
Lemma esc2_member k v : plain k -> plain_value v -> flat_map esc2 (member raw (k, v)) = member (flat_map escape) (k, v).
Proof.
  intros K V. unfold member. cbn [fst snd]. rewrite !flat_map_app, esc2_value by exact V. change (quote :: raw k ++ [quote]) with ([quote] ++ k ++ [quote]). rewrite !flat_map_app, (esc2_text k) by (apply plain_readable; exact K). reflexivity.
Qed.
Lemma esc2_join sep l f g : flat_map esc2 sep = sep -> Forall (fun x : str * jval => flat_map esc2 (f x) = g x) l -> flat_map esc2 (join sep (map f l)) = join sep (map g l).
Proof.
  intro S. induction 1 as [|x l E F IH]; [reflexivity|]. destruct l as [|y l]; [exact E|].
  change (map f (x :: y :: l)) with (f x :: map f (y :: l)). change (map g (x :: y :: l)) with (g x :: map g (y :: l)).
  change (join sep (f x :: map f (y :: l))) with (f x ++ sep ++ join sep (map f (y :: l))). change (join sep (g x :: map g (y :: l))) with (g x ++ sep ++ join sep (map g (y :: l))).
  rewrite !flat_map_app, IH, S, E. reflexivity.
Qed.
Lemma esc2_document d : Forall (fun kv => plain (fst kv) /\ plain_value (snd kv)) d -> flat_map esc2 (document raw d) = dumps d.
Proof.
  intro F. rewrite dumps_document. unfold document, body. rewrite !flat_map_app. rewrite (esc2_join _ _ _ (fun kv => str_of " " ++ member (flat_map escape) kv)); [reflexivity|reflexivity|].
  eapply Forall_impl; [|exact F]. intros (k, v) (K & V). rewrite flat_map_app, esc2_member by assumption. reflexivity.
Qed.
(** No backslash and no three apostrophes in the raw document. *)
Definition fine (s : str) : Prop := ~ In backslash s /\ has_text q3 s = false.
Lemma fine_sep a x b : x <> "'"%char -> x <> backslash -> fine a -> fine b -> fine (a ++ x :: b).
Proof.
  intros Q B (A1 & A2) (B1 & B2). split.
  - intro I. apply in_app_or in I as [I|[I|I]]; auto.
  - rewrite has_q3_sep by exact Q. rewrite A2, B2. reflexivity.
Qed.
Lemma fine_nil : fine [].
Proof. split; [intros []|reflexivity]. Qed.
Lemma fine_cons x b : x <> "'"%char -> x <> backslash -> fine b -> fine (x :: b).
Proof. intros Q B F. apply (fine_sep [] x b Q B fine_nil F). Qed.
Definition no_apos (s : str) : bool := forallb (fun c => negb (Ascii.eqb c "'") && negb (Ascii.eqb c backslash)) s.
Lemma fine_app a b : no_apos a = true -> fine b -> fine (a ++ b).
Proof.
  induction a as [|c a IH]; [trivial|]. cbn [no_apos forallb]. intros H F. apply andb_prop in H as (H & H'). apply andb_prop in H as (Q & B). cbn [app]. apply fine_cons.
  - intros ->. discriminate.
  - intros ->. discriminate.
  - apply IH; assumption.
Qed.
Lemma plain_fine s : plain s -> fine s.
Proof.
  intros (P & N). split.
  - intro I. destruct (P _ I) as (_ & B & _). apply B. reflexivity.
  - destruct (has_text q3 s) eqn:E; [|reflexivity]. elim N. apply has_text_occurs. exact E.
Qed.
Lemma fine_value v b : plain_value v -> fine (newline :: b) -> fine (show_value raw v ++ newline :: b).
Proof.
  intros P F. destruct v as [s|[|]|]; cbn [show_value]; try (apply fine_app; [reflexivity|exact F]). unfold raw. cbn [app]. apply fine_cons; [discriminate|discriminate|]. rewrite <- app_assoc. cbn [app]. apply fine_sep; [discriminate|discriminate|apply plain_fine; exact P|exact F].
Qed.
Lemma fine_value' v b : plain_value v -> fine b -> fine (show_value raw v ++ ","%char :: b).
Proof.
  intros P F. assert (F' : fine (","%char :: b)) by (apply fine_cons; [discriminate|discriminate|exact F]).
  destruct v as [s|[|]|]; cbn [show_value]; try (apply fine_app; [reflexivity|exact F']). unfold raw. cbn [app]. apply fine_cons; [discriminate|discriminate|]. rewrite <- app_assoc. cbn [app]. apply fine_sep; [discriminate|discriminate|apply plain_fine; exact P|exact F'].
Qed.
Lemma fine_member k v b : plain k -> fine (show_value raw v ++ b) -> fine ((str_of " " ++ member raw (k, v)) ++ b).
Proof.
  intros K F. unfold member. cbn [fst snd]. rewrite <- !app_assoc. apply fine_app; [reflexivity|]. unfold raw at 1. cbn [app]. apply fine_cons; [discriminate|discriminate|].
  rewrite <- app_assoc. cbn [app]. apply fine_sep; [discriminate|discriminate|apply plain_fine; exact K|]. apply fine_app; [reflexivity|exact F].
Qed.
Lemma fine_body d b : d <> [] -> Forall (fun kv => plain (fst kv) /\ plain_value (snd kv)) d -> fine (newline :: b) -> fine (body raw d ++ newline :: b).
Proof.
  intros N F B. induction F as [|(k, v) d (K & V) F IH]; [congruence|]. cbn [fst snd] in K, V. destruct d as [|kv d].
  - unfold body. cbn [map join]. apply fine_member; [exact K|]. apply fine_value; assumption.
  - unfold body. change (map (fun kv => str_of " " ++ member raw kv) ((k, v) :: kv :: d)) with ((str_of " " ++ member raw (k, v)) :: map (fun kv => str_of " " ++ member raw kv) (kv :: d)).
    change (join ?s (?x :: map ?f (?y :: ?l))) with (x ++ s ++ join s (map f (y :: l))). fold (body raw (kv :: d)).
    rewrite <- !app_assoc, app_assoc. apply fine_member; [exact K|]. cbn [str_of list_ascii_of_string app]. apply fine_value'; [exact V|]. apply fine_cons; [discriminate|discriminate|]. apply IH. discriminate.
Qed.
Lemma keys_plain v : Forall plain (texts v) -> Forall (fun kv => plain (fst kv) /\ plain_value (snd kv)) (to_dict v).
Proof.
  intro T. assert (P : forall k, no_apos k = true -> forallb (fun c => negb (Ascii.eqb c quote) && (32 <=? nat_of_ascii c)) k = true -> plain k).
  { intros k A B. split.
    - intros c I. unfold no_apos in A. rewrite forallb_forall in A, B. specialize (A c I). specialize (B c I). apply andb_prop in A as (_ & A). apply andb_prop in B as (B & L). repeat split.
      + intros ->. discriminate.
      + intros ->. discriminate.
      + apply Nat.leb_le. exact L.
    - rewrite <- has_text_occurs. rewrite <- (app_nil_r k). destruct (fine_app k [] A fine_nil) as (_ & E). change (str_of "'''") with q3. rewrite E. discriminate. }
  unfold texts in T. inversion T as [|? ? T1 T2]; subst. cbn [flat_map] in T2. rewrite app_nil_r in T2. apply Forall_app in T2 as (TF & T2). apply Forall_app in T2 as (TE & TD).
  assert (O : forall o, Forall plain (match o with Some s => [s] | None => [] end) -> plain_value (opt_text o)) by (intros [s|] X; [inversion X; assumption|exact I]).
  unfold to_dict. repeat (apply Forall_cons; [split; [cbn [fst]; apply P; reflexivity|cbn [snd]]|]); try apply O; auto. destruct (v_dirty v) as [[|]|]; exact I.
Qed.
Lemma imported_plain v : Forall plain (texts v) -> imported v = Ok (to_dict v).
Proof.
  intro T. pose proof (keys_plain v T) as K. unfold imported. rewrite <- (esc2_document _ K).
  change nl with (flat_map esc2 [newline]) at 1 2. rewrite <- !flat_map_app. rewrite literal_raw.
  - cbn [bind]. apply loads_document; try (repeat constructor; fail); [discriminate|]. eapply Forall_impl; [|exact K]. intros (k, w) (A & B). split; [intro; apply read_raw, plain_readable; exact A|]. destruct w; try exact I. intro. apply read_raw, plain_readable. exact B.
  - assert (F : fine ([newline] ++ document raw (to_dict v) ++ [newline])).
    { apply fine_app; [reflexivity|]. unfold document. rewrite <- !app_assoc. apply fine_app; [reflexivity|]. apply fine_app; [reflexivity|]. cbn [app]. apply fine_body; [discriminate|exact K|]. split; [vm_compute; intuition discriminate|reflexivity]. }
    exact (proj1 F).
  - assert (F : fine ([newline] ++ document raw (to_dict v) ++ [newline])).
    { apply fine_app; [reflexivity|]. unfold document. rewrite <- !app_assoc. apply fine_app; [reflexivity|]. apply fine_app; [reflexivity|]. cbn [app]. apply fine_body; [discriminate|exact K|]. split; [vm_compute; intuition discriminate|reflexivity]. }
    exact (proj2 F).
Qed.
