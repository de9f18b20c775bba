(** Lemmas for C95 to C99. *)
From Coq Require Import ZArith String Ascii Bool List Lia.
From Verif Require Import PyBase PyStr PathProofs TextSpec TextProofs PolyModel PolySpec PolyProofs VersionModel VersionSpec.
Import ListNotations.
Open Scope nat_scope.

Lemma forallb_Forall (p : ascii -> bool) (P : ascii -> Prop) s : (forall c, p c = true <-> P c) -> (forallb p s = true <-> Forall P s).
Proof. intro H. rewrite forallb_forall, Forall_forall. split; intros X c I; apply H, X, I. Qed.
Lemma app_snoc_inj (a b : str) x y : a ++ [x] = b ++ [y] -> a = b /\ x = y.
Proof. apply app_inj_tail. Qed.
Lemma strip_by_iff p P : (forall c, p c = true <-> P c) -> forall s t, strip_by p s = t <-> without P s t.
Proof.
  intros H s t. unfold strip_by. assert (Np : forall c, p c = false <-> ~ P c) by (intro c; rewrite <- H; destruct (p c); split; congruence). split.
  - destruct (span p s) as [a u] eqn:Ea. cbn [snd]. destruct (span p (rev u)) as [b w] eqn:Eb. cbn [snd]. intros <-.
    pose proof (PyBase.span_app _ _ _ _ Ea) as S1. pose proof (PyBase.span_app _ _ _ _ Eb) as S2. assert (U : u = rev w ++ rev b) by (rewrite <- rev_app_distr, <- S2, rev_involutive; reflexivity).
    exists a, (rev b). split; [rewrite S1, U; reflexivity|]. split; [apply (forallb_Forall p P _ H), (span_forall _ _ _ _ Ea)|]. split; [apply Forall_rev, (forallb_Forall p P _ H), (span_forall _ _ _ _ Eb)|].
    intros c r [E|E]; apply Np.
    + destruct (span_rest _ _ _ _ Ea) as [X|(c' & u' & X & X')]; [rewrite X in U; rewrite E in U; discriminate|]. rewrite X, E in U. cbn [app] in U. injection U as <- _. exact X'.
    + destruct (span_rest _ _ _ _ Eb) as [X|(c' & w' & X & X')]; [rewrite X in E; destruct r; discriminate|]. rewrite X in E. cbn [rev] in E. apply app_snoc_inj in E. destruct E as [_ <-]. exact X'.
  - intros (a & b & -> & A & B & N). apply (forallb_Forall p P _ H) in A. assert (B' : forallb p (rev b) = true) by (apply (forallb_Forall p P _ H), Forall_rev; exact B). apply (forallb_Forall p P _ H) in B. destruct t as [|c t].
    + cbn [app]. rewrite (span_unique p (a ++ b) []) with (1 := ltac:(rewrite forallb_app, A, B; reflexivity)) (2 := or_introl eq_refl) || idtac.
      assert (X : span p (a ++ b) = (a ++ b, [])). { rewrite <- (app_nil_r (a ++ b)) at 1. apply span_unique; [rewrite forallb_app, A, B; reflexivity|left; reflexivity]. } rewrite X. reflexivity.
    + assert (X : span p (a ++ (c :: t) ++ b) = (a, (c :: t) ++ b)) by (apply span_unique; [exact A|right; exists c, (t ++ b); split; [reflexivity|apply Np, (N c t); left; reflexivity]]). rewrite X. cbn [snd]. rewrite rev_app_distr.
      assert (Y : span p (rev b ++ rev (c :: t)) = (rev b, rev (c :: t))).
      { apply span_unique; [exact B'|]. right. destruct (rev (c :: t)) as [|z zs] eqn:Z; [apply (f_equal (@length ascii)) in Z; rewrite rev_length in Z; discriminate|]. exists z, zs. split; [reflexivity|]. apply Np, (N z (rev zs)). right. rewrite <- (rev_involutive (c :: t)), Z. reflexivity. }
      rewrite Y. cbn [snd]. apply rev_involutive.
Qed.
Lemma ascii_space_iff c : ascii_space c = true <-> ascii_blank c.
Proof.
  unfold ascii_space, ascii_blank. cbn [In]. generalize (nat_of_ascii c). intro n. rewrite orb_true_iff, andb_true_iff, !Nat.leb_le, Nat.eqb_eq. lia.
Qed.
Lemma ascii_blank_blank c : ascii_blank c -> blank c = true.
Proof. intro H. apply ascii_space_iff in H. revert H. destruct c as [[] [] [] [] [] [] [] []]; vm_compute; congruence. Qed.
Lemma strip_twice s : strip (strip_by ascii_space s) = strip s.
Proof.
  symmetry. apply trimmed_strip. set (u := strip_by ascii_space s). destruct (proj1 (strip_by_iff _ _ ascii_space_iff s u) eq_refl) as (a & b & E & A & B & _). destruct (strip_trimmed u) as (a' & b' & E' & A' & B' & N).
  exists (a ++ a'), (b' ++ b). split; [rewrite E, E' at 1; rewrite <- !app_assoc; reflexivity|]. split; [apply Forall_app; split; [apply Forall_forall; intros c C; apply ascii_blank_blank; rewrite Forall_forall in A; apply A, C|exact A']|]. split; [apply Forall_app; split; [exact B'|apply Forall_forall; intros c C; apply ascii_blank_blank; rewrite Forall_forall in B; apply B, C]|]. exact N.
Qed.
Lemma parens_iff c : parens c = true <-> paren c.
Proof. unfold parens, paren. rewrite orb_true_iff, !Ascii.eqb_eq. reflexivity. Qed.
Lemma is_hex_iff c : is_hex c = true <-> hexdigit c.
Proof.
  assert (E : forall l, existsb (Ascii.eqb c) l = true <-> In c l).
  { intro l. rewrite existsb_exists. split; [intros (x & I & X); apply Ascii.eqb_eq in X; subst; exact I|intro I; exists c; split; [exact I|apply Ascii.eqb_refl]]. }
  unfold hexdigit. rewrite <- E. replace (is_hex c) with (existsb (Ascii.eqb c) (str_of "0123456789abcdef")); [reflexivity|]. destruct c as [[] [] [] [] [] [] [] []]; reflexivity.
Qed.
Lemma has_char_iff c s : has_char c s = true <-> In c s.
Proof. unfold has_char. rewrite existsb_exists. split; [intros (x & I & E); apply Ascii.eqb_eq in E; subst; exact I|intro I; exists c; split; [exact I|apply Ascii.eqb_refl]]. Qed.
Lemma has_char_no c s : has_char c s = false <-> ~ In c s.
Proof. rewrite <- has_char_iff. destruct (has_char c s); split; congruence. Qed.
Lemma ends_with_iff t s : ends_with t s = true <-> exists u, s = u ++ t.
Proof.
  unfold ends_with. rewrite starts_with_app. split; intros (u & E).
  - exists (rev u). rewrite <- (rev_involutive s), E, rev_app_distr, rev_involutive. reflexivity.
  - exists (rev u). rewrite E, rev_app_distr. reflexivity.
Qed.
Lemma marked_iff D dirty T : marked D dirty T <-> dirty = ends_with (str_of "-dirty") D /\ T = if ends_with (str_of "-dirty") D then firstn (length D - 6) D else D.
Proof.
  split.
  - intros [U N|U].
    + destruct (ends_with (str_of "-dirty") U) eqn:E; [apply ends_with_iff in E; destruct E as (u & E); elim (N u E)|]. split; reflexivity.
    + assert (E : ends_with (str_of "-dirty") (U ++ str_of "-dirty") = true) by (apply ends_with_iff; exists U; reflexivity). rewrite E. split; [reflexivity|]. rewrite app_length. change (length (str_of "-dirty")) with 6. replace (length U + 6 - 6) with (length U) by lia. rewrite firstn_app, firstn_all, Nat.sub_diag. cbn [firstn]. rewrite app_nil_r. reflexivity.
  - intros [-> ->]. destruct (ends_with (str_of "-dirty") D) eqn:E.
    + apply ends_with_iff in E. destruct E as (u & ->). rewrite app_length. change (length (str_of "-dirty")) with 6. replace (length u + 6 - 6) with (length u) by lia. rewrite firstn_app, firstn_all, Nat.sub_diag. cbn [firstn]. rewrite app_nil_r. constructor.
    + constructor. intros u X. assert (Y : ends_with (str_of "-dirty") D = true) by (apply ends_with_iff; exists u; exact X). congruence.
Qed.
Lemma replace_first_none old new s : ~ In old s -> replace_first old new s = s.
Proof. induction s as [|c s IH]; intro N; [reflexivity|]. cbn [replace_first]. destruct (Ascii.eqb_spec c old) as [E|E]; [elim N; left; exact E|]. f_equal. apply IH. intro X. apply N. right. exact X. Qed.
Lemma replace_first_app old new a b : ~ In old a -> replace_first old new (a ++ old :: b) = a ++ new ++ b.
Proof. induction a as [|c a IH]; intro N; cbn [app replace_first]; [rewrite Ascii.eqb_refl; reflexivity|]. destruct (Ascii.eqb_spec c old) as [E|E]; [elim N; left; exact E|]. f_equal. apply IH. intro X. apply N. right. exact X. Qed.
Lemma cut_at (c : ascii) s : In c s -> exists a b, s = a ++ c :: b /\ ~ In c a.
Proof. induction s as [|x s IH]; intros []. - subst. exists [], s. split; [reflexivity|intros []]. - destruct (ascii_dec x c) as [->|N]; [exists [], s; split; [reflexivity|intros []]|]. destruct (IH H) as (a & b & -> & Na). exists (x :: a), b. split; [reflexivity|]. intros [X|X]; contradiction. Qed.
Lemma dated_iff s t : dated s t <-> iso_date s = t.
Proof.
  unfold iso_date. split.
  - intros [u U N|a b U Na Nb|a b c U Na Nb]; apply trimmed_strip in U; rewrite U; clear U.
    + rewrite (replace_first_none (chr 32) (str_of "T") u N), (replace_first_none (chr 32) [] u N). reflexivity.
    + change (str_of " " ++ b) with (chr 32 :: b). rewrite replace_first_app by exact Na. apply replace_first_none. rewrite !in_app_iff. intros [X|[X|X]]; try contradiction. destruct X as [X|[]]; discriminate X.
    + change (str_of " " ++ b ++ str_of " " ++ c) with (chr 32 :: b ++ chr 32 :: c). rewrite replace_first_app by exact Na. change (str_of "T" ++ b ++ chr 32 :: c) with ((str_of "T" ++ b) ++ chr 32 :: c). rewrite app_assoc, replace_first_app; [rewrite <- !app_assoc; reflexivity|]. rewrite !in_app_iff. intros [X|[X|X]]; try contradiction. destruct X as [X|[]]; discriminate X.
  - intros <-. pose proof (strip_trimmed s) as U. set (u := strip s) in *. clearbody u. destruct (in_dec ascii_dec (chr 32) u) as [I|N].
    + destruct (cut_at _ _ I) as (a & b & -> & Na). rewrite replace_first_app by exact Na. destruct (in_dec ascii_dec (chr 32) b) as [I'|Nb].
      * destruct (cut_at _ _ I') as (b' & c & -> & Nb). change (str_of "T" ++ b' ++ chr 32 :: c) with ((str_of "T" ++ b') ++ chr 32 :: c). rewrite app_assoc, replace_first_app; [rewrite <- !app_assoc; cbn [app]; apply (date_two s a b' c); [exact U|exact Na|exact Nb]|]. rewrite !in_app_iff. intros [X|[X|X]]; try contradiction. destruct X as [X|[]]; discriminate X.
      * rewrite replace_first_none; [apply (date_one s a b); [exact U|exact Na|exact Nb]|]. rewrite !in_app_iff. intros [X|[X|X]]; try contradiction. destruct X as [X|[]]; discriminate X.
    + rewrite (replace_first_none (chr 32) (str_of "T") u N), (replace_first_none (chr 32) [] u N). apply date_whole; assumption.
Qed.
(** The pattern of a description. *)
Lemma chomp_cases s : (chomp s = s /\ forall u, s <> u ++ [chr 10]) \/ s = chomp s ++ [chr 10].
Proof.
  unfold chomp. destruct (rev s) as [|c r] eqn:E; [left; split; [reflexivity|]; intros u X; rewrite X, rev_app_distr in E; discriminate|]. assert (S : s = rev r ++ [c]) by (rewrite <- (rev_involutive s), E; reflexivity).
  destruct (Ascii.eqb_spec c newline) as [->|N]; [right; exact S|]. left. split; [reflexivity|]. intros u X. rewrite S in X. apply app_snoc_inj in X. destruct X as [_ X]. contradiction.
Qed.
Lemma not_hex c : hexdigit c -> c <> chr 103 /\ c <> chr 45 /\ c <> chr 10.
Proof. intro H. split; [|split]; intros ->; revert H; unfold hexdigit; vm_compute; intro H; repeat destruct H as [H|H]; try discriminate H; exact H. Qed.
Lemma rev_nil_iff (s : str) : rev s = [] <-> s = [].
Proof. split; [intro E; rewrite <- (rev_involutive s), E; reflexivity|intros ->; reflexivity]. Qed.
Lemma match_from tag d h s : chomp s = tag ++ str_of "-" ++ d ++ str_of "-g" ++ h -> tag <> [] -> ~ In (chr 10) tag -> decimal d -> h <> [] -> Forall hexdigit h -> match_describe s = Some (tag, d, h).
Proof.
  intros E Nt Nn [Nd Dd] Nh Hh. unfold match_describe. rewrite E. replace (rev (tag ++ str_of "-" ++ d ++ str_of "-g" ++ h)) with (rev h ++ chr 103 :: chr 45 :: rev d ++ chr 45 :: rev tag) by (rewrite !rev_app_distr, <- !app_assoc; reflexivity).
  assert (H1 : span is_hex (rev h ++ chr 103 :: chr 45 :: rev d ++ chr 45 :: rev tag) = (rev h, chr 103 :: chr 45 :: rev d ++ chr 45 :: rev tag)).
  { apply span_unique; [apply (forallb_Forall is_hex hexdigit _ is_hex_iff), Forall_rev; exact Hh|]. right. exists (chr 103). eexists. split; [reflexivity|]. reflexivity. }
  rewrite H1. destruct (rev h) as [|h0 hs] eqn:Eh; [elim Nh; apply rev_nil_iff; exact Eh|]. cbv beta iota. change (Ascii.eqb (chr 103) (chr 103) && Ascii.eqb (chr 45) dash) with true. cbv iota.
  assert (H2 : span is_digit (rev d ++ chr 45 :: rev tag) = (rev d, chr 45 :: rev tag)).
  { apply span_unique; [rewrite forallb_forall; intros c C; apply in_rev in C; unfold all_digits in Dd; rewrite Forall_forall in Dd; apply Dd; exact C|]. right. exists (chr 45). eexists. split; reflexivity. }
  rewrite H2. destruct (rev d) as [|d0 ds] eqn:Ed; [elim Nd; apply rev_nil_iff; exact Ed|]. destruct (rev tag) as [|t0 ts] eqn:Et; [elim Nt; apply rev_nil_iff; exact Et|]. cbv beta iota.
  assert (H3 : has_char newline (t0 :: ts) = false) by (apply has_char_no; rewrite <- Et, <- in_rev; exact Nn). rewrite H3. change (Ascii.eqb (chr 45) dash) with true. cbn [negb andb]. rewrite <- Et, <- Ed, <- Eh, !rev_involutive. reflexivity.
Qed.
Lemma match_some s tag d h : match_describe s = Some (tag, d, h) -> chomp s = tag ++ str_of "-" ++ d ++ str_of "-g" ++ h /\ tag <> [] /\ ~ In (chr 10) tag /\ decimal d /\ h <> [] /\ Forall hexdigit h.
Proof.
  unfold match_describe. destruct (span is_hex (rev (chomp s))) as [hh r] eqn:E1. destruct hh as [|h0 hs]; [discriminate|]. destruct r as [|g [|m r]]; [discriminate|discriminate|].
  destruct (Ascii.eqb g (chr 103) && Ascii.eqb m dash) eqn:G; [|discriminate]. apply andb_true_iff in G. destruct G as [G M]. apply Ascii.eqb_eq in G, M. subst g m.
  destruct (span is_digit r) as [dd r'] eqn:E2. destruct dd as [|d0 ds]; [discriminate|]. destruct r' as [|m' [|t0 ts]]; [discriminate|discriminate|].
  destruct (Ascii.eqb m' dash && negb (has_char newline (t0 :: ts))) eqn:G; [|discriminate]. apply andb_true_iff in G. destruct G as [M Nn]. apply Ascii.eqb_eq in M. subst m'. apply negb_true_iff, has_char_no in Nn.
  intro X. assert (X1 : rev (t0 :: ts) = tag) by congruence. assert (X2 : rev (d0 :: ds) = d) by congruence. assert (X3 : rev (h0 :: hs) = h) by congruence. clear X.
  pose proof (PyBase.span_app _ _ _ _ E1) as S1. pose proof (PyBase.span_app _ _ _ _ E2) as S2. pose proof (span_forall _ _ _ _ E1) as F1. pose proof (span_forall _ _ _ _ E2) as F2.
  split; [|split; [|split; [|split; [|split]]]].
  - rewrite <- (rev_involutive (chomp s)), S1, S2, <- X1, <- X2, <- X3. change (dash :: t0 :: ts) with ([dash] ++ (t0 :: ts)). change (chr 103 :: dash :: (d0 :: ds) ++ [dash] ++ t0 :: ts) with ([chr 103; dash] ++ (d0 :: ds) ++ [dash] ++ t0 :: ts). rewrite !rev_app_distr, <- !app_assoc. reflexivity.
  - rewrite <- X1. intro Y. apply (proj1 (rev_nil_iff _)) in Y. discriminate.
  - rewrite <- X1, <- in_rev. exact Nn.
  - split; [rewrite <- X2; intro Y; apply (proj1 (rev_nil_iff _)) in Y; discriminate|]. rewrite <- X2. apply Forall_rev, Forall_forall. rewrite forallb_forall in F2. exact F2.
  - rewrite <- X3. intro Y. apply (proj1 (rev_nil_iff _)) in Y. discriminate.
  - rewrite <- X3. apply Forall_rev. apply (forallb_Forall is_hex hexdigit _ is_hex_iff). exact F1.
Qed.
Lemma last_hex tag d h : h <> [] -> Forall hexdigit h -> chomp (tag ++ str_of "-" ++ d ++ str_of "-g" ++ h) = tag ++ str_of "-" ++ d ++ str_of "-g" ++ h.
Proof.
  intros N F. destruct (chomp_cases (tag ++ str_of "-" ++ d ++ str_of "-g" ++ h)) as [[E _]|E]; [exact E|exfalso]. destruct (exists_last N) as (h' & c & ->). apply Forall_app in F. destruct F as [_ F]. inversion F as [|c' l C _]; subst. rewrite !app_assoc in E. apply app_snoc_inj in E. destruct E as [_ ->]. apply not_hex in C. destruct C as (_ & _ & C). congruence.
Qed.
Lemma match_iff s tag d h : match_describe s = Some (tag, d, h) <-> describes s tag d h.
Proof.
  split.
  - intro M. apply match_some in M. destruct M as (E & Nt & Nn & D & Nh & H). split; [|auto]. destruct (chomp_cases s) as [[C _]|C]; [left; congruence|right]. rewrite C, E, <- !app_assoc. reflexivity.
  - intros (E & Nt & Nn & D & Nh & H). apply match_from; try assumption. destruct E as [-> | ->]; [apply last_hex; assumption|].
    replace (tag ++ str_of "-" ++ d ++ str_of "-g" ++ h ++ [chr 10]) with ((tag ++ str_of "-" ++ d ++ str_of "-g" ++ h) ++ [chr 10]) by (rewrite <- !app_assoc; reflexivity). unfold chomp. rewrite rev_app_distr. cbn [rev app]. change (Ascii.eqb (chr 10) newline) with true. cbv iota. apply rev_involutive.
Qed.
Lemma match_none s : match_describe s = None <-> forall tag d h, ~ describes s tag d h.
Proof.
  split; [intros E tag d h X; apply match_iff in X; congruence|]. intro H. destruct (match_describe s) as [[[tag d] h]|] eqn:E; [|reflexivity]. apply match_iff in E. elim (H _ _ _ E).
Qed.
Lemma describes_dash s tag d h : describes s tag d h -> In (chr 45) s.
Proof. intros ([-> | ->] & _); apply in_app_iff; right; left; reflexivity. Qed.
