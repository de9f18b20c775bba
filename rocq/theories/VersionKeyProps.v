(** C97 to C99: valid versions, keywords, and all ways together. *)
From Coq Require Import ZArith String Ascii Bool List Lia.
From Verif Require Import PyBase PyStr PathProofs ScpTreeProofs TextSpec TextProofs PolyModel PolySpec PolyProofs VersionModel VersionSpec VersionProofs VersionProps.
Import ListNotations.
Open Scope nat_scope.

(** ** C97 *)
Lemma decimal_of_Z n : (0 <= n)%Z -> decimal (str_of_Z n).
Proof. intro H. destruct (str_of_Z_nonneg n H) as (D & N & _). split; assumption. Qed.
Lemma digit_alnum s : all_digits s -> Forall alnum s.
Proof. unfold all_digits. apply Forall_impl. intros c H. left. exact H. Qed.
Lemma hex_alnum s : Forall hexdigit s -> Forall alnum s.
Proof. apply Forall_impl. intros c H. apply is_hex_iff in H. unfold is_hex in H. apply orb_true_iff in H. destruct H as [H|H]; [left; exact H|right]. apply andb_true_iff in H. destruct H as [A B]. apply Nat.leb_le in A, B. lia. Qed.
Lemma letters_alnum s : forallb (fun c => (97 <=? nat_of_ascii c) && (nat_of_ascii c <=? 122)) s = true -> Forall alnum s.
Proof. intro H. rewrite forallb_forall in H. apply Forall_forall. intros c I. apply H in I. apply andb_true_iff in I. destruct I as [A B]. apply Nat.leb_le in A, B. right. lia. Qed.
Lemma word_alnum : Forall alnum (str_of "dirty") /\ Forall alnum (str_of "untagged") /\ Forall alnum (str_of "g").
Proof. split; [|split]; apply letters_alnum; vm_compute; reflexivity. Qed.
Lemma ghash h : Forall hexdigit h -> Forall alnum (str_of "g" ++ h).
Proof. intro H. apply Forall_app. split; [apply word_alnum|apply hex_alnum; exact H]. Qed.
Lemma seg_tail h dirty : Forall hexdigit h -> segments (str_of "g" ++ h ++ mark dirty ".dirty").
Proof.
  intro H. destruct dirty; cbn [mark].
  - rewrite app_assoc. change (str_of ".dirty") with (str_of "." ++ str_of "dirty"). apply segment_more; [discriminate|apply ghash; exact H|]. apply segment_one; [discriminate|apply word_alnum].
  - rewrite app_nil_r. apply segment_one; [discriminate|apply ghash; exact H].
Qed.
Lemma seg_count n h dirty : (0 <= n)%Z -> Forall hexdigit h -> segments (str_of_Z n ++ str_of ".g" ++ h ++ mark dirty ".dirty").
Proof. intros Hn H. destruct (str_of_Z_nonneg n Hn) as (D & N & _). change (str_of ".g" ++ h ++ mark dirty ".dirty") with (str_of "." ++ str_of "g" ++ h ++ mark dirty ".dirty"). apply segment_more; [exact N|apply digit_alnum; exact D|apply seg_tail; exact H]. Qed.
Lemma release_chars r : release r -> forall c, In c r -> is_digit c = true \/ c = chr 46.
Proof.
  intro R. assert (D : forall d, decimal d -> forall c, In c d -> is_digit c = true) by (intros d [_ D]; unfold all_digits in D; rewrite Forall_forall in D; exact D).
  induction R as [d H|d r H R IH]; intros c I; [left; exact (D d H c I)|]. rewrite !in_app_iff in I. destruct I as [I|[[I|[]]|I]]; [left; exact (D d H c I)|right; symmetry; exact I|apply IH; exact I].
Qed.
Lemma pre_chars p : pre_part p -> forall c, In c p -> is_digit c = true \/ In c (str_of "abrc").
Proof.
  intros [|l d L [_ D]] c I; [destruct I|]. rewrite in_app_iff in I. destruct I as [I|I]; [right|left; unfold all_digits in D; rewrite Forall_forall in D; apply D; exact I]. destruct L as [-> |[-> | ->]]; cbn in I; cbn; tauto.
Qed.
Lemma tag_chars t : release_tag t -> ~ In (chr 43) t.
Proof. intros (r & p & -> & R & P) I. rewrite in_app_iff in I. destruct I as [I|I]; [destruct (release_chars r R _ I) as [X|X]; discriminate X|]. destruct (pre_chars p P _ I) as [X|X]; [discriminate X|]. cbn in X. repeat destruct X as [X|X]; try discriminate X; exact X. Qed.
Lemma release_zero : release (str_of "0").
Proof. apply release_one. split; [discriminate|]. repeat constructor. Qed.
Lemma dev0 dirty : numbered ".dev" (mark dirty ".dev0").
Proof. destruct dirty; [|constructor]. change (mark true ".dev0") with (str_of ".dev" ++ str_of "0"). apply numbered_yes. split; [discriminate|]. repeat constructor. Qed.
Lemma local_hash h : Forall hexdigit h -> local_part (str_of "+" ++ str_of "g" ++ h).
Proof. intro H. apply local_yes, segment_one; [discriminate|apply ghash; exact H]. Qed.
(** For tags that are releases, or candidates for one, the versions of the four styles
    named after PEP 440 follow it. *)
Theorem C97_valid : forall n h dirty t s v, (0 <= n)%Z -> Forall hexdigit h -> (forall r, t = Some r -> release_tag r) -> s <> describe -> s <> describe_long ->
  shown n h dirty t s v -> valid_version v.
Proof.
  intros n h dirty t s v Hn H Ht N1 N2 S. destruct S as [s t A N|t sep A L|t A|t A B|t sep A L|t A|t A|t A B|t| | | | |s Q]; try congruence.
  - destruct (Ht t eq_refl) as (r & p & -> & R & P). exists r, p, [], [], []. rewrite !app_nil_r. exact (conj eq_refl (conj R (conj P (conj (numbered_no _) (conj (numbered_no _) local_no))))).
  - pose proof (tag_chars t (Ht t eq_refl)) as Np. destruct L as [[_ ->]|[I _]]; [|contradiction]. destruct (Ht t eq_refl) as (r & p & -> & R & P). exists r, p, [], [], (str_of "+" ++ str_of_Z n ++ str_of ".g" ++ h ++ mark dirty ".dirty"). split; [rewrite <- !app_assoc; reflexivity|]. exact (conj R (conj P (conj (numbered_no _) (conj (numbered_no _) (local_yes _ (seg_count n h dirty Hn H)))))).
  - destruct (Ht t eq_refl) as (r & p & -> & R & P). exists r, p, (str_of ".post"), (str_of ".dev" ++ str_of_Z n), []. split; [rewrite <- !app_assoc, app_nil_r; reflexivity|]. exact (conj R (conj P (conj (numbered_bare _) (conj (numbered_yes _ _ (decimal_of_Z n Hn)) local_no)))).
  - destruct (Ht t eq_refl) as (r & p & -> & R & P). exists r, p, [], [], []. rewrite !app_nil_r. exact (conj eq_refl (conj R (conj P (conj (numbered_no _) (conj (numbered_no _) local_no))))).
  - pose proof (tag_chars t (Ht t eq_refl)) as Np. destruct L as [[_ ->]|[I _]]; [|contradiction]. destruct (Ht t eq_refl) as (r & p & -> & R & P). exists r, p, (str_of ".post" ++ str_of_Z n), (mark dirty ".dev0"), (str_of "+" ++ str_of "g" ++ h). split; [rewrite <- !app_assoc; reflexivity|]. exact (conj R (conj P (conj (numbered_yes _ _ (decimal_of_Z n Hn)) (conj (dev0 dirty) (local_hash h H))))).
  - destruct (Ht t eq_refl) as (r & p & -> & R & P). exists r, p, (str_of ".post" ++ str_of_Z n), (mark dirty ".dev0"), []. split; [rewrite <- !app_assoc, app_nil_r; reflexivity|]. exact (conj R (conj P (conj (numbered_yes _ _ (decimal_of_Z n Hn)) (conj (dev0 dirty) local_no)))).
  - exists (str_of "0"), [], [], [], (str_of "+" ++ str_of "untagged" ++ str_of "." ++ str_of_Z n ++ str_of ".g" ++ h ++ mark dirty ".dirty"). split; [reflexivity|]. refine (conj release_zero (conj pre_no (conj (numbered_no _) (conj (numbered_no _) (local_yes _ _))))). apply segment_more; [discriminate|apply word_alnum|apply seg_count; assumption].
  - exists (str_of "0"), [], (str_of ".post"), (str_of ".dev" ++ str_of_Z n), []. split; [rewrite app_nil_r; reflexivity|]. exact (conj release_zero (conj pre_no (conj (numbered_bare _) (conj (numbered_yes _ _ (decimal_of_Z n Hn)) local_no)))).
  - exists (str_of "0"), [], (str_of ".post" ++ str_of_Z n), (mark dirty ".dev0"), (str_of "+g" ++ h). split; [rewrite <- !app_assoc; reflexivity|]. exact (conj release_zero (conj pre_no (conj (numbered_yes _ _ (decimal_of_Z n Hn)) (conj (dev0 dirty) (local_hash h H))))).
  - exists (str_of "0"), [], (str_of ".post" ++ str_of_Z n), (mark dirty ".dev0"), []. split; [rewrite app_nil_r, <- !app_assoc; reflexivity|]. exact (conj release_zero (conj pre_no (conj (numbered_yes _ _ (decimal_of_Z n Hn)) (conj (dev0 dirty) local_no)))).
  - destruct Q; congruence.
Qed.
Lemma numbered_chars w x : numbered w x -> forall c, In c x -> is_digit c = true \/ In c (str_of w).
Proof. intros [| |d [_ D]] c I; [destruct I|right; exact I|]. rewrite in_app_iff in I. destruct I as [I|I]; [right; exact I|left]. unfold all_digits in D. rewrite Forall_forall in D. apply D. exact I. Qed.
Lemma local_chars l : local_part l -> forall c, In c l -> alnum c \/ c = chr 46 \/ c = chr 43.
Proof.
  intros [|x S] c I; [destruct I|]. rewrite in_app_iff in I. destruct I as [[I|[]]|I]; [right; right; symmetry; exact I|]. induction S as [x N F|x r N F S IH]; [left; rewrite Forall_forall in F; apply F; exact I|].
  rewrite !in_app_iff in I. destruct I as [I|[[I|[]]|I]]; [left; rewrite Forall_forall in F; apply F; exact I|right; left; symmetry; exact I|apply IH; exact I].
Qed.
Lemma valid_no_dash v : valid_version v -> ~ In (chr 45) v.
Proof.
  intros (r & p & po & d & l & -> & R & P & Q & D & L) I. rewrite !in_app_iff in I. destruct I as [I|[I|[I|[I|I]]]].
  - destruct (release_chars r R _ I) as [X|X]; discriminate X.
  - destruct (pre_chars p P _ I) as [X|X]; [discriminate X|cbn in X; repeat destruct X as [X|X]; try discriminate X; exact X].
  - destruct (numbered_chars _ _ Q _ I) as [X|X]; [discriminate X|cbn in X; repeat destruct X as [X|X]; try discriminate X; exact X].
  - destruct (numbered_chars _ _ D _ I) as [X|X]; [discriminate X|cbn in X; repeat destruct X as [X|X]; try discriminate X; exact X].
  - destruct (local_chars l L _ I) as [[X|X]|[X|X]]; [discriminate X|vm_compute in X; lia|discriminate X|discriminate X].
Qed.
(** The git styles never do once there is anything to say besides the tag. *)
Theorem C97_git_styles : forall n h dirty t s v, s = describe \/ s = describe_long -> ~ at_tag n dirty -> shown n h dirty (Some t) s v -> ~ valid_version v.
Proof.
  intros n h dirty t s v Hs A S V. apply valid_no_dash in V. apply V.
  destruct Hs as [-> | ->]; inversion S; subst; try contradiction; try congruence; rewrite !in_app_iff; cbn [In str_of list_ascii_of_string]; try tauto; right; left; left; reflexivity.
Qed.
Definition count_p (s : str) : nat := length (filter (Ascii.eqb (chr 112)) s).
Lemma count_app a b : count_p (a ++ b) = count_p a + count_p b.
Proof. unfold count_p. rewrite filter_app, app_length. reflexivity. Qed.
Lemma count_zero s : (forall c, In c s -> c <> chr 112) -> count_p s = 0.
Proof. unfold count_p. induction s as [|c s IH]; intro H; [reflexivity|]. cbn [filter]. destruct (Ascii.eqb_spec (chr 112) c) as [E|N]; [elim (H c (or_introl eq_refl)); auto|]. apply IH. intros x I. apply H. right. exact I. Qed.
(** A tag that already is a post-release gives an invalid version. *)
Theorem C97_post_tags_refuted : exists t n v, valid_version t /\ (0 < n)%Z /\ shown n (str_of "89abcde") false (Some t) old v /\ ~ valid_version v.
Proof.
  exists (str_of "1.0.post1"), 2%Z, (str_of "1.0.post1.post2"). assert (D1 : forall c, is_digit c = true -> decimal [c]) by (intros c H; split; [discriminate|constructor; [exact H|constructor]]). split; [|split; [lia|split]].
  - exists (str_of "1" ++ str_of "." ++ str_of "0"), [], (str_of ".post" ++ str_of "1"), [], []. split; [reflexivity|]. exact (conj (release_more _ _ (D1 "1"%char eq_refl) (release_one _ (D1 "0"%char eq_refl))) (conj pre_no (conj (numbered_yes _ _ (D1 "1"%char eq_refl)) (conj (numbered_no _) local_no)))).
  - apply (old_later 2 (str_of "89abcde") false (str_of "1.0.post1")). intros [X _]. discriminate X.
  - intros (r & p & po & d & l & E & R & P & Q & D & L).
    assert (L0 : l = []). { destruct L as [|x S]; [reflexivity|]. assert (I : In (chr 43) (str_of "1.0.post1.post2")) by (rewrite E, !in_app_iff; right; right; right; right; left; left; reflexivity). cbn in I. repeat destruct I as [I|I]; try discriminate I; destruct I. }
    subst l. apply (f_equal count_p) in E. rewrite !count_app in E. change (count_p (str_of "1.0.post1.post2")) with 2 in E. change (count_p []) with 0 in E.
    rewrite (count_zero r) in E by (intros c I ->; destruct (release_chars r R _ I) as [X|X]; discriminate X).
    rewrite (count_zero p) in E by (intros c I ->; destruct (pre_chars p P _ I) as [X|X]; [discriminate X|cbn in X; repeat destruct X as [X|X]; try discriminate X; exact X]).
    rewrite (count_zero d) in E by (intros c I ->; destruct (numbered_chars _ _ D _ I) as [X|X]; [discriminate X|cbn in X; repeat destruct X as [X|X]; try discriminate X; exact X]).
    destruct Q as [| |x [_ X]]; [discriminate E|discriminate E|]. rewrite count_app in E. change (count_p (str_of ".post")) with 1 in E. rewrite (count_zero x) in E; [discriminate E|]. intros c I ->. unfold all_digits in X. rewrite Forall_forall in X. specialize (X _ I). discriminate X.
Qed.
Example C97_ex : release_tag (str_of "1.0rc2") /\ exists v, shown 14 (str_of "89abcde") true (Some (str_of "1.0rc2")) post v /\ v = str_of "1.0rc2.post14.dev0+g89abcde".
Proof.
  split.
  - exists (str_of "1" ++ str_of "." ++ str_of "0"), (str_of "rc" ++ str_of "2"). split; [reflexivity|]. assert (D1 : forall c, is_digit c = true -> decimal [c]) by (intros c H; split; [discriminate|constructor; [exact H|constructor]]). split; [exact (release_more _ _ (D1 "1"%char eq_refl) (release_one _ (D1 "0"%char eq_refl)))|]. apply pre_yes; [auto|apply (D1 "2"%char eq_refl)].
  - eexists. split; [apply (post_later 14 (str_of "89abcde") true (str_of "1.0rc2") (str_of "+"))|reflexivity]; [intros [X _]; discriminate X|]. left. split; [|reflexivity]. vm_compute. intro X. repeat destruct X as [X|X]; try discriminate X; exact X.
Qed.
Print Assumptions C97_valid.
Print Assumptions C97_git_styles.
Print Assumptions C97_post_tags_refuted.

(** ** C98 *)
Lemma upto_refl a : upto a a.
Proof. induction a as [|x a IH]; [apply upto_nil|apply upto_same; exact IH]. Qed.
Lemma upto_trans a b c : upto a b -> upto b c -> upto a c.
Proof.
  intro H. revert c. induction H as [b|x y a b L|x a b H IH]; intros c Hc; [constructor| |].
  - inversion Hc; subst; apply upto_less; lia || assumption.
  - inversion Hc; subst; [apply upto_less; assumption|apply upto_same, IH; assumption].
Qed.
Lemma upto_antisym a b : upto a b -> upto b a -> a = b.
Proof.
  intro H. induction H as [b|x y a b L|x a b H IH]; intro H'.
  - inversion H'. reflexivity.
  - inversion H'; subst; lia.
  - inversion H'; subst; [lia|]. f_equal. apply IH. assumption.
Qed.
Lemma str_leb_iff a b : str_leb a b = true <-> upto a b.
Proof.
  revert b. induction a as [|x a IH]; intros [|y b]; cbn [str_leb].
  - split; [constructor|reflexivity].
  - split; [constructor|reflexivity].
  - split; [discriminate|intro H; inversion H].
  - destruct (Ascii.eqb_spec x y) as [->|N].
    + rewrite IH. split; [apply upto_same|]. intro H. inversion H; subst; [lia|assumption].
    + rewrite Nat.ltb_lt. split; [apply upto_less|]. intro H. inversion H; subst; [assumption|congruence].
Qed.
Lemma str_leb_total a b : str_leb a b = false -> str_leb b a = true.
Proof.
  revert b. induction a as [|x a IH]; intros [|y b]; cbn [str_leb]; try congruence. rewrite (Ascii.eqb_sym y x). destruct (Ascii.eqb_spec x y) as [->|N]; [apply IH|]. rewrite Nat.ltb_ge, Nat.ltb_lt. intro L.
  assert (nat_of_ascii x <> nat_of_ascii y); [|lia]. intro E. apply N. rewrite <- (ascii_nat_embedding x), <- (ascii_nat_embedding y), E. reflexivity.
Qed.
Lemma insert_in x l y : In y (insert x l) <-> y = x \/ In y l.
Proof. induction l as [|z l IH]; cbn [insert]; [cbn [In]; intuition|]. destruct (str_leb x z); cbn [In]; rewrite ?IH; intuition. Qed.
Lemma sorted_in l y : In y (sorted l) <-> In y l.
Proof. unfold sorted. induction l as [|x l IH]; [reflexivity|]. cbn [fold_right]. rewrite insert_in, IH. cbn [In]. intuition. Qed.
Inductive in_order : list str -> Prop :=
| order_nil : in_order []
| order_cons x l : (forall y, In y l -> upto x y) -> in_order l -> in_order (x :: l).
Lemma insert_order x l : in_order l -> in_order (insert x l).
Proof.
  induction 1 as [|z l H O IH]; cbn [insert]; [repeat constructor; intros y []|]. destruct (str_leb x z) eqn:E.
  - apply str_leb_iff in E. constructor; [|constructor; assumption]. intros y [<-|I]; [exact E|]. apply (upto_trans _ z); [exact E|apply H; exact I].
  - apply str_leb_total, str_leb_iff in E. constructor; [|exact IH]. intros y I. apply insert_in in I. destruct I as [->|I]; [exact E|apply H; exact I].
Qed.
Lemma sorted_order l : in_order (sorted l).
Proof. unfold sorted. induction l as [|x l IH]; [constructor|]. cbn [fold_right]. apply insert_order. exact IH. Qed.
Lemma filter_order p l : in_order l -> in_order (filter p l).
Proof. induction 1 as [|x l H O IH]; [constructor|]. cbn [filter]. destruct (p x); [|exact IH]. constructor; [|exact IH]. intros y I. apply filter_In in I. apply H, I. Qed.
Lemma lookup_entry k d v : lookup (str_of k) d = Some v <-> entry d k v.
Proof.
  unfold entry. induction d as [|[k' v'] d IH]; cbn [lookup].
  - split; [discriminate|]. intros (a & b & E & _). destruct a; discriminate.
  - destruct (str_eqb_spec (str_of k) k') as [E|N].
    + split.
      * intro X. assert (v' = v) by congruence. subst. exists [], d. split; [reflexivity|intros []].
      * intros (a & b & X & M). destruct a as [|[k1 v1] a]; cbn [app] in X; [congruence|]. elim M. left. cbn [fst]. congruence.
    + rewrite IH. split; intros (a & b & X & M).
      * exists ((k', v') :: a), b. split; [rewrite X; reflexivity|]. cbn [map fst]. intros [Y|Y]; [congruence|contradiction].
      * destruct a as [|[k1 v1] a]; cbn [app] in X; [congruence|]. exists a, b. split; [congruence|]. intro Y. apply M. right. exact Y.
Qed.
Lemma lookup_missing k d : lookup (str_of k) d = None <-> missing d k.
Proof.
  unfold missing. induction d as [|[k' v'] d IH]; cbn [lookup map fst In]; [intuition|]. destruct (str_eqb_spec (str_of k) k') as [E|N].
  - split; [discriminate|]. intro H. elim H. left. congruence.
  - rewrite IH. split; intro H; [intros [Y|Y]; [congruence|contradiction]|intro Y; apply H; right; exact Y].
Qed.
Definition refs_of (refnames : str) : list str := map strip (split_at comma (strip_by parens (strip refnames))).
Lemma refs_iff refnames r : In r (refs_of refnames) <-> ref_of refnames r.
Proof.
  unfold refs_of, ref_of. rewrite in_map_iff. split.
  - intros (p & E & I). exists (strip refnames), (strip_by parens (strip refnames)), (split_at comma (strip_by parens (strip refnames))), p. split; [apply strip_trimmed|]. split; [apply (strip_by_iff _ _ parens_iff); reflexivity|]. split; [apply split_at_parts|]. split; [exact I|]. apply trimmed_iff. exact E.
  - intros (u & w & ps & p & U & W & P & I & T). apply trimmed_strip in U, T. apply (strip_by_iff _ _ parens_iff) in W. apply parts_iff in P. exists p. split; [exact T|]. rewrite U, W. change comma with (chr 44). rewrite P. exact I.
Qed.
Definition tags_of (refnames : str) : list str := map (skipn (length (str_of "tag: "))) (filter (starts_with (str_of "tag: ")) (refs_of refnames)).
Lemma tags_iff refnames t : In t (tags_of refnames) <-> tag_ref refnames t.
Proof.
  unfold tags_of, tag_ref. rewrite <- refs_iff, in_map_iff. split.
  - intros (r & E & I). apply filter_In in I. destruct I as [I S]. apply starts_with_app in S. destruct S as (u & ->). assert (X : u = t) by exact E. rewrite <- X. exact I.
  - intro I. exists (str_of "tag: " ++ t). split; [rewrite skipn_app, skipn_all, Nat.sub_diag; reflexivity|]. apply filter_In. split; [exact I|apply starts_with_app; eauto].
Qed.
Definition choices (refnames : str) : list str := match tags_of refnames with [] => filter (existsb is_digit) (refs_of refnames) | _ :: _ => tags_of refnames end.
Lemma choices_iff refnames t : In t (choices refnames) <-> candidate refnames t.
Proof.
  unfold choices. destruct (tags_of refnames) as [|x l] eqn:E.
  - assert (N : forall u, ~ tag_ref refnames u) by (intros u H; apply tags_iff in H; rewrite E in H; destruct H). rewrite filter_In, refs_iff, existsb_exists. split.
    + intros [R (c & I & D)]. apply other_candidate; [exact N|exact R|eauto].
    + intros [u T|r _ R (c & I & D)]; [elim (N u T)|]. split; [exact R|eauto].
  - assert (T : tag_ref refnames x) by (apply tags_iff; rewrite E; left; reflexivity). rewrite <- E, tags_iff. split; [apply tag_candidate|]. intros [u H|r N _ _]; [exact H|elim (N x T)].
Qed.
Lemma first_choice prefix refnames : match filter (starts_with prefix) (sorted (choices refnames)) with
  | [] => forall t, ~ candidate refnames (prefix ++ t)
  | r :: _ => least_with prefix refnames (skipn (length prefix) r)
  end.
Proof.
  assert (M : forall r, In r (filter (starts_with prefix) (sorted (choices refnames))) <-> candidate refnames r /\ exists t, r = prefix ++ t) by (intro r; rewrite filter_In, sorted_in, choices_iff, starts_with_app; reflexivity).
  pose proof (filter_order (starts_with prefix) _ (sorted_order (choices refnames))) as O. destruct (filter (starts_with prefix) (sorted (choices refnames))) as [|r l].
  - intros t H. apply (M (prefix ++ t)). eauto.
  - destruct (proj1 (M r) (or_introl eq_refl)) as [C (t & ->)]. rewrite skipn_app, skipn_all, Nat.sub_diag. cbn [app skipn]. split; [exact C|]. intros t' C'. assert (I : In (prefix ++ t') ((prefix ++ t) :: l)) by (apply M; eauto). inversion O; subst. destruct I as [<-|I]; [apply upto_refl|auto].
Qed.
Lemma unexpanded_iff r : unexpanded r <-> starts_with (str_of "$Format") (strip r) = true.
Proof. unfold unexpanded. rewrite starts_with_app. split; intros (u & H); exists u; [apply trimmed_strip; exact H|apply trimmed_iff; exact H]. Qed.
Lemma keywords_sound d prefix : keyword_versions d prefix (from_keywords d prefix).
Proof.
  unfold from_keywords. destruct d as [|kv d]; [apply nothing_at_all; reflexivity|]. set (D := kv :: d). assert (ND : D <> []) by discriminate. clearbody D. clear kv d.
  destruct (lookup (str_of "refnames") D) as [r|] eqn:R; [|apply no_names; [exact ND|apply lookup_missing; exact R]]. apply lookup_entry in R.
  destruct (starts_with (str_of "$Format") (strip r)) eqn:F; [apply (not_expanded _ _ r R); apply unexpanded_iff; exact F|]. assert (NU : ~ unexpanded r) by (intro U; apply unexpanded_iff in U; congruence).
  cbv zeta. fold (refs_of r). fold (tags_of r). change (match tags_of r with [] => filter (existsb is_digit) (refs_of r) | _ :: _ => tags_of r end) with (choices r).
  pose proof (first_choice prefix r) as FC. destruct (lookup (str_of "full") D) as [f|] eqn:Fu.
  - apply lookup_entry in Fu. destruct (filter (starts_with prefix) (sorted (choices r))) as [|x l].
    + eapply version_unknown; [exact R|exact NU|exact Fu|apply strip_trimmed|exact FC].
    + eapply version_found; [exact R|exact NU|exact Fu|apply strip_trimmed|exact FC|]. destruct (lookup (str_of "date") D) as [s|] eqn:Da; [apply lookup_entry in Da; apply (date_there _ s); [exact Da|apply dated_iff; reflexivity]|apply date_missing, lookup_missing; exact Da].
  - apply lookup_missing in Fu. destruct (filter (starts_with prefix) (sorted (choices r))); eapply no_full; eassumption.
Qed.
Lemma least_unique prefix r t t' : least_with prefix r t -> least_with prefix r t' -> t = t'.
Proof. intros [C L] [C' L']. apply (app_inv_head prefix). apply upto_antisym; auto. Qed.
Lemma entry_unique d k v v' : entry d k v -> entry d k v' -> v = v'.
Proof. intros A B. apply lookup_entry in A, B. congruence. Qed.
Lemma entry_not_missing d k v : entry d k v -> missing d k -> False.
Proof. intros A B. apply lookup_entry in A. apply lookup_missing in B. congruence. Qed.
Lemma entry_ne d k v : entry d k v -> d <> [].
Proof. intros (a & b & -> & _) E. destruct a; discriminate. Qed.
Lemma date_of_unique d a b : date_of d a -> date_of d b -> a = b.
Proof.
  intros [M|s t E D] [M'|s' t' E' D']; [reflexivity|elim (entry_not_missing _ _ _ E' M)|elim (entry_not_missing _ _ _ E M')|]. rewrite (entry_unique _ _ _ _ E E') in D. apply dated_iff in D, D'. congruence.
Qed.
Lemma keywords_unique d prefix a b : keyword_versions d prefix a -> keyword_versions d prefix b -> a = b.
Proof.
  assert (T : forall f F F', trimmed f F -> trimmed f F' -> F = F') by (intros f F F' A B; apply trimmed_strip in A, B; congruence).
  intros [E|r R U|N M|r R U M|r f F t da R U Fu TF L Da|r f F R U Fu TF C] [E'|r' R' U'|N' M'|r' R' U' M'|r' f' F' t' da' R' U' Fu' TF' L' Da'|r' f' F' R' U' Fu' TF' C'];
    repeat match goal with
    | A : entry d ?k ?v, B : entry d ?k ?v' |- _ => assert (v' = v) by (exact (entry_unique d k v' v B A)); subst v'; clear B
    | A : entry d ?k ?v, B : missing d ?k |- _ => elim (entry_not_missing d k v A B)
    | A : entry d ?k ?v, B : d = [] |- _ => elim (entry_ne d k v A B)
    end; try reflexivity; try contradiction; try congruence.
  - rewrite (least_unique _ _ _ _ L L'), (date_of_unique _ _ _ Da Da'), (T _ _ _ TF TF'). reflexivity.
  - destruct L as [L _]. elim (C' _ L).
  - destruct L' as [L' _]. elim (C _ L').
  - rewrite (T _ _ _ TF TF'). reflexivity.
Qed.
(** The version from expanded keywords: the first of the tags, in the order of texts,
    that begins with the prefix. *)
Theorem C98_version : forall d prefix a, from_keywords d prefix = a <-> keyword_versions d prefix a.
Proof. intros d prefix a. split; [intros <-; apply keywords_sound|]. intro H. exact (keywords_unique _ _ _ _ (keywords_sound d prefix) H). Qed.
Lemma upto_prefix a b : upto a b -> forall x, b ++ x = a -> x = [].
Proof.
  induction 1 as [b|x y a b L|x a b H IH]; intros z E.
  - destruct b; [exact E|discriminate E].
  - cbn [app] in E. assert (y = x) by congruence. subst. lia.
  - cbn [app] in E. apply IH. congruence.
Qed.
(** A release goes before its own candidates: never is a tag picked when a shorter one
    begins it. *)
Theorem C98_release_first : forall prefix r t x, least_with prefix r (t ++ x) -> candidate r (prefix ++ t) -> x = [].
Proof. intros prefix r t x [_ L] C. apply (upto_prefix _ _ (L t C) x). rewrite <- app_assoc. reflexivity. Qed.
(** The order in which git names the references does not matter. *)
Theorem C98_order : forall prefix r r' t, (forall x, ref_of r x <-> ref_of r' x) -> least_with prefix r t -> least_with prefix r' t.
Proof.
  intros prefix r r' t H. assert (T : forall x, tag_ref r x <-> tag_ref r' x) by (intro x; apply H).
  assert (C : forall x, candidate r x <-> candidate r' x).
  { intro x. split; intros [u A|u N R D]; [apply tag_candidate, T; exact A|apply other_candidate; [intros v Q; apply (N v), T; exact Q|apply H; exact R|exact D]|apply tag_candidate, T; exact A|apply other_candidate; [intros v Q; apply (N v), T; exact Q|apply H; exact R|exact D]]. }
  intros [A L]. split; [apply C; exact A|]. intros t' A'. apply L, C. exact A'.
Qed.
Definition keys (r : string) : list (str * str) := [(str_of "refnames", str_of r); (str_of "full", str_of "89abcdef"); (str_of "date", str_of "2020-01-02 03:04:05 -0700")].
(** A branch with a digit in its name is taken for the version; and of two releases at
    one commit the smaller text wins, which need not be the later release. *)
Theorem C98_branch_refuted : exists v, from_keywords (keys "(HEAD -> release-2)") [] = Got v /\ v_version v = str_of "HEAD -> release-2" /\ v_error v = None.
Proof. eexists. split; [vm_compute; reflexivity|]. split; reflexivity. Qed.
Theorem C98_latest_refuted : exists v, from_keywords (keys "(tag: v1.2, tag: v1.10)") (str_of "v") = Got v /\ v_version v = str_of "1.10" /\
  exists w, from_keywords (keys "(tag: v1.0, tag: v2.0)") (str_of "v") = Got w /\ v_version w = str_of "1.0".
Proof. eexists. split; [vm_compute; reflexivity|]. split; [reflexivity|]. eexists. split; [vm_compute; reflexivity|reflexivity]. Qed.
Example C98_ex : from_keywords (keys " (HEAD -> master, tag: v2.0rc1, tag: v2.0, origin/b7)") (str_of "v") = Got (mkversions (str_of "2.0") (Some (str_of "89abcdef")) (Some false) None (Some (str_of "2020-01-02T03:04:05-0700"))).
Proof. vm_compute. reflexivity. Qed.
Lemma lookup_put_same k v d : lookup k (put k v d) = Some v.
Proof. unfold put. cbn [lookup]. rewrite str_eqb_refl. reflexivity. Qed.
Lemma lookup_put_other k k' v d : k <> k' -> lookup k (put k' v d) = lookup k d.
Proof.
  intro N. unfold put. cbn [lookup]. assert (E : str_eqb k k' = false) by (apply str_eqb_neq; exact N). rewrite E. induction d as [|[a x] d IH]; [reflexivity|]. cbn [filter fst lookup]. destruct (str_eqb_spec k' a) as [<-|N']; cbn [negb].
  - rewrite E. exact IH.
  - cbn [lookup]. destruct (str_eqb k a); [reflexivity|exact IH].
Qed.
Definition keyword (name key : string) : Prop := (name = "git_refnames"%string /\ key = "refnames"%string) \/ (name = "git_full"%string /\ key = "full"%string) \/ (name = "git_date"%string /\ key = "date"%string).
Lemma keyword_line_lookup name key d line : keyword name key ->
  lookup (str_of key) (keyword_line d line) = if starts_with (str_of name ++ str_of " =") (strip line) then match quoted line with Some v => Some v | None => lookup (str_of key) d end else lookup (str_of key) d.
Proof.
  assert (N1 : str_of "refnames" <> str_of "full") by discriminate. assert (N2 : str_of "refnames" <> str_of "date") by discriminate. assert (N3 : str_of "full" <> str_of "date") by discriminate.
  unfold keyword_line. intros [[-> ->]|[[-> ->]|[-> ->]]]; change (str_of "git_refnames" ++ str_of " =") with (str_of "git_refnames ="); change (str_of "git_full" ++ str_of " =") with (str_of "git_full ="); change (str_of "git_date" ++ str_of " =") with (str_of "git_date =");
    destruct (starts_with (str_of "git_refnames =") (strip line)), (starts_with (str_of "git_full =") (strip line)), (starts_with (str_of "git_date =") (strip line)), (quoted line); rewrite ?lookup_put_same, ?(lookup_put_other (str_of "refnames") (str_of "date")), ?(lookup_put_other (str_of "refnames") (str_of "full")), ?(lookup_put_other (str_of "full") (str_of "date")), ?(lookup_put_other (str_of "full") (str_of "refnames")), ?(lookup_put_other (str_of "date") (str_of "full")), ?(lookup_put_other (str_of "date") (str_of "refnames")), ?lookup_put_same by congruence; reflexivity.
Qed.
Lemma quoted_skip a s : ~ In (chr 61) a -> quoted (a ++ s) = quoted s.
Proof. induction a as [|c a IH]; intro N; [reflexivity|]. cbn [app quoted]. destruct (Ascii.eqb_spec c (chr 61)) as [->|E]; [elim N; left; reflexivity|]. apply IH. intro I. apply N. right. exact I. Qed.
Lemma quoted_value v : ~ In (chr 10) v -> quoted (str_of "= """ ++ v ++ str_of """" ++ [chr 10]) = Some v.
Proof.
  intro N. cbn [str_of list_ascii_of_string app quoted]. change (Ascii.eqb "="%char (chr 61)) with true. cbv iota. change (span is_space (" "%char :: """"%char :: v ++ """"%char :: [chr 10])) with (let (a, b) := span is_space (""""%char :: v ++ """"%char :: [chr 10]) in (" "%char :: a, b)). change (span is_space (""""%char :: v ++ """"%char :: [chr 10])) with (@nil ascii, """"%char :: v ++ """"%char :: [chr 10]). cbn [snd]. change (Ascii.eqb """"%char quote) with true. cbv iota.
  assert (U : up_to_last_quote (v ++ """"%char :: [chr 10]) = Some v).
  { unfold up_to_last_quote. assert (E : span (fun c => negb (Ascii.eqb c newline)) (v ++ """"%char :: [chr 10]) = (v ++ [""""%char], [chr 10])).
    { replace (v ++ """"%char :: [chr 10]) with ((v ++ [""""%char]) ++ [chr 10]) by (rewrite <- app_assoc; reflexivity). apply span_unique; [|right; exists (chr 10), []; split; reflexivity]. rewrite forallb_app, andb_true_iff. split; [|reflexivity]. apply forallb_forall. intros c I. apply negb_true_iff, Ascii.eqb_neq. intros ->. contradiction. }
    rewrite E. cbn [fst]. rewrite rev_app_distr. cbn [rev app span]. change (negb (Ascii.eqb """"%char quote)) with false. cbv iota. cbn [snd]. rewrite rev_involutive. reflexivity. }
  rewrite U. reflexivity.
Qed.
Lemma assignment_trimmed indent name v : blanks indent -> (exists c r, name = String c r /\ blank c = false) -> trimmed (assignment indent name v) (str_of name ++ str_of " =" ++ str_of " """ ++ v ++ str_of """").
Proof.
  intros B (c & r & -> & Nc). exists indent, [chr 10]. split; [unfold assignment; rewrite <- !app_assoc; reflexivity|]. split; [exact B|]. split; [repeat constructor|]. intros c' r' [E|E].
  - cbn [str_of list_ascii_of_string app] in E. assert (c' = c) by congruence. subst. exact Nc.
  - rewrite !app_assoc in E. change (str_of """") with [""""%char] in E. apply app_inj_tail in E. destruct E as [_ <-]. reflexivity.
Qed.
Lemma no_equals indent : blanks indent -> ~ In (chr 61) indent.
Proof. intros B I. unfold blanks in B. rewrite Forall_forall in B. specialize (B _ I). discriminate B. Qed.
Lemma begins_iff name line : begins name line <-> starts_with (str_of name ++ str_of " =") (strip line) = true.
Proof. unfold begins. rewrite starts_with_app. split; intros (u & H); exists u; [apply trimmed_strip in H; rewrite H, <- app_assoc; reflexivity|apply trimmed_iff; rewrite H, <- app_assoc; reflexivity]. Qed.
Lemma later_lines name key after d : keyword name key -> (forall l, In l after -> ~ begins name l) -> lookup (str_of key) (fold_left keyword_line after d) = lookup (str_of key) d.
Proof.
  intro K. revert d. induction after as [|l after IH]; intros d H; [reflexivity|]. cbn [fold_left]. rewrite IH by (intros x I; apply H; right; exact I). rewrite (keyword_line_lookup name key d l K). destruct (starts_with (str_of name ++ str_of " =") (strip l)) eqn:E; [|reflexivity]. apply begins_iff in E. elim (H l (or_introl eq_refl) E).
Qed.
(** What a line assigns is read back as it was written, whatever it is and whatever the
    other lines say, unless a later line assigns again; nothing is made up. *)
Theorem C98_read_back : forall name key before indent v after, keyword name key -> blanks indent -> ~ In (chr 10) v -> (forall l, In l after -> ~ begins name l) ->
  entry (git_get_keywords (Some (before ++ assignment indent name v :: after))) key v.
Proof.
  intros name key before indent v after K B N A. apply lookup_entry. unfold git_get_keywords. rewrite fold_left_app. cbn [fold_left]. rewrite (later_lines name key after _ K A). rewrite (keyword_line_lookup name key _ _ K).
  assert (Nm : exists c r, name = String c r /\ blank c = false) by (destruct K as [[-> _]|[[-> _]|[-> _]]]; do 2 eexists; split; reflexivity).
  assert (S : starts_with (str_of name ++ str_of " =") (strip (assignment indent name v)) = true) by (apply begins_iff; eexists; apply (assignment_trimmed indent name v B Nm)). rewrite S.
  assert (Q : quoted (assignment indent name v) = Some v); [|rewrite Q; reflexivity]. unfold assignment. change (str_of " = """ ++ v ++ str_of """" ++ [chr 10]) with (str_of " " ++ (str_of "= """ ++ v ++ str_of """" ++ [chr 10])). rewrite (quoted_skip indent) by (apply no_equals; exact B). rewrite (quoted_skip (str_of name)); [rewrite (quoted_skip (str_of " ")) by (intros [X|[]]; discriminate X); apply quoted_value; exact N|].
  destruct K as [[-> _]|[[-> _]|[-> _]]]; cbn; intro X; repeat destruct X as [X|X]; try discriminate X; exact X.
Qed.
Theorem C98_read_nothing : forall name key lines, keyword name key -> (forall l, In l lines -> ~ begins name l) -> missing (git_get_keywords (Some lines)) key /\ git_get_keywords None = [].
Proof. intros name key lines K H. split; [|reflexivity]. apply lookup_missing. unfold git_get_keywords. rewrite (later_lines name key lines [] K H). reflexivity. Qed.
Example C98_ex_read : git_get_keywords (Some [assignment (str_of "    ") "git_refnames" (str_of "a ""b"" c"); str_of "# other" ++ [chr 10]; assignment [] "git_full" (str_of "89")]) = [(str_of "full", str_of "89"); (str_of "refnames", str_of "a ""b"" c")].
Proof. vm_compute. reflexivity. Qed.
Print Assumptions C98_version.
Print Assumptions C98_release_first.
Print Assumptions C98_order.
Print Assumptions C98_branch_refuted.
Print Assumptions C98_latest_refuted.
Print Assumptions C98_read_back.
Print Assumptions C98_read_nothing.

(** ** C99 *)
Lemma path_app ps c : path_text (ps ++ [c]) = (match ps with [] => [] | _ => path_text ps end) ++ sl :: c.
Proof.
  unfold path_text. destruct ps as [|p ps]; [cbn [app concat map]; rewrite app_nil_r; reflexivity|]. cbn [app]. change (p :: ps ++ [c]) with ((p :: ps) ++ [c]). rewrite map_app, concat_app. cbn [map concat]. rewrite app_nil_r. reflexivity.
Qed.
Lemma path_base p ps : plain_names (p :: ps) -> base_ok (path_text (p :: ps)).
Proof.
  intro F. destruct (@exists_last _ (p :: ps)) as (a & c & E); [discriminate|]. rewrite E in *. rewrite path_app. apply Forall_app in F. destruct F as [_ F]. inversion F as [|x l [Ne N] _]; subst. destruct (exists_last Ne) as (c' & x & ->).
  exists ((match a with [] => [] | _ => path_text a end) ++ sl :: c'), x. split; [rewrite <- app_assoc; reflexivity|]. intros ->. apply N, in_app_iff. right. left. reflexivity.
Qed.
Lemma path_split ps c : plain_names (ps ++ [c]) -> os_split (path_text (ps ++ [c])) = (path_text ps, c).
Proof.
  intro F. apply Forall_app in F. destruct F as [Fp Fc]. inversion Fc as [|x l [Ne N] _]; subst. rewrite path_app. destruct ps as [|p ps].
  - cbn [app]. unfold os_split. change (sl :: c) with ([sl] ++ c). destruct (tail_head [sl] c N) as [T H]; [right; reflexivity|]. rewrite T, H, !rev_involutive. reflexivity.
  - apply split_dir; [apply path_base; exact Fp|exact N].
Qed.
Definition named_version (u : str) : versions := mkversions u None (Some false) None None.
Lemma last_split (ps x b : list str) c y : ps ++ [c] = x ++ [y] ++ b -> (b = [] /\ ps = x /\ c = y) \/ exists b', b = b' ++ [c] /\ ps = x ++ [y] ++ b'.
Proof.
  intro E. destruct b as [|b0 b]; [left; apply app_inj_tail in E; destruct E as [-> ->]; auto|right]. destruct (@exists_last _ (b0 :: b)) as (b' & z & Eb); [discriminate|]. rewrite Eb in E. rewrite Eb. exists b'. replace (x ++ [y] ++ b' ++ [z]) with ((x ++ [y] ++ b') ++ [z]) in E by (rewrite <- !app_assoc; reflexivity). apply app_inj_tail in E. destruct E as [-> ->]. auto.
Qed.
Lemma parent_levels k prefix ps a : prefix <> [] -> plain_names ps ->
  (from_parentdir k prefix (path_text ps) = a <->
   (exists x b u, ps = x ++ [prefix ++ u] ++ b /\ length b < k /\ (forall c w, In c b -> c <> prefix ++ w) /\ a = Got (named_version u)) \/
   ((forall x b u, ps = x ++ [prefix ++ u] ++ b -> k <= length b \/ exists c w, In c b /\ c = prefix ++ w) /\ a = NotThis)).
Proof.
  intros Np. revert ps a. induction k as [|k IH]; intros ps a F; cbn [from_parentdir].
  - split; [intros <-; right; split; [intros; left; lia|reflexivity]|]. intros [(x & b & u & _ & L & _)|[_ ->]]; [lia|reflexivity].
  - destruct ps as [|p0 ps0] eqn:Eps.
    + assert (Z : basename (path_text []) = [] /\ dirname (path_text []) = path_text []) by (split; vm_compute; reflexivity). destruct Z as [-> ->]. assert (S : starts_with prefix [] = false) by (destruct prefix; [congruence|reflexivity]). rewrite S, (IH [] a (Forall_nil _)).
      split; (intros [(x & b & u & E & _)|[_ ->]]; [destruct x; discriminate E|right; split; [|reflexivity]; intros x b u E; destruct x; discriminate E]).
    + destruct (@exists_last _ (p0 :: ps0)) as (ps1 & c & E); [discriminate|]. rewrite E in *. clear Eps E p0 ps0 ps. unfold basename, dirname. rewrite (path_split ps1 c F). cbn [fst snd]. assert (F1 : plain_names ps1) by (apply Forall_app in F; apply F).
      destruct (starts_with prefix c) eqn:S.
      * apply starts_with_app in S. destruct S as (u & ->). rewrite skipn_app, skipn_all, Nat.sub_diag. cbn [app skipn]. split.
        -- intros <-. left. exists ps1, [], u. split; [reflexivity|]. split; [cbn; lia|]. split; [intros c w []|reflexivity].
        -- intros [(x & b & u' & E & L & N & ->)|[N _]].
           ++ apply last_split in E. destruct E as [(_ & _ & E)|(b' & -> & _)]; [apply app_inv_head in E; rewrite E; reflexivity|exfalso]. apply (N (prefix ++ u) u); [apply in_app_iff; right; left; reflexivity|reflexivity].
           ++ exfalso. destruct (N ps1 [] u eq_refl) as [L|(z & w & [] & _)]. cbn in L. lia.
      * assert (Nc : forall w, c <> prefix ++ w) by (intros w ->; assert (X : starts_with prefix (prefix ++ w) = true) by (apply starts_with_app; eauto); congruence). rewrite (IH ps1 a F1). split.
        -- intros [(x & b & u & -> & L & N & ->)|[N ->]].
           ++ left. exists x, (b ++ [c]), u. split; [rewrite <- !app_assoc; reflexivity|]. split; [rewrite app_length; cbn [length]; unfold str in *; lia|]. split; [|reflexivity]. intros z w I. apply in_app_iff in I. destruct I as [I|[<-|[]]]; [apply N; exact I|apply Nc].
           ++ right. split; [|reflexivity]. intros x b u E. apply last_split in E. destruct E as [(_ & _ & E)|(b' & -> & E)]; [elim (Nc u E)|]. destruct (N x b' u E) as [L|(z & w & I & Ez)]; [left; rewrite app_length; cbn [length]; unfold str in *; lia|right; exists z, w; split; [apply in_app_iff; left; exact I|exact Ez]].
        -- intros [(x & b & u & E & L & N & ->)|[N ->]].
           ++ left. apply last_split in E. destruct E as [(_ & _ & E)|(b' & -> & E)]; [elim (Nc u E)|]. rewrite app_length in L. cbn [length] in L. exists x, b', u. split; [exact E|]. split; [unfold str in *; lia|]. split; [|reflexivity]. intros z w I. apply N. apply in_app_iff. left. exact I.
           ++ right. split; [|reflexivity]. intros x b u E. destruct (N x (b ++ [c]) u) as [L|(z & w & I & Ez)]; [rewrite E, <- !app_assoc; reflexivity|left; rewrite app_length in L; cbn [length] in L; unfold str in *; lia|]. apply in_app_iff in I. destruct I as [I|[<-|[]]]; [right; exists z, w; split; assumption|elim (Nc w Ez)].
Qed.
(** The directory's name tells the version when one of the last three names begins with
    the prefix; the nearest one counts. *)
Theorem C99_parent : forall prefix ps u, prefix <> [] -> plain_names ps -> nearest prefix ps u -> from_parentdir 3 prefix (path_text ps) = Got (named_version u).
Proof. intros prefix ps u Np F (a & b & E & L & N). apply (parent_levels 3 prefix ps _ Np F). left. exists a, b, u. split; [exact E|]. split; [exact L|]. split; [exact N|reflexivity]. Qed.
Theorem C99_parent_only : forall prefix ps a, prefix <> [] -> plain_names ps -> from_parentdir 3 prefix (path_text ps) = a -> a = NotThis /\ (forall u, ~ nearest prefix ps u) \/ exists u, a = Got (named_version u) /\ nearest prefix ps u.
Proof.
  intros prefix ps a Np F H. apply (parent_levels 3 prefix ps _ Np F) in H. destruct H as [(x & b & u & E & L & N & ->)|[N ->]]; [right; exists u; split; [reflexivity|exists x, b; auto]|left]. split; [reflexivity|]. intros u (x & b & E & L & M). destruct (N x b u E) as [L'|(c & w & I & Ec)]; [lia|elim (M c w I Ec)].
Qed.
Lemma own_prefix : str_of "impactutils-" <> [].
Proof. discriminate. Qed.
Section All.
Variable popen : str -> str -> list str -> launch.
Variable iparse : str -> option Z.
Lemma root_of ps d f : plain_names (ps ++ [d; f]) -> dirname (dirname (path_text (ps ++ [d; f]))) = path_text ps.
Proof.
  intro F. change [d; f] with ([d] ++ [f]) in *. rewrite app_assoc in *. unfold dirname. rewrite (path_split _ _ F). cbn [fst]. apply Forall_app in F. destruct F as [F _]. rewrite (path_split _ _ F). reflexivity.
Qed.
Lemma git_shown root p : pieces_from popen iparse [] root (Got p) -> exists v, render p (Some (str_of "pep440")) = Ok v.
Proof.
  intro H. change (str_of "pep440") with (style_name pep440). inversion H as [| | |F D dirty T tag d h t o date K M Et O Da| |F D dirty T tag d h K M Nt|F D dirty T K Hd N|F D dirty T o c n o' date K Hd O W P O' Da| | |]; subst.
  - destruct M as (_ & Ne & _). cbn [app] in Ne. destruct t as [|x t]; [congruence|]. destruct (C96_some_text (digits_value d) h dirty (Some (x :: t)) pep440) as (v & S). eexists. apply (C96_shown _ pep440 (Some (x :: t)) (Some (x :: t)) (digits_value d)); [reflexivity|reflexivity|reflexivity|constructor|]. exists v. split; [exact S|reflexivity].
  - eexists. eapply C96_error; [reflexivity|discriminate].
  - eexists. eapply C96_error; [reflexivity|discriminate].
  - destruct (C96_some_text n (firstn 7 F) dirty None pep440) as (v & S). eexists. apply (C96_shown _ pep440 None None n); [reflexivity|reflexivity|reflexivity|constructor|]. exists v. split; [exact S|reflexivity].
Qed.
End All.
(** The ways are tried in order; each one only when those before it did not apply. *)
Theorem C99_keywords : forall popen iparse kw file v, keyword_versions kw [] (Got v) -> get_versions popen iparse kw file = Ok v.
Proof. intros popen iparse kw file v H. apply C98_version in H. unfold get_versions, tag_prefix. rewrite H. reflexivity. Qed.
Theorem C99_git : forall popen iparse kw ps d f p, keyword_versions kw [] NotThis -> plain_names (ps ++ [d; f]) -> pieces_from popen iparse [] (path_text ps) (Got p) ->
  exists v, render p None = Ok v /\ get_versions popen iparse kw (Some (path_text (ps ++ [d; f]))) = Ok v.
Proof.
  intros popen iparse kw ps d f p H F P. destruct (git_shown popen iparse _ _ P) as (v & R). exists v. split; [rewrite (proj1 (C96_default p)); exact R|]. apply C98_version in H. apply C95_pieces in P. unfold get_versions, tag_prefix. rewrite H. cbv zeta. rewrite (root_of ps d f F), P, R. reflexivity.
Qed.
Theorem C99_directory : forall popen iparse kw ps d f u, keyword_versions kw [] NotThis -> plain_names (ps ++ [d; f]) -> pieces_from popen iparse [] (path_text ps) NotThis -> nearest (str_of "impactutils-") ps u ->
  get_versions popen iparse kw (Some (path_text (ps ++ [d; f]))) = Ok (named_version u).
Proof.
  intros popen iparse kw ps d f u H F P N. apply C98_version in H. apply C95_pieces in P. unfold get_versions, tag_prefix, parentdir_prefix. rewrite H. cbv zeta. rewrite (root_of ps d f F), P. assert (Fp : plain_names ps) by (apply Forall_app in F; apply F). rewrite (C99_parent _ ps u own_prefix Fp N). reflexivity.
Qed.
Theorem C99_nothing : forall popen iparse kw ps d f, keyword_versions kw [] NotThis -> plain_names (ps ++ [d; f]) -> pieces_from popen iparse [] (path_text ps) NotThis -> (forall u, ~ nearest (str_of "impactutils-") ps u) ->
  get_versions popen iparse kw (Some (path_text (ps ++ [d; f]))) = Ok (mkversions (str_of "0+unknown") None None (Some (str_of "unable to compute version")) None).
Proof.
  intros popen iparse kw ps d f H F P N. apply C98_version in H. apply C95_pieces in P. unfold get_versions, tag_prefix, parentdir_prefix. rewrite H. cbv zeta. rewrite (root_of ps d f F), P. assert (Fp : plain_names ps) by (apply Forall_app in F; apply F).
  destruct (C99_parent_only (str_of "impactutils-") ps _ own_prefix Fp eq_refl) as [[-> _]|(u & _ & M)]; [reflexivity|elim (N u M)].
Qed.
Theorem C99_no_file : forall popen iparse kw, keyword_versions kw [] NotThis -> get_versions popen iparse kw None = Ok (mkversions (str_of "0+unknown") None None (Some (str_of "unable to find root of source tree")) None).
Proof. intros popen iparse kw H. apply C98_version in H. unfold get_versions, tag_prefix. rewrite H. reflexivity. Qed.
(** The only errors are those of incomplete keywords and of git failing half way. *)
Theorem C99_errors : forall popen iparse kw ps d f e, plain_names (ps ++ [d; f]) ->
  (get_versions popen iparse kw (Some (path_text (ps ++ [d; f]))) = Err e <->
   keyword_versions kw [] (Raised e) \/ keyword_versions kw [] NotThis /\ pieces_from popen iparse [] (path_text ps) (Raised e)).
Proof.
  intros popen iparse kw ps d f e F. split.
  - unfold get_versions, tag_prefix. destruct (from_keywords kw []) as [v| |e'] eqn:K; [discriminate| |intro X; left; apply C98_version; congruence]. apply C98_version in K. cbv zeta. rewrite (root_of ps d f F). intro X. right. split; [exact K|]. destruct (git_pieces popen iparse [] (path_text ps)) as [p| |e'] eqn:P.
    + apply C95_pieces in P. destruct (git_shown popen iparse _ _ P) as (v & R). rewrite R in X. discriminate X.
    + unfold parentdir_prefix in X. assert (Fp : plain_names ps) by (apply Forall_app in F; apply F). destruct (C99_parent_only (str_of "impactutils-") ps _ own_prefix Fp eq_refl) as [[E _]|(u & E & _)]; rewrite E in X; discriminate X.
    + apply C95_pieces. congruence.
  - intros [K|[K P]]; apply C98_version in K; unfold get_versions, tag_prefix; rewrite K; [reflexivity|]. cbv zeta. rewrite (root_of ps d f F). apply C95_pieces in P. rewrite P. reflexivity.
Qed.
(** In a checkout the keywords are not expanded. *)
Theorem C99_own_keywords : keyword_versions get_keywords [] NotThis.
Proof. apply C98_version. vm_compute. reflexivity. Qed.
(** It is documented to return a default when unable; it can raise instead. *)
Definition half_git (cwd cmd : str) (args : list str) : launch := if starts_with (str_of "show") (concat args) then Ran [] 1 else some_git cwd cmd args.
Theorem C99_default_refuted : exists popen iparse file, get_versions popen iparse get_keywords (Some file) = Err AttributeError.
Proof. exists half_git, no_parse, (str_of "/src/impactutils/_version.py"). vm_compute. reflexivity. Qed.
Definition no_git_here (cwd cmd : str) (args : list str) : launch := NoSuch.
Example C99_ex : exists v, get_versions some_git no_parse get_keywords (Some (str_of "/src/impactutils/_version.py")) = Ok v /\ v_version v = str_of "v1.0-2-g3+14.g89abcde.dirty".
Proof. eexists. split; vm_compute; reflexivity. Qed.
Example C99_ex_directory : path_text [str_of "x"; str_of "impactutils-0.8"; str_of "lib"; str_of "impactutils"; str_of "_version.py"] = str_of "/x/impactutils-0.8/lib/impactutils/_version.py" /\
  get_versions no_git_here no_parse get_keywords (Some (str_of "/x/impactutils-0.8/lib/impactutils/_version.py")) = Ok (named_version (str_of "0.8")) /\
  nearest (str_of "impactutils-") [str_of "x"; str_of "impactutils-0.8"; str_of "lib"] (str_of "0.8").
Proof. split; [reflexivity|]. split; [vm_compute; reflexivity|]. exists [str_of "x"], [str_of "lib"]. split; [reflexivity|]. split; [cbn; lia|]. intros c w [<-|[]] E. discriminate E. Qed.
Print Assumptions C99_parent.
Print Assumptions C99_parent_only.
Print Assumptions C99_keywords.
Print Assumptions C99_git.
Print Assumptions C99_directory.
Print Assumptions C99_nothing.
Print Assumptions C99_no_file.
Print Assumptions C99_errors.
Print Assumptions C99_own_keywords.
Print Assumptions C99_default_refuted.
