(** Source files (C57). *)
From Coq Require Import ZArith Reals String Ascii Bool List Lia Lra.
From Verif Require Import PyBase PolyModel PolySpec PolyProofs OriginModel OriginSpec OriginProofs.
Import ListNotations.
Open Scope R_scope.
Local Arguments str_of _ : simpl never.

Lemma exists_last_or {A} (l : list A) : l = [] \/ exists l' x, l = l' ++ [x].
Proof. destruct l as [|a l] using rev_ind; [auto|right; eauto]. Qed.
Section Props.
Variable fparse : str -> option num.
Variable iparse : str -> option Z.
Notation says := (says fparse iparse).
Notation read_source := (read_source fparse iparse).
Notation source_line := (source_line fparse iparse).
Notation source_lines := (source_lines fparse iparse).

Lemma value_iff s v : source_value fparse iparse s = v <-> meaning fparse iparse s v.
Proof.
  unfold source_value. split.
  - intros <-. destruct (iparse s) eqn:I; [constructor; exact I|]. destruct (fparse s) eqn:F; [apply m_float; assumption|apply m_text; assumption].
  - intros [z I|x I F|I F]; rewrite I; [reflexivity| |]; rewrite F; reflexivity.
Qed.
Lemma comment_iff c l : comment (c :: l) <-> Ascii.eqb c hash = true.
Proof.
  unfold comment. rewrite Ascii.eqb_eq. split; [intros [r [= -> _]]; reflexivity|intros ->; exists l; reflexivity].
Qed.
Lemma two_parts line : In "="%char line <-> exists a b rest, split_at equals line = a :: b :: rest.
Proof.
  pose proof (split_at_parts equals line) as (N & F & J). destruct (split_at equals line) as [|a [|b rest]]; [contradiction| |].
  - split; [|intros (? & ? & ? & H); discriminate]. intro I. exfalso. cbn in J. subst line. inversion F; subst. auto.
  - split; [intros _; eauto|]. intros _. rewrite J. cbn [join]. apply in_or_app. right. now left.
Qed.
Lemma line_cases p line :
  (comment line /\ source_line p line = Ok p) \/ (exists k v, says line k v /\ source_line p line = Ok (dset k v p)) \/
  (~ comment line /\ ~ In "="%char line /\ source_line p line = Err IndexError).
Proof.
  destruct line as [|c l].
  - right. right. split; [intros [r H]; discriminate|]. split; [intros []|reflexivity].
  - unfold OriginModel.source_line. destruct (Ascii.eqb c hash) eqn:E; [left; split; [apply comment_iff; exact E|reflexivity]|].
    assert (NC : ~ comment (c :: l)) by (rewrite comment_iff; congruence). right.
    destruct (split_at equals (c :: l)) as [|a [|b rest]] eqn:S.
    + right. split; [exact NC|]. split; [|reflexivity]. rewrite two_parts, S. intros (? & ? & ? & H). discriminate.
    + right. split; [exact NC|]. split; [|reflexivity]. rewrite two_parts, S. intros (? & ? & ? & H). discriminate.
    + left. exists (strip a), (source_value fparse iparse (strip b)). split; [|reflexivity]. split; [exact NC|]. exists a, b, rest, (strip b).
      split; [apply parts_iff; exact S|]. split; [apply strip_trimmed|]. split; [apply strip_trimmed|]. apply value_iff. reflexivity.
Qed.
Lemma says_fun line k v k' v' : says line k v -> says line k' v' -> k = k' /\ v = v'.
Proof.
  intros (_ & a & b & r & t & P & A & B & M) (_ & a' & b' & r' & t' & P' & A' & B' & M'). apply parts_iff in P, P'. rewrite P in P'. injection P' as <- <- <-.
  apply trimmed_iff in A, A', B, B'. subst. apply value_iff in M, M'. split; congruence.
Qed.
Lemma says_equals line k v : says line k v -> In "="%char line.
Proof. intros (_ & a & b & r & t & P & _). apply parts_iff in P. apply two_parts. eauto. Qed.
Lemma lines_snoc lines l : forall p, source_lines p (lines ++ [l]) = bind (source_lines p lines) (fun p => source_line p l).
Proof.
  induction lines as [|x lines IH]; intro p; cbn; [destruct (source_line p l); reflexivity|]. destruct (source_line p x); [apply IH|reflexivity].
Qed.

(** Which files are read. *)
Theorem C57_accepts lines : (exists p, read_source lines = Ok p) <-> Forall (fun l => comment l \/ In "="%char l) lines.
Proof.
  unfold OriginModel.read_source. induction lines as [|l lines IH] using rev_ind.
  - split; [constructor|intros _; eexists; reflexivity].
  - rewrite lines_snoc, Forall_app. split.
    + intros [p H]. destruct (source_lines [] lines) as [q|] eqn:E; [|discriminate]. cbn [bind] in H. split; [apply IH; eauto|]. constructor; [|constructor].
      destruct (line_cases q l) as [[C _]|[(k & v & S & _)|(_ & _ & F)]]; [auto|right; apply (says_equals _ _ _ S)|congruence].
    + intros [F1 F2]. apply IH in F1. destruct F1 as [q E]. rewrite E. cbn [bind]. inversion F2 as [|? ? Hl _]; subst.
      destruct (line_cases q l) as [[C F]|[(k & v & S & F)|(N1 & N2 & F)]]; [eauto|eauto|]. exfalso. destruct Hl; contradiction.
Qed.
Print Assumptions C57_accepts.
Theorem C57_errors lines e : read_source lines = Err e -> e = IndexError /\ exists l, In l lines /\ ~ comment l /\ ~ In "="%char l.
Proof.
  unfold OriginModel.read_source. induction lines as [|l lines IH] using rev_ind; [discriminate|]. rewrite lines_snoc. destruct (source_lines [] lines) as [q|e'] eqn:E; cbn [bind].
  - destruct (line_cases q l) as [[C F]|[(k & v & S & F)|(N1 & N2 & F)]]; rewrite F; [discriminate|discriminate|]. intros [= <-]. split; [reflexivity|]. exists l. split; [apply in_or_app; right; now left|auto].
  - intros [= ->]. destruct (IH eq_refl) as (-> & l' & I & N). split; [reflexivity|]. exists l'. split; [apply in_or_app; auto|exact N].
Qed.
Print Assumptions C57_errors.
(** Every key has the value of its last line. *)
Theorem C57_values lines p : read_source lines = Ok p ->
  distinct p /\ forall k v, In (k, v) p <-> exists before line after, lines = before ++ line :: after /\ says line k v /\ forall l w, In l after -> ~ says l k w.
Proof.
  unfold OriginModel.read_source. revert p. induction lines as [|l lines IH] using rev_ind; intro p.
  - intros [= <-]. split; [constructor|]. intros k v. split; [intros []|]. intros ([|] & line & after & H & _); discriminate.
  - rewrite lines_snoc. destruct (source_lines [] lines) as [q|] eqn:E; [|discriminate]. cbn [bind]. destruct (IH q eq_refl) as [D V].
    assert (Q : forall k v (P : Prop), (forall w, ~ says l k w) -> ((exists before line after, lines ++ [l] = before ++ line :: after /\ says line k v /\ forall l' w, In l' after -> ~ says l' k w) <-> In (k, v) q)).
    { intros k v _ N. rewrite V. split.
      - intros (before & line & after & H & S & L). destruct (exists_last_or after) as [-> |(after' & x & ->)].
        + apply app_inj_tail in H. destruct H as [_ <-]. exfalso. apply (N _ S).
        + rewrite app_comm_cons, app_assoc in H. apply app_inj_tail in H. destruct H as [-> <-]. exists before, line, after'. split; [reflexivity|]. split; [exact S|]. intros l' w I. apply L. apply in_or_app. auto.
      - intros (before & line & after & -> & S & L). exists before, line, (after ++ [l]). split; [rewrite <- app_assoc; reflexivity|]. split; [exact S|].
        intros l' w I. apply in_app_or in I. destruct I as [I|[<-|[]]]; [apply L; exact I|apply N]. }
    destruct (line_cases q l) as [[C F]|[(k & v & S & F)|(N1 & N2 & F)]]; rewrite F; intro H; [| |discriminate]; injection H as <-.
    + split; [exact D|]. intros k v. symmetry. apply Q; [exact True|]. intros w [NC _]. contradiction.
    + split; [apply dset_distinct; exact D|]. intros j w. rewrite (dset_in _ _ _ _ _ D). split.
      * intros [[-> ->]|[N I]].
        -- exists lines, l, []. split; [reflexivity|]. split; [exact S|]. intros l' w [].
        -- apply Q; [exact True| |exact I]. intros w' S'. destruct (says_fun _ _ _ _ _ S S'). congruence.
      * intros (before & line & after & H & S' & L). destruct (exists_last_or after) as [-> |(after' & x & ->)].
        -- apply app_inj_tail in H. destruct H as [_ <-]. left. destruct (says_fun _ _ _ _ _ S S'). auto.
        -- right. rewrite app_comm_cons, app_assoc in H. apply app_inj_tail in H. destruct H as [-> <-].
           split; [intros ->; apply (L l v); [apply in_or_app; right; now left|exact S]|]. apply V. exists before, line, after'. split; [reflexivity|]. split; [exact S'|]. intros l' w' I. apply L. apply in_or_app. auto.
Qed.
Print Assumptions C57_values.
(** The keys are in the order of their first lines. *)
Theorem C57_order lines p : read_source lines = Ok p -> exists ks, keys_of fparse iparse lines ks /\ firsts ks (map fst p).
Proof.
  unfold OriginModel.read_source. revert p. induction lines as [|l lines IH] using rev_ind; intro p.
  - intros [= <-]. exists []. split; constructor.
  - rewrite lines_snoc. destruct (source_lines [] lines) as [q|] eqn:E; [|discriminate]. cbn [bind]. destruct (IH q eq_refl) as (ks & K & F). clear IH.
    assert (KC : comment l -> keys_of fparse iparse (lines ++ [l]) ks).
    { intro C. clear - K C. induction K; cbn; [apply ko_comment; [exact C|constructor]|apply ko_comment; assumption|eapply ko_line; eassumption]. }
    assert (KS : forall k v, says l k v -> keys_of fparse iparse (lines ++ [l]) (ks ++ [k])).
    { intros k v C. clear - K C. induction K; cbn; [eapply ko_line; [exact C|constructor]|apply ko_comment; assumption|eapply ko_line; eassumption]. }
    assert (FI : forall k, In k ks <-> In k (map fst q)).
    { intro k. clear - F. induction F; [tauto| |]; rewrite !in_app_iff; cbn; rewrite IHF; [tauto|]. rewrite <- IHF. split; [intros [A|[<-|[]]]; assumption|]. intro A. left. exact A. }
    destruct (line_cases q l) as [[C Fl]|[(k & v & S & Fl)|(N1 & N2 & Fl)]]; rewrite Fl; intro H; [| |discriminate]; injection H as <-.
    + exists ks. split; [apply KC; exact C|exact F].
    + exists (ks ++ [k]). split; [apply (KS _ _ S)|]. rewrite dset_keys. destruct (dhas k q) eqn:Hk.
      * apply dhas_iff, has_keys in Hk. apply f_old; [exact F|]. apply FI. exact Hk.
      * apply dhas_f in Hk. rewrite has_keys in Hk. apply f_new; [exact F|]. rewrite FI. exact Hk.
Qed.
Print Assumptions C57_order.
End Props.

(** A comment, two values of a key and a text with a second equals sign. *)
Definition ex_int (s : str) : option Z := if str_eqb s (str_of "90") then Some 90%Z else None.
Definition ex_float (s : str) : option num := if str_eqb s (str_of "4.5") then Some (Fin 4.5) else if str_eqb s (str_of "nan") then Some NaN else None.
Definition ex_lines : list str := map str_of ["# rake = 3"; " rake = 90 "; "mech=RS=NM"; "rake=4.5"]%string.
Example C57_ex : read_source ex_float ex_int ex_lines = Ok [(str_of "rake", VFloat (Fin 4.5)); (str_of "mech", VStr (str_of "RS"))].
Proof. reflexivity. Qed.
Example C57_ex_says : says ex_float ex_int (str_of "mech=RS=NM") (str_of "mech") (VStr (str_of "RS")).
Proof.
  split; [intros [r H]; discriminate|]. exists (str_of "mech"), (str_of "RS"), [str_of "NM"], (str_of "RS").
  split; [apply parts_iff; reflexivity|]. split; [apply trimmed_iff; reflexivity|]. split; [apply trimmed_iff; reflexivity|]. apply m_text; reflexivity.
Qed.
Example C57_ex_errors : read_source ex_float ex_int (ex_lines ++ [[]]) = Err IndexError /\ read_source ex_float ex_int [str_of " # note"] = Err IndexError.
Proof. split; reflexivity. Qed.
