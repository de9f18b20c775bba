(** Proofs about quoting and the scp messages of one file. *)
From Coq Require Import ZArith String Ascii Bool List Lia.
From Verif Require Import PyBase PyStr FsModel TextSpec TextProofs ScpModel ScpSpec.
Import ListNotations.

Lemma lex_run_app : forall s s' l, lex_run l (s ++ s') = match lex_run l s with Some l' => lex_run l' s' | None => None end.
Proof. induction s as [|c s IH]; intros s' l; [reflexivity|]. cbn [app lex_run]. destruct (lex_step l c); [apply IH|reflexivity]. Qed.

Lemma replace1 : forall s x new, py_replace s [x] new = flat_map (fun c => if Ascii.eqb x c then new else [c]) s.
Proof.
  intros s x new. unfold py_replace. induction s as [|c s IH]; [reflexivity|]. cbn [replace_skip starts_with flat_map List.length Nat.sub].
  rewrite Bool.andb_true_r. destruct (Ascii.eqb x c); cbn [app]; rewrite IH; reflexivity.
Qed.
Lemma replace1_none : forall s x new, ~ In x s -> py_replace s [x] new = s.
Proof.
  intros s x new H. rewrite replace1. induction s as [|c s IH]; [reflexivity|]. cbn [flat_map]. destruct (Ascii.eqb_spec x c) as [->|]; [exfalso; apply H; left; reflexivity|].
  cbn [app]. f_equal. apply IH. intro. apply H. right. assumption.
Qed.

Lemma ascii_all : forall (f : ascii -> bool), forallb f (map ascii_of_nat (seq 0 256)) = true -> forall c, f c = true.
Proof.
  intros f H c. rewrite forallb_forall in H. apply H. rewrite <- (ascii_nat_embedding c). apply in_map. apply in_seq. pose proof (nat_ascii_bounded c). lia.
Qed.
(** A safe character is literal outside quotes. *)
Definition barech (c : ascii) : bool :=
  negb (if in_dec ascii_dec c meta then true else false) && negb (if in_dec ascii_dec c [" "%char; chr 9] then true else false) &&
  negb (Ascii.eqb c "'") && negb (Ascii.eqb c """") && negb (Ascii.eqb c "#").
Lemma safe_bare : forall c, safe_char c = true -> barech c = true.
Proof.
  intros c. assert (E : (implb (safe_char c) (barech c)) = true).
  { revert c. apply (ascii_all (fun c => implb (safe_char c) (barech c))). vm_compute. reflexivity. }
  intro H. rewrite H in E. exact E.
Qed.
Lemma lex_bare : forall c l, barech c = true -> l_mode l = Bare -> l_words l <> [] -> (l_cur l = None -> c <> "~"%char) ->
  lex_step l c = Some {| l_words := l_words l; l_cur := grow (l_cur l) c; l_mode := Bare |}.
Proof.
  intros c l H Hm Hw Ht. unfold barech in H. unfold lex_step. rewrite Hm.
  destruct (in_dec ascii_dec c meta); [discriminate|]. destruct (in_dec ascii_dec c [" "%char; chr 9]); [discriminate|].
  destruct (Ascii.eqb c "'"); [discriminate|]. destruct (Ascii.eqb c """"); [discriminate|].
  destruct (l_cur l) as [w|].
  - destruct (l_words l); [congruence|]. rewrite Bool.andb_false_r. reflexivity.
  - destruct (in_dec ascii_dec c ["~"%char; "#"%char]) as [I|I]; [|reflexivity]. exfalso.
    destruct I as [I|[I|[]]]; [apply (Ht eq_refl); symmetry; exact I|]. subst c. discriminate.
Qed.
Definition grows (o : option str) (s : str) : option str := match s with [] => o | _ => Some (match o with Some w => w ++ s | None => s end) end.
Lemma grows_cons : forall o c s, grows (grow o c) s = grows o (c :: s).
Proof. intros [w|] c [|d s]; cbn; [reflexivity|rewrite <- app_assoc; reflexivity|reflexivity|reflexivity]. Qed.
Lemma lex_bares : forall s l, forallb safe_char s = true -> l_mode l = Bare -> l_words l <> [] -> (l_cur l = None -> hd "x"%char s <> "~"%char) ->
  lex_run l s = Some {| l_words := l_words l; l_cur := grows (l_cur l) s; l_mode := Bare |}.
Proof.
  induction s as [|c s IH]; intros l F Hm Hw Ht; [destruct l; cbn in Hm; subst; reflexivity|]. cbn [forallb] in F. apply andb_true_iff in F as [F1 F2].
  cbn [lex_run]. rewrite (lex_bare c l (safe_bare c F1) Hm Hw Ht). rewrite IH; [|assumption|reflexivity|assumption|discriminate].
  cbn [l_words l_cur]. rewrite grows_cons. reflexivity.
Qed.
Lemma lex_singles : forall s l w, ~ In nul s -> l_mode l = Single -> l_cur l = Some w ->
  lex_run l (py_replace s (str_of "'") (str_of "'""'""'")) = Some {| l_words := l_words l; l_cur := Some (w ++ s); l_mode := Single |}.
Proof.
  intros s l w Hn Hm Hc. change (str_of "'") with ["'"%char]. rewrite replace1. revert l w Hn Hm Hc. induction s as [|c s IH]; intros l w Hn Hm Hc.
  - destruct l as [lw lc lm]. cbn in *. subst. rewrite app_nil_r. reflexivity.
  - cbn [flat_map]. destruct l as [lw lc lm]. cbn [l_mode l_cur l_words] in *. subst lm lc. destruct (Ascii.eqb_spec "'"%char c) as [<-|Ne].
    + rewrite lex_run_app.
      change (lex_run {| l_words := lw; l_cur := Some w; l_mode := Single |} (str_of "'""'""'")) with (Some {| l_words := lw; l_cur := Some (w ++ ["'"%char]); l_mode := Single |}).
      cbv beta iota. rewrite (IH _ (w ++ ["'"%char])); [|intro; apply Hn; right; assumption|reflexivity|reflexivity]. cbn [l_words]. rewrite <- app_assoc. reflexivity.
    + cbn [app lex_run]. unfold lex_step. cbn [l_mode l_words l_cur]. destruct (Ascii.eqb_spec c nul) as [->|]; [exfalso; apply Hn; left; reflexivity|].
      destruct (Ascii.eqb_spec c "'"%char); [congruence|]. rewrite (IH _ (w ++ [c])); [|intro; apply Hn; right; assumption|reflexivity|reflexivity].
      cbn [l_words]. rewrite <- app_assoc. reflexivity.
Qed.
Lemma lex_quoted : forall s l, s <> [] -> ~ In nul s -> hd "x"%char s <> "~"%char -> l_mode l = Bare -> l_words l <> [] -> l_cur l = None ->
  lex_run l (sh_quote s) = Some {| l_words := l_words l; l_cur := Some s; l_mode := Bare |}.
Proof.
  intros s l Hs Hn Ht Hm Hw Hc. unfold sh_quote. destruct s as [|c s]; [congruence|]. destruct (forallb safe_char (c :: s)) eqn:E.
  - rewrite lex_bares by auto. rewrite Hc. reflexivity.
  - destruct l as [lw lc lm]. cbn [l_mode l_cur l_words] in *. subst lm lc. rewrite lex_run_app.
    change (lex_run {| l_words := lw; l_cur := None; l_mode := Bare |} (str_of "'")) with (Some {| l_words := lw; l_cur := Some []; l_mode := Single |}).
    cbv beta iota. rewrite lex_run_app. rewrite (lex_singles _ _ []); [|assumption|reflexivity|reflexivity]. reflexivity.
Qed.

Lemma lex_blank : forall l, l_mode l = Bare -> lex_run l (str_of " ") = Some {| l_words := close_word l; l_cur := None; l_mode := Bare |}.
Proof. intros [lw lc lm] H. cbn in H. subst lm. reflexivity. Qed.
Lemma quoted_word : forall p w ws s, shell_words p = Some (w :: ws) -> s <> [] -> ~ In nul s -> hd "x"%char s <> "~"%char ->
  shell_words (p ++ str_of " " ++ sh_quote s) = Some (w :: ws ++ [s]).
Proof.
  intros p w ws s Hp Hs Hn Ht. unfold shell_words in *. rewrite lex_run_app. destruct (lex_run _ p) as [l|]; [|discriminate].
  destruct (l_mode l) eqn:Em; try discriminate. injection Hp as Hp. rewrite lex_run_app, lex_blank by assumption. cbv beta iota.
  rewrite lex_quoted; cbn [l_mode l_words l_cur]; auto; [|rewrite Hp; discriminate].
  unfold close_word at 1. cbn [l_cur l_words]. rewrite Hp. reflexivity.
Qed.
Definition wordy (s : str) : Prop := s <> [] /\ ~ In nul s /\ hd "x"%char s <> "~"%char.
Lemma quoted_words : forall paths p w ws, shell_words p = Some (w :: ws) -> paths <> [] -> Forall wordy paths ->
  shell_words (p ++ str_of " " ++ joined (map sh_quote paths)) = Some (w :: ws ++ paths).
Proof.
  induction paths as [|s paths IH]; intros p w ws Hp Hne F; [congruence|]. inversion F as [|? ? (F1 & F2 & F3) F4]; subst.
  pose proof (quoted_word p w ws s Hp F1 F2 F3) as Q. destruct paths as [|s' paths]; [exact Q|].
  change (joined (map sh_quote (s :: s' :: paths))) with (sh_quote s ++ str_of " " ++ joined (map sh_quote (s' :: paths))).
  replace (p ++ str_of " " ++ sh_quote s ++ str_of " " ++ joined (map sh_quote (s' :: paths)))
    with ((p ++ str_of " " ++ sh_quote s) ++ str_of " " ++ joined (map sh_quote (s' :: paths))) by (rewrite <- !app_assoc; reflexivity).
  rewrite (IH _ w (ws ++ [s]) Q); [|discriminate|assumption]. rewrite <- app_assoc. reflexivity.
Qed.

(** ** Sending one file *)
Lemma send_loop_rest : forall fuel buff content pos, (0 < buff)%nat -> (List.length content - pos <= fuel)%nat ->
  send_loop fuel buff (List.length content) content pos = Some (skipn pos content).
Proof.
  induction fuel as [|fuel IH]; intros buff content pos Hb Hf; cbn [send_loop].
  - destruct (Nat.ltb_spec pos (List.length content)); [lia|]. rewrite skipn_all2 by lia. reflexivity.
  - destruct (Nat.ltb_spec pos (List.length content)) as [L|L]; [|rewrite skipn_all2 by lia; reflexivity].
    set (piece := firstn buff (skipn pos content)).
    assert (Lp : List.length piece = Nat.min buff (List.length content - pos)) by (unfold piece; rewrite firstn_length, skipn_length; reflexivity).
    rewrite IH by lia. f_equal. rewrite Lp. destruct (Nat.le_ge_cases buff (List.length content - pos)) as [C|C].
    + rewrite Nat.min_l by assumption. unfold piece. rewrite <- (firstn_skipn buff (skipn pos content)) at 2. f_equal.
      clear. revert content. induction pos as [|pos IHp]; intro content; [reflexivity|]. destruct content; [rewrite !skipn_nil; reflexivity|]. apply IHp.
    + rewrite Nat.min_r by assumption. unfold piece. rewrite (firstn_all2 (skipn pos content)) by (rewrite skipn_length; lia). match goal with |- _ ++ skipn ?k content = _ => rewrite (skipn_all2 content (n := k)) by lia end. apply app_nil_r.
Qed.
Lemma send_loop_shrunk : forall fuel buff size content pos, (pos <= List.length content < size)%nat -> send_loop fuel buff size content pos = None.
Proof.
  induction fuel as [|fuel IH]; intros buff size content pos H; cbn [send_loop]; destruct (Nat.ltb_spec pos size); try lia; [reflexivity|].
  rewrite IH; [reflexivity|]. rewrite firstn_length, skipn_length. lia.
Qed.

Lemma upto_app : forall c a b, ~ In c a -> upto c (a ++ c :: b) = Some (a, b).
Proof.
  intros c. induction a as [|x a IH]; intros b H; cbn [app upto]; [rewrite Ascii.eqb_refl; reflexivity|].
  destruct (Ascii.eqb_spec x c) as [->|]; [exfalso; apply H; left; reflexivity|]. rewrite IH; [reflexivity|]. intro. apply H. right. assumption.
Qed.
Lemma digits_plain : forall n c, is_digit c = false -> ~ In c (str_of_Z (Z.of_nat n)).
Proof.
  intros n c H Hin. destruct (str_of_Z_nonneg (Z.of_nat n) ltac:(lia)) as (D & _). unfold all_digits in D. rewrite Forall_forall in D.
  rewrite (D c Hin) in H. discriminate.
Qed.
Lemma name_plain : forall name, ~ In nl (py_replace name [nl] (str_of "\^J")).
Proof.
  intros name. rewrite replace1. intro H. apply in_flat_map in H as (c & _ & H). destruct (Ascii.eqb_spec nl c) as [Ec|Ne].
  - vm_compute in H. intuition discriminate.
  - destruct H as [H|[]]. congruence.
Qed.
Lemma send_file_read : forall fuel buff mode name content bytes rest, ~ In " "%char mode ->
  send_file fuel buff mode (List.length content) name content = Some bytes -> (0 < buff)%nat -> (List.length content <= fuel)%nat ->
  read_file (bytes ++ rest) = Some (mode, py_replace name [nl] (str_of "\^J"), content, rest).
Proof.
  intros fuel buff mode name content bytes rest Hm H Hb Hf. unfold send_file in H. rewrite send_loop_rest in H by lia. injection H as <-.
  cbn [skipn]. unfold file_header. change (str_of "C") with ["C"%char]. change (str_of " ") with [" "%char].
  cbn [app]. unfold read_file. change (Ascii.eqb "C" "C") with true. cbv iota. rewrite <- !app_assoc. cbn [app].
  rewrite upto_app by assumption. cbv iota beta. rewrite <- !app_assoc. cbn [app]. rewrite upto_app by (apply digits_plain; reflexivity). cbv iota beta.
  rewrite <- ?app_assoc. cbn [app]. rewrite upto_app by (apply name_plain). cbv iota beta zeta.
  destruct (str_of_Z_nonneg (Z.of_nat (List.length content)) ltac:(lia)) as (_ & _ & V). rewrite V, Nat2Z.id.
  rewrite app_length. cbn [List.length].
  assert (E1 : Nat.ltb (List.length content) (List.length content + S (List.length rest)) = true) by (apply Nat.ltb_lt; lia).
  rewrite E1. rewrite app_nth2 by lia. rewrite Nat.sub_diag. cbn [nth]. change (Ascii.eqb nul nul) with true. cbn [andb].
  rewrite firstn_app, Nat.sub_diag, firstn_all, firstn_O, app_nil_r. rewrite skipn_app.
  rewrite skipn_all2 by lia. replace (S (List.length content) - List.length content)%nat with 1%nat by lia. reflexivity.
Qed.

(** ** Receiving one file *)
Lemma recv_loop_ok : forall fuel recv i buff size pos stream, (0 < buff)%nat -> (pos <= size)%nat -> (size - pos <= fuel)%nat ->
  (size - pos <= List.length stream)%nat -> exists i', recv_loop fuel recv i buff size pos stream = Some (firstn (size - pos) stream, skipn (size - pos) stream, i').
Proof.
  induction fuel as [|fuel IH]; intros recv i buff size pos stream Hb Hp Hf Hs; cbn [recv_loop].
  - destruct (Nat.ltb_spec pos size); [lia|]. replace (size - pos)%nat with 0%nat by lia. eexists. reflexivity.
  - destruct (Nat.ltb_spec pos size) as [L|L]; [|replace (size - pos)%nat with 0%nat by lia; eexists; reflexivity].
    set (buff' := if Nat.leb (size - pos) buff then (size - pos)%nat else buff).
    assert (B : (0 < buff' <= size - pos)%nat) by (unfold buff'; destruct (Nat.leb_spec (size - pos) buff); lia).
    set (n := take_some buff' (recv i) stream). assert (N : (0 < n <= size - pos)%nat) by (unfold n, take_some; lia).
    destruct (IH recv (S i) buff' size (pos + n)%nat (skipn n stream) ltac:(lia) ltac:(lia) ltac:(lia)) as (i' & E); [rewrite skipn_length; lia|].
    rewrite E. exists i'. f_equal. f_equal. f_equal.
    + rewrite <- (firstn_skipn n stream) at 3. rewrite firstn_app. assert (Ln : List.length (firstn n stream) = n) by (rewrite firstn_length; lia). rewrite Ln.
      rewrite (firstn_all2 (firstn n stream)) by lia. f_equal. f_equal. lia.
    + assert (T : forall (l : str) a b, skipn a (skipn b l) = skipn (b + a) l).
      { clear. intros l a b. revert l. induction b as [|b IHb]; intro l; [reflexivity|]. destruct l; [rewrite !skipn_nil; reflexivity|]. apply IHb. }
      rewrite T. f_equal. lia.
Qed.
Lemma recv_content_ok : forall fuel recv buff content rest, (0 < buff)%nat -> (List.length content <= fuel)%nat ->
  recv_content fuel recv buff (List.length content) (content ++ nul :: rest) = Some (Ok content).
Proof.
  intros fuel recv buff content rest Hb Hf. unfold recv_content.
  destruct (recv_loop_ok fuel recv 0 buff (List.length content) 0 (content ++ nul :: rest) Hb ltac:(lia) ltac:(lia)) as (i & E); [rewrite app_length; cbn; lia|].
  rewrite E. rewrite Nat.sub_0_r, firstn_app, Nat.sub_diag, firstn_all, firstn_O, app_nil_r, skipn_app, skipn_all, Nat.sub_diag. cbn [app skipn].
  assert (T : (0 < take_some 512 (recv i) (nul :: rest))%nat) by (unfold take_some; cbn [List.length]; lia).
  destruct (take_some 512 (recv i) (nul :: rest)) as [|k]; [lia|]. cbn [firstn]. change (Ascii.eqb nul nul) with true. reflexivity.
Qed.
Lemma recv_closed : forall fuel recv i buff size pos stream, (pos + List.length stream < size)%nat -> recv_loop fuel recv i buff size pos stream = None.
Proof.
  induction fuel as [|fuel IH]; intros recv i buff size pos stream H; cbn [recv_loop]; destruct (Nat.ltb_spec pos size); try lia; [reflexivity|].
  set (n := take_some _ _ _). rewrite IH; [reflexivity|]. rewrite skipn_length. assert (n <= List.length stream)%nat by (unfold n, take_some; lia). lia.
Qed.
Lemma recv_bad_end : forall fuel recv buff content c rest, (0 < buff)%nat -> (List.length content <= fuel)%nat -> c <> nul ->
  recv_content fuel recv buff (List.length content) (content ++ c :: rest) = Some (Err SCPError).
Proof.
  intros fuel recv buff content c rest Hb Hf Hc. unfold recv_content.
  destruct (recv_loop_ok fuel recv 0 buff (List.length content) 0 (content ++ c :: rest) Hb ltac:(lia) ltac:(lia)) as (i & E); [rewrite app_length; cbn; lia|].
  rewrite E. rewrite Nat.sub_0_r, firstn_app, Nat.sub_diag, firstn_all, firstn_O, app_nil_r, skipn_app, skipn_all, Nat.sub_diag. cbn [app skipn].
  assert (T : (0 < take_some 512 (recv i) (c :: rest))%nat) by (unfold take_some; cbn [List.length]; lia).
  destruct (take_some 512 (recv i) (c :: rest)) as [|k]; [lia|]. cbn [firstn]. destruct (Ascii.eqb_spec c nul); [contradiction|reflexivity].
Qed.
