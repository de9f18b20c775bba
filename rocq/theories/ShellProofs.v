(** What the modelled shell does with the lines the sender sends. *)
From Coq Require Import ZArith String Ascii Bool List Lia.
From Verif Require Import PyBase PyStr FsModel FsSpec FsProofs PathProofs CopyModel CopySpec CopyProofs CopyStepProofs FtpSpec SecureModel SecureSpec.
Import ListNotations.

Lemma harmless_chars : forall w, harmless w -> forallb ordinary w = true /\ ~ In (chr 32) w /\ ~ In (chr 59) w /\ ~ In (chr 36) w /\ ~ In (chr 62) w /\ ~ In (chr 91) w /\ ~ In (chr 93) w.
Proof.
  intros w H.
  assert (K : forall c, In c w -> ordinary c = true /\ c <> chr 32 /\ c <> chr 59 /\ c <> chr 36 /\ c <> chr 62 /\ c <> chr 91 /\ c <> chr 93).
  { intros c Hc. specialize (H c Hc).
    assert (G : forall l, forallb (fun c => ordinary c && negb (Ascii.eqb c (chr 32)) && negb (Ascii.eqb c (chr 59)) && negb (Ascii.eqb c (chr 36)) && negb (Ascii.eqb c (chr 62)) && negb (Ascii.eqb c (chr 91)) && negb (Ascii.eqb c (chr 93))) l = true ->
      In c l -> ordinary c = true /\ c <> chr 32 /\ c <> chr 59 /\ c <> chr 36 /\ c <> chr 62 /\ c <> chr 91 /\ c <> chr 93).
    { intros l F I. rewrite forallb_forall in F. specialize (F c I). rewrite !andb_true_iff, !negb_true_iff in F. destruct F as ((((((a & b) & d) & e) & f) & g) & h).
      split; [assumption|]. repeat split; intros ->; rewrite Ascii.eqb_refl in *; discriminate. }
    eapply G; [|exact H]. vm_compute. reflexivity. }
  split; [apply forallb_forall; intros c Hc; apply K; assumption|]. repeat split; intro I; destruct (K _ I) as (_ & a & b & d & e & f & g); congruence.
Qed.
Lemma harmless_app : forall a b, harmless a -> harmless b -> harmless (a ++ b).
Proof. intros a b Ha Hb c Hc. apply in_app_iff in Hc as [Hc|Hc]; auto. Qed.
Lemma harmless_known : forall w, harmless w -> known w = true.
Proof. intros w H. unfold known. destruct (harmless_chars w H) as (-> & _). reflexivity. Qed.

Lemma split_chr_none : forall d s, ~ In d s -> split_chr d s = [s].
Proof.
  intros d s. induction s as [|c s IH]; intro N; [reflexivity|]. cbn [split_chr]. destruct (Ascii.eqb_spec c d) as [->|Hc]; [exfalso; apply N; left; reflexivity|].
  rewrite IH; [reflexivity|]. intro I. apply N. right. assumption.
Qed.
Lemma split_chr_app : forall d a b, split_chr d (a ++ d :: b) = split_chr d a ++ split_chr d b.
Proof.
  intros d a b. induction a as [|c a IH]; cbn [app split_chr].
  - rewrite Ascii.eqb_refl. reflexivity.
  - destruct (Ascii.eqb c d); [rewrite IH; reflexivity|]. rewrite IH. destruct (split_chr d a) as [|x r] eqn:Ea; [|reflexivity].
    destruct a; cbn in Ea; [discriminate|]. destruct (Ascii.eqb a d); [discriminate|]. destruct (split_chr d a0); discriminate.
Qed.
Lemma split_chr_join : forall d ws, ws <> [] -> Forall (fun w => ~ In d w) ws -> split_chr d (join [d] ws) = ws.
Proof.
  intros d ws. induction ws as [|w ws IH]; intros N F; [congruence|]. inversion F as [|? ? F1 F2]; subst. destruct ws as [|v ws].
  - cbn [join]. apply split_chr_none. assumption.
  - change (join [d] (w :: v :: ws)) with (w ++ [d] ++ join [d] (v :: ws)). cbn [app]. rewrite split_chr_app, split_chr_none, IH by (assumption || discriminate). reflexivity.
Qed.
Definition good_word (w : str) : Prop := w <> [] /\ ~ In (chr 32) w.
Lemma words_join : forall ws, ws <> [] -> Forall good_word ws -> words (join (str_of " ") ws) = ws.
Proof.
  intros ws N F. unfold words. change (str_of " ") with [chr 32]. rewrite split_chr_join; [|assumption|eapply Forall_impl; [|exact F]; intros w (_ & H); exact H].
  clear N. induction F as [|w ws (Hw & _) F IH]; [reflexivity|]. cbn [filter]. destruct (str_eqb_spec w []) as [->|_]; [congruence|]. cbn [negb]. rewrite IH. reflexivity.
Qed.
Lemma in_join : forall sep ws c, In c (join sep ws) -> In c sep \/ exists w, In w ws /\ In c w.
Proof.
  intros sep ws c. induction ws as [|w ws IH]; [intros []|]. destruct ws as [|v ws].
  - cbn [join]. intro H. right. exists w. split; [left; reflexivity|assumption].
  - change (join sep (w :: v :: ws)) with (w ++ sep ++ join sep (v :: ws)). rewrite !in_app_iff. intros [H|[H|H]].
    + right. exists w. split; [left; reflexivity|assumption].
    + left. assumption.
    + destruct (IH H) as [|(x & a & b)]; [auto|]. right. exists x. split; [right; assumption|assumption].
Qed.

Ltac fa := repeat match goal with |- Forall _ [] => apply Forall_nil | |- Forall _ (_ :: _) => apply Forall_cons end;
  first [assumption | split; [discriminate|cbn; intuition discriminate] | cbn; intuition discriminate].
Section Shell.
Variable E : senv.
Lemma one_command : forall ws, ws <> [] -> Forall good_word ws -> Forall (fun w => ~ In (chr 59) w) ws -> forallb known ws = true ->
  shell E (join (str_of " ") ws) = (r <- (match redirection ws with
       | Some (l, f) =>
           let p := resolve (home E) f in
           opened <- attempt (open_write p) ;;
           if Nat.eqb opened 0 then r <- simple E 0 l ;; attempt (append_file p (snd r)) ;;; aret (fst r, [])
           else aret (1%nat, [])
       | None => simple E 0 ws
       end) ;; o <- aret [] ;; aret (snd r ++ o)).
Proof.
  intros ws N F Fs K. unfold shell. rewrite split_chr_none.
  - cbn [sh_list]. unfold sh_command. rewrite words_join, K by assumption. reflexivity.
  - intro I. apply in_join in I as [I|(w & Hw & I)].
    + cbn in I. destruct I as [I|[]]. discriminate.
    + rewrite Forall_forall in Fs. apply (Fs w Hw I).
Qed.

Definition wordy (w : str) : Prop := w <> [] /\ harmless w.
Lemma wordy_good : forall w, wordy w -> good_word w /\ ~ In (chr 59) w /\ known w = true.
Proof. intros w (N & H). destruct (harmless_chars w H) as (_ & a & b & _). repeat split; auto using harmless_known. Qed.
Lemma wordy_neq : forall w x, wordy w -> (In (chr 36) x \/ In (chr 62) x \/ In (chr 91) x \/ In (chr 93) x) -> str_eqb w x = false.
Proof. intros w x (N & H) K. destruct (str_eqb_spec w x) as [->|]; [|reflexivity]. destruct (harmless_chars x H) as (_ & _ & _ & a & b & c & d). tauto. Qed.

Lemma wordy_neq' : forall w x, wordy w -> (In (chr 36) x \/ In (chr 62) x \/ In (chr 91) x \/ In (chr 93) x) -> str_eqb x w = false.
Proof. intros w x (N & H) K. destruct (str_eqb_spec x w) as [->|]; [|reflexivity]. destruct (harmless_chars w H) as (_ & _ & _ & a & b & c & d). tauto. Qed.
Lemma not_status : forall w, wordy w -> str_eqb (str_of "$?") w = false.
Proof. intros w W. apply wordy_neq'; [assumption|]. left. cbn. auto. Qed.

Lemma slash_not_option : forall w, starts_sl w = true -> option_like w = false.
Proof. intros [|c w] H; [discriminate|]. cbn in *. apply Ascii.eqb_eq in H as ->. reflexivity. Qed.

Definition as_ {A} (line : str) (m : act A) (t : fsn) : Prop := trace (shell E line t) = trace (m t) /\ final (shell E line t) = final (m t).

Lemma mkdir_line : forall p t, wordy p -> starts_sl p = true -> as_ (str_of "mkdir -p " ++ p) (makedirs [] (resolve (home E) p)) t.
Proof.
  intros p t W S0. assert (El : str_of "mkdir -p " ++ p = join (str_of " ") [str_of "mkdir"; str_of "-p"; p]) by reflexivity.
  destruct (wordy_good p W) as (g1 & g2 & g3).
  unfold as_. rewrite El, one_command.
  - assert (Er : redirection [str_of "mkdir"; str_of "-p"; p] = None) by reflexivity. rewrite Er.
    assert (Es : simple E 0 [str_of "mkdir"; str_of "-p"; p] = (n <- each (sh_mkdir E) [p] ;; aret (n, []))).
    { unfold simple. change (str_eqb (str_of "mkdir") (str_of "[")) with false. change (str_eqb (str_of "mkdir") (str_of "echo")) with false. cbn [andb]. cbn [existsb].
      rewrite (not_status p W). change (str_eqb (str_of "$?") (str_of "-p")) with false. cbn [orb]. change (str_eqb (str_of "mkdir") (str_of "mkdir")) with true.
      change (str_eqb (str_of "-p") (str_of "-p")) with true. rewrite (slash_not_option p S0). reflexivity. }
    rewrite Es. cbn [each]. unfold abind, sh_mkdir, attempt, aret, trace, final. destruct (makedirs [] (resolve (home E) p) t) as [[tr [u|e]] t']; cbn; rewrite ?app_nil_r; auto.
  - discriminate.
  - fa.
  - fa.
  - cbn [forallb]. rewrite g3. reflexivity.
Qed.
Lemma mv_line : forall a b t, wordy a -> wordy b -> starts_sl a = true -> starts_sl b = true -> at_ t (resolve (home E) b) <> Some EDir ->
  as_ (str_of "mv " ++ a ++ str_of " " ++ b) (os_rename (resolve (home E) a) (resolve (home E) b)) t.
Proof.
  intros a b t Wa Wb Sa Sb N. assert (El : str_of "mv " ++ a ++ str_of " " ++ b = join (str_of " ") [str_of "mv"; a; b]) by reflexivity.
  destruct (wordy_good a Wa) as (g1 & g2 & g3). destruct (wordy_good b Wb) as (k1 & k2 & k3).
  unfold as_. rewrite El, one_command.
  - assert (Er : redirection [str_of "mv"; a; b] = None).
    { unfold redirection. cbn [rev app]. rewrite (wordy_neq a (str_of ">") Wa); [reflexivity|]. right. left. cbn. auto. }
    rewrite Er.
    assert (Es : simple E 0 [str_of "mv"; a; b] = (n <- sh_mv E [a; b] ;; aret (n, []))).
    { unfold simple. change (str_eqb (str_of "mv") (str_of "[")) with false. change (str_eqb (str_of "mv") (str_of "echo")) with false. cbn [andb]. cbn [existsb].
      rewrite (not_status a Wa), (not_status b Wb), (slash_not_option a Sa), (slash_not_option b Sb). reflexivity. }
    rewrite Es. unfold sh_mv. cbn [rev app].
    assert (Ed : is_dir (resolve (home E) b) t = false).
    { unfold is_dir. destruct (find t (resolve (home E) b)) as [[c|es]|] eqn:F; try reflexivity. exfalso. apply N. apply find_dir. eauto. }
    unfold abind, asks, attempt, aret, trace, final. rewrite Ed. destruct (os_rename (resolve (home E) a) (resolve (home E) b) t) as [[tr [u|e]] t']; cbn; rewrite ?app_nil_r; auto.
  - discriminate.
  - fa.
  - fa.
  - cbn [forallb]. rewrite g3, k3. reflexivity.
Qed.

Definition answer (b : bool) : str := if b then str_of "0" ++ [chr 10] else str_of "1" ++ [chr 10].
Lemma answer_int : forall b, int_of (answer b) = Ok (if b then 0 else 1)%nat.
Proof. intros []; reflexivity. Qed.
Lemma test_line : forall p (flag : str) (f : fsn -> bool), wordy p ->
  (forall t, sh_test E [flag; p; str_of "]"] t = ([], Ok (if f t then 0 else 1)%nat, t)) -> wordy flag ->
  forall t, shell E (str_of "[ " ++ flag ++ str_of " " ++ p ++ str_of " ];echo $?") t = ([], Ok (answer (f t)), t).
Proof.
  intros p flag f W Hf Wf t. destruct (wordy_good p W) as (g1 & g2 & g3). destruct (wordy_good flag Wf) as (k1 & k2 & k3).
  assert (Ec : split_chr (chr 59) (str_of "[ " ++ flag ++ str_of " " ++ p ++ str_of " ];echo $?") = [join (str_of " ") [str_of "["; flag; p; str_of "]"]; join (str_of " ") [str_of "echo"; str_of "$?"]]).
  { replace (str_of "[ " ++ flag ++ str_of " " ++ p ++ str_of " ];echo $?") with (join (str_of " ") [str_of "["; flag; p; str_of "]"] ++ chr 59 :: str_of "echo $?").
    - rewrite split_chr_app, split_chr_none; [reflexivity|]. intro I. apply in_join in I as [I|(w & Hw & I)]; [cbn in I; intuition discriminate|].
      destruct Hw as [<-|[<-|[<-|[<-|[]]]]]; try contradiction; cbn in I; intuition discriminate.
    - cbn [join]. rewrite <- !app_assoc. reflexivity. }
  unfold shell. rewrite Ec. cbn [sh_list]. unfold sh_command. rewrite !words_join; try discriminate;
    [|fa|fa].
  cbn [forallb]. rewrite g3, k3. change (known (str_of "[")) with true. change (known (str_of "]")) with true. change (known (str_of "echo")) with true. change (known (str_of "$?")) with true. cbn [andb negb].
  assert (Er : redirection [str_of "["; flag; p; str_of "]"] = None).
  { unfold redirection. cbn [rev app]. rewrite (wordy_neq p (str_of ">") W); [reflexivity|]. right. left. cbn. auto. }
  rewrite Er. change (redirection [str_of "echo"; str_of "$?"]) with (@None (list str * str)).
  assert (Es : simple E 0 [str_of "["; flag; p; str_of "]"] = (n <- sh_test E [flag; p; str_of "]"] ;; aret (n, []))) by reflexivity.
  rewrite Es. unfold abind. rewrite Hf. cbn [aret fst snd app]. unfold aret. destruct (f t); reflexivity.
Qed.
Lemma test_e_line : forall p t, wordy p -> shell E (test_e p) t = ([], Ok (answer (match find t (resolve (home E) p) with Some _ => true | None => false end)), t).
Proof.
  intros p t W. apply (test_line p (str_of "-e") (fun t => match find t (resolve (home E) p) with Some _ => true | None => false end) W).
  - intro x. unfold sh_test. change (str_eqb (str_of "]") (str_of "]")) with true. change (str_eqb (str_of "-e") (str_of "-e")) with true. cbn [negb]. destruct (find x (resolve (home E) p)); reflexivity.
  - split; [discriminate|]. intros c [<-|[<-|[]]]; vm_compute; auto 100.
Qed.
Lemma test_d_line : forall p t, wordy p -> shell E (test_d p) t = ([], Ok (answer (is_dir (resolve (home E) p) t)), t).
Proof.
  intros p t W. apply (test_line p (str_of "-d") (is_dir (resolve (home E) p)) W).
  - intro x. unfold sh_test. change (str_eqb (str_of "]") (str_of "]")) with true. change (str_eqb (str_of "-d") (str_of "-e")) with false. change (str_eqb (str_of "-d") (str_of "-d")) with true. cbn [negb]. reflexivity.
  - split; [discriminate|]. intros c [<-|[<-|[]]]; vm_compute; auto 100.
Qed.
(** echo ws > f *)
Lemma echo_line : forall ws f t, ws <> [] -> Forall wordy ws -> option_like (hd [] ws) = false -> wordy f ->
  as_ (str_of "echo " ++ join (str_of " ") ws ++ str_of " > " ++ f)
      (open_write (resolve (home E) f) ;;; append_file (resolve (home E) f) (join (str_of " ") ws ++ [chr 10])) t.
Proof.
  intros ws f t N F O W. destruct (wordy_good f W) as (g1 & g2 & g3).
  assert (El : str_of "echo " ++ join (str_of " ") ws ++ str_of " > " ++ f = join (str_of " ") (str_of "echo" :: ws ++ [str_of ">"; f])).
  { assert (J : forall ws, ws <> [] -> join (str_of " ") (ws ++ [str_of ">"; f]) = join (str_of " ") ws ++ str_of " > " ++ f).
    { induction ws0 as [|x l IH]; [congruence|]. intros _. destruct l as [|y l]; [reflexivity|].
      change ((x :: y :: l) ++ [str_of ">"; f]) with (x :: (y :: l) ++ [str_of ">"; f]).
      change (join (str_of " ") (x :: (y :: l) ++ [str_of ">"; f])) with (x ++ str_of " " ++ join (str_of " ") ((y :: l) ++ [str_of ">"; f])).
      rewrite IH by discriminate. change (join (str_of " ") (x :: y :: l)) with (x ++ str_of " " ++ join (str_of " ") (y :: l)). rewrite <- !app_assoc. reflexivity. }
    destruct ws as [|x l]; [congruence|]. change (join (str_of " ") (str_of "echo" :: (x :: l) ++ [str_of ">"; f])) with (str_of "echo" ++ str_of " " ++ join (str_of " ") ((x :: l) ++ [str_of ">"; f])).
    rewrite J by assumption. reflexivity. }
  unfold as_. rewrite El, one_command.
  - assert (Er : redirection (str_of "echo" :: ws ++ [str_of ">"; f]) = Some (str_of "echo" :: ws, f)).
    { unfold redirection. change (str_of "echo" :: ws ++ [str_of ">"; f]) with ((str_of "echo" :: ws) ++ [str_of ">"; f]). rewrite rev_app_distr. cbn [rev app].
      change (str_eqb (str_of ">") (str_of ">")) with true. rewrite rev_app_distr, rev_involutive. reflexivity. }
    rewrite Er. cbv zeta.
    assert (Es : simple E 0 (str_of "echo" :: ws) = aret (0%nat, join (str_of " ") ws ++ [chr 10])).
    { unfold simple. change (str_eqb (str_of "echo") (str_of "[")) with false. change (str_eqb (str_of "echo") (str_of "echo")) with true. rewrite O. cbn [andb negb].
      do 4 f_equal. clear N O El Er. induction F as [|x l Hx F IH]; [reflexivity|]. cbn [map]. rewrite IH. rewrite (wordy_neq x (str_of "$?") Hx); [reflexivity|]. left. cbn. auto. }
    rewrite Es. unfold abind, attempt, aret, trace, final. destruct (open_write (resolve (home E) f) t) as [[tr [u|e]] t']; cbn [Nat.eqb fst snd app].
    + destruct (append_file (resolve (home E) f) (join (str_of " ") ws ++ [chr 10]) t') as [[tr2 [u2|e2]] t2]; cbn [fst snd app]; rewrite ?app_nil_r; auto.
    + rewrite ?app_nil_r. auto.
  - discriminate.
  - constructor; [split; [discriminate|cbn; intuition discriminate]|]. apply Forall_app. split; [eapply Forall_impl; [|exact F]; intros w Hw; apply wordy_good; assumption|].
    constructor; [split; [discriminate|cbn; intuition discriminate]|]. constructor; [assumption|constructor].
  - constructor; [cbn; intuition discriminate|]. apply Forall_app. split; [eapply Forall_impl; [|exact F]; intros w Hw; apply wordy_good; assumption|].
    constructor; [cbn; intuition discriminate|]. constructor; [assumption|constructor].
  - apply forallb_forall. intros w [<-|Hw]; [reflexivity|]. apply in_app_iff in Hw as [Hw|[<-|[<-|[]]]]; [|reflexivity|assumption]. rewrite Forall_forall in F. apply wordy_good. auto.
Qed.
End Shell.
