(** Proofs about PDL command lines. *)
From Coq Require Import ZArith String Ascii Bool List Lia.
From Verif Require Import PyBase PyStr FsModel SenderModel PathProofs PdlModel PdlSpec.
Import ListNotations.

(** Text with placeholders. *)
Inductive tok := L (s : str) | H (n : str).
Definition ob : ascii := "["%char.
Definition cb : ascii := "]"%char.
Definition ftok (t : tok) : str := match t with L s => s | H n => ob :: n ++ [cb] end.
Definition flat (l : list tok) : str := flat_map ftok l.
Definition okname (n : str) : Prop := ~ In ob n /\ ~ In cb n.
Definition oktok (t : tok) : Prop := match t with L s => no_open s | H n => okname n end.
Definition subst1 (x v : str) (t : tok) : tok := match t with H n => if str_eqb n x then L v else H n | L s => L s end.
Definition subst (x v : str) (l : list tok) : list tok := map (subst1 x v) l.

Lemma starts_other : forall p c s, ob <> c -> starts_with (ob :: p) (c :: s) = false.
Proof. intros p c s Hc. cbn [starts_with]. destruct (Ascii.eqb_spec ob c); [contradiction|reflexivity]. Qed.
Lemma replace_lit : forall s p new rest, no_open s -> replace_skip (ob :: p) new 0 (s ++ rest) = s ++ replace_skip (ob :: p) new 0 rest.
Proof.
  induction s as [|c s IH]; intros p new rest Hn; [reflexivity|]. cbn [app replace_skip]. rewrite starts_other.
  - f_equal. apply IH. intro. apply Hn. right. assumption.
  - intro E. apply Hn. left. symmetry. exact E.
Qed.
Lemma bracket_match : forall x n rest, ~ In cb x -> ~ In cb n -> starts_with (x ++ [cb]) (n ++ cb :: rest) = true -> x = n.
Proof.
  induction x as [|c x IH]; intros n rest Hx Hn E.
  - destruct n as [|d n]; [reflexivity|]. cbn [app starts_with] in E. destruct (Ascii.eqb_spec cb d) as [<-|]; [|discriminate]. exfalso. apply Hn. left. reflexivity.
  - destruct n as [|d n]; cbn [app starts_with] in E; apply andb_true_iff in E as [E1 E2]; apply Ascii.eqb_eq in E1.
    + exfalso. apply Hx. left. assumption.
    + subst d. f_equal. eapply IH; [| |exact E2]; intro; [apply Hx|apply Hn]; right; assumption.
Qed.
Lemma replace_tok : forall l x v, okname x -> Forall oktok l -> py_replace (flat l) (ob :: x ++ [cb]) v = flat (subst x v l).
Proof.
  intros l x v [X1 X2] F. unfold py_replace. induction F as [|t l Ht F IH]; [reflexivity|].
  change (flat (t :: l)) with (ftok t ++ flat l). change (flat (subst x v (t :: l))) with (ftok (subst1 x v t) ++ flat (subst x v l)).
  destruct t as [s|n]; cbn [ftok subst1].
  - rewrite replace_lit by exact Ht. f_equal. exact IH.
  - destruct Ht as [N1 N2]. destruct (str_eqb_spec n x) as [->|Ne].
    + cbn [ftok]. change ((ob :: x ++ [cb]) ++ flat l) with (ob :: (x ++ [cb]) ++ flat l). cbn [replace_skip].
      assert (E : starts_with (ob :: x ++ [cb]) (ob :: (x ++ [cb]) ++ flat l) = true) by (apply starts_with_app; exists (flat l); reflexivity).
      rewrite E. cbn [List.length]. rewrite Nat.sub_succ, Nat.sub_0_r, replace_skips. f_equal. exact IH.
    + cbn [ftok]. change ((ob :: n ++ [cb]) ++ flat l) with (ob :: (n ++ [cb]) ++ flat l). cbn [replace_skip].
      destruct (starts_with (ob :: x ++ [cb]) (ob :: (n ++ [cb]) ++ flat l)) eqn:E.
      * cbn [starts_with] in E. apply andb_true_iff in E as [_ E]. rewrite <- app_assoc in E. apply bracket_match in E; congruence.
      * cbn [app]. f_equal. rewrite replace_lit; [f_equal; exact IH|]. intro Hin. apply in_app_iff in Hin as [Hin|[Hin|[]]]; [contradiction|discriminate].
Qed.
Lemma subst_ok : forall l x v, no_open v -> Forall oktok l -> Forall oktok (subst x v l).
Proof.
  intros l x v Hv F. induction F as [|t l Ht F IH]; constructor; [|assumption]. destruct t as [s|n]; cbn [subst1]; [assumption|]. destruct (str_eqb n x); assumption.
Qed.

(** Known names. *)
Definition nameb (s : str) : bool := forallb (fun c => negb (Ascii.eqb c ob) && negb (Ascii.eqb c cb)) s.
Lemma nameb_ok : forall s, nameb s = true -> okname s.
Proof.
  intros s Hs. unfold nameb in Hs. rewrite forallb_forall in Hs. split; intro Hin; specialize (Hs _ Hin); vm_compute in Hs; discriminate.
Qed.
Definition openb (s : str) : bool := forallb (fun c => negb (Ascii.eqb c ob)) s.
Lemma openb_ok : forall s, openb s = true -> no_open s.
Proof. intros s Hs Hin. unfold openb in Hs. rewrite forallb_forall in Hs. specialize (Hs _ Hin). vm_compute in Hs. discriminate. Qed.
Lemma no_open_app : forall a b, no_open a -> no_open b -> no_open (a ++ b).
Proof. intros a b A B C. apply in_app_iff in C as [C|C]; auto. Qed.

Lemma required_tok : forall (v : str -> str) props keys l, Forall oktok l ->
  (forall k, In k keys -> nameb (upper k) = true /\ aget k props = Some (VStr (v k)) /\ no_open (v k)) ->
  let l' := fold_left (fun t k => subst (upper k) (v k) t) keys l in
  replace_required keys props (flat l) = Ok (flat l') /\ Forall oktok l'.
Proof.
  intros v props. induction keys as [|k keys IH]; intros l F Hk; [split; [reflexivity|assumption]|].
  destruct (Hk k (or_introl eq_refl)) as (K1 & K2 & K3). cbn [fold_left replace_required]. rewrite K2.
  change (str_of "[" ++ upper k ++ str_of "]") with (ob :: upper k ++ [cb]).
  rewrite replace_tok by (try (apply nameb_ok); assumption). apply IH; [apply subst_ok; assumption|]. intros; apply Hk; right; assumption.
Qed.

Definition template : list tok :=
  [H (str_of "JAVA"); L (str_of " -jar "); H (str_of "JARFILE"); L (str_of " --send --status="); H (str_of "STATUS");
   L (str_of " --source="); H (str_of "SOURCE"); L (str_of " --type="); H (str_of "TYPE"); L (str_of " --code="); H (str_of "CODE");
   L (str_of " --eventsource="); H (str_of "EVENTSOURCE"); L (str_of " --eventsourcecode="); H (str_of "EVENTSOURCECODE");
   L (str_of " "); H (str_of "PRODUCT_PROPERTIES"); L (str_of " "); H (str_of "OPTIONAL_PROPERTIES");
   L (str_of " --privateKey="); H (str_of "PRIVATEKEY"); L (str_of "  --configFile="); H (str_of "CONFIGFILE");
   L (str_of " "); H (str_of "FILE"); L (str_of " "); H (str_of "DIRECTORY")].
Lemma template_ok : Forall oktok template.
Proof. unfold template. repeat (apply Forall_cons; [first [apply nameb_ok; reflexivity | apply openb_ok; reflexivity]|]). apply Forall_nil. Qed.
Lemma template_flat : pdlcmd = flat template.
Proof. vm_compute. reflexivity. Qed.

Lemma join_spaced : forall l, join_sp l = spaced l.
Proof. induction l as [|x [|y l] IH]; [reflexivity|reflexivity|]. cbn [join_sp spaced] in *. rewrite IH. reflexivity. Qed.
Lemma spaced_open : forall l, Forall no_open l -> no_open (spaced l).
Proof.
  intros l F. induction F as [|x l Hx F IH]; [intros []|]. destruct l as [|y l]; [assumption|]. cbn [spaced] in *.
  apply no_open_app; [assumption|]. apply no_open_app; [apply openb_ok; reflexivity|assumption].
Qed.
Lemma product_words : forall l ps, Forall2 product_word l ps -> map product_nugget l = ps.
Proof.
  intros l ps F. induction F as [|[k v] w l ps (t & S & ->) F IH]; [reflexivity|]. cbn [map]. rewrite IH. f_equal. unfold product_nugget.
  cbn [fst snd] in *. destruct S; reflexivity.
Qed.
Lemma decimals_four : forall v t, decimals 4 v t -> optional_value Four v = Ok t.
Proof. intros v t D. inversion D; subst; reflexivity. Qed.
Lemma decimals_one : forall v t, decimals 1 v t -> optional_value One v = Ok t.
Proof. intros v t D. inversion D; subst; reflexivity. Qed.
Lemma opt_step : forall props k f (r : pval -> str -> Prop) ws l rest, (forall v t, r v t -> optional_value f v = Ok t) ->
  opt_words props k r ws -> optional_nuggets l props = Ok rest -> optional_nuggets ((str_of k, f) :: l) props = Ok (ws ++ rest).
Proof.
  intros props k f r ws l rest Hr Hw Hl. unfold opt_words in Hw. cbn [optional_nuggets]. destruct (aget (str_of k) props) as [v|].
  - destruct Hw as (t & Ht & ->). rewrite (Hr v t Ht), Hl. reflexivity.
  - subst ws. assumption.
Qed.
Lemma optional_ok : forall props ws, optional_words props ws -> optional_nuggets optional_properties props = Ok ws.
Proof.
  intros props ws (a & b & c & d & e & -> & A & B & C & D & E). unfold optional_properties.
  apply (opt_step _ _ _ _ _ _ _ decimals_four A). apply (opt_step _ _ _ _ _ _ _ decimals_four B).
  apply (opt_step _ _ _ _ _ _ _ decimals_one C). apply (opt_step _ _ _ _ _ _ _ decimals_one D).
  rewrite <- (app_nil_r e). refine (opt_step props _ _ _ e [] [] _ E eq_refl).
  intros v t (full & -> & ->). reflexivity.
Qed.

Definition to_key (v : string -> str) (k : str) : str := v (string_of_list_ascii k).

Lemma build_command : forall status s v ps os, (List.length (p_files s) <= 1)%nat -> no_open status -> configured s v ps os ->
  build status s = Ok (command status v ps os (file_word s) (dir_word s)).
Proof.
  intros status s v ps os Hf Hst [C1 [C2 C2'] C3 [C4 C5]]. unfold build. rewrite template_flat.
  change (str_of "[STATUS]") with (ob :: str_of "STATUS" ++ [cb]).
  rewrite replace_tok by (first [apply nameb_ok; reflexivity | exact template_ok]).
  assert (F0 : Forall oktok (subst (str_of "STATUS") status template)) by (apply subst_ok; [assumption|exact template_ok]).
  destruct (required_tok (to_key v) (p_props s) (required_properties KPdl) _ F0) as [E F1].
  { intros k Hk. apply in_map_iff in Hk as (k' & <- & Hk'). destruct (C1 k' Hk') as [A B]. unfold to_key.
    rewrite string_of_list_ascii_of_string. split; [|split; assumption].
    cbn [In] in Hk'. repeat (destruct Hk' as [<-|Hk']; [vm_compute; reflexivity|]). destruct Hk'. }
  rewrite E. clear E. cbv zeta in F1.
  remember (fold_left _ _ _) as l1 eqn:El1.
  unfold replace_files.
  change (str_of "[FILE]") with (ob :: str_of "FILE" ++ [cb]). change (str_of "[DIRECTORY]") with (ob :: str_of "DIRECTORY" ++ [cb]).
  assert (Ef : match p_files s with f :: _ => str_of "--file=" ++ f | [] => [] end = file_word s).
  { unfold file_word. destruct (p_files s) as [|f [|g l]]; [reflexivity|reflexivity|cbn in Hf; lia]. }
  assert (Ed : match p_dir s with Some (c :: d) => str_of "--directory=" ++ c :: d | _ => [] end = dir_word s).
  { unfold dir_word. destruct (p_dir s) as [[|c d]|]; try reflexivity. destruct (C5 [] eq_refl) as [_ N]. congruence. }
  match goal with |- context [py_replace (py_replace (flat l1) ?y ?a) ?z ?b] =>
    replace a with (file_word s) by (symmetry; exact Ef); replace b with (dir_word s) by (symmetry; exact Ed) end.
  assert (Of : no_open (file_word s)).
  { unfold file_word. destruct (p_files s) as [|f [|g l]]; [intros []| |intros []]. apply no_open_app; [apply openb_ok; reflexivity|]. inversion C4; assumption. }
  assert (Od : no_open (dir_word s)).
  { unfold dir_word. destruct (p_dir s) as [d|]; [|intros []]. apply no_open_app; [apply openb_ok; reflexivity|]. apply C5. reflexivity. }
  rewrite replace_tok by (first [apply nameb_ok; reflexivity | assumption]).
  rewrite replace_tok by (first [apply nameb_ok; reflexivity | apply subst_ok; assumption]).
  unfold replace_product. change (str_of "[PRODUCT_PROPERTIES]") with (ob :: str_of "PRODUCT_PROPERTIES" ++ [cb]).
  assert (Ep : match p_product s with Some l => join_sp (map product_nugget l) | None => [] end = spaced ps).
  { destruct (p_product s) as [l|]; [rewrite (product_words _ _ C2); apply join_spaced|]. inversion C2; subst. reflexivity. }
  match goal with |- context [py_replace (flat ?x) ?y ?a] => replace a with (spaced ps) by (symmetry; exact Ep) end.
  rewrite replace_tok by (first [apply nameb_ok; reflexivity | repeat apply subst_ok; assumption]).
  unfold replace_optional. rewrite (optional_ok _ _ C3). cbv beta iota. change (join_sp os) with (spaced os). change (str_of "[OPTIONAL_PROPERTIES]") with (ob :: str_of "OPTIONAL_PROPERTIES" ++ [cb]).
  rewrite replace_tok by (first [apply nameb_ok; reflexivity | repeat apply subst_ok; try assumption; apply spaced_open; assumption]).
  f_equal. rewrite El1. unfold command. generalize (file_word s) (dir_word s) (spaced ps) (spaced os). intros fw dw pw ow.
  set (l2 := subst _ ow _).
  assert (E2 : l2 = [L (v "java"%string); L (str_of " -jar "); L (v "jarfile"%string); L (str_of " --send --status="); L status;
   L (str_of " --source="); L (v "source"%string); L (str_of " --type="); L (v "type"%string); L (str_of " --code="); L (v "code"%string);
   L (str_of " --eventsource="); L (v "eventsource"%string); L (str_of " --eventsourcecode="); L (v "eventsourcecode"%string);
   L (str_of " "); L pw; L (str_of " "); L ow; L (str_of " --privateKey="); L (v "privatekey"%string); L (str_of "  --configFile="); L (v "configfile"%string);
   L (str_of " "); L fw; L (str_of " "); L dw]) by (subst l2; vm_compute; reflexivity).
  rewrite E2. cbn [flat flat_map ftok]. rewrite app_nil_r. reflexivity.
Qed.
