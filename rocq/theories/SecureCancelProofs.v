(** Cancelling by SSH: one command is started, and can only touch the marker. *)
From Coq Require Import ZArith String Ascii Bool List Lia.
From Verif Require Import PyBase PyStr FsModel FsSpec FsProofs PathProofs CopyModel CopySpec CopyProofs FtpSpec SecureModel SecureSpec ShellProofs SecureProofs SecureSendProofs.
Import ListNotations.

Lemma change_trace : forall (g : fsn -> option fsn) e t y, In y (trace (change g e t)) -> y = final (change g e t).
Proof. intros g e t y. unfold change, trace, final. destruct (g t); cbn; [intros [<-|[]]; reflexivity|intros []]. Qed.

Section Cancel.
Variables (E : senv) (s : sender) (t : fsn) (content : option str) (txt : str).
Hypothesis OK : cancel_ok s.
Hypothesis Txt : marker_text content txt.
Let K := marker s.
Let f := os_join (remote_directory s) (cancelfile s).
Let line := str_of "echo " ++ (match content with Some c => c | None => str_of "None" end) ++ str_of " > " ++ f.

Lemma f_abs : starts_sl f = true.
Proof. apply join_starts. apply (co_absolute _ OK). Qed.
Lemma f_wordy : wordy f.
Proof. apply starts_wordy; [apply f_abs|]. apply harmless_join; [apply (co_directory _ OK)|apply (co_harmless _ OK)]. Qed.
Lemma f_K : resolve (home E) f = K.
Proof. unfold f, K, marker. rewrite resolve_join_good by apply (co_name _ OK). f_equal. apply resolve_abs. apply (co_absolute _ OK). Qed.
Lemma K_ok : K <> [] /\ removelast K = remote s.
Proof. unfold K, marker. split; [destruct (remote s); discriminate|apply removelast_last]. Qed.
Lemma line_as : forall x, as_ E line (open_write K ;;; append_file K (txt ++ [chr 10])) x.
Proof.
  intro x. rewrite <- f_K. unfold line. destruct Txt as [|w ws F O].
  - change (str_of "None") with (join (str_of " ") [str_of "None"]). apply echo_line; [discriminate| |reflexivity|apply f_wordy].
    constructor; [|constructor]. split; [discriminate|]. intros c Hc. cbn in Hc. vm_compute. tauto.
  - apply echo_line; [discriminate|exact F| |apply f_wordy]. cbn [hd]. destruct w as [|c r]; [reflexivity|]. unfold option_like. change (str_of "-") with [chr 45]. cbn [starts_with]. destruct (ascii_dec c (chr 45)) as [->|N]; [destruct (O r eq_refl)|].
    rewrite (proj2 (Ascii.eqb_neq _ _)); [reflexivity|congruence].
Qed.

Definition fine (x y : fsn) : Prop := same_but K x y /\ (at_ y K = at_ x K \/ at_ y K = Some (EFile []) \/ at_ y K = Some (EFile (txt ++ [chr 10]))).
Definition written (x y : fsn) : Prop := same_but K x y /\ ((at_ y K = at_ x K /\ (at_ x K = Some EDir \/ at_ x (remote s) <> Some EDir)) \/ at_ y K = Some (EFile (txt ++ [chr 10]))).
Lemma fine_refl : forall x, fine x x.
Proof. intro x. split; [intros q _; reflexivity|auto]. Qed.
Lemma written_fine : forall x y, written x y -> fine x y.
Proof. intros x y (a & [(b & _)|b]); split; auto. Qed.
Lemma run_line : forall x, (forall y, In y (fst (fst (shell E line x))) -> fine x y) /\ written x (snd (shell E line x)).
Proof.
  intro x. destruct (line_as x) as (e1 & e2). unfold trace, final in *. rewrite e1, e2. clear e1 e2. unfold abind.
  destruct K_ok as (NK & RK). destruct (open_write_eff K x) as (w1 & w2 & w3 & _). unfold one, result, final, trace in *.
  assert (Opens : at_ x K <> Some EDir -> at_ x (remote s) = Some EDir -> snd (fst (open_write K x)) = Ok tt).
  { intros A B. unfold open_write, change. destruct (place_ok K x (File [])) as (t' & P); [assumption|rewrite RK; assumption|]. rewrite P.
    destruct (find x K) as [[c|es]|] eqn:Fd; try reflexivity. exfalso. apply A. apply find_dir. eauto. }
  pose proof (change_trace (fun t => match find t K with Some (Dir _) => None | _ => place t K (File []) end) IOErr x) as CT. fold (open_write K) in CT. unfold trace, final in CT.
  destruct (open_write K x) as [[tr [[]|e]] t1] eqn:Eo; cbn [fst snd] in *.
  - destruct (w1 eq_refl) as (SB & A1 & A2 & A3 & _). destruct (append_eff K (txt ++ [chr 10]) t1 [] NK A1) as (a1 & a2 & a3 & a4 & _). unfold one, result, final, trace in *.
    pose proof (change_trace (fun t => match find t K with Some (File c) => place t K (File (c ++ txt ++ [chr 10])) | _ => None end) IOErr t1) as CT2. fold (append_file K (txt ++ [chr 10])) in CT2. unfold trace, final in CT2.
    destruct (append_file K (txt ++ [chr 10]) t1) as [[tr' r'] t2]; cbn [fst snd] in *.
    assert (S2 : same_but K x t2) by (intros q N; rewrite (a2 q N); apply SB; assumption). split.
    + intros y H. apply in_app_iff in H as [H|H].
      * rewrite (CT y H). split; [assumption|auto].
      * rewrite (CT2 y H). split; [assumption|auto].
    + split; [assumption|right; assumption].
  - split.
    + intros y H. rewrite (CT y H), (w2 e eq_refl). apply fine_refl.
    + rewrite (w2 e eq_refl). split; [intros q _; reflexivity|]. left. split; [reflexivity|]. destruct (at_ x K) as [[c|]|] eqn:A; auto; right; intro B; discriminate (Opens ltac:(discriminate) B).
Qed.

(** Before the command is started, when it is waiting, and when it has been carried out. *)
Inductive phase : session -> Prop :=
| before : forall n, phase {| rtree := t; jobs := []; tick := n |}
| waiting : forall n, phase {| rtree := t; jobs := [line]; tick := n |}
| after : forall x n, written t x -> phase {| rtree := x; jobs := []; tick := n |}.
Definition begun (c : session) : Prop := jobs c = [line] \/ written t (rtree c).
Lemma carry_none : forall picks c, jobs c = [] -> carry_out E picks c = ([], c).
Proof.
  induction picks as [|i picks IH]; intros c H; cbn [carry_out]; [reflexivity|]. rewrite H. destruct i; cbn [nth_error]; apply IH; assumption.
Qed.
Lemma carry_phase : forall picks c, phase c -> (forall y, In y (fst (carry_out E picks c)) -> fine t y) /\ phase (snd (carry_out E picks c)) /\ (begun c -> begun (snd (carry_out E picks c))) /\
  (In 0%nat picks -> jobs (snd (carry_out E picks c)) = []).
Proof.
  intros picks c P. destruct P as [n|n|x n W].
  - rewrite carry_none by reflexivity. cbn. split; [intros y []|]. split; [constructor|]. auto.
  - induction picks as [|i picks IH].
    + split; [intros y []|]. split; [constructor|]. split; [auto|intros []].
    + destruct i as [|i].
      * cbn [carry_out jobs nth_error rtree drop_nth tick]. destruct (run_line t) as (r1 & r2). destruct (shell E line t) as [[tr r] t1]; cbn [fst snd] in *.
        rewrite carry_none by reflexivity. cbn [fst snd]. rewrite app_nil_r. split; [assumption|]. split; [constructor; assumption|]. split; [right; assumption|reflexivity].
      * assert (e : carry_out E (S i :: picks) {| rtree := t; jobs := [line]; tick := n |} = carry_out E picks {| rtree := t; jobs := [line]; tick := n |}) by (cbn [carry_out jobs nth_error]; destruct i; reflexivity).
        rewrite e. destruct IH as (a & b & d & g). split; [assumption|]. split; [assumption|]. split; [assumption|]. intros [H|H]; [discriminate|auto].
  - rewrite carry_none by reflexivity. cbn [fst snd]. split; [intros y []|]. split; [constructor; assumption|]. auto.
Qed.

Lemma phase_fine : forall c, phase c -> fine t (rtree c).
Proof. intros c [n|n|x n W]; [apply fine_refl|apply fine_refl|apply written_fine; assumption]. Qed.
Lemma phase_tick : forall c n, phase c -> phase {| rtree := rtree c; jobs := jobs c; tick := n |}.
Proof. intros c n [m|m|x m W]; constructor; assumption. Qed.
Lemma idle_step : forall {A} (m : act A) (g : fsn -> res A) c, phase c -> (forall x, m x = ([], g x, x)) ->
  let o := step E m c in (forall y, In y (fst (fst o)) -> fine t y) /\ phase (snd o) /\ (begun c -> begun (snd o)) /\
    (forall a, snd (fst o) = Ok a -> g (rtree (snd o)) = Ok a) /\ (prompt E -> jobs (snd o) = [] /\ snd (fst o) = g (rtree (snd o))).
Proof.
  intros A m g c P H o. subst o. unfold step. destruct (carry_phase (wakes E (tick c)) c P) as (h1 & h2 & h3 & h4).
  destruct (carry_out E (wakes E (tick c)) c) as [tr0 c1]; cbn [fst snd] in *. rewrite H, app_nil_r.
  assert (B : begun c -> begun {| rtree := rtree c1; jobs := jobs c1; tick := S (tick c1) |}) by exact h3.
  assert (Q : prompt E -> jobs c1 = [] /\ sfates E (tick c) = Done).
  { intro Pr. destruct (Pr (tick c)) as (p1 & p2). split; [|assumption]. apply h4. rewrite p2. left. reflexivity. }
  destruct (sfates E (tick c)); cbn [fst snd rtree jobs]; (split; [assumption|]); (split; [apply phase_tick; assumption|]); (split; [exact B|]); (split; [intros a Ha; try discriminate; assumption|]); intro Pr; destruct (Q Pr); [auto|discriminate|discriminate].
Qed.
Lemma start_step : forall c, phase c -> jobs c = [] -> rtree c = t ->
  let o := start E line c in (forall y, In y (fst (fst o)) -> fine t y) /\ phase (snd o) /\
    (snd (fst o) = Ok tt -> begun (snd o)) /\ (prompt E -> snd (fst o) = Ok tt).
Proof.
  intros c P J T o. subst o. unfold start. rewrite carry_none by assumption. rewrite J. cbn [app].
  assert (P1 : phase {| rtree := rtree c; jobs := []; tick := S (tick c) |}) by (rewrite T; constructor).
  assert (P2 : phase {| rtree := rtree c; jobs := [line]; tick := S (tick c) |}) by (rewrite T; constructor).
  destruct (sfates E (tick c)) eqn:Fa; cbn [fst snd].
  - split; [intros y []|]. split; [assumption|]. split; [left; reflexivity|reflexivity].
  - split; [intros y []|]. split; [assumption|]. split; [discriminate|]. intro Pr. destruct (Pr (tick c)). congruence.
  - split; [intros y []|]. split; [assumption|]. split; [discriminate|]. intro Pr. destruct (Pr (tick c)). congruence.
Qed.
Definition cancel_said (o : srun unit) : Prop :=
  (forall y, In y (fst (fst o)) -> fine t y) /\ phase (snd o) /\
  (snd (fst o) = Ok tt -> begun (snd o) /\ at_ (rtree (snd o)) K <> None) /\
  (prompt E -> jobs (snd o) = [] /\ written t (rtree (snd o)) /\ (at_ (rtree (snd o)) K <> None -> snd (fst o) = Ok tt) /\ (at_ (rtree (snd o)) K = None -> snd (fst o) = Err Generic)).
Lemma cancel_run : cancel_said (secure_cancel E s content (open_session t)).
Proof.
  unfold secure_cancel, secure_connect. fold f. fold line. unfold sbind at 1. unfold wrapped.
  assert (P0 : phase (open_session t)) by constructor.
  assert (e0 : step E (aret tt) (open_session t) = ([], match sfates E 0 with Done => Ok tt | Refused e | Lost e => Err e end, {| rtree := t; jobs := []; tick := 1 |})).
  { unfold step. cbn [open_session tick]. rewrite carry_none by reflexivity. cbn [rtree jobs tick]. destruct (sfates E 0); reflexivity. }
  rewrite e0. clear e0. destruct (sfates E 0) eqn:F0; cbn [app fst snd].
  2,3: unfold cancel_said; cbn [fst snd]; split; [intros y []|]; split; [constructor|]; split; [discriminate|]; intro Pr; destruct (Pr 0%nat); congruence.
  unfold sbind at 1. destruct (start_step {| rtree := t; jobs := []; tick := 1 |}) as (s1 & s2 & s3 & s4); [constructor|reflexivity|reflexivity|].
  destruct (start E line {| rtree := t; jobs := []; tick := 1 |}) as [[tr1 [[]|e]] c1]; cbn [fst snd] in *.
  2:{ unfold cancel_said; cbn [fst snd]. split; [assumption|]. split; [assumption|]. split; [discriminate|]. intro Pr. discriminate (s4 Pr). }
  unfold ask, sbind. destruct (idle_step (shell E (test_e f)) (fun x => Ok (answer (match find x (resolve (home E) f) with Some _ => true | None => false end))) c1 s2) as (i1 & i2 & i3 & i4 & i5); [intro x; apply test_e_line; apply f_wordy|].
  destruct (step E (shell E (test_e f)) c1) as [[tr2 [out|e]] c2]; cbn [fst snd] in *.
  2:{ unfold cancel_said; cbn [fst snd]. split; [intros y H; apply in_app_iff in H as [H|H]; auto|]. split; [assumption|]. split; [discriminate|]. intro Pr. destruct (i5 Pr). discriminate. }
  specialize (i4 out eq_refl). injection i4 as <-. rewrite answer_int. unfold sret, sraise. rewrite f_K.
  set (b := match find (rtree c2) K with Some _ => true | None => false end).
  assert (Ex : b = true <-> at_ (rtree c2) K <> None) by (unfold b, at_; destruct (find (rtree c2) K) as [[c|es]|]; split; congruence).
  assert (G : forall y, In y (tr1 ++ tr2) -> fine t y) by (intros y H; apply in_app_iff in H as [H|H]; auto).
  assert (W : prompt E -> jobs c2 = [] /\ written t (rtree c2)).
  { intro Pr. destruct (i5 Pr) as (j & _). split; [assumption|]. destruct (i3 (s3 eq_refl)) as [i|i]; [congruence|assumption]. }
  destruct b; cbn [Nat.eqb]; rewrite ?app_nil_r; unfold cancel_said; cbn [fst snd].
  - split; [exact G|]. split; [assumption|]. split; [intros _; split; [apply i3; apply s3; reflexivity|apply Ex; reflexivity]|]. intro Pr. destruct (W Pr). split; [assumption|]. split; [assumption|]. split; [reflexivity|]. intro N. apply Ex in N; [destruct N|reflexivity].
  - split; [exact G|]. split; [assumption|]. split; [discriminate|]. intro Pr. destruct (W Pr). split; [assumption|]. split; [assumption|]. split; [intro N; apply Ex in N; discriminate|reflexivity].
Qed.
End Cancel.
