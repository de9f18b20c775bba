(** More for C126 to C128: what is between the marks, blanks, escapes, and items. *)
From Coq Require Import ZArith String Ascii Bool List Lia.
From Verif Require Import PyBase PyStr PolyModel PolySpec PolyProofs VersionModel PackModel PackSpec PackProofs.
Import ListNotations.
Open Scope nat_scope.

(** What is between the marks decides: a dictionary if it is one, otherwise the exception of
    json.loads; nothing from a file that can not be read. *)
Theorem C126_between : versions_from_file None = NotThis /\ forall t, unix t ->
  versions_from_file (Some (str_of "version_json = '''" ++ [chr 10] ++ t ++ str_of "'''  # END VERSION_JSON")) = match loads t with Ok d => Got d | Err e => Raised e end.
Proof.
  split; [reflexivity|]. intros t U. unfold versions_from_file.
  rewrite universal_unix.
  2:{ unfold unix in *. rewrite !in_app_iff. intros [H|[H|[H|H]]]; [|  |exact (U H)|]; vm_compute in H; intuition discriminate. }
  unfold search. assert (A : forall r, after_first (json_start ++ [newline]) (str_of "version_json = '''" ++ [chr 10] ++ r) = Some r) by (intro; reflexivity). rewrite A.
  unfold before_last. rewrite rev_app_distr. assert (B : forall r, after_first (rev json_end) (rev (str_of "'''  # END VERSION_JSON") ++ r) = Some r) by (intro; reflexivity).
  rewrite B, rev_involutive. reflexivity.
Qed.
Print Assumptions C126_between.

(** Blanks around a written dictionary do not matter; anything else after it does. *)
Definition blank (c : ascii) : Prop := In (nat_of_ascii c) [9; 10; 13; 32].
Lemma blank_iff c : json_space c = true <-> blank c.
Proof.
  unfold json_space, blank. cbn [In]. rewrite !orb_true_iff, !Nat.eqb_eq. intuition congruence.
Qed.
Lemma skip_all b t : Forall (fun c => json_space c = true) b -> skip_spaces (b ++ t) = skip_spaces t.
Proof. induction 1 as [|c b H _ IH]; [reflexivity|]. cbn [app]. rewrite skip_cons; assumption. Qed.
Theorem C126_layout : forall d before after, d <> [] -> Forall blank before -> Forall blank after ->
  loads (before ++ dumps d ++ after) = Ok d /\ (forall c t, ~ blank c -> loads (before ++ dumps d ++ after ++ c :: t) = Err ValueError).
Proof.
  intros d before after N B A. assert (B' : Forall (fun c => json_space c = true) before) by (eapply Forall_impl; [|exact B]; intros c; apply blank_iff).
  assert (A' : Forall (fun c => json_space c = true) after) by (eapply Forall_impl; [|exact A]; intros c; apply blank_iff). split; [apply loads_dumps; assumption|].
  intros c t Nc. unfold loads. rewrite (skip_all before) by exact B'. rewrite dumps_document. unfold document.
  match goal with |- context [skip_spaces ((str_of "{" ++ ?x) ++ ?y)] => change (skip_spaces ((str_of "{" ++ x) ++ y)) with ("{"%char :: x ++ y) end.
  cbn iota. change (Ascii.eqb "{" "{") with true. cbn iota.
  assert (E : skip_spaces (([newline] ++ body (flat_map escape) d ++ [newline] ++ str_of "}") ++ after ++ c :: t) = skip_spaces (body (flat_map escape) d ++ [newline] ++ str_of "}" ++ after ++ c :: t)).
  { rewrite <- !app_assoc. cbn [app]. rewrite skip_cons by reflexivity. reflexivity. }
  rewrite E. destruct (body_skip (flat_map escape) d ([newline] ++ str_of "}" ++ after ++ c :: t) N) as (r & Er). rewrite Er. change (Ascii.eqb quote "}") with false. cbn iota. rewrite <- Er.
  rewrite (read_body (flat_map escape) d (after ++ c :: t) N).
  - cbn [bind snd fst]. rewrite skip_all by exact A'. unfold skip_spaces. cbn [span]. destruct (json_space c) eqn:J; [elim Nc; apply blank_iff; exact J|]. reflexivity.
  - apply Forall_forall. intros (k, v) _. split; [intro; apply read_escaped|]. destruct v; try exact I. intro. apply read_escaped.
  - rewrite !app_length. pose proof (body_length (flat_map escape) d). cbn [length]. lia.
Qed.
Print Assumptions C126_layout.
Example C126_layout_ex : loads (str_of "{""a"" :" ++ [chr 9] ++ str_of "null, ""b"":true}x") = Err ValueError /\ loads (str_of "{""a"" :" ++ [chr 9] ++ str_of "null, ""b"":true}") = Ok [(str_of "a", JNone); (str_of "b", JTruth true)].
Proof. split; vm_compute; reflexivity. Qed.

(** Escapes between triple quotes, as the language reference has them; a backslash before
    another character stays. *)
Theorem C127_escapes : forall s t, literal s = Ok t ->
  literal (backslash :: newline :: s) = Ok t /\
  (forall e n, In (e, n) [("\"%char, 92); ("'"%char, 39); (""""%char, 34); ("a"%char, 7); ("b"%char, 8); ("f"%char, 12); ("n"%char, 10); ("r"%char, 13); ("t"%char, 9); ("v"%char, 11)] ->
     literal (backslash :: e :: s) = Ok (chr n :: t)) /\
  (forall e, ~ In e (newline :: str_of "\'""abfnrtvuUxN01234567") -> literal (backslash :: e :: s) = Ok (backslash :: e :: t)) /\
  (forall c, c <> backslash -> c <> "'"%char -> literal (c :: s) = Ok (c :: t)).
Proof.
  intros s t E. split; [cbn; rewrite E; reflexivity|]. split; [|split].
  - intros e n H. cbn [In] in H. repeat (destruct H as [H|H]; [injection H as <- <-; cbn; rewrite E; reflexivity|]). destruct H.
  - intros e H. assert (X : forall x, In x (newline :: str_of "\'""abfnrtvuUxN01234567") -> e <> x) by (intros x Hx ->; exact (H Hx)). clear H.
    revert X. destruct e as [[|] [|] [|] [|] [|] [|] [|] [|]]; intro X; try (cbn; rewrite E; reflexivity); exfalso; eapply X; try reflexivity; vm_compute; tauto.
  - intros c N1 N2. cbn [literal]. unfold q3. cbn [str_of list_ascii_of_string starts_with]. destruct (Ascii.eqb_spec "'" c) as [<-|_]; [congruence|]. cbn [andb].
    destruct (Ascii.eqb_spec c backslash) as [->|_]; [congruence|]. rewrite E. reflexivity.
Qed.
Print Assumptions C127_escapes.

(** An item of a dictionary: of two members with the same key the later one; KeyError if
    there is none. *)
Theorem C128_item : forall k d, (forall a v b, d = a ++ (k, v) :: b -> ~ In k (map fst b) -> item k d = Ok v) /\ (~ In k (map fst d) -> item k d = Err KeyError).
Proof.
  assert (N : forall k (d : jdict), ~ In k (map fst d) -> find (fun kv => str_eqb k (fst kv)) (rev d) = None).
  { intros k d H. destruct (find _ (rev d)) as [kv|] eqn:E; [|reflexivity]. apply find_some in E as (I & E). destruct (str_eqb_spec k (fst kv)) as [->|]; [|discriminate].
    elim H. apply in_map. apply in_rev. exact I. }
  assert (F : forall (p : str * jval -> bool) a b, find p a = None -> find p (a ++ b) = find p b) by (intros p a b; induction a as [|x a IH]; [reflexivity|]; cbn [app find]; destruct (p x); [discriminate|exact IH]).
  intros k d. split; [|intro H; unfold item; rewrite N by exact H; reflexivity]. intros a v b -> H. unfold item. rewrite rev_app_distr. cbn [rev]. rewrite <- app_assoc. rewrite F by (apply N; exact H).
  cbn [app find fst]. destruct (str_eqb_spec k k); [reflexivity|congruence].
Qed.
Print Assumptions C128_item.
Example C128_item_ex : item (str_of "a") [(str_of "a", JNone); (str_of "a", JTruth true)] = Ok (JTruth true).
Proof. reflexivity. Qed.
