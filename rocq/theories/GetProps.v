(** C100 to C103: receiving files over scp. *)
From Coq Require Import ZArith String Ascii Bool List Lia.
From Verif Require Import PyBase PyStr FsModel FsSpec FsProofs PathProofs ScpModel GetModel GetSpec GetProofs GetTreeProofs.
Import ListNotations.
Open Scope Z_scope.

(** For the examples: numbers of one digit, a file system with a few directories, a new
    client. *)
Definition digit (s : str) : option Z := match s with [c] => if is_digit c then Some (Z.of_nat (nat_of_ascii c) - 48) else None | _ => None end.
Definition fs_ex : fsn := Dir [(str_of "home", Dir [(str_of "in", Dir [(str_of "old", File (str_of "x"))]); (str_of "key", File (str_of "k"))])].
Definition new_client : client := mkclient NoChannel [] false None [].
Definition home : path := [str_of "home"].
Definition sent (s : string) : event := line (str_of s).
Definition bytes (s : string) : event := Piece (str_of s ++ [chr 0]).
Definition deeds_of (r : option outcome) : list (path * deed) := match r with Some (_, st) => s_deeds st | None => [] end.
Definition heard_of (r : option outcome) : list command := match r with Some (_, st) => s_heard st | None => [] end.
Definition result_of (r : option outcome) : option (res unit) := option_map fst r.

(** C100.  Whatever the server sends, nothing but the local path and what is below it is
    touched, as long as the names it sends have one component and it leaves no directory
    that it has not entered. *)
Theorem C100_inside : forall cwd iparse oparse buff_size fuel n local_path served fs cl r st,
  Forall fname_ok cwd -> c_dirtimes cl = [] -> get cwd iparse oparse buff_size fuel n local_path served fs cl = Some (r, st) ->
  stays 0 (s_heard st) -> Forall named_ok (s_heard st) ->
  (forall p d, In (p, d) (s_deeds st) -> below (resolve cwd local_path) p) /\
  (forall q, ~ below (resolve cwd local_path) q -> at_ (s_fs st) q = at_ fs q).
Proof.
  intros cwd iparse oparse buff_size fuel n local_path served fs cl r st Hc Hd H S N. unfold get in H. fold (start_dir cwd local_path) in H.
  destruct (Nat.ltb 1 n && negb (is_dir (resolve cwd (start_dir cwd local_path)) fs))%bool; [injection H as <- <-; split; [intros p d []|reflexivity]|].
  cbn [set_rename set_dir c_channel] in H.
  assert (G : match recv_all cwd iparse oparse buff_size fuel (mkstate fs [] [] (set_channel Used (set_rename (Nat.eqb n 1 && negb (is_dir (resolve cwd local_path) fs))%bool (set_dir (start_dir cwd local_path) cl))) served) with
    | Some (Ok _, st) => Some (Ok tt, with_client (set_channel NoChannel (s_client st)) st) | r => r end = Some (r, st) ->
    (forall p d, In (p, d) (s_deeds st) -> below (resolve cwd local_path) p) /\ (forall q, ~ below (resolve cwd local_path) q -> at_ (s_fs st) q = at_ fs q)).
  { clear H. destruct (recv_all _ _ _ _ _ _) as [[r1 st1]|] eqn:E; [|discriminate]. intro H.
    destruct (recv_all_inside cwd iparse oparse buff_size (resolve cwd local_path) fs _ _ _ _ E) as (fut & h1 & _ & h3). cbn [s_heard app] in h1.
    assert (Eq : s_heard st = s_heard st1 /\ s_deeds st = s_deeds st1 /\ s_fs st = s_fs st1) by (destruct r1; injection H as <- <-; auto).
    destruct Eq as (e1 & e2 & e3). rewrite e2, e3. rewrite e1, h1 in S, N.
    destruct (h3 []) as (a & b & _); [|exact S|exact N| |exact (conj a b)].
    - split; [|reflexivity]. apply chain_base. apply start_resolve. exact Hc.
    - split; [intros p d []|]. split; [reflexivity|]. cbn [s_client set_channel set_rename set_dir c_dirtimes]. rewrite Hd. intros s t []. }
  destruct (c_channel cl); [exact (G H)|exact (G H)|]. injection H as <- <-. split; [intros p d []|reflexivity].
Qed.
Print Assumptions C100_inside.
Definition dir_stream : list event := [sent "D7 0 sub"; sent "C6 2 a"; bytes "hi"; sent "E"; sent "C6 1 b"; bytes "!"].
Example C100_ex : let r := get home digit digit 3 20 1 (str_of "in") dir_stream fs_ex new_client in
  result_of r = Some (Ok tt) /\ stays 0 (heard_of r) /\ Forall named_ok (heard_of r) /\ In ([str_of "home"; str_of "in"; str_of "sub"; str_of "a"], Wrote (str_of "hi")) (deeds_of r) /\ length (heard_of r) = 4%nat.
Proof.
  vm_compute. repeat split; auto; repeat constructor; try (intro H; discriminate H); try (intros [H|H]; [discriminate H|destruct H]); try (intros [H|[H|H]]; [discriminate H|discriminate H|destruct H]); intuition discriminate.
Qed.

(** C101.  Without these conditions a server can do as it likes.  It can write any file:
    wherever the transfer was to go, whatever the content. *)
Theorem C101_anywhere : forall cwd iparse oparse buff_size n local_path fs cl T content name m z,
  Forall fname_ok cwd -> (0 < buff_size)%nat -> fresh_client cl -> at_ fs (resolve cwd local_path) = Some EDir ->
  starts_sl name = true -> ends_sl name = false -> firm name -> resolve cwd name = T -> T <> [] -> at_ fs (removelast T) = Some EDir -> at_ fs T <> Some EDir ->
  number oparse 6 m -> number iparse (Z.of_nat (length content)) z -> fits (str_of "C" ++ m ++ str_of " " ++ z ++ str_of " " ++ name) ->
  exists served N, forall fuel, (N <= fuel)%nat -> exists st, get cwd iparse oparse buff_size fuel n local_path served fs cl = Some (Ok tt, st) /\
    at_ (s_fs st) T = Some (EFile content) /\ In (T, Mode 6) (s_deeds st).
Proof.
  intros cwd iparse oparse buff_size n local_path fs cl T content name m z Hc Hb (F1 & F2 & F3) Hd Hs He Hf Hr Hn Hp Hnd Hm Hz Hfit.
  exists (line (str_of "C" ++ m ++ str_of " " ++ z ++ str_of " " ++ name) :: map Piece [content ++ [chr 0]] ++ []), (S (S (length content))).
  destruct (snoc_cases T Hn) as (PD & b & ->). rewrite removelast_snoc in Hp.
  set (c0 := set_channel Used (set_rename (Nat.eqb n 1 && negb (is_dir (resolve cwd local_path) fs))%bool (set_dir (start_dir cwd local_path) cl))).
  set (st0 := mkstate fs [] [] c0 (line (str_of "C" ++ m ++ str_of " " ++ z ++ str_of " " ++ name) :: map Piece [content ++ [chr 0]] ++ [])).
  assert (Rn : c_rename c0 = false) by (unfold c0; cbn [set_channel set_rename c_rename]; rewrite (at_dirs _ _ Hd); apply andb_false_r).
  destruct (file_run cwd iparse oparse buff_size Hb name 6 None content m z [content ++ [chr 0]] [] st0 name (Some name) c0 PD b Hm Hz Hfit) as (st1 & r1 & h1 & h2 & h3); try assumption; try reflexivity.
  - cbn [concat]. apply app_nil_r.
  - constructor; [destruct content; discriminate|constructor].
  - destruct name; discriminate.
  - cbn [st0 s_client target]. unfold target. rewrite Rn. unfold os_join. rewrite Hs. reflexivity.
  - destruct (finish cwd iparse oparse buff_size PD _ st0 st1 h3 h1 eq_refl F3 0) as (st2 & _ & (a1 & _) & (b1 & _) & _). clear a1 b1.
    intros fuel Hfu. rewrite get_runs by (auto || (right; exact Hd)). fold c0. fold st0.
    destruct fuel as [|[|fuel]]; [lia|lia|]. change (S (S fuel)) with (1 + S fuel)%nat. rewrite r1 by lia.
    destruct (finish cwd iparse oparse buff_size PD _ st0 st1 h3 h1 eq_refl F3 fuel) as (st3 & -> & (a1 & _) & (b1 & _) & _).
    eexists. split; [reflexivity|]. split.
    + exact (a1 [b] _ (proj2 (node_file _ _ _ _ _ _) (conj eq_refl eq_refl))).
    + exact (proj1 (b1 [b] _ (proj2 (node_file _ _ _ _ _ _) (conj eq_refl eq_refl)))).
Qed.
Print Assumptions C101_anywhere.
Example C101_ex_anywhere : let r := get home digit digit 3 20 1 (str_of "in") [sent "C6 2 /home/key"; bytes "no"] fs_ex new_client in
  result_of r = Some (Ok tt) /\ match r with Some (_, st) => at_ (s_fs st) [str_of "home"; str_of "key"] | None => None end = Some (EFile (str_of "no")).
Proof. vm_compute. auto. Qed.
Theorem C101_refuted : exists cwd fs, let outside r := exists p d, In (p, d) (deeds_of r) /\ ~ below (resolve cwd (str_of "in")) p in
  (exists served, outside (get cwd digit digit 3 20 1 (str_of "in") served fs new_client) /\ heard_of (get cwd digit digit 3 20 1 (str_of "in") served fs new_client) = [CFile (Some (str_of "../key"))]) /\
  (exists served, outside (get cwd digit digit 3 20 1 (str_of "in") served fs new_client) /\ heard_of (get cwd digit digit 3 20 1 (str_of "in") served fs new_client) = [CUp; CFile (Some (str_of "key"))]).
Proof.
  exists home, fs_ex. assert (O : ~ below (resolve home (str_of "in")) [str_of "home"; str_of "key"]) by (intros (r & E); vm_compute in E; discriminate E).
  split.
  - exists [sent "C6 1 ../key"; bytes "!"]. split; [|reflexivity]. exists [str_of "home"; str_of "key"], (Mode 6). split; [vm_compute; auto 10|exact O].
  - exists [sent "E"; sent "C6 1 key"; bytes "!"]. split; [|reflexivity]. exists [str_of "home"; str_of "key"], (Mode 6). split; [vm_compute; auto 10|exact O].
Qed.
Print Assumptions C101_refuted.
(** With a new local path a second thing with a plain name, all directories left as they
    were entered, lands beside it. *)
Theorem C101_beside_refuted : exists cwd fs served, let r := get cwd digit digit 3 20 1 (str_of "new") served fs new_client in
  result_of r = Some (Ok tt) /\ heard_of r = [CDir None; CUp; CFile (Some (str_of "key"))] /\
  (exists p d, In (p, d) (deeds_of r) /\ ~ below (resolve cwd (str_of "new")) p).
Proof.
  exists home, fs_ex, [sent "D7 0 some"; sent "E"; sent "C6 1 key"; bytes "!"]. split; [reflexivity|]. split; [reflexivity|].
  exists [str_of "home"; str_of "key"], (Mode 6). split; [vm_compute; auto 10|]. intros (r & E). vm_compute in E. discriminate E.
Qed.
Print Assumptions C101_beside_refuted.

(** C102.  From an honest server: everything it serves arrives below the local directory,
    with its modes and times, whatever the pieces it comes in; nothing else changes, and
    the client is as new. *)
Theorem C102_tree : forall cwd iparse oparse buff_size n local_path fs cl f evs,
  Forall fname_ok cwd -> (0 < buff_size)%nat -> fresh_client cl -> at_ fs (resolve cwd local_path) = Some EDir ->
  serves_all iparse oparse f evs -> tidy f -> welcome (resolve cwd local_path) f fs ->
  exists N, forall fuel, (N <= fuel)%nat -> exists st, get cwd iparse oparse buff_size fuel n local_path evs fs cl = Some (Ok tt, st) /\
    arrived (resolve cwd local_path) f fs (s_fs st) /\ dressed (resolve cwd local_path) f (s_deeds st) /\ fresh_client (s_client st).
Proof.
  intros cwd iparse oparse buff_size n local_path fs cl f evs Hc Hb (F1 & F2 & F3) Hd Hs Ht Hw.
  set (c0 := set_channel Used (set_rename (Nat.eqb n 1 && negb (is_dir (resolve cwd local_path) fs))%bool (set_dir (start_dir cwd local_path) cl))).
  assert (Rn : c_rename c0 = false) by (unfold c0; cbn [set_channel set_rename c_rename]; rewrite (at_dirs _ _ Hd); apply andb_false_r).
  set (B := resolve cwd local_path) in *.
  destruct (runs_forest cwd iparse oparse buff_size Hb f evs Hs [] (mkstate fs [] [] c0 evs) B []) as (k & N & st1 & r1 & h1 & h2 & h3 & h4 & h5 & h6); try assumption.
  - symmetry. apply app_nil_r.
  - apply chain_base. apply start_resolve. exact Hc.
  - rewrite app_nil_r. exact Hd.
  - rewrite app_nil_r. exact Hw.
  - rewrite app_nil_r in h6. exists (k + S N)%nat. intros fuel Hfu. rewrite get_runs by (auto || (right; exact Hd)). fold B. fold c0.
    replace fuel with (k + S (fuel - k - 1))%nat by lia. rewrite r1 by lia.
    destruct (finish cwd iparse oparse buff_size B f _ st1 h6 h1 eq_refl F3 (fuel - k - 1)) as (st2 & -> & a & b & c).
    eexists. split; [reflexivity|]. split; [exact a|]. split; [exact b|]. cbn [with_client s_client]. rewrite c. split; [discriminate|]. split; [exact h2|reflexivity].
Qed.
Print Assumptions C102_tree.
(** If the local path is new, or a file, a single thing is placed there instead. *)
Theorem C102_renamed : forall cwd iparse oparse buff_size local_path fs cl name nd evs P b,
  Forall fname_ok cwd -> (0 < buff_size)%nat -> fresh_client cl -> local_path <> [] -> resolve cwd local_path = P ++ [b] ->
  at_ fs P = Some EDir -> at_ fs (P ++ [b]) <> Some EDir -> (ent_of nd <> EDir -> ends_sl local_path = false) ->
  serves iparse oparse name nd evs -> tidy [(name, nd)] -> welcome P [(b, nd)] fs ->
  exists N, forall fuel, (N <= fuel)%nat -> exists st, get cwd iparse oparse buff_size fuel 1 local_path evs fs cl = Some (Ok tt, st) /\
    arrived P [(b, nd)] fs (s_fs st) /\ dressed P [(b, nd)] (s_deeds st) /\ fresh_client (s_client st).
Proof.
  intros cwd iparse oparse buff_size local_path fs cl name nd evs P b Hc Hb (F1 & F2 & F3) Hl Hr Hp Hnd He Hs Ht Hw.
  set (c0 := set_channel Used (set_rename (Nat.eqb 1 1 && negb (is_dir (resolve cwd local_path) fs))%bool (set_dir (start_dir cwd local_path) cl))).
  assert (Nd : is_dir (resolve cwd local_path) fs = false).
  { destruct (is_dir (resolve cwd local_path) fs) eqn:E; [|reflexivity]. apply is_dir_at in E. rewrite Hr in E. contradiction. }
  assert (Rn : c_rename c0 = true) by (unfold c0; cbn [set_channel set_rename c_rename]; rewrite Nd; reflexivity).
  destruct (tidy_cons _ _ _ Ht) as (T1 & T2 & _ & _).
  destruct (runs cwd iparse oparse buff_size Hb name nd evs Hs [] (mkstate fs [] [] c0 evs) (start_dir cwd local_path) None (set_rename false c0) P b (P ++ [b]) []) as (k & N & st1 & r1 & h1 & h2 & h3 & h4 & h5 & h6); try assumption.
  - exact (proj1 T1).
  - symmetry. apply app_nil_r.
  - cbn [s_client]. unfold target. rewrite Rn. reflexivity.
  - rewrite start_resolve by exact Hc. exact Hr.
  - destruct local_path; [contradiction|exact He].
  - apply chain_base. rewrite start_resolve by exact Hc. exact Hr.
  - exists (k + S N)%nat. intros fuel Hfu. rewrite get_runs by (auto || (left; lia)). fold c0.
    replace fuel with (k + S (fuel - k - 1))%nat by lia. rewrite r1 by lia.
    destruct (finish cwd iparse oparse buff_size P _ _ st1 h6 h1 eq_refl F3 (fuel - k - 1)) as (st2 & -> & a & b' & c).
    eexists. split; [reflexivity|]. split; [exact a|]. split; [exact b'|]. cbn [with_client s_client]. rewrite c. split; [discriminate|]. split; [exact h2|reflexivity].
Qed.
Print Assumptions C102_renamed.
Lemma digit_number : forall s, (exists c, s = [c] /\ is_digit c = true) -> match digit s with Some n => number digit n s | None => False end.
Proof.
  intros s (c & -> & H). cbn [digit]. rewrite H. split; [split; [discriminate|]|cbn [digit]; rewrite H; reflexivity].
  intros x [<-|[]] Hi. unfold is_digit in H. apply andb_true_iff in H as [H1 H2]. apply Nat.leb_le in H1. apply Nat.leb_le in H2. cbn [In] in Hi. lia.
Qed.
Ltac num := match goal with |- number digit _ ?s => exact (digit_number s ltac:(eexists; split; reflexivity)) end.
Ltac plain_name := let Hi := fresh in split; [discriminate|]; split; [discriminate|]; split; [discriminate|]; intro Hi; repeat (destruct Hi as [Hi|Hi]; [discriminate Hi|]); destruct Hi.
Ltac firm_name := let r := fresh in let c := fresh in let E := fresh in let Hi := fresh in
  intros r c E Hi; apply (f_equal (fun s => last s " "%char)) in E; rewrite last_last in E; cbn in E; subst c; cbn in Hi; intuition discriminate.
Definition tree_ex : list (str * node) := [(str_of "sub", NDir 7 (Some (5, 6)) [(str_of "a", NFile 6 None (str_of "hi"))]); (str_of "b c", NFile 4 (Some (1, 2)) [])].
Definition tree_events : list event := [sent "T6 0 5 0"; sent "D7 0 sub"; sent "C6 2 a"; Piece (str_of "h"); Piece (str_of "i" ++ [chr 0]); sent "E"; sent "T2 0 1 0"; sent "C4 0 b c"; Piece [chr 0]].
Lemma tree_served : serves_all digit digit tree_ex tree_events.
Proof.
  assert (Z : solid (str_of "0")) by (split; [discriminate|]; intros c [<-|[]] Hi; cbn in Hi; intuition discriminate).
  assert (Fits : forall s, (length s < 20)%nat -> fits s) by (intros s H; unfold fits; unfold str in *; lia).
  change tree_events with (([sent "T6 0 5 0"] ++ sent "D7 0 sub" :: ((([] ++ sent "C6 2 a" :: map Piece [str_of "h"; str_of "i" ++ [chr 0]]) ++ []) ++ [sent "E"])) ++ (([sent "T2 0 1 0"] ++ sent "C4 0 b c" :: map Piece [[chr 0]]) ++ [])).
  apply serve_more; [|apply serve_more; [|apply serve_none]].
  - apply (serve_dir digit digit (str_of "sub") 7 (Some (5, 6)) _ _ (str_of "7") (str_of "0")).
    + apply (timed digit 5 6 (str_of "5") (str_of "6") (str_of "0")); [num|num|exact Z|apply Fits; cbn; lia|discriminate].
    + num.
    + exact Z.
    + apply Fits; cbn; lia.
    + apply serve_more; [|apply serve_none]. apply (serve_file digit digit (str_of "a") 6 None (str_of "hi") [] (str_of "6") (str_of "2") [str_of "h"; str_of "i" ++ [chr 0]]).
      * apply untimed.
      * num.
      * num.
      * apply Fits; cbn; lia.
      * reflexivity.
      * repeat constructor; discriminate.
  - apply (serve_file digit digit (str_of "b c") 4 (Some (1, 2)) [] [sent "T2 0 1 0"] (str_of "4") (str_of "0") [[chr 0]]).
    + apply (timed digit 1 2 (str_of "1") (str_of "2") (str_of "0")); [num|num|exact Z|apply Fits; cbn; lia|discriminate].
    + num.
    + num.
    + apply Fits; cbn; lia.
    + reflexivity.
    + repeat constructor; discriminate.
Qed.
Example C102_ex : Forall fname_ok home /\ fresh_client new_client /\ at_ fs_ex (resolve home (str_of "in")) = Some EDir /\ serves_all digit digit tree_ex tree_events /\ tidy tree_ex /\
  welcome (resolve home (str_of "in")) tree_ex fs_ex /\
  let r := get home digit digit 3 20 1 (str_of "in") tree_events fs_ex new_client in result_of r = Some (Ok tt) /\ In ([str_of "home"; str_of "in"; str_of "sub"], Time (Some (5, 6))) (deeds_of r).
Proof.
  split; [constructor; [plain_name|constructor]|]. split; [split; [discriminate|split; reflexivity]|]. split; [reflexivity|]. split; [exact tree_served|]. split.
  - apply tidy_dir; [plain_name|cbn; intuition discriminate| |].
    + apply tidy_file; [plain_name|firm_name|cbn; intuition discriminate|apply tidy_none].
    + apply tidy_file; [plain_name|firm_name|cbn; intuition discriminate|apply tidy_none].
  - split.
    + assert (G : forall x rel, In x [str_of "sub"; str_of "b c"] -> at_ fs_ex (resolve home (str_of "in") ++ x :: rel) = None).
      { intros x rel [<-|[<-|[]]]; reflexivity. }
      intros rel n A. destruct (node_at_some _ _ _ A) as (x & r & ->). apply node_at_keys in A. rewrite (G x r A). destruct n; exact I.
    + vm_compute. auto 20.
Qed.
Example C102_ex_renamed : let r := get home digit digit 3 20 1 (str_of "new") [sent "C6 2 a"; bytes "hi"] fs_ex new_client in
  result_of r = Some (Ok tt) /\ match r with Some (_, st) => at_ (s_fs st) [str_of "home"; str_of "new"] | None => None end = Some (EFile (str_of "hi")).
Proof. vm_compute. auto. Qed.
(** A file whose name ends in a blank arrives under another name. *)
Theorem C102_blank_name_refuted : exists cwd fs name, let r := get cwd digit digit 3 20 1 (str_of "in") [line (str_of "C6 1 " ++ name); bytes "!"] fs new_client in
  result_of r = Some (Ok tt) /\ fname_ok name /\ match r with Some (_, st) => at_ (s_fs st) (resolve cwd (str_of "in") ++ [name]) | None => None end = None /\ deeds_of r <> [].
Proof. exists home, fs_ex, (str_of "a "). split; [reflexivity|]. split; [plain_name|]. split; [reflexivity|discriminate]. Qed.
Print Assumptions C102_blank_name_refuted.
(** An access time of 0, sent by the server, is replaced by the modification time. *)
Theorem C102_epoch_refuted : exists cwd fs, let r := get cwd digit digit 3 20 1 (str_of "in") [sent "T6 0 0 0"; sent "C6 1 a"; bytes "!"] fs new_client in
  result_of r = Some (Ok tt) /\ In ([str_of "home"; str_of "in"; str_of "a"], Time (Some (6, 6))) (deeds_of r).
Proof. exists home, fs_ex. split; [reflexivity|]. vm_compute. auto 10. Qed.
Print Assumptions C102_epoch_refuted.

(** C103.  If the connection ends in the middle of a file, get does not return, for any
    number of rounds. *)
Theorem C103_hangs : forall cwd iparse oparse buff_size n local_path fs cl name mode size m z pieces fuel,
  Forall fname_ok cwd -> c_channel cl <> Used -> at_ fs (resolve cwd local_path) = Some EDir -> fname_ok name -> firm name ->
  at_ fs (resolve cwd local_path ++ [name]) <> Some EDir ->
  number oparse mode m -> number iparse size z -> fits (str_of "C" ++ m ++ str_of " " ++ z ++ str_of " " ++ name) -> Z.of_nat (length (concat pieces)) < size ->
  get cwd iparse oparse buff_size fuel n local_path (line (str_of "C" ++ m ++ str_of " " ++ z ++ str_of " " ++ name) :: map Piece pieces) fs cl = None.
Proof.
  intros cwd iparse oparse buff_size n local_path fs cl name mode size m z pieces fuel Hc Hu Hd Hn Hf Hnd Hm Hz Hfit Hlt.
  rewrite get_runs by (auto || (right; exact Hd)). destruct fuel as [|fuel]; [reflexivity|].
  set (cmd := m ++ str_of " " ++ z ++ str_of " " ++ name) in *.
  set (c0 := set_channel Used (set_rename (Nat.eqb n 1 && negb (is_dir (resolve cwd local_path) fs))%bool (set_dir (start_dir cwd local_path) cl))).
  assert (Rn : c_rename c0 = false) by (unfold c0; cbn [set_channel set_rename c_rename]; rewrite (at_dirs _ _ Hd); apply andb_false_r).
  fold c0. rewrite (line_step cwd iparse oparse buff_size fuel "C" cmd (map Piece pieces) (mkstate fs [] [] c0 (line (str_of "C" ++ cmd) :: map Piece pieces)) eq_refl Hfit). unfold carry_out. change (Ascii.eqb "C" "C") with true. cbv iota.
  destruct (parts m z name (proj1 Hm) (proj1 Hz)) as (p1 & p2 & p3). fold cmd in p1, p2, p3.
  pose proof (bstrip_cmd m z name (proj1 Hm) (proj1 Hn) Hf) as Hs. cbv zeta in Hs. fold cmd in Hs.
  unfold recv_file. rewrite Hs, p1, p2, p3. cbn [option_map with_chan s_client]. rewrite (proj2 Hm), (proj2 Hz). unfold target. rewrite Rn. change (c_dir c0) with (start_dir cwd local_path).
  set (st1 := heard _ _). assert (Hr : resolve cwd (os_join (start_dir cwd local_path) name) = resolve cwd local_path ++ [name]) by (rewrite resolve_join_good, start_resolve by assumption; reflexivity).
  destruct (write_ok cwd (os_join (start_dir cwd local_path) name) _ [] st1 (proj2 (join_ends _ _ Hn)) Hr) as (fs1 & -> & _).
  - destruct (resolve cwd local_path); discriminate.
  - rewrite removelast_snoc. exact Hd.
  - exact Hnd.
  - change (s_chan st1) with (map Piece pieces). pose proof (cut_short fuel buff_size size 0 pieces [] Hlt) as E. destruct (recv_data fuel buff_size size 0 (map Piece pieces) []) as [got more]. cbn [snd] in E. rewrite E. reflexivity.
Qed.
Print Assumptions C103_hangs.
Example C103_ex_hangs : Z.of_nat (length (concat [str_of "h"])) < 2 /\ get home digit digit 3 100 1 (str_of "in") (sent "C6 2 a" :: map Piece [str_of "h"]) fs_ex new_client = None.
Proof. split; reflexivity. Qed.
(** A transfer that fails leaves a client that can only fail: the next one raises and
    does nothing.  One that succeeds leaves no channel and no times of directories. *)
Theorem C103_spoilt : forall cwd iparse oparse buff_size fuel n local_path served fs cl e st,
  (n <= 1)%nat -> get cwd iparse oparse buff_size fuel n local_path served fs cl = Some (Err e, st) ->
  forall fuel' n' local_path' served' fs', exists e' st', get cwd iparse oparse buff_size fuel' n' local_path' served' fs' (s_client st) = Some (Err e', st') /\ s_fs st' = fs' /\ s_deeds st' = [] /\ s_heard st' = [].
Proof.
  intros cwd iparse oparse buff_size fuel n local_path served fs cl e st Hn H fuel' n' local_path' served' fs'.
  assert (U : c_channel (s_client st) = Used).
  { unfold get in H. replace (Nat.ltb 1 n) with false in H by (symmetry; apply Nat.ltb_ge; exact Hn). cbn [andb set_rename set_dir c_channel] in H.
    assert (G : forall st0, c_channel (s_client st0) = Used -> match recv_all cwd iparse oparse buff_size fuel st0 with Some (Ok _, st) => Some (Ok tt, with_client (set_channel NoChannel (s_client st)) st) | r => r end = Some (Err e, st) -> c_channel (s_client st) = Used).
    { intros st0 h0 h. destruct (recv_all cwd iparse oparse buff_size fuel st0) as [[[u|e1] st1]|] eqn:E; [discriminate| |discriminate]. injection h as -> <-. rewrite (proj1 (all_channel _ _ _ _ _ _ _ _ E)). exact h0. }
    destruct (c_channel cl) eqn:Ec; [refine (G _ _ H); reflexivity|refine (G _ _ H); reflexivity|]. injection H as <- <-. exact Ec. }
  unfold get. destruct (Nat.ltb 1 n' && _)%bool; [do 2 eexists; split; [reflexivity|auto]|]. cbn [set_rename set_dir c_channel]. rewrite U. do 2 eexists. split; [reflexivity|auto].
Qed.
Print Assumptions C103_spoilt.
Theorem C103_ready : forall cwd iparse oparse buff_size fuel n local_path served fs cl st,
  get cwd iparse oparse buff_size fuel n local_path served fs cl = Some (Ok tt, st) -> c_channel (s_client st) = NoChannel /\ c_dirtimes (s_client st) = [].
Proof.
  intros cwd iparse oparse buff_size fuel n local_path served fs cl st H. unfold get in H. destruct (Nat.ltb 1 n && _)%bool; [discriminate|].
  match type of H with match ?c with _ => _ end = _ => destruct c end; try discriminate;
  match type of H with match ?c with _ => _ end = _ => destruct c as [[[u|e1] st1]|] eqn:E end; try discriminate; injection H as <-; split; try reflexivity; destruct u; exact (proj2 (all_channel _ _ _ _ _ _ _ _ E) eq_refl).
Qed.
Print Assumptions C103_ready.
(** After close it works again, but the times kept from the transfer that failed are given
    to a file for which none were sent. *)
Theorem C103_stale_refuted : exists cwd fs e st, get cwd digit digit 3 20 1 (str_of "in") [sent "T6 0 5 0"; sent "C6 x a"] fs new_client = Some (Err e, st) /\
  let r := get cwd digit digit 3 20 1 (str_of "in") [sent "C6 1 b"; bytes "!"] (s_fs st) (close_client (s_client st)) in
  result_of r = Some (Ok tt) /\ In ([str_of "home"; str_of "in"; str_of "b"], Time (Some (5, 6))) (deeds_of r).
Proof. exists home, fs_ex. do 2 eexists. split; [reflexivity|]. split; [reflexivity|]. vm_compute. auto 10. Qed.
Print Assumptions C103_stale_refuted.
(** Likewise for the times of directories: they are set by the next transfer, which may be to
    another place, and which fails if the directory has been removed. *)
Theorem C103_stale_directory_refuted : exists cwd fs e st, get cwd digit digit 3 20 1 (str_of "in") [sent "T6 0 5 0"; sent "D7 0 d"; sent "C6 x a"] fs new_client = Some (Err e, st) /\
  (let r := get cwd digit digit 3 20 1 (str_of "new") [sent "C6 1 b"; bytes "!"] (s_fs st) (close_client (s_client st)) in
   result_of r = Some (Ok tt) /\ In ([str_of "home"; str_of "in"; str_of "d"], Time (Some (5, 6))) (deeds_of r)) /\
  (let r := get cwd digit digit 3 20 1 (str_of "new") [sent "C6 1 b"; bytes "!"] fs (close_client (s_client st)) in
   result_of r = Some (Err IOErr) /\ exists st', option_map snd r = Some st' /\ at_ (s_fs st') [str_of "home"; str_of "new"] = Some (EFile (str_of "!"))).
Proof. exists home, fs_ex. do 2 eexists. split; [vm_compute; reflexivity|]. split; [split; [vm_compute; reflexivity|vm_compute; auto 10]|]. split; [vm_compute; reflexivity|]. eexists. split; [vm_compute; reflexivity|]. vm_compute. reflexivity. Qed.
Print Assumptions C103_stale_directory_refuted.
(** A message in place of a command, a message cut in the middle, silence: an error, and
    nothing has been done. *)
Theorem C103_refused : forall cwd iparse oparse buff_size n local_path fs cl ch fuel s c code,
  Forall fname_ok cwd -> c_channel cl <> Used -> (n <= 1)%nat -> (length s < 1022)%nat ->
  let run served := get cwd iparse oparse buff_size (S fuel) n local_path served fs cl in
  let fails served e := exists st, run served = Some (Err e, st) /\ s_fs st = fs /\ s_deeds st = [] /\ s_heard st = [] in
  (~ In code [chr 67; chr 68; chr 69; chr 84] -> fails (Piece (code :: s ++ [chr 10]) :: ch) SCPError) /\
  (c <> chr 10 -> fails (Piece (code :: s ++ [c]) :: ch) AssertionError) /\
  fails (Quiet :: ch) IOErr.
Proof.
  intros cwd iparse oparse buff_size n local_path fs cl ch fuel s c code Hc Hu Hn Hl run fails.
  assert (R : forall x, recv 1024 (Piece (code :: s ++ [x]) :: ch) = Some (code :: s ++ [x], ch)).
  { intro x. assert (L : (length (code :: s ++ [x]) <= 1024)%nat) by (cbn [length]; rewrite app_length; cbn [length]; unfold str in *; lia).
    change (recv 1024 (Piece (code :: s ++ [x]) :: ch)) with (Some (firstn 1024 (code :: s ++ [x]), match skipn 1024 (code :: s ++ [x]) with [] => ch | r => Piece r :: ch end)).
    rewrite firstn_all2, skipn_all2 by exact L. reflexivity. }
  assert (Rv : forall x, rev (code :: s ++ [x]) = x :: rev (code :: s)) by (intro x; change (code :: s ++ [x]) with ((code :: s) ++ [x]); apply rev_app_distr).
  unfold fails, run. split; [|split].
  - intro H. rewrite get_runs by auto. cbn [recv_all s_chan]. rewrite R, Rv. change (Ascii.eqb (chr 10) nl) with true. cbn [negb]. rewrite rev_involutive.
    assert (N : carry_out cwd iparse oparse buff_size fuel code s (with_chan ch (mkstate fs [] [] (set_channel Used (set_rename (Nat.eqb n 1 && negb (is_dir (resolve cwd local_path) fs))%bool (set_dir (start_dir cwd local_path) cl))) (Piece (code :: s ++ [chr 10]) :: ch)))
      = Some (Err SCPError, with_chan ch (mkstate fs [] [] (set_channel Used (set_rename (Nat.eqb n 1 && negb (is_dir (resolve cwd local_path) fs))%bool (set_dir (start_dir cwd local_path) cl))) (Piece (code :: s ++ [chr 10]) :: ch)))).
    { unfold carry_out. destruct (Ascii.eqb_spec code "C") as [->|]; [exfalso; apply H; left; reflexivity|]. destruct (Ascii.eqb_spec code "T") as [->|]; [exfalso; apply H; right; right; right; left; reflexivity|].
      destruct (Ascii.eqb_spec code "D") as [->|]; [exfalso; apply H; right; left; reflexivity|]. destruct (Ascii.eqb_spec code "E") as [->|]; [exfalso; apply H; right; right; left; reflexivity|]. reflexivity. }
    rewrite N. eexists. split; [reflexivity|auto].
  - intro H. rewrite get_runs by auto. cbn [recv_all s_chan]. rewrite R, Rv. destruct (Ascii.eqb_spec c nl) as [->|]; [exfalso; apply H; reflexivity|]. cbn [negb]. eexists. split; [reflexivity|auto].
  - rewrite get_runs by auto. eexists. split; [reflexivity|auto].
Qed.
Print Assumptions C103_refused.
Example C103_ex_refused : result_of (get home digit digit 3 20 1 (str_of "in") [Piece (chr 1 :: str_of "scp: no such file" ++ [chr 10])] fs_ex new_client) = Some (Err SCPError) /\
  ~ In (chr 1) [chr 67; chr 68; chr 69; chr 84].
Proof. split; [reflexivity|]. cbn. intuition discriminate. Qed.
