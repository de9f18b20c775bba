(** Lemmas about receiving a whole tree over scp. *)
From Coq Require Import ZArith String Ascii Bool List Lia.
From Verif Require Import PyBase PyStr FsModel FsSpec FsProofs PathProofs ScpModel GetModel GetSpec GetProofs.
Import ListNotations.

(** ** Reading lines *)
Lemma recv_line : forall s ch, fits s -> recv 1024 (line s :: ch) = Some (s ++ [nl], ch).
Proof.
  intros s ch H. unfold line, fits in *. change (chr 10) with nl.
  assert (E : forall t, t <> [] -> recv 1024 (Piece t :: ch) = Some (firstn 1024 t, match skipn 1024 t with [] => ch | r => Piece r :: ch end)) by (intros [|c t] Ht; [congruence|reflexivity]).
  assert (L : (length (s ++ [nl]) <= 1024)%nat) by (rewrite app_length; cbn [length]; unfold str in *; lia).
  rewrite E by (destruct s; discriminate). rewrite firstn_all2, skipn_all2 by exact L. reflexivity.
Qed.
Lemma cut_blank_app : forall m r, ~ In " "%char m -> cut_blank (m ++ " "%char :: r) = (m, Some r).
Proof.
  induction m as [|c m IH]; intros r H; cbn [app cut_blank]; [reflexivity|]. destruct (Ascii.eqb_spec c " ") as [->|]; [exfalso; apply H; left; reflexivity|].
  rewrite IH by (intro Hi; apply H; right; exact Hi). reflexivity.
Qed.
Lemma cut_blank_none : forall m, ~ In " "%char m -> cut_blank m = (m, None).
Proof.
  induction m as [|c m IH]; intro H; cbn [cut_blank]; [reflexivity|]. destruct (Ascii.eqb_spec c " ") as [->|]; [exfalso; apply H; left; reflexivity|].
  rewrite IH by (intro Hi; apply H; right; exact Hi). reflexivity.
Qed.
Lemma white_iff : forall c, white c = true <-> In (nat_of_ascii c) [9; 10; 11; 12; 13; 32]%nat.
Proof.
  intro c. unfold white. cbv zeta. rewrite orb_true_iff, andb_true_iff, !Nat.leb_le, Nat.eqb_eq. cbn [In]. lia.
Qed.
Lemma solid_blank : forall s, solid s -> ~ In " "%char s.
Proof. intros s (_ & H) Hi. apply (H _ Hi). cbn. auto 10. Qed.
Lemma parts : forall m z r, solid m -> solid z -> let cmd := m ++ str_of " " ++ z ++ str_of " " ++ r in part1 cmd = m /\ part2 cmd = Some z /\ rest2 cmd = Some r.
Proof.
  intros m z r Hm Hz cmd. assert (E1 : cut_blank cmd = (m, Some (z ++ str_of " " ++ r))) by (apply (cut_blank_app m (z ++ str_of " " ++ r)); apply solid_blank; exact Hm).
  assert (E2 : cut_blank (z ++ str_of " " ++ r) = (z, Some r)) by (apply (cut_blank_app z r); apply solid_blank; exact Hz).
  unfold part1, part2, rest2, rest1. rewrite E1. cbn [fst snd option_map]. unfold part1. rewrite E2. auto.
Qed.
Lemma drop_white_solid : forall c s, white c = false -> drop_white (c :: s) = c :: s.
Proof. intros c s H. cbn [drop_white]. rewrite H. reflexivity. Qed.
Lemma bstrip_firm : forall s, (forall c r, s = c :: r -> white c = false) -> (forall r c, s = r ++ [c] -> white c = false) -> bstrip s = s.
Proof.
  intros s H1 H2. destruct s as [|a s]; [reflexivity|]. unfold bstrip. rewrite drop_white_solid by (apply (H1 a s); reflexivity).
  destruct (snoc_cases (a :: s) ltac:(discriminate)) as (r & c & E). rewrite E, rev_app_distr. cbn [rev app]. rewrite drop_white_solid by exact (H2 r c E).
  cbn [rev]. rewrite rev_involutive. reflexivity.
Qed.
Lemma bstrip_cmd : forall m z name, solid m -> name <> [] -> firm name -> let cmd := m ++ str_of " " ++ z ++ str_of " " ++ name in bstrip cmd = cmd.
Proof.
  intros m z name (Hm & Hw) Hn Hf cmd. apply bstrip_firm.
  - intros c r E. destruct m as [|a m]; [congruence|]. injection E as -> _. destruct (white c) eqn:W; [|reflexivity]. exfalso. apply white_iff in W. exact (Hw c (or_introl eq_refl) W).
  - intros r c E. destruct (snoc_cases name Hn) as (x & y & En). subst cmd. rewrite En, !app_assoc in E. apply app_inj_tail in E as [_ <-].
    destruct (white y) eqn:W; [|reflexivity]. exfalso. apply white_iff in W. exact (Hf x y En W).
Qed.
(** ** Reading contents *)
Lemma read_all : forall fuel buff pieces rest tail got pos size, (0 < buff)%nat -> Forall (fun s : str => s <> []) pieces -> concat pieces = rest ++ [nul] ->
  size = (pos + Z.of_nat (length rest))%Z -> (length rest <= fuel)%nat ->
  recv_data fuel buff size pos (map Piece pieces ++ tail) got = (got ++ rest, Some (Some (Piece [nul] :: tail))).
Proof.
  induction fuel as [|fuel IH]; intros buff pieces rest tail got pos size Hb Hp Hc Hs Hf.
  - destruct rest; [|cbn in Hf; lia]. cbn [length] in Hs. cbn [recv_data]. replace (Z.ltb pos size) with false by (symmetry; apply Z.ltb_ge; lia). rewrite app_nil_r.
    inversion Hp as [|x ps Hx Hps]; subst; [discriminate|]. cbn [concat app] in Hc. destruct x as [|a x]; [congruence|]. injection Hc as -> Hc. apply app_eq_nil in Hc as [-> Hc].
    destruct ps as [|y ps]; [reflexivity|]. inversion Hps; subst. cbn [concat] in Hc. apply app_eq_nil in Hc as [-> _]. congruence.
  - destruct rest as [|r0 rest].
    + cbn [length] in Hs. cbn [recv_data]. replace (Z.ltb pos size) with false by (symmetry; apply Z.ltb_ge; lia). rewrite app_nil_r.
      inversion Hp as [|x ps Hx Hps]; subst; [discriminate|]. cbn [concat app] in Hc. destruct x as [|a x]; [congruence|]. injection Hc as -> Hc. apply app_eq_nil in Hc as [-> Hc].
      destruct ps as [|y ps]; [reflexivity|]. inversion Hps; subst. cbn [concat] in Hc. apply app_eq_nil in Hc as [-> _]. congruence.
    + remember (r0 :: rest) as w eqn:Ew. assert (Lw : (0 < length w)%nat) by (rewrite Ew; cbn; lia). clear Ew.
      cbn [recv_data]. replace (Z.ltb pos size) with true by (symmetry; apply Z.ltb_lt; lia).
      set (b := if Z.leb (size - pos) (Z.of_nat buff) then Z.to_nat (size - pos) else buff).
      assert (B1 : (0 < b)%nat /\ (b <= length w)%nat).
      { unfold b. destruct (Z.leb_spec (size - pos) (Z.of_nat buff)); lia. }
      clearbody b. inversion Hp as [|x ps Hx Hps]; subst pieces; [destruct w; discriminate|]. cbn [map app].
      assert (E : recv b (Piece x :: map Piece ps ++ tail) = Some (firstn b x, match skipn b x with [] => map Piece ps ++ tail | r => Piece r :: map Piece ps ++ tail end)) by (destruct x; [congruence|reflexivity]).
      rewrite E. clear E. cbn [concat] in Hc.
      assert (Lb : (length (firstn b x) <= b)%nat) by (rewrite firstn_length; lia).
      assert (L1 : (0 < length (firstn b x))%nat) by (destruct x; [congruence|]; rewrite firstn_length; cbn [length]; lia).
      set (s := firstn b x) in *. assert (Ex : x = s ++ skipn b x) by (symmetry; apply firstn_skipn). set (y := skipn b x) in *. clearbody s y.
      assert (Es : exists w', w = s ++ w' /\ y ++ concat ps = w' ++ [nul]).
      { subst x. rewrite <- app_assoc in Hc. exists (skipn (length s) w).
        assert (W : firstn (length s) w = s).
        { assert (H : firstn (length s) (s ++ y ++ concat ps) = firstn (length s) (w ++ [nul])) by congruence.
          rewrite firstn_app, Nat.sub_diag, firstn_O, app_nil_r, firstn_all in H. rewrite firstn_app in H. replace (length s - length w)%nat with 0%nat in H by lia.
          rewrite firstn_O, app_nil_r in H. congruence. }
        pose proof (firstn_skipn (length s) w) as W2. rewrite W in W2. symmetry in W2.
        split; [exact W2|]. rewrite W2, <- app_assoc in Hc. apply app_inv_head in Hc. exact Hc. }
      destruct Es as (w' & -> & Hc'). rewrite app_length in *.
      rewrite (app_assoc got s w'). destruct y as [|y0 y].
      * apply (IH b ps w'); [lia|exact Hps|exact Hc'|lia|lia].
      * apply (IH b ((y0 :: y) :: ps) w' tail); [lia|constructor; [discriminate|exact Hps]|exact Hc'|lia|lia].
Qed.
(** ** Things served *)
Definition is_edir (e : ent) : bool := match e with EDir => true | EFile _ => false end.
Lemma node_at_cons : forall name n rest x rel, node_at ((name, n) :: rest) (x :: rel) = if str_eqb x name then node_at [(name, n)] (x :: rel) else node_at rest (x :: rel).
Proof.
  intros name n rest x rel. cbn [node_at aget]. destruct (str_eqb x name); reflexivity.
Qed.
Lemma node_at_keys : forall f x rel n, node_at f (x :: rel) = Some n -> In x (map fst f).
Proof.
  intros f x rel n H. cbn [node_at] in H. destruct (aget x f) eqn:E; [|discriminate]. apply aget_In in E. apply (in_map fst) in E. exact E.
Qed.
Lemma node_at_one : forall name n x rel m, node_at [(name, n)] (x :: rel) = Some m -> x = name.
Proof. intros name n x rel m H. apply node_at_keys in H. destruct H as [H|[]]. symmetry. exact H. Qed.
Lemma node_at_some : forall f rel n, node_at f rel = Some n -> exists x rel', rel = x :: rel'.
Proof. intros f [|x rel] n H; [discriminate|eauto]. Qed.
Lemma node_split : forall name n rest, ~ In name (map fst rest) -> forall rel m, node_at ((name, n) :: rest) rel = Some m <-> (node_at [(name, n)] rel = Some m \/ node_at rest rel = Some m).
Proof.
  intros name n rest H rel m. destruct rel as [|x rel]; [cbn; split; [discriminate|intros [|]; discriminate]|]. rewrite node_at_cons. destruct (str_eqb_spec x name) as [->|N].
  - split; [auto|]. intros [A|A]; [exact A|]. exfalso. apply H. exact (node_at_keys _ _ _ _ A).
  - split; [auto|]. intros [A|A]; [|exact A]. exfalso. apply N. exact (node_at_one _ _ _ _ _ A).
Qed.
Lemma node_apart : forall name n rest, ~ In name (map fst rest) -> forall D rel m rel' m', node_at [(name, n)] rel = Some m -> node_at rest rel' = Some m' -> D ++ rel <> D ++ rel'.
Proof.
  intros name n rest H D rel m rel' m' A A' E. apply app_inv_head in E. subst rel'. destruct (node_at_some _ _ _ A) as (x & r & ->).
  apply node_at_one in A. subst x. apply H. exact (node_at_keys _ _ _ _ A').
Qed.

(** what has been done for the things served, before the times of directories are set *)
Section Done.
Variable cwd : path.
Record done (D : path) (f : list (str * node)) (st st' : state) : Prop := mkdone {
  dn_fs : arrived D f (s_fs st) (s_fs st');
  dn_deeds : exists ds, s_deeds st' = s_deeds st ++ ds /\
    (forall rel n, node_at f rel = Some n -> In (D ++ rel, Mode (mode_of n)) ds /\ (ent_of n <> EDir -> In (D ++ rel, Time (times_of n)) ds)) /\
    (forall p d, In (p, d) ds -> exists rel n, node_at f rel = Some n /\ p = D ++ rel /\
       match d with Mode m => m = mode_of n | Time t => t = times_of n | Made => ent_of n = EDir | Wrote c => c = [] \/ ent_of n = EFile c end);
  dn_new : forall rel n, node_at f rel = Some n -> ent_of n = EDir -> exists s, resolve cwd s = D ++ rel /\ In (s, times_of n) (c_dirtimes (s_client st'));
  dn_old : forall s t, In (s, t) (c_dirtimes (s_client st)) -> (forall rel n, node_at f rel = Some n -> resolve cwd s <> D ++ rel) -> In (s, t) (c_dirtimes (s_client st'));
  dn_all : forall s t, In (s, t) (c_dirtimes (s_client st')) -> In (s, t) (c_dirtimes (s_client st)) \/ exists rel n, node_at f rel = Some n /\ resolve cwd s = D ++ rel /\ t = times_of n /\ ent_of n = EDir }.
Lemma done_nil : forall D st, done D [] st st.
Proof.
  assert (N : forall rel n, node_at [] rel = Some n -> False) by (intros [|x rel] n H; discriminate H).
  intros D st. constructor.
  - split; [intros rel n H; destruct (N _ _ H)|auto].
  - exists []. rewrite app_nil_r. split; [reflexivity|]. split; [intros rel n H; destruct (N _ _ H)|intros p d []].
  - intros rel n H. destruct (N _ _ H).
  - auto.
  - auto.
Qed.
Lemma arrived_cons : forall D name n rest fs fs1 fs2, ~ In name (map fst rest) -> arrived D [(name, n)] fs fs1 -> arrived D rest fs1 fs2 -> arrived D ((name, n) :: rest) fs fs2.
Proof.
  intros D name n rest fs fs1 fs2 H (a1 & a2) (b1 & b2). split.
  - intros rel m A. apply node_split in A; [|exact H]. destruct A as [A|A]; [|exact (b1 _ _ A)]. rewrite b2; [exact (a1 _ _ A)|].
    intros rel' m' A'. exact (node_apart _ _ _ H _ _ _ _ _ A A').
  - intros q Hq. rewrite b2, a2; [reflexivity| |]; intros rel m A; apply (Hq rel m); apply node_split; auto.
Qed.
Lemma done_cons : forall D name n rest st st1 st2, ~ In name (map fst rest) -> done D [(name, n)] st st1 -> done D rest st1 st2 -> done D ((name, n) :: rest) st st2.
Proof.
  intros D name n rest st st1 st2 H [a (ds1 & a1 & a2 & a3) a4 a5 a6] [b (ds2 & b1 & b2 & b3) b4 b5 b6]. constructor.
  - exact (arrived_cons _ _ _ _ _ _ _ H a b).
  - exists (ds1 ++ ds2). split; [rewrite b1, a1, app_assoc; reflexivity|]. split.
    + intros rel m A. apply node_split in A; [|exact H]. destruct A as [A|A].
      * destruct (a2 _ _ A) as (h1 & h2). split; [apply in_or_app; left; exact h1|intro E; apply in_or_app; left; exact (h2 E)].
      * destruct (b2 _ _ A) as (h1 & h2). split; [apply in_or_app; right; exact h1|intro E; apply in_or_app; right; exact (h2 E)].
    + intros p d Hi. apply in_app_or in Hi as [Hi|Hi].
      * destruct (a3 _ _ Hi) as (rel & m & A & h). exists rel, m. split; [apply node_split; auto|exact h].
      * destruct (b3 _ _ Hi) as (rel & m & A & h). exists rel, m. split; [apply node_split; auto|exact h].
  - intros rel m A E. apply node_split in A; [|exact H]. destruct A as [A|A]; [|exact (b4 _ _ A E)].
    destruct (a4 _ _ A E) as (s & h1 & h2). exists s. split; [exact h1|]. apply b5; [exact h2|]. intros rel' m' A'. rewrite h1. exact (node_apart _ _ _ H _ _ _ _ _ A A').
  - intros s t Hi Hn. apply b5; [apply a5; [exact Hi|]|]; intros rel m A; apply (Hn rel m); apply node_split; auto.
  - intros s t Hi. destruct (b6 _ _ Hi) as [Hi'|(rel & m & A & h)].
    + destruct (a6 _ _ Hi') as [h|(rel & m & A & h)]; [left; exact h|]. right. exists rel, m. split; [apply node_split; auto|exact h].
    + right. exists rel, m. split; [apply node_split; auto|exact h].
Qed.
End Done.
Lemma welcome_one : forall D name n rest fs, ~ In name (map fst rest) -> welcome D ((name, n) :: rest) fs -> welcome D [(name, n)] fs.
Proof. intros D name n rest fs H W rel m A. apply (W rel m). apply node_split; auto. Qed.
Lemma welcome_rest : forall D name n rest fs fs1, ~ In name (map fst rest) -> welcome D ((name, n) :: rest) fs -> arrived D [(name, n)] fs fs1 -> welcome D rest fs1.
Proof.
  intros D name n rest fs fs1 H W (a1 & a2) rel m A. rewrite a2.
  - apply (W rel m). apply node_split; auto.
  - intros rel' m' A' E. symmetry in E. exact (node_apart _ _ _ H _ _ _ _ _ A' A E).
Qed.
(** a directory and its contents *)
Lemma node_dir : forall b mode times ch rel m, node_at [(b, NDir mode times ch)] rel = Some m <-> (rel = [b] /\ m = NDir mode times ch) \/ exists rel', rel = b :: rel' /\ node_at ch rel' = Some m.
Proof.
  intros b mode times ch rel m. split.
  - intro H. destruct (node_at_some _ _ _ H) as (x & r & ->). pose proof (node_at_one _ _ _ _ _ H) as ->. cbn [node_at aget] in H. rewrite str_eqb_refl in H. destruct r as [|y r].
    + left. split; congruence.
    + right. exists (y :: r). auto.
  - intros [(-> & ->)|(r & -> & H)]; cbn [node_at aget]; rewrite str_eqb_refl; [reflexivity|]. destruct r; [discriminate|exact H].
Qed.
Lemma node_file : forall b mode times c rel m, node_at [(b, NFile mode times c)] rel = Some m <-> rel = [b] /\ m = NFile mode times c.
Proof.
  intros b mode times c rel m. split.
  - intro H. destruct (node_at_some _ _ _ H) as (x & r & ->). pose proof (node_at_one _ _ _ _ _ H) as ->. cbn [node_at aget] in H. rewrite str_eqb_refl in H. destruct r as [|y r]; [split; congruence|discriminate].
  - intros (-> & ->). cbn [node_at aget]. rewrite str_eqb_refl. reflexivity.
Qed.

(** ** Carrying it out *)
Section Run.
Variable cwd : path.
Variables iparse oparse : str -> option Z.
Variable buff_size : nat.
Hypothesis buff_pos : (0 < buff_size)%nat.
Notation recv_all := (recv_all cwd iparse oparse buff_size). Notation carry_out := (carry_out cwd iparse oparse buff_size).
Notation done := (done cwd).
Lemma line_step : forall fuel code cmd ch st, s_chan st = line (code :: cmd) :: ch -> fits (code :: cmd) ->
  recv_all (S fuel) st = match carry_out fuel code cmd (with_chan ch st) with None => None | Some (Ok _, st) => recv_all fuel st | Some (Err e, st) => Some (Err e, st) end.
Proof.
  intros fuel code cmd ch st Hc Hf. cbn [GetModel.recv_all]. rewrite Hc, recv_line by exact Hf. rewrite rev_app_distr. cbn [rev app].
  change (Ascii.eqb nl nl) with true. cbn [negb]. rewrite rev_app_distr, rev_involutive. cbn [rev app]. reflexivity.
Qed.
Lemma time_step : forall t evs tail st, timing iparse t evs -> s_chan st = evs ++ tail -> c_utime (s_client st) = None ->
  exists k st1, (forall fuel, recv_all (k + fuel) st = recv_all fuel st1) /\ s_chan st1 = tail /\ s_client st1 = set_utime t (s_client st) /\ s_fs st1 = s_fs st /\ s_deeds st1 = s_deeds st.
Proof.
  intros t evs tail st H Hc Hu. destruct H as [|a m ta tm z Ha Hm Hz Hf Hn].
  - exists 0%nat, st. split; [reflexivity|]. split; [exact Hc|]. split; [|auto]. destruct (s_client st); cbn in *. rewrite Hu. reflexivity.
  - exists 1%nat. set (cmd := tm ++ str_of " " ++ z ++ str_of " " ++ ta ++ str_of " " ++ z) in *.
    destruct (parts tm z (ta ++ str_of " " ++ z) (proj1 Hm) Hz) as (p1 & _ & p2). fold cmd in p1, p2.
    assert (p3 : part3 cmd = Some ta).
    { unfold part3. rewrite p2. cbn [option_map]. unfold part1. change (ta ++ str_of " " ++ z) with (ta ++ " "%char :: z). rewrite (cut_blank_app ta z) by (apply solid_blank; exact (proj1 Ha)). reflexivity. }
    exists (with_client (set_utime (Some (a, m)) (s_client st)) (heard CTime (with_chan tail st))). split; [|auto].
    intro fuel. change (1 + fuel)%nat with (S fuel). rewrite (line_step fuel "T" cmd tail st Hc Hf). unfold GetModel.carry_out.
    change (Ascii.eqb "T" "C") with false. change (Ascii.eqb "T" "T") with true. cbv iota. unfold set_time. rewrite p1, p3. cbn [option_map]. rewrite (proj2 Ha), (proj2 Hm).
    destruct (Z.eqb_spec a 0); [contradiction|]. reflexivity.
Qed.
Lemma write_ok : forall p T c st, ends_sl p = false -> resolve cwd p = T -> T <> [] -> at_ (s_fs st) (removelast T) = Some EDir -> at_ (s_fs st) T <> Some EDir ->
  exists fs, write_file cwd p c st = Some (did cwd p (Wrote c) (with_fs fs st)) /\ at_ fs T = Some (EFile c) /\ forall q, q <> T -> at_ fs q = at_ (s_fs st) q.
Proof.
  intros p T c st He Hr Hn Hp Ht. destruct (place_ok T (s_fs st) (File c) Hn Hp) as (fs & P). exists fs. split.
  - unfold write_file. rewrite He, Hr. assert (F : match find (s_fs st) T with Some (Dir _) => False | _ => True end).
    { destruct (find (s_fs st) T) as [[|es]|] eqn:E; [exact I| |exact I]. apply Ht. apply find_dir. exists es. exact E. }
    destruct (find (s_fs st) T) as [[|es]|]; [| destruct F |]; rewrite P; reflexivity.
  - split; [rewrite (at_place _ _ _ _ P), cut_self; reflexivity|]. intros q Hq. rewrite (at_place _ _ _ _ P). destruct (cut T q) as [r|] eqn:E; [|reflexivity].
    apply cut_Some in E. subst q. assert (Hr' : r <> []) by (intros ->; apply Hq; apply app_nil_r). destruct r as [|x r]; [congruence|]. symmetry.
    change (at_ (s_fs st) (T ++ x :: r) = None). destruct (at_ (s_fs st) T) as [[d|]|] eqn:A; [|congruence|].
    + exact (at_under_file _ _ _ _ A Hr').
    + exact (at_under_none _ _ _ A).
Qed.
Lemma file_run : forall name mode times content m z pieces tail st p used cl PD b,
  number oparse mode m -> number iparse (Z.of_nat (length content)) z -> fits (str_of "C" ++ m ++ str_of " " ++ z ++ str_of " " ++ name) ->
  concat pieces = content ++ [chr 0] -> Forall (fun s : str => s <> []) pieces -> name <> [] -> firm name ->
  s_chan st = line (str_of "C" ++ m ++ str_of " " ++ z ++ str_of " " ++ name) :: map Piece pieces ++ tail -> c_utime (s_client st) = times ->
  target (Some name) (s_client st) = Some (p, used, cl) -> resolve cwd p = PD ++ [b] -> ends_sl p = false -> at_ (s_fs st) PD = Some EDir -> at_ (s_fs st) (PD ++ [b]) <> Some EDir ->
  exists st', (forall fuel, (length content <= fuel)%nat -> recv_all (1 + fuel) st = recv_all fuel st') /\ s_chan st' = tail /\ s_client st' = set_utime None cl /\
    done PD [(b, NFile mode times content)] st st'.
Proof.
  intros name mode times content m z pieces tail st p used cl PD b Hm Hz Hf Hc Hp Hn Hfirm Hch Hu Ht Hr He Hd Hnd.
  set (cmd := m ++ str_of " " ++ z ++ str_of " " ++ name) in *.
  destruct (parts m z name (proj1 Hm) (proj1 Hz)) as (p1 & p2 & p3). fold cmd in p1, p2, p3.
  pose proof (bstrip_cmd m z name (proj1 Hm) Hn Hfirm) as Hs. cbv zeta in Hs. fold cmd in Hs.
  set (T := PD ++ [b]) in *. assert (HT : T <> []) by (unfold T; destruct PD; discriminate). assert (HP : removelast T = PD) by apply removelast_snoc.
  set (st1 := heard (CFile used) (with_client cl (with_chan (map Piece pieces ++ tail) st))).
  destruct (write_ok p T [] st1 He Hr HT) as (fs1 & W1 & w1 & w2); [rewrite HP; exact Hd|exact Hnd|].
  set (st2 := did cwd p (Wrote []) (with_fs fs1 st1)) in *.
  assert (HPT : PD <> T) by (intro E; apply (f_equal (@length _)) in E; unfold T in E; rewrite app_length in E; cbn [length] in E; lia).
  destruct (write_ok p T content st2 He Hr HT) as (fs2 & W2 & w3 & w4).
  { rewrite HP. cbn [st2 did with_fs s_fs]. rewrite w2 by exact HPT. exact Hd. }
  { cbn [st2 did with_fs s_fs]. rewrite w1. discriminate. }
  set (st3 := did cwd p (Wrote content) (with_fs fs2 st2)) in *.
  destruct (target_spec _ _ _ _ _ Ht) as (t1 & t2 & t3 & t4 & t5 & _).
  set (st4 := did cwd p (Mode mode) (with_client (set_utime None (s_client (with_chan tail st3))) (did cwd p (Time (c_utime (s_client (with_chan tail st3)))) (with_chan tail st3)))).
  exists st4. split; [|split; [reflexivity|split; [reflexivity|]]].
  - intros fuel Hfuel. change (1 + fuel)%nat with (S fuel). rewrite (line_step fuel "C" cmd _ st Hch Hf). unfold GetModel.carry_out.
    change (Ascii.eqb "C" "C") with true. cbv iota. unfold recv_file. rewrite Hs, p1, p2, p3. cbn [option_map with_chan s_client]. rewrite (proj2 Hm), (proj2 Hz), Ht. fold st1. rewrite W1.
    change (s_chan st1) with (map Piece pieces ++ tail). rewrite (read_all fuel buff_size pieces content tail [] 0 (Z.of_nat (length content))) by (try exact buff_pos; try exact Hp; try exact Hc; try exact Hfuel; lia).
    cbn [app]. rewrite W2. fold st3. cbn [recv]. reflexivity.
  - assert (Tm : c_utime (s_client (with_chan tail st3)) = times) by (cbn; rewrite t3; exact Hu).
    constructor.
    + split.
      * intros rel n A. apply node_file in A as (-> & ->). exact w3.
      * intros q Hq. assert (N : q <> T) by (apply (Hq [b] (NFile mode times content)); apply node_file; auto). cbn [st4 did with_client with_chan st3 with_fs s_fs].
        rewrite w4 by exact N. cbn [st2 did with_fs s_fs]. rewrite w2 by exact N. reflexivity.
    + exists [(T, Wrote []); (T, Wrote content); (T, Time times); (T, Mode mode)]. split; [|split].
      * unfold st4. rewrite Tm. cbn [did with_client with_chan st3 st2 st1 heard with_fs s_deeds]. rewrite Hr, <- !app_assoc. reflexivity.
      * intros rel n A. apply node_file in A as (-> & ->). fold T. cbn [mode_of times_of]. split; [right; right; right; left; reflexivity|]. intros _. right; right; left; reflexivity.
      * intros q d Hi. exists [b], (NFile mode times content). split; [apply node_file; auto|].
        destruct Hi as [E|[E|[E|[E|[]]]]]; injection E as <- <-; split; try reflexivity; cbn; auto.
    + intros rel n A E. apply node_file in A as (-> & ->). discriminate.
    + intros s t Hi _. cbn. rewrite t4. exact Hi.
    + intros s t Hi. left. cbn in Hi. rewrite t4 in Hi. exact Hi.
Qed.
(** directories *)
Lemma put_time_self : forall k v d, In (k, v) (put_time k v d).
Proof. intros k v d. induction d as [|[k' v'] d IH]; cbn [put_time]; [left; reflexivity|]. destruct (str_eqb_spec k k') as [->|]; [left; reflexivity|right; exact IH]. Qed.
Lemma put_time_other : forall k v d s t, In (s, t) d -> s <> k -> In (s, t) (put_time k v d).
Proof.
  intros k v d s t. induction d as [|[k' v'] d IH]; intros H N; cbn [put_time]; [destruct H|]. destruct (str_eqb_spec k k') as [->|]; destruct H as [H|H].
  - congruence.
  - right. exact H.
  - left. exact H.
  - right. exact (IH H N).
Qed.
Lemma put_time_back : forall k v d s t, In (s, t) (put_time k v d) -> (s = k /\ t = v) \/ In (s, t) d.
Proof.
  intros k v d s t. induction d as [|[k' v'] d IH]; cbn [put_time]; intro H.
  - destruct H as [H|[]]. left. split; congruence.
  - destruct (str_eqb_spec k k') as [->|]; destruct H as [H|H].
    + left. split; congruence.
    + right. right. exact H.
    + right. left. exact H.
    + destruct (IH H) as [h|h]; [left; exact h|right; right; exact h].
Qed.
Lemma dir_enter : forall name mode times m z ch st p used cl PD b,
  number oparse mode m -> solid z -> fits (str_of "D" ++ m ++ str_of " " ++ z ++ str_of " " ++ name) ->
  s_chan st = line (str_of "D" ++ m ++ str_of " " ++ z ++ str_of " " ++ name) :: ch -> c_utime (s_client st) = times ->
  target (Some name) (s_client st) = Some (p, used, cl) -> resolve cwd p = PD ++ [b] -> at_ (s_fs st) PD = Some EDir -> (forall c, at_ (s_fs st) (PD ++ [b]) <> Some (EFile c)) ->
  exists st1 ds, (forall fuel, recv_all (1 + fuel) st = recv_all fuel st1) /\ s_chan st1 = ch /\
    s_client st1 = set_dir p (set_utime None (set_dirtimes (put_time p times (c_dirtimes cl)) cl)) /\
    at_ (s_fs st1) (PD ++ [b]) = Some EDir /\ (forall q, q <> PD ++ [b] -> at_ (s_fs st1) q = at_ (s_fs st) q) /\
    s_deeds st1 = s_deeds st ++ ds /\ In (PD ++ [b], Mode mode) ds /\ forall q d, In (q, d) ds -> q = PD ++ [b] /\ (d = Made \/ d = Mode mode).
Proof.
  intros name mode times m z ch st p used cl PD b Hm Hz Hf Hch Hu Ht Hr Hd Hnf.
  set (cmd := m ++ str_of " " ++ z ++ str_of " " ++ name) in *.
  destruct (parts m z name (proj1 Hm) Hz) as (p1 & p2 & p3). fold cmd in p1, p2, p3.
  set (T := PD ++ [b]) in *. assert (HT : T <> []) by (unfold T; destruct PD; discriminate). assert (HP : removelast T = PD) by apply removelast_snoc.
  destruct (target_spec _ _ _ _ _ Ht) as (t1 & t2 & t3 & t4 & t5 & _).
  set (st0 := heard (CDir used) (with_client cl (with_chan ch st))).
  assert (Run : forall fuel, recv_all (1 + fuel) st = match recv_pushd cwd oparse cmd (with_chan ch st) with (Ok _, st) => recv_all fuel st | (Err e, st) => Some (Err e, st) end).
  { intro fuel. change (1 + fuel)%nat with (S fuel). rewrite (line_step fuel "D" cmd _ st Hch Hf). unfold GetModel.carry_out.
    change (Ascii.eqb "D" "C") with false. change (Ascii.eqb "D" "T") with false. change (Ascii.eqb "D" "D") with true. cbv iota. destruct (recv_pushd cwd oparse cmd (with_chan ch st)) as [[]]; reflexivity. }
  assert (Cl : forall st2, s_client st2 = cl -> set_dir p (set_utime None (set_dirtimes (put_time p (c_utime (s_client st2)) (c_dirtimes (s_client st2))) (s_client st2)))
     = set_dir p (set_utime None (set_dirtimes (put_time p times (c_dirtimes cl)) cl))) by (intros st2 ->; rewrite t3, Hu; reflexivity).
  unfold recv_pushd in Run. rewrite p1, p3 in Run. cbn [with_chan s_client] in Run. rewrite (proj2 Hm), Ht in Run. fold (with_chan ch st) in Run. fold st0 in Run.
  change (s_fs st0) with (s_fs st) in Run. rewrite Hr in Run.
  destruct (find (s_fs st) T) as [[c|es]|] eqn:F.
  - exfalso. apply (Hnf c). apply find_file. exact F.
  - eexists. exists [(T, Mode mode)]. split; [exact Run|]. split; [reflexivity|]. split; [cbn [with_client s_client]; apply Cl; reflexivity|]. split; [apply find_dir; exists es; exact F|].
    split; [reflexivity|]. split; [cbn [with_client did s_deeds]; rewrite Hr; reflexivity|]. split; [left; reflexivity|]. intros q d [E|[]]. injection E as <- <-. auto.
  - destruct (place_ok T (s_fs st) (Dir []) HT) as (fs & P); [rewrite HP; exact Hd|]. rewrite P in Run.
    eexists. exists [(T, Made); (T, Mode mode)]. split; [exact Run|]. split; [reflexivity|]. split; [cbn [with_client s_client]; apply Cl; reflexivity|].
    cbn [with_client did with_fs s_fs s_deeds]. split; [rewrite (at_place _ _ _ _ P), cut_self; reflexivity|]. split.
    + intros q Hq. rewrite (at_place _ _ _ _ P). destruct (cut T q) as [r|] eqn:E; [|reflexivity]. apply cut_Some in E. subst q.
      assert (Hr' : r <> []) by (intros ->; apply Hq; apply app_nil_r). rewrite (at_under_none _ _ _ (proj1 (find_none _ _) F)). destruct r; [congruence|reflexivity].
    + split; [rewrite Hr, <- app_assoc; reflexivity|]. split; [right; left; reflexivity|]. intros q d [E|[E|[]]]; injection E as <- <-; auto.
Qed.
Lemma done_dir : forall PD b mode times ch p cl st st1 st2 ds,
  resolve cwd p = PD ++ [b] -> c_dirtimes cl = c_dirtimes (s_client st) -> s_client st1 = set_dir p (set_utime None (set_dirtimes (put_time p times (c_dirtimes cl)) cl)) ->
  at_ (s_fs st1) (PD ++ [b]) = Some EDir -> (forall q, q <> PD ++ [b] -> at_ (s_fs st1) q = at_ (s_fs st) q) ->
  s_deeds st1 = s_deeds st ++ ds -> In (PD ++ [b], Mode mode) ds -> (forall q d, In (q, d) ds -> q = PD ++ [b] /\ (d = Made \/ d = Mode mode)) ->
  done (PD ++ [b]) ch st1 st2 -> done PD [(b, NDir mode times ch)] st st2.
Proof.
  intros PD b mode times ch p cl st st1 st2 ds Hr Hcl Hc Ha Ho Hds Hm Hall [(a1 & a2) (ds' & b1 & b2 & b3) c1 c2 c3].
  set (T := PD ++ [b]) in *.
  assert (Sub : forall rel, PD ++ b :: rel = T ++ rel) by (intro rel; unfold T; rewrite <- app_assoc; reflexivity).
  assert (Ne : forall rel n, node_at ch rel = Some n -> T <> T ++ rel).
  { intros rel n A E. destruct (node_at_some _ _ _ A) as (x & r & ->). rewrite <- (app_nil_r T) in E at 1. apply app_inv_head in E. discriminate. }
  assert (Top : node_at [(b, NDir mode times ch)] [b] = Some (NDir mode times ch)) by (apply node_dir; auto).
  assert (In_ : forall rel n, node_at ch rel = Some n -> node_at [(b, NDir mode times ch)] (b :: rel) = Some n) by (intros rel n A; apply node_dir; eauto).
  assert (Dt : c_dirtimes (s_client st1) = put_time p times (c_dirtimes (s_client st))) by (rewrite Hc; cbn; rewrite Hcl; reflexivity).
  constructor.
  - split.
    + intros rel n A. apply node_dir in A as [(-> & ->)|(rel' & -> & A)].
      * fold T. rewrite a2; [exact Ha|]. intros rel n A. exact (Ne _ _ A).
      * rewrite Sub. exact (a1 _ _ A).
    + intros q Hq. rewrite a2, Ho; [reflexivity|exact (Hq _ _ Top)|]. intros rel n A. rewrite <- Sub. exact (Hq _ _ (In_ _ _ A)).
  - exists (ds ++ ds'). split; [rewrite b1, Hds, app_assoc; reflexivity|]. split.
    + intros rel n A. apply node_dir in A as [(-> & ->)|(rel' & -> & A)].
      * split; [apply in_or_app; left; exact Hm|]. intro E. exfalso. apply E. reflexivity.
      * rewrite Sub. destruct (b2 _ _ A) as (h1 & h2). split; [apply in_or_app; right; exact h1|]. intro E. apply in_or_app. right. exact (h2 E).
    + intros q d Hi. apply in_app_or in Hi as [Hi|Hi].
      * destruct (Hall _ _ Hi) as (-> & h). exists [b], (NDir mode times ch). split; [exact Top|]. split; [reflexivity|]. destruct h as [-> | ->]; reflexivity.
      * destruct (b3 _ _ Hi) as (rel & n & A & -> & h). exists (b :: rel), n. split; [exact (In_ _ _ A)|]. split; [symmetry; apply Sub|exact h].
  - intros rel n A E. apply node_dir in A as [(-> & ->)|(rel' & -> & A)].
    + exists p. split; [exact Hr|]. apply c2; [rewrite Dt; apply put_time_self|]. intros rel n A. rewrite Hr. exact (Ne _ _ A).
    + rewrite Sub. exact (c1 _ _ A E).
  - intros s t Hi Hn. apply c2.
    + rewrite Dt. apply put_time_other; [exact Hi|]. intros ->. exact (Hn _ _ Top Hr).
    + intros rel n A. rewrite <- Sub. exact (Hn _ _ (In_ _ _ A)).
  - intros s t Hi. destruct (c3 _ _ Hi) as [Hi'|(rel & n & A & h1 & h2)].
    + rewrite Dt in Hi'. apply put_time_back in Hi' as [(-> & ->)|h]; [|left; exact h]. right. exists [b], (NDir mode times ch). auto.
    + right. exists (b :: rel), n. split; [exact (In_ _ _ A)|]. split; [rewrite Sub; exact h1|exact h2].
Qed.
(** ** Whole trees *)
Definition inner_ok (name : str) (n : node) : Prop := match n with NFile _ _ _ => firm name | NDir _ _ ch => tidy ch end.
Scheme serves_mut := Induction for serves Sort Prop with serves_all_mut := Induction for serves_all Sort Prop.
Definition runs_item (name : str) (n : node) (evs : list event) : Prop := forall tail st p used cl PD b B q,
  name <> [] -> inner_ok name n -> s_chan st = evs ++ tail -> c_utime (s_client st) = None -> target (Some name) (s_client st) = Some (p, used, cl) ->
  resolve cwd p = PD ++ [b] -> (ent_of n <> EDir -> ends_sl p = false) -> at_ (s_fs st) PD = Some EDir -> welcome PD [(b, n)] (s_fs st) -> chain cwd B p q ->
  exists k N st', (forall fuel, (N <= fuel)%nat -> recv_all (k + fuel) st = recv_all fuel st') /\ s_chan st' = tail /\ c_utime (s_client st') = None /\ c_rename (s_client st') = false /\
    c_channel (s_client st') = c_channel (s_client st) /\
    (if is_edir (ent_of n) then exists s1, c_dir (s_client st') = fst (os_split s1) /\ chain cwd B s1 q else c_dir (s_client st') = c_dir (s_client st)) /\
    done PD [(b, n)] st st'.
Definition runs_all (f : list (str * node)) (evs : list event) : Prop := forall tail st B q,
  tidy f -> s_chan st = evs ++ tail -> c_utime (s_client st) = None -> c_rename (s_client st) = false -> chain cwd B (c_dir (s_client st)) q ->
  at_ (s_fs st) (B ++ q) = Some EDir -> welcome (B ++ q) f (s_fs st) ->
  exists k N st', (forall fuel, (N <= fuel)%nat -> recv_all (k + fuel) st = recv_all fuel st') /\ s_chan st' = tail /\ c_utime (s_client st') = None /\ c_rename (s_client st') = false /\
    c_channel (s_client st') = c_channel (s_client st) /\ chain cwd B (c_dir (s_client st')) q /\ done (B ++ q) f st st'.
Lemma done_ext : forall D f st st' st0, s_fs st0 = s_fs st -> s_deeds st0 = s_deeds st -> c_dirtimes (s_client st0) = c_dirtimes (s_client st) -> done D f st0 st' -> done D f st st'.
Proof. intros D f st st' st0 h1 h2 h3 [a b c d e]. rewrite h1 in a. rewrite h2 in b. rewrite h3 in d, e. constructor; assumption. Qed.
Lemma done_ext2 : forall D f st st' st0, s_fs st0 = s_fs st' -> s_deeds st0 = s_deeds st' -> c_dirtimes (s_client st0) = c_dirtimes (s_client st') -> done D f st st0 -> done D f st st'.
Proof. intros D f st st' st0 h1 h2 h3 [a b c d e]. rewrite h1 in a. rewrite h2 in b. rewrite h3 in c, d, e. constructor; assumption. Qed.
Lemma target_utime : forall name c t p used cl, target name c = Some (p, used, cl) -> target name (set_utime t c) = Some (p, used, set_utime t cl).
Proof.
  intros name c t p used cl H. unfold target in *. cbn [set_utime c_rename c_dir]. destruct (c_rename c).
  - injection H as <- <- <-. reflexivity.
  - destruct name; [|discriminate]. injection H as <- <- <-. reflexivity.
Qed.
Lemma tidy_cons : forall name n rest, tidy ((name, n) :: rest) -> fname_ok name /\ inner_ok name n /\ ~ In name (map fst rest) /\ tidy rest.
Proof. intros name n rest H. inversion H; subst; cbn; auto. Qed.
Lemma all_none : runs_all [] [].
Proof.
  intros tail st B q _ Hch Hu Hr C _ _. exists 0%nat, 0%nat, st. repeat (split; [assumption || reflexivity|]). apply done_nil.
Qed.
Lemma all_more : forall name n rest evs evs', runs_item name n evs -> runs_all rest evs' -> runs_all ((name, n) :: rest) (evs ++ evs').
Proof.
  intros name n rest evs evs' IH1 IH2 tail st B q T Hch Hu Hrn C Hd Hw. destruct (tidy_cons _ _ _ T) as (T1 & T2 & T3 & T4).
    assert (Hp : chain cwd B (os_join (c_dir (s_client st)) name) (q ++ [name])) by (apply chain_step; assumption).
    rewrite <- app_assoc in Hch. destruct (IH1 (evs' ++ tail) st (os_join (c_dir (s_client st)) name) (Some name) (s_client st) (B ++ q) name B (q ++ [name])) as (k1 & N1 & st1 & r1 & h1 & h2 & h3 & h4 & h5 & h6); try assumption.
    + exact (proj1 T1).
    + unfold target. rewrite Hrn. reflexivity.
    + rewrite (chain_resolve _ _ _ _ Hp), app_assoc. reflexivity.
    + intros _. exact (proj2 (join_ends _ _ T1)).
    + exact (welcome_one _ _ _ _ _ T3 Hw).
    + assert (C1 : chain cwd B (c_dir (s_client st1)) q).
      { destruct (is_edir (ent_of n)); [|rewrite h5; exact C]. destruct h5 as (s1 & -> & h5). exact (chain_pop _ _ _ _ _ h5). }
      destruct (IH2 tail st1 B q) as (k2 & N2 & st2 & r2 & g1 & g2 & g3 & g4 & g5 & g6); try assumption.
      * rewrite (proj2 (dn_fs _ _ _ _ _ h6)); [exact Hd|]. intros rel m A E. destruct (node_at_some _ _ _ A) as (x & r & ->). rewrite <- (app_nil_r (B ++ q)) in E at 1. apply app_inv_head in E. discriminate.
      * exact (welcome_rest _ _ _ _ _ _ T3 Hw (dn_fs _ _ _ _ _ h6)).
      * exists (k1 + k2)%nat, (N1 + N2)%nat, st2. split; [intros fuel Hfu; rewrite <- Nat.add_assoc, r1, r2 by lia; reflexivity|]. split; [exact g1|]. split; [exact g2|]. split; [exact g3|].
        split; [congruence|]. split; [exact g5|]. exact (done_cons _ _ _ _ _ _ _ _ T3 h6 g6).
Qed.
Lemma runs : forall name n evs, serves iparse oparse name n evs -> runs_item name n evs.
Proof.
  apply (serves_mut iparse oparse (fun name n evs _ => runs_item name n evs) (fun f evs _ => runs_all f evs)).
  - intros name mode times content t m z pieces Ht Hm Hz Hf Hc Hp tail st p used cl PD b B q Hne Hin Hch Hu Htg Hr He Hd Hw _.
    rewrite <- app_assoc in Hch. destruct (time_step _ _ _ _ Ht Hch Hu) as (k1 & st1 & r1 & h1 & h2 & h3 & h4).
    assert (Htg1 : target (Some name) (s_client st1) = Some (p, used, set_utime times cl)) by (rewrite h2; apply target_utime; exact Htg).
    destruct (target_spec _ _ _ _ _ Htg) as (t1 & t2 & t3 & t4 & t5 & _).
    destruct (file_run name mode times content m z pieces tail st1 p used (set_utime times cl) PD b Hm Hz Hf Hc Hp Hne Hin) as (st' & r2 & g1 & g2 & g3); try assumption.
    + rewrite h2. reflexivity.
    + apply He. discriminate.
    + rewrite h3. exact Hd.
    + rewrite h3. intro E. specialize (Hw [b] (NFile mode times content) ltac:(apply node_file; auto)). cbn in Hw. rewrite E in Hw. exact Hw.
    + exists (k1 + 1)%nat, (length content), st'. split; [intros fuel Hfu; rewrite <- Nat.add_assoc, r1, r2 by exact Hfu; reflexivity|]. split; [exact g1|].
      rewrite g2. cbn [set_utime c_utime c_rename c_channel c_dir ent_of is_edir]. split; [reflexivity|]. split; [exact t5|]. split; [exact t1|]. split; [exact t2|].
      apply (done_ext _ _ _ _ st1); [exact h3|exact h4|rewrite h2; reflexivity|exact g3].
  - intros name mode times children t m z inner Ht Hm Hz Hf Hs IH tail st p used cl PD b B q Hne Hin Hch Hu Htg Hr He Hd Hw C.
    rewrite <- app_assoc in Hch. destruct (time_step _ _ _ _ Ht Hch Hu) as (k1 & st1 & r1 & h1 & h2 & h3 & h4).
    assert (Htg1 : target (Some name) (s_client st1) = Some (p, used, set_utime times cl)) by (rewrite h2; apply target_utime; exact Htg).
    destruct (target_spec _ _ _ _ _ Htg) as (t1 & t2 & t3 & t4 & t5 & _).
    assert (Top : node_at [(b, NDir mode times children)] [b] = Some (NDir mode times children)) by (apply node_dir; auto).
    cbn [app] in h1. rewrite <- app_assoc in h1. destruct (dir_enter name mode times m z _ st1 p used (set_utime times cl) PD b Hm Hz Hf h1) as (st2 & ds & r2 & g1 & g2 & g3 & g4 & g5 & g6 & g7); try assumption.
    + rewrite h2. reflexivity.
    + rewrite h3. exact Hd.
    + rewrite h3. intros c E. specialize (Hw [b] (NDir mode times children) Top). cbn in Hw. rewrite E in Hw. exact Hw.
    + assert (EqT : B ++ q = PD ++ [b]) by (rewrite <- Hr; symmetry; apply chain_resolve; exact C).
      destruct (IH ([line (str_of "E")] ++ tail) st2 B q) as (k3 & N3 & st3 & r3 & i1 & i2 & i3 & i4 & i5 & i6).
      * exact Hin.
      * exact g1.
      * rewrite g2. reflexivity.
      * rewrite g2. exact t5.
      * rewrite g2. exact C.
      * rewrite EqT. exact g3.
      * rewrite EqT. intros rel n A. specialize (Hw (b :: rel) n ltac:(apply node_dir; eauto)). replace (PD ++ b :: rel) with ((PD ++ [b]) ++ rel) in Hw by (rewrite <- app_assoc; reflexivity).
        rewrite g4, h3; [exact Hw|]. intro E. destruct (node_at_some _ _ _ A) as (x & r & ->). rewrite <- (app_nil_r (PD ++ [b])) in E at 2. apply app_inv_head in E. discriminate.
      * set (st4 := with_client (set_dir (fst (os_split (c_dir (s_client st3)))) (s_client st3)) (heard CUp (with_chan tail st3))).
        assert (r4 : forall fuel, recv_all (1 + fuel) st3 = recv_all fuel st4).
        { intro fuel. change (1 + fuel)%nat with (S fuel). rewrite (line_step fuel "E" [] tail st3 i1) by (unfold fits; cbn; lia). reflexivity. }
        exists (k1 + (1 + (k3 + 1)))%nat, N3, st4. split.
        { intros fuel Hfu. rewrite <- !Nat.add_assoc, r1. rewrite r2. rewrite r3 by lia. apply r4. }
        split; [reflexivity|]. split; [exact i2|]. split; [exact i3|]. split; [change (c_channel (s_client st3) = c_channel (s_client st)); rewrite i4, g2; exact t1|]. split.
        { cbn [ent_of is_edir]. exists (c_dir (s_client st3)). split; [reflexivity|exact i5]. }
        rewrite EqT in i6. apply (done_ext2 _ _ _ _ st3); [reflexivity|reflexivity|reflexivity|].
        apply (done_ext _ _ _ _ st1); [exact h3|exact h4|rewrite h2; reflexivity|].
        apply (done_dir PD b mode times children p (set_utime times cl) st1 st2 st3 ds); try assumption. rewrite h2. exact t4.
  - exact all_none.
  - intros name n rest evs evs' S1 IH1 S2 IH2. exact (all_more _ _ _ _ _ IH1 IH2).
Qed.
Lemma runs_forest : forall f evs, serves_all iparse oparse f evs -> runs_all f evs.
Proof. induction 1; [apply all_none|]. apply all_more; [apply runs; assumption|assumption]. Qed.

(** the end: the times of the directories *)
Lemma apply_all : forall l st, (forall s t, In (s, t) l -> at_ (s_fs st) (resolve cwd s) <> None) ->
  apply_times cwd l st = (Ok tt, mkstate (s_fs st) (s_deeds st ++ map (fun x => (resolve cwd (fst x), Time (snd x))) l) (s_heard st) (s_client st) (s_chan st)).
Proof.
  induction l as [|[s t] l IH]; intros st H; cbn [apply_times map].
  - rewrite app_nil_r. destruct st. reflexivity.
  - destruct (find (s_fs st) (resolve cwd s)) eqn:E.
    + rewrite IH by (intros s' t' Hi; apply (H s' t'); right; exact Hi). cbn [did s_fs s_deeds s_heard s_client s_chan fst snd]. rewrite <- app_assoc. reflexivity.
    + exfalso. apply find_none in E. apply (H s t); [left; reflexivity|exact E].
Qed.
Lemma finish : forall D f st st', done D f st st' -> s_chan st' = [] -> s_deeds st = [] -> c_dirtimes (s_client st) = [] -> forall fuel,
  exists st2, recv_all (S fuel) st' = Some (Ok tt, st2) /\ arrived D f (s_fs st) (s_fs st2) /\ dressed D f (s_deeds st2) /\
    s_client st2 = set_dirtimes [] (s_client st').
Proof.
  intros D f st st' [a (ds & b1 & b2 & b3) c d e] Hc Hd Ht fuel. rewrite Hd in b1. cbn [app] in b1.
  cbn [GetModel.recv_all]. rewrite Hc. cbn [recv rev]. unfold finish_times. rewrite apply_all.
  - eexists. split; [reflexivity|]. split; [exact a|]. split; [|reflexivity]. cbn [with_client s_deeds with_chan s_client]. rewrite b1. split.
    + intros rel n A. destruct (b2 _ _ A) as (h1 & h2). split; [apply in_or_app; left; exact h1|]. destruct (ent_of n) eqn:E; [apply in_or_app; left; apply h2; discriminate|].
      destruct (c _ _ A E) as (s & g1 & g2). apply in_or_app. right. apply (in_map (fun x => (resolve cwd (fst x), Time (snd x)))) in g2. cbn [fst snd] in g2. rewrite g1 in g2. exact g2.
    + intros p x Hi. apply in_app_or in Hi as [Hi|Hi]; [exact (b3 _ _ Hi)|]. apply in_map_iff in Hi as ([s t] & E & Hi). cbn [fst snd] in E. injection E as <- <-.
      destruct (e _ _ Hi) as [Hi'|(rel & n & A & g1 & g2 & _)]; [rewrite Ht in Hi'; destruct Hi'|]. exists rel, n. auto.
  - intros s t Hi. cbn [with_chan s_client] in Hi. destruct (e _ _ Hi) as [Hi'|(rel & n & A & g1 & _)]; [rewrite Ht in Hi'; destruct Hi'|].
    cbn [with_chan s_fs]. rewrite g1, (proj1 a _ _ A). discriminate.
Qed.
End Run.
Lemma resolve_cwd_text : forall cwd, Forall fname_ok cwd -> resolve cwd (cwd_text cwd) = cwd.
Proof.
  intros cwd H. unfold cwd_text. destruct cwd as [|x cwd]; [reflexivity|].
  assert (Sl : forall base r, walk_parts base (split_sl (sl :: r)) = walk_parts base (split_sl r)) by (intros base r; exact (walk_repeat 1 base r)).
  assert (E : forall l, Forall fname_ok l -> forall base, walk_parts base (split_sl (flat_map (fun n => sl :: n) l)) = base ++ l).
  { induction l as [|y l IH]; intros Hl base; [rewrite app_nil_r; reflexivity|]. inversion Hl as [|y' l' Hy Hl']; subst. specialize (IH Hl' (base ++ [y])).
    change (flat_map (fun n => sl :: n) (y :: l)) with (sl :: y ++ flat_map (fun n => sl :: n) l). rewrite Sl.
    assert (G : forall r, walk_parts base (split_sl (y ++ sl :: r)) = walk_parts (base ++ [y]) (split_sl r)).
    { intro r. rewrite split_sl_app, (split_sl_plain y) by exact (proj2 (proj2 (proj2 Hy))). rewrite walk_parts_app. f_equal. apply walk_parts_good. constructor; [exact Hy|constructor]. }
    destruct l as [|w l].
    - cbn [flat_map]. rewrite app_nil_r, (split_sl_plain y) by exact (proj2 (proj2 (proj2 Hy))). apply walk_parts_good. constructor; [exact Hy|constructor].
    - change (flat_map (fun n => sl :: n) (w :: l)) with (sl :: w ++ flat_map (fun n => sl :: n) l) in *. rewrite Sl in IH. rewrite G, IH, <- app_assoc. reflexivity. }
  exact (E (x :: cwd) H []).
Qed.
(** ** Whole transfers *)
Definition start_dir (cwd : path) (local_path : str) : str := match local_path with [] => cwd_text cwd | _ => local_path end.
Lemma start_resolve : forall cwd local_path, Forall fname_ok cwd -> resolve cwd (start_dir cwd local_path) = resolve cwd local_path.
Proof. intros cwd [|c l] H; [apply resolve_cwd_text; exact H|reflexivity]. Qed.
Lemma get_runs : forall cwd iparse oparse buff_size fuel n local_path served fs cl, Forall fname_ok cwd -> c_channel cl <> Used ->
  (n <= 1)%nat \/ at_ fs (resolve cwd local_path) = Some EDir ->
  get cwd iparse oparse buff_size fuel n local_path served fs cl =
  match recv_all cwd iparse oparse buff_size fuel (mkstate fs [] [] (set_channel Used (set_rename (Nat.eqb n 1 && negb (is_dir (resolve cwd local_path) fs))%bool (set_dir (start_dir cwd local_path) cl))) served) with
  | Some (Ok _, st) => Some (Ok tt, with_client (set_channel NoChannel (s_client st)) st)
  | r => r
  end.
Proof.
  intros cwd iparse oparse buff_size fuel n local_path served fs cl Hc Hu H. unfold get. fold (start_dir cwd local_path). rewrite start_resolve by exact Hc.
  assert (E : (Nat.ltb 1 n && negb (is_dir (resolve cwd local_path) fs))%bool = false).
  { destruct H as [H|H].
    - replace (Nat.ltb 1 n) with false by (symmetry; apply Nat.ltb_ge; exact H). reflexivity.
    - apply andb_false_iff. right. unfold is_dir. unfold at_ in H. destruct (find fs (resolve cwd local_path)) as [[]|]; try discriminate. reflexivity. }
  rewrite E. cbn [set_rename set_dir c_channel]. destruct (c_channel cl); [reflexivity|reflexivity|contradiction].
Qed.
Lemma is_dir_at : forall p fs, is_dir p fs = true <-> at_ fs p = Some EDir.
Proof. intros p fs. unfold is_dir, at_. destruct (find fs p) as [[]|]; split; congruence. Qed.
Lemma at_dirs : forall p fs, at_ fs p = Some EDir -> is_dir p fs = true. Proof. intros. apply is_dir_at. assumption. Qed.
(** the channel of the client is not touched while receiving *)
Section Channel.
Variable cwd : path.
Variables iparse oparse : str -> option Z.
Variable buff_size : nat.
Lemma target_channel : forall name c p used c', target name c = Some (p, used, c') -> c_channel c' = c_channel c.
Proof. intros name c p used c' H. exact (proj1 (target_spec _ _ _ _ _ H)). Qed.
Lemma file_channel : forall fuel cmd st r st', recv_file cwd iparse oparse buff_size fuel cmd st = Some (r, st') -> c_channel (s_client st') = c_channel (s_client st).
Proof.
  intros fuel cmd st r st' H. unfold recv_file in H. set (cmd' := bstrip cmd) in *. clearbody cmd'.
  destruct (oparse (part1 cmd')) as [mode|]; [|congruence]. destruct (option_map iparse (part2 cmd')) as [[size|]|]; try congruence.
  destruct (target (rest2 cmd') (s_client st)) as [[[p used] cl]|] eqn:T; [|congruence]. pose proof (target_channel _ _ _ _ _ T) as C.
  set (st1 := heard (CFile used) (with_client cl st)) in *. assert (C1 : c_channel (s_client st1) = c_channel (s_client st)) by exact C.
  destruct (write_file cwd p [] st1) as [st0|] eqn:W0; [|congruence]. destruct (write_keeps _ _ _ _ _ W0) as (_ & w2 & _).
  destruct (recv_data fuel buff_size size 0 (s_chan st1) []) as [got [more|]]; [|discriminate].
  destruct (write_file cwd p got st0) as [st3|] eqn:W1; [|congruence]. destruct (write_keeps _ _ _ _ _ W1) as (_ & w4 & _).
  assert (C3 : c_channel (s_client st3) = c_channel (s_client st)) by congruence.
  destruct more as [ch|]; [|congruence]. destruct (recv 512 ch) as [[[|c s] ch']|]; [| |injection H as <- <-; exact C3].
  - injection H as <- <-. exact C3.
  - destruct (Ascii.eqb c nul); injection H as <- <-; exact C3.
Qed.
Lemma dir_channel : forall cmd st r st', recv_pushd cwd oparse cmd st = (r, st') -> c_channel (s_client st') = c_channel (s_client st).
Proof.
  intros cmd st r st' H. unfold recv_pushd in H. destruct (oparse (part1 cmd)) as [mode|]; [|congruence].
  destruct (target (rest2 cmd) (s_client st)) as [[[p used] cl]|] eqn:T; [|congruence]. pose proof (target_channel _ _ _ _ _ T) as C.
  destruct (find _ (resolve cwd p)) as [[c|es]|]; [| |destruct (place _ _ _)]; injection H as <- <-; exact C.
Qed.
Lemma apply_channel : forall l st r st', apply_times cwd l st = (r, st') -> s_client st' = s_client st.
Proof.
  induction l as [|[d t] l IH]; intros st r st' H; cbn [apply_times] in H; [congruence|]. destruct (find (s_fs st) (resolve cwd d)); [|congruence]. exact (IH _ _ _ H).
Qed.
Lemma all_channel : forall fuel st r st', recv_all cwd iparse oparse buff_size fuel st = Some (r, st') -> c_channel (s_client st') = c_channel (s_client st) /\ (r = Ok tt -> c_dirtimes (s_client st') = []).
Proof.
  induction fuel as [|fuel IH]; intros st r st' H; cbn [recv_all] in H; [discriminate|].
  destruct (recv 1024 (s_chan st)) as [[s ch]|]; [|injection H as <- <-; split; [reflexivity|discriminate]].
  destruct (rev s) as [|c r0].
  { injection H as H. unfold finish_times in H. destruct (apply_times cwd _ (with_chan ch st)) as [r1 st1] eqn:E. injection H as <- <-. pose proof (apply_channel _ _ _ _ E) as C.
    split; [|reflexivity]. cbn [with_client s_client set_dirtimes c_channel]. rewrite C. reflexivity. }
  destruct (negb (Ascii.eqb c nl)); [injection H as <- <-; split; [reflexivity|discriminate]|].
  destruct (rev r0) as [|code cmd]; [injection H as <- <-; split; [reflexivity|discriminate]|].
  destruct (carry_out cwd iparse oparse buff_size fuel code cmd (with_chan ch st)) as [[r2 st2]|] eqn:E; [|discriminate].
  assert (C : c_channel (s_client st2) = c_channel (s_client st)).
  { unfold carry_out in E. destruct (Ascii.eqb code "C"); [exact (file_channel _ _ _ _ _ E)|].
    destruct (Ascii.eqb code "T"); [injection E as E; unfold set_time in E; destruct (iparse (part1 cmd)); [destruct (option_map iparse (part3 cmd)) as [[]|]|]; injection E as <- <-; reflexivity|].
    destruct (Ascii.eqb code "D"); [injection E as E; exact (dir_channel _ _ _ _ E)|]. destruct (Ascii.eqb code "E"); injection E as <- <-; reflexivity. }
  destruct r2 as [u|e].
  - destruct (IH _ _ _ H) as (h1 & h2). split; [congruence|exact h2].
  - injection H as <- <-. split; [exact C|discriminate].
Qed.
(** a file cut short *)
Lemma recv_pieces : forall n ps, exists s ps', recv n (map Piece ps) = Some (s, map Piece ps') /\ (length s + length (concat ps') = length (concat ps))%nat.
Proof.
  intros n ps. induction ps as [|x ps IH]; [exists [], []; split; reflexivity|]. destruct x as [|a x]; [exact IH|].
  cbn [map recv]. set (y := a :: x). exists (firstn n y). destruct (skipn n y) as [|b z] eqn:E.
  - exists ps. split; [reflexivity|]. cbn [concat]. rewrite app_length. pose proof (firstn_skipn n y) as F. rewrite E, app_nil_r in F. rewrite F. reflexivity.
  - exists ((b :: z) :: ps). split; [reflexivity|]. cbn [concat]. rewrite !app_length, Nat.add_assoc. f_equal. rewrite <- E, <- app_length, firstn_skipn. reflexivity.
Qed.
Lemma cut_short : forall fuel buff size pos ps got, (pos + Z.of_nat (length (concat ps)) < size)%Z -> snd (recv_data fuel buff size pos (map Piece ps) got) = None.
Proof.
  induction fuel as [|fuel IH]; intros buff size pos ps got H; cbn [recv_data]; replace (Z.ltb pos size) with true by (symmetry; apply Z.ltb_lt; lia); [reflexivity|].
  match goal with |- context [recv ?b _] => destruct (recv_pieces b ps) as (s & ps' & -> & L) end. apply IH. lia.
Qed.
End Channel.
