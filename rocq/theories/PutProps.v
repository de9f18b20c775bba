(** C134: sending files over scp. *)
From Coq Require Import ZArith String Ascii Bool List Sorted Lia.
From Verif Require Import PyBase PyStr FsModel FsSpec FsProofs PathProofs TextSpec TextProofs ScpModel ScpSpec ScpProofs ScpTreeProofs GetModel GetSpec GetProofs GetTreeProofs GetProps PutModel PutSpec.
Import ListNotations.
Open Scope Z_scope.

(** ** What is done and what comes of it *)
Lemma says_app : forall a b, says (a ++ b) = says a ++ says b.
Proof. induction a as [|[s| |n z p|e|] a IH]; intro b; cbn [app says]; rewrite ?IH; reflexivity. Qed.
Lemma calls_app : forall a b, calls (a ++ b) = calls a ++ calls b.
Proof. induction a as [|[s| |n z p|e|] a IH]; intro b; cbn [app calls]; rewrite ?IH; reflexivity. Qed.
Lemma waits_app : forall a b, waits (a ++ b) = (waits a + waits b)%nat.
Proof. induction a as [|[s| |n z p|e|] a IH]; intro b; cbn [app waits]; rewrite ?IH; reflexivity. Qed.
Lemma smooth_app : forall a b, smooth (a ++ b) <-> smooth a /\ smooth b.
Proof. intros a b. unfold smooth. apply Forall_app. Qed.

Lemma confirm_yes : forall m ch, (length m < 512)%nat -> recv_confirm (Piece (chr 0 :: m) :: ch) = Some ch.
Proof.
  intros m ch H. unfold recv_confirm. cbn [recv]. rewrite (skipn_all2 (n := 512)) by (cbn [length]; lia). reflexivity.
Qed.
Lemma confirm_no : forall ch, refuses ch -> recv_confirm ch = None.
Proof.
  intros ch [|ch'|c m ch' H]; [reflexivity|reflexivity|]. unfold recv_confirm. cbn [recv]. change (firstn 512 (c :: m)) with (c :: firstn 511 m). cbv iota.
  destruct (Ascii.eqb_spec c nul) as [E|]; [contradiction|reflexivity].
Qed.
Lemma perform_smooth : forall l l' d ch', smooth l -> grants (waits l) (d_answers d) ch' ->
  perform (l ++ l') d = perform l' (mksending (d_said d ++ says l) (d_calls d ++ calls l) ch' (d_channel d)).
Proof.
  induction l as [|a l IH]; intros l' d ch' S G; cbn [app].
  - cbn [waits says calls] in *. inversion G; subst. rewrite !app_nil_r. destruct d; reflexivity.
  - inversion S as [|? ? Sa Sl]; subst. destruct a as [s| |n z p|e|]; cbn [perform says calls waits] in *; try contradiction.
    + rewrite (IH l' (said s d) ch' Sl G). cbn [said d_said d_calls d_channel]. rewrite <- app_assoc. reflexivity.
    + inversion G as [|? ? ? ? Hm G' E]; subst. rewrite confirm_yes by assumption. rewrite (IH l' (answered ch d) ch' Sl G'). reflexivity.
    + rewrite (IH l' (called (n, z, p) d) ch' Sl G). cbn [called d_said d_calls d_channel]. rewrite <- app_assoc. reflexivity.
Qed.
Lemma perform_prefix : forall l d r d', perform l d = Some (r, d') -> exists s c, says l = s ++ skipn (length s) (says l) /\ calls l = c ++ skipn (length c) (calls l) /\
  d_said d' = d_said d ++ s /\ d_calls d' = d_calls d ++ c /\ d_channel d' = d_channel d /\ (r = Ok tt -> s = says l /\ c = calls l /\ smooth l).
Proof.
  induction l as [|a l IH]; intros d r d' H; cbn [perform] in H.
  - injection H as <- <-. exists [], []. cbn. rewrite !app_nil_r. repeat split; constructor.
  - destruct a as [s| |n z p|e|].
    + destruct (IH _ _ _ H) as (s' & c & h1 & h2 & h3 & h4 & h5 & h6). exists (s :: s'), c. cbn [says calls app length skipn]. rewrite <- h1. split; [reflexivity|].
      split; [exact h2|]. split; [rewrite h3; cbn [said d_said]; rewrite <- app_assoc; reflexivity|]. split; [exact h4|]. split; [exact h5|].
      intro E. destruct (h6 E) as (-> & -> & ?). repeat split. constructor; [exact I|assumption].
    + destruct (recv_confirm (d_answers d)) as [ch|].
      * destruct (IH _ _ _ H) as (s' & c & h1 & h2 & h3 & h4 & h5 & h6). exists s', c. cbn [says calls]. repeat (split; [assumption|]).
        intro E. destruct (h6 E) as (-> & -> & ?). repeat split. constructor; [exact I|assumption].
      * injection H as <- <-. exists [], []. cbn [app length skipn]. rewrite !app_nil_r. repeat split; discriminate.
    + destruct (IH _ _ _ H) as (s' & c & h1 & h2 & h3 & h4 & h5 & h6). exists s', ((n, z, p) :: c). cbn [says calls app length skipn]. rewrite <- h2. split; [exact h1|].
      split; [reflexivity|]. split; [exact h3|]. split; [rewrite h4; cbn [called d_calls]; rewrite <- app_assoc; reflexivity|]. split; [exact h5|].
      intro E. destruct (h6 E) as (-> & -> & ?). repeat split. constructor; [exact I|assumption].
    + injection H as <- <-. exists [], []. cbn [app length skipn]. rewrite !app_nil_r. repeat split; discriminate.
    + discriminate.
Qed.

Section Sending.
Variable stat : str -> option stats.
Variable read : str -> option str.
Variable walk : str -> option (list (str * list str)).
Variable buff_size : nat.
Variables progress preserve : bool.
(** All that is done for some files, if nothing goes wrong. *)
Definition script (fuel : nat) (recursive : bool) (files : list str) : list act :=
  flat_map (acts stat read buff_size progress preserve fuel) (plan walk fuel recursive files).
Notation put := (put stat read walk buff_size progress preserve).

(** Whatever the server answers, what is sent begins as the script does; it is all of it
    exactly when put returns.  The channel is then closed, otherwise it is left used. *)
Theorem C134_prefix : forall fuel files remote recursive ch answers r cmd d, ch <> Used -> put fuel files remote recursive ch answers = Some (r, cmd, d) ->
  cmd = Some (put_command recursive remote) /\
  (exists s c, says (script fuel recursive files) = d_said d ++ s /\ calls (script fuel recursive files) = d_calls d ++ c /\ (r = Ok tt -> s = [] /\ c = [] /\ smooth (script fuel recursive files))) /\
  d_channel d = match r with Ok _ => NoChannel | Err _ => Used end.
Proof.
  intros fuel files remote recursive ch answers r cmd d Hc H. unfold PutModel.put in H. fold (script fuel recursive files) in H.
  set (l := script fuel recursive files) in *. destruct (perform (Confirm :: l) _) as [[r' d']|] eqn:E; [|destruct ch; congruence].
  destruct (perform_prefix _ _ _ _ E) as (s & c & h1 & h2 & h3 & h4 & h5 & h6). cbn [says calls d_said d_calls app d_channel] in *.
  assert (G : (r', Some (put_command recursive remote), match r' with Ok _ => left_open NoChannel d' | Err _ => d' end) = (r, cmd, d)).
  { destruct ch; [| |congruence]; destruct r' as [[]|e]; injection H as <- <- <-; reflexivity. }
  injection G as <- <- <-. split; [reflexivity|]. split.
  - exists (skipn (length s) (says l)), (skipn (length c) (calls l)). replace (d_said match r' with Ok _ => left_open NoChannel d' | Err _ => d' end) with s by (destruct r'; symmetry; exact h3).
    replace (d_calls match r' with Ok _ => left_open NoChannel d' | Err _ => d' end) with c by (destruct r'; symmetry; exact h4). split; [exact h1|]. split; [exact h2|].
    intro E'. destruct (h6 E') as (-> & -> & S). rewrite !skipn_all. inversion S; subst. auto.
  - destruct r'; [reflexivity|exact h5].
Qed.

(** If the server says yes as often as it is asked, everything is sent. *)
Theorem C134_granted : forall fuel files remote recursive ch answers rest, ch <> Used -> smooth (script fuel recursive files) ->
  grants (S (waits (script fuel recursive files))) answers rest ->
  put fuel files remote recursive ch answers =
    Some (Ok tt, Some (put_command recursive remote), mksending (says (script fuel recursive files)) (calls (script fuel recursive files)) rest NoChannel).
Proof.
  intros fuel files remote recursive ch answers rest Hc S G. unfold PutModel.put. fold (script fuel recursive files). set (l := script fuel recursive files) in *.
  rewrite <- (app_nil_r (Confirm :: l)). rewrite (perform_smooth (Confirm :: l) [] _ rest) by first [exact G | constructor; [exact I|exact S]].
  destruct ch; [reflexivity|reflexivity|congruence].
Qed.
(** If it does not the first time after [k] times, nothing is sent that comes after that
    question: put raises SCPException. *)
Theorem C134_refused : forall fuel files remote recursive ch answers rest before after, ch <> Used ->
  Confirm :: script fuel recursive files = before ++ Confirm :: after -> smooth before -> grants (waits before) answers rest -> refuses rest ->
  put fuel files remote recursive ch answers = Some (Err SCPError, Some (put_command recursive remote), mksending (says before) (calls before) rest Used).
Proof.
  intros fuel files remote recursive ch answers rest before after Hc E S G R. unfold PutModel.put. fold (script fuel recursive files). rewrite E.
  rewrite (perform_smooth before _ (mksending [] [] answers Used) rest S G). cbn [perform d_answers]. rewrite (confirm_no rest R). destruct ch; [reflexivity|reflexivity|congruence].
Qed.
(** A local error stops it as well: the files before are there. *)
Theorem C134_missing : forall fuel good bad more remote ch answers rest, ch <> Used ->
  smooth (script fuel false good) -> (stat bad = None \/ preserve = false /\ stat bad <> None /\ read bad = None) -> grants (S (waits (script fuel false good))) answers rest ->
  put fuel (good ++ bad :: more) remote false ch answers = Some (Err IOErr, Some (put_command false remote), mksending (says (script fuel false good)) (calls (script fuel false good)) rest Used).
Proof.
  intros fuel good bad more remote ch answers rest Hc S B G. unfold PutModel.put. unfold script in *. cbn [plan] in *. rewrite map_app, flat_map_app, app_comm_cons.
  set (l := flat_map (acts stat read buff_size progress preserve fuel) (map SFile good)) in *.
  rewrite (perform_smooth (Confirm :: l) _ _ rest) by first [exact G | constructor; [exact I|exact S]]. cbn [map flat_map acts]. unfold send_one.
  assert (P : forall X d, perform ((match stat bad with None => [Throw IOErr] | Some st => times preserve st ++ match read bad with None => [Throw IOErr] | Some c => X st c end end) ++ flat_map (acts stat read buff_size progress preserve fuel) (map SFile more)) d = Some (Err IOErr, d)).
  { intros X d. destruct B as [->|(Hp & Hs & Hr)]; [reflexivity|]. destruct (stat bad); [|congruence]. rewrite Hr. unfold times. rewrite Hp. reflexivity. }
  rewrite P. destruct ch; [reflexivity|reflexivity|congruence].
Qed.

(** ** One file *)
Lemma skipn_more : forall A (l : list A) b a, skipn a (skipn b l) = skipn (b + a) l.
Proof. intros A l b a. revert l. induction b as [|b IH]; intro l; [reflexivity|]. destruct l; [rewrite !skipn_nil; reflexivity|]. apply IH. Qed.
Lemma data_cut : forall fuel name content pos, (0 < buff_size)%nat -> (pos <= length content)%nat -> (length content - pos <= fuel)%nat ->
  exists pieces, cut buff_size (skipn pos content) pieces /\ says (send_data buff_size progress fuel name (length content) content pos) = pieces /\
    calls (send_data buff_size progress fuel name (length content) content pos) = (if progress then map (fun p => (name, length content, p)) (marks pos pieces) else []) /\
    smooth (send_data buff_size progress fuel name (length content) content pos) /\ waits (send_data buff_size progress fuel name (length content) content pos) = 0%nat.
Proof.
  induction fuel as [|fuel IH]; intros name content pos Hb Hp Hf; cbn [send_data].
  - destruct (Nat.ltb_spec pos (length content)); [lia|]. exists []. rewrite skipn_all2 by lia. repeat split; try constructor. destruct progress; reflexivity.
  - destruct (Nat.ltb_spec pos (length content)) as [L|L].
    + set (piece := firstn buff_size (skipn pos content)).
      assert (Lp : length piece = Nat.min buff_size (length content - pos)) by (unfold piece; rewrite firstn_length, skipn_length; reflexivity).
      destruct (IH name content (pos + length piece)%nat Hb) as (ps & (h1 & h2) & h3 & h4 & h5 & h6); [lia|lia|].
      exists (piece :: ps). split; [split|].
      * cbn [concat]. rewrite h1. unfold piece at 1. rewrite <- (firstn_skipn buff_size (skipn pos content)) at 2. f_equal. rewrite skipn_more. 
        destruct (Nat.le_gt_cases buff_size (length content - pos)); [f_equal; lia|]. rewrite !skipn_all2 by lia. reflexivity.
      * constructor; [|exact h2]. split; [intro E; rewrite E in Lp; cbn in Lp; lia|lia].
      * split; [cbn [says]; rewrite says_app, h3; unfold report; destruct progress; reflexivity|].
        split; [cbn [calls]; rewrite calls_app, h4; unfold report; destruct progress; reflexivity|].
        split; [constructor; [exact I|]; apply smooth_app; split; [unfold report; destruct progress; repeat constructor|exact h5]|].
        cbn [waits]. rewrite waits_app, h6. unfold report. destruct progress; reflexivity.
    + exists []. rewrite skipn_all2 by lia. repeat split; try constructor. destruct progress; reflexivity.
Qed.
(** A file of the size that os.stat gives: the times if they are to be kept, a line with
    mode, size and name, the content in pieces, a zero byte.  The progress function is
    called with the size and zero, then with the position after each piece; for an empty
    file once with 1 and 1. *)
Theorem C134_file : forall fuel p st content, (0 < buff_size)%nat -> stat p = Some st -> read p = Some content -> st_size st = length content -> (length content <= fuel)%nat ->
  let l := script fuel false [p] in smooth l /\ waits l = (if preserve then 3 else 2)%nat /\
  exists pieces, cut buff_size content pieces /\
    says l = (if preserve then [time_line st] else []) ++ file_line st (wire_name p) :: pieces ++ [[chr 0]] /\
    calls l = (if progress then match content with [] => [(base_name p, 1%nat, 1%nat)] | _ => map (fun k => (base_name p, length content, k)) (0%nat :: marks 0 pieces) end else []).
Proof.
  intros fuel p st content Hb Hs Hr Hz Hf. cbv zeta. unfold script. cbn [plan map flat_map acts]. rewrite app_nil_r. unfold send_one. rewrite Hs, Hr, Hz.
  destruct (data_cut fuel (base_name p) content 0 Hb ltac:(lia) ltac:(lia)) as (ps & h1 & h2 & h3 & h4 & h5). cbn [skipn] in h1.
  set (D := send_data buff_size progress fuel (base_name p) (length content) content 0) in *.
  assert (Rp : forall z k, says (report progress (base_name p) z k) = [] /\ waits (report progress (base_name p) z k) = 0%nat /\ smooth (report progress (base_name p) z k) /\ calls (report progress (base_name p) z k) = if progress then [(base_name p, z, k)] else [])
    by (intros z k; unfold report; destruct progress; repeat split; repeat constructor).
  set (R := if Nat.eqb (length content) 0 then report progress (base_name p) 1 1 else report progress (base_name p) (length content) 0).
  assert (HR : says R = [] /\ waits R = 0%nat /\ smooth R) by (unfold R; destruct (Nat.eqb (length content) 0); repeat split; apply Rp).
  destruct HR as (r1 & r2 & r3).
  assert (HT : smooth (times preserve st) /\ waits (times preserve st) = (if preserve then 1 else 0)%nat /\ says (times preserve st) = (if preserve then [time_line st] else []) /\ calls (times preserve st) = [])
    by (unfold times, send_time; destruct preserve; repeat split; repeat constructor).
  destruct HT as (t1 & t2 & t3 & t4).
  split; [|split].
  - rewrite !smooth_app. repeat split; try assumption; repeat constructor.
  - rewrite !waits_app, t2, r2, h5. cbn [waits]. destruct preserve; reflexivity.
  - exists ps. split; [exact h1|]. split.
    + rewrite !says_app, t3, r1, h2. cbn [says app]. unfold file_line. rewrite Hz. destruct preserve; reflexivity.
    + rewrite !calls_app, t4, h3. cbn [calls app]. rewrite app_nil_r. unfold R. destruct content as [|c content]; cbn [length Nat.eqb].
      * rewrite (proj2 (proj2 (proj2 (Rp 1%nat 1%nat)))). destruct progress; [|reflexivity]. destruct h1 as (e & F). destruct ps as [|x ps]; [reflexivity|].
        cbn [concat] in e. apply app_eq_nil in e as [-> _]. inversion F as [|? ? (ne & _)]. congruence.
      * rewrite (proj2 (proj2 (proj2 (Rp _ _)))). destruct progress; reflexivity.
Qed.

(** ** Several *)
Lemma script_cons : forall fuel p files, script fuel false (p :: files) = script fuel false [p] ++ script fuel false files.
Proof. intros. unfold script. cbn [plan map flat_map]. rewrite app_nil_r. reflexivity. Qed.
End Sending.
Print Assumptions C134_prefix.
Print Assumptions C134_granted.
Print Assumptions C134_refused.
Print Assumptions C134_missing.
Print Assumptions C134_file.


(** The positions grow up to the size. *)
Lemma marks_end : forall pieces pos, last (pos :: marks pos pieces) 0%nat = (pos + length (concat pieces))%nat.
Proof.
  induction pieces as [|s l IH]; intro pos; [cbn; lia|]. cbn [marks concat]. rewrite app_length. 
  change (last (pos :: (pos + length s)%nat :: marks (pos + length s) l) 0%nat) with (last ((pos + length s)%nat :: marks (pos + length s) l) 0%nat). rewrite IH. lia.
Qed.
Theorem C134_progress : forall n content pieces, cut n content pieces -> last (0%nat :: marks 0 pieces) 0%nat = length content /\
  Sorted.StronglySorted lt (0%nat :: marks 0 pieces) /\ (forall a b c d, 0%nat :: marks 0 pieces = a ++ b :: c :: d -> (c <= b + n)%nat).
Proof.
  intros n content pieces (E & F). split; [rewrite marks_end, E; reflexivity|]. clear E content. generalize 0%nat as pos. induction F as [|s l (H1 & H2) F IH]; intro pos.
  - cbn [marks]. split; [repeat constructor|]. intros [|a1 [|a2 a]] b c d E; discriminate E.
  - cbn [marks]. destruct (IH (pos + length s)%nat) as (S & G). split.
    + constructor; [exact S|]. assert (P : (0 < length s)%nat) by (destruct s; [congruence|cbn; lia]). constructor; [lia|].
      inversion S as [|? ? ? Q]; subst. eapply Forall_impl; [|exact Q]. cbn. intros; lia.
    + intros [|a1 a] b c d E; cbn [app] in E.
      * injection E as E1 E2 _. subst. lia.
      * apply (G a b c d). congruence.
Qed.
Print Assumptions C134_progress.

(** ** Modes *)
Lemma octal_snoc : forall fuel z, exists l, octal (S fuel) z = l ++ [octal_digit z].
Proof. intros. eexists. reflexivity. Qed.
Lemma octal_ends : forall k fuel z, (k < fuel)%nat -> 8 ^ Z.of_nat k <= z -> exists l, octal fuel z = l ++ rev (map (fun i => octal_digit (z / 8 ^ Z.of_nat i)) (seq 0 (S k))).
Proof.
  induction k as [|k IH]; intros fuel z Hf Hz; destruct fuel as [|fuel]; try lia.
  - eexists. cbn [octal seq map rev app]. change (8 ^ Z.of_nat 0) with 1. rewrite Z.div_1_r. reflexivity.
  - cbn [octal]. rewrite Nat2Z.inj_succ, Z.pow_succ_r in Hz by lia. assert (P : 0 < 8 ^ Z.of_nat k) by (apply Z.pow_pos_nonneg; lia).
    destruct (Z.ltb_spec z 8); [lia|]. destruct (IH fuel (z / 8)) as (l & ->); [lia|apply Z.div_le_lower_bound; lia|].
    exists l. rewrite <- app_assoc. f_equal. change (seq 0 (S (S k))) with (0%nat :: seq 1 (S k)). rewrite <- (seq_shift (S k) 0). rewrite map_cons, map_map.
    assert (A : forall i, octal_digit (z / 8 / 8 ^ Z.of_nat i) = octal_digit (z / 8 ^ Z.of_nat (S i))).
    { intro i. rewrite Z.div_div by (try apply Z.pow_pos_nonneg; lia). rewrite Nat2Z.inj_succ, Z.pow_succ_r by lia. reflexivity. }
    rewrite (map_ext _ _ A). change (8 ^ Z.of_nat 0) with 1. rewrite Z.div_1_r. reflexivity.
Qed.
Lemma digit_char : forall z, nat_of_ascii (octal_digit z) = (48 + Z.to_nat (z mod 8))%nat.
Proof. intro z. pose proof (Z.mod_pos_bound z 8 ltac:(lia)). unfold octal_digit, chr. apply nat_ascii_embedding. lia. Qed.
(** A mode as os.stat gives it (with the bits of the kind of file) is sent as the four
    octal digits of its permissions. *)
Theorem C134_mode : forall z, 4096 <= z -> length (mode_text z) = 4%nat /\ Forall octal_char (mode_text z) /\ octal_value (mode_text z) = z mod 4096.
Proof.
  intros z Hz. unfold mode_text, oct. destruct (octal_ends 3 (S (Z.to_nat z)) z) as (l & E); [lia|change (8 ^ Z.of_nat 3) with 512; lia|].
  rewrite E. cbn [seq map rev app]. set (d3 := octal_digit _). set (d2 := octal_digit (z / 8 ^ Z.of_nat 2)). set (d1 := octal_digit (z / 8 ^ Z.of_nat 1)). set (d0 := octal_digit (z / 8 ^ Z.of_nat 0)).
  assert (L : last4 (str_of "0o" ++ l ++ [d3; d2; d1; d0]) = [d3; d2; d1; d0]).
  { unfold last4. rewrite app_assoc. set (x := str_of "0o" ++ l). rewrite app_length. cbn [length]. replace (length x + 4 - 4)%nat with (length x) by lia.
    rewrite skipn_app, skipn_all, Nat.sub_diag. reflexivity. }
  rewrite L. split; [reflexivity|].
  assert (C : forall y, octal_char (octal_digit y)) by (intro y; unfold octal_char; rewrite digit_char; pose proof (Z.mod_pos_bound y 8 ltac:(lia)); lia).
  split; [repeat (apply Forall_cons; [apply C|]); apply Forall_nil|]. unfold octal_value. cbn [fold_left]. unfold d0, d1, d2, d3. rewrite !digit_char.
  rewrite !Nat2Z.inj_add, !Z2Nat.id by (apply Z.mod_pos_bound; lia). change (Z.of_nat 48) with 48. change (8 ^ Z.of_nat 0) with 1. change (8 ^ Z.of_nat 1) with 8. change (8 ^ Z.of_nat 2) with 64. change (8 ^ Z.of_nat 3) with 512.
  clear. Z.div_mod_to_equations. lia.
Qed.
Print Assumptions C134_mode.

(** ** Sent by one client and received by another *)
Lemma digits_solid : forall z, 0 <= z -> solid (str_of_Z z).
Proof.
  intros z Hz. destruct (str_of_Z_nonneg z Hz) as (D & N & _). split; [exact N|]. unfold all_digits in D. rewrite Forall_forall in D. intros c Hc Hi.
  specialize (D c Hc). unfold is_digit in D. cbn [In] in Hi. repeat (destruct Hi as [Hi|Hi]; [rewrite <- Hi in D; discriminate D|]). exact Hi.
Qed.
Lemma mode_solid : forall z, 4096 <= z -> solid (mode_text z).
Proof.
  intros z Hz. destruct (C134_mode z Hz) as (L & F & _). split; [intro E; rewrite E in L; discriminate|]. rewrite Forall_forall in F. intros c Hc Hi.
  specialize (F c Hc). unfold octal_char in F. cbn [In] in Hi. lia.
Qed.
(** Given to [get], what [put] has said for some files arrives as these files: with their
    contents, permissions and, if they are kept, times. *)
Theorem C134_arrives : forall stat read walk buff progress preserve fuel0 files remote ch answers answers' cwd iparse oparse buff' n local_path fs cl,
  (0 < buff)%nat -> ch <> Used -> put stat read walk buff progress preserve fuel0 files remote false ch answers = Some (Ok tt, Some (put_command false remote), answers') ->
  forall infos, Forall2 (fun p i => stat p = Some (fst i) /\ read p = Some (snd i) /\ st_size (fst i) = length (snd i) /\ (length (snd i) <= fuel0)%nat /\
     4096 <= st_mode (fst i) /\ (preserve = true -> 0 < st_atime (fst i) /\ 0 <= st_mtime (fst i)) /\ (length (time_line (fst i)) <= 1024)%nat /\ (length (file_line (fst i) (wire_name p)) <= 1024)%nat) files infos ->
  (forall z, 0 <= z -> iparse (str_of_Z z) = Some z) -> (forall s, s <> [] -> Forall octal_char s -> oparse s = Some (octal_value s)) ->
  let f := map (fun pi => (wire_name (fst pi), node_of preserve (fst (snd pi)) (snd (snd pi)))) (combine files infos) in
  Forall fname_ok cwd -> (0 < buff')%nat -> fresh_client cl -> at_ fs (resolve cwd local_path) = Some EDir -> tidy f -> welcome (resolve cwd local_path) f fs ->
  exists N, forall fuel, (N <= fuel)%nat -> exists st, get cwd iparse oparse buff' fuel n local_path (map Piece (d_said answers')) fs cl = Some (Ok tt, st) /\
    arrived (resolve cwd local_path) f fs (s_fs st) /\ dressed (resolve cwd local_path) f (s_deeds st) /\ fresh_client (s_client st).
Proof.
  intros stat read walk buff progress preserve fuel0 files remote ch answers answers' cwd iparse oparse buff' n local_path fs cl Hb Hc Hp infos Hi Ip Op f Hcwd Hb' Hf Hd Ht Hw.
  destruct (C134_prefix stat read walk buff progress preserve _ _ _ _ _ _ _ _ _ Hc Hp) as (_ & (s & c & E & _ & K) & _).
  destruct (K eq_refl) as (-> & -> & _). rewrite app_nil_r in E. rewrite <- E. clear E K Hp answers answers'.
  apply (C102_tree cwd iparse oparse buff' n local_path fs cl f); try assumption. clear Ht Hw Hd. unfold f. clear f.
  induction Hi as [|p [st content] files infos (h1 & h2 & h3 & h4 & h5 & h6 & h7 & h8) Hi IH]; [constructor|]. cbn [fst snd] in *.
  rewrite script_cons, says_app, map_app. cbn [combine map]. apply serve_more; [|exact IH]. clear IH Hi.
  destruct (C134_file stat read walk buff progress preserve fuel0 p st content Hb h1 h2 h3 h4) as (_ & _ & ps & (c1 & c2) & -> & _). clear files infos.
  cbn [fst snd node_of]. unfold node_of. rewrite map_app. cbn [map]. 
  replace (file_line st (wire_name p)) with ((str_of "C" ++ mode_text (st_mode st) ++ str_of " " ++ str_of_Z (Z.of_nat (length content)) ++ str_of " " ++ wire_name p) ++ [chr 10])
    by (unfold file_line; rewrite h3; rewrite <- !app_assoc; reflexivity).
  fold (line (str_of "C" ++ mode_text (st_mode st) ++ str_of " " ++ str_of_Z (Z.of_nat (length content)) ++ str_of " " ++ wire_name p)).
  apply serve_file.
  - destruct preserve; [|constructor]. destruct (h6 eq_refl) as (a1 & a2). cbn [map].
    replace (time_line st) with ((str_of "T" ++ str_of_Z (st_mtime st) ++ str_of " " ++ str_of "0" ++ str_of " " ++ str_of_Z (st_atime st) ++ str_of " " ++ str_of "0") ++ [chr 10])
      by (unfold time_line; rewrite <- !app_assoc; reflexivity).
    fold (line (str_of "T" ++ str_of_Z (st_mtime st) ++ str_of " " ++ str_of "0" ++ str_of " " ++ str_of_Z (st_atime st) ++ str_of " " ++ str_of "0")).
    apply timed; [split; [apply digits_solid; lia|apply Ip; lia]|split; [apply digits_solid; lia|apply Ip; lia]|apply (digits_solid 0); lia| |lia].
    unfold fits. revert h7. unfold time_line. rewrite !app_length. cbn [str_of list_ascii_of_string length]. lia.
  - split; [apply mode_solid; exact h5|]. destruct (C134_mode _ h5) as (m1 & m2 & m3). rewrite Op, m3; [reflexivity|intro X; rewrite X in m1; discriminate|exact m2].
  - split; [apply digits_solid; lia|apply Ip; lia].
  - unfold fits. revert h8. unfold file_line. rewrite h3, !app_length. cbn [str_of list_ascii_of_string length]. lia.
  - rewrite concat_app, c1. reflexivity.
  - apply Forall_app. split; [eapply Forall_impl; [|exact c2]; intros x (g & _); exact g|constructor; [discriminate|constructor]].
Qed.
Print Assumptions C134_arrives.

(** ** Trees *)
Lemma pop_msgs : forall read fuel cur common ms, pop_until fuel cur common = Some ms -> map (msg_of read) (pop_steps fuel cur common) = map Some ms.
Proof.
  intros read. induction fuel as [|fuel IH]; intros cur common ms H; cbn [pop_until pop_steps] in *; destruct (str_eqb cur common); try discriminate; try (injection H as <-; reflexivity).
  destruct (pop_until fuel _ common) as [l|] eqn:E; [|discriminate]. injection H as <-. cbn [map msg_of]. rewrite (IH _ _ _ E). reflexivity.
Qed.
Lemma chdir_msgs : forall read fuel from to ms, chdir fuel from to = Some ms -> map (msg_of read) (chdir_steps fuel from to) = map Some ms.
Proof.
  intros read fuel from to ms H. unfold chdir in H. unfold chdir_steps. destruct (pop_until _ _ _) as [l|] eqn:E; [|discriminate]. injection H as <-.
  rewrite !map_app, (pop_msgs read _ _ _ _ E). reflexivity.
Qed.
Lemma dir_msgs : forall read fuel l last ms, send_dirs fuel last l = Some ms -> (forall d n c, In d l -> In (n, c) (snd d) -> read (os_join (fst d) n) = Some c /\ ~ In sl n) ->
  map (msg_of read) (dir_steps fuel last (map (fun d => (fst d, map fst (snd d))) l)) = map Some ms.
Proof.
  intros read fuel. induction l as [|[root fs] l IH]; intros last ms H R; cbn [send_dirs dir_steps map fst snd] in *; [injection H as <-; reflexivity|].
  destruct (chdir fuel last root) as [m1|] eqn:E1; [|discriminate]. destruct (send_dirs fuel root l) as [m2|] eqn:E2; [|discriminate]. injection H as <-.
  rewrite !map_app, (chdir_msgs read _ _ _ _ E1), (IH _ _ E2) by (intros d n c g1 g2; exact (R d n c (or_intror g1) g2)). f_equal. f_equal. rewrite !map_map.
  assert (Rf : forall n c, In (n, c) fs -> read (os_join root n) = Some c /\ ~ In sl n) by (intros n c Hin; exact (R (root, fs) n c (or_introl eq_refl) Hin)).
  clear - Rf. induction fs as [|[n c] fs IH]; [reflexivity|]. cbn [map fst snd]. rewrite IH by (intros; apply Rf; right; assumption). f_equal.
  destruct (Rf n c (or_introl eq_refl)) as (r1 & r2). cbn [msg_of]. rewrite r1. unfold wire_name, base_name. destruct (split_join [] root n r2) as [-> _]. reflexivity.
Qed.
Lemma balance_pushed : forall read l ms, map (msg_of read) l = map Some ms -> balance l = pushed ms.
Proof.
  intros read. induction l as [|s l IH]; intros [|m ms] H; try discriminate; [reflexivity|]. cbn [map] in H. injection H as H1 H2. cbn [balance pushed fold_right].
  fold (balance l). fold (pushed ms). rewrite (IH _ H2). destruct s; cbn [msg_of] in H1; [destruct (read path); [|discriminate]|..]; injection H1 as <- || discriminate; reflexivity.
Qed.
Lemma receive_length : forall ms here d f e, receive here ms = Some (d, f, e) -> Z.of_nat (length e) = Z.of_nat (length here) + pushed ms.
Proof.
  induction ms as [|m ms IH]; intros here d f e H; cbn [receive] in H; [injection H as <- <- <-; cbn; lia|]. cbn [pushed fold_right]. fold (pushed ms). destruct m as [n| |n c].
  - destruct (receive _ ms) as [[[d' f'] e']|] eqn:E; [|discriminate]. injection H as <- <- <-. rewrite (IH _ _ _ _ E), app_length. cbn [length]. lia.
  - destruct here as [|h here]; [discriminate|]. rewrite (IH _ _ _ _ H). destruct (snoc_cases (h :: here)) as (r & x & E); [discriminate|]. rewrite E, removelast_snoc, app_length. cbn [length]. lia.
  - destruct (receive here ms) as [[[d' f'] e']|] eqn:E; [|discriminate]. injection H as <- <- <-. rewrite (IH _ _ _ _ E). lia.
Qed.
Lemma walk_names : forall t b, base_ok b -> names_ok t -> forall d n c, In d (walk_dirs b t) -> In (n, c) (snd d) -> ~ In sl n.
Proof.
  intros t b Hb Hn d n c H1 H2. rewrite (walk_wd t b Hb Hn) in H1. apply in_map_iff in H1 as (x & <- & Hx). cbn [snd] in H2.
  pose proof (wd_plain t Hn) as F. rewrite Forall_forall in F. destruct (F x Hx) as (_ & F2). rewrite Forall_forall in F2. exact (proj1 (proj2 (F2 _ H2))).
Qed.
Lemma tree_msgs : forall walk read items, Forall (fun it => (exists b, named (fst it) b) /\ wf (snd it) /\ no_newlines (snd it)) items -> Forall (seen walk read) items ->
  exists fuel0, forall fuel, (fuel0 <= fuel)%nat -> exists ms, put_messages fuel items = Some ms /\ map (msg_of read) (tree_steps walk fuel 0 (map fst items)) = map Some ms.
Proof.
  intros walk read. induction items as [|[base t] items IH]; intros F G; [exists 0%nat; intros; exists []; split; reflexivity|].
  inversion F as [|? ? A F']; subst. inversion G as [|? ? B G']; subst. destruct (IH F' G') as (f1 & H1).
  destruct (put_ok [(base, t)] (Forall_cons _ A (Forall_nil _))) as (f2 & H2). cbn [fst snd] in A. destruct A as ((b & Nb) & W & Nn).
  exists (Nat.max f1 f2). intros fuel Hf. destruct (H1 fuel ltac:(lia)) as (ms & E1 & E2). destruct (H2 fuel ltac:(lia)) as (ms2 & parts & E3 & _ & E4).
  cbn [put_messages tree_steps map fst] in *. rewrite E1. unfold seen in B. cbn [fst snd] in B. destruct t as [c|es].
  - destruct B as (-> & B2). eexists. split; [reflexivity|]. cbn [map msg_of]. rewrite B2, E2. reflexivity.
  - destruct B as (-> & B2). destruct (send_recursive fuel base (Dir es)) as [m|] eqn:Em; [|discriminate]. injection E3 as <-. rewrite app_nil_r in E4.
    eexists. split; [reflexivity|]. unfold send_recursive in Em. destruct (send_dirs fuel base (walk_dirs base (Dir es))) as [m0|] eqn:E0; [|discriminate]. injection Em as <-.
    assert (D : map (msg_of read) (dir_steps fuel base (map (fun d => (fst d, map fst (snd d))) (walk_dirs base (Dir es)))) = map Some m0).
    { apply dir_msgs; [exact E0|]. intros d n c h1 h2. split; [exact (B2 d n c h1 h2)|]. destruct (named_base base b Nb) as (Bo & _). exact (walk_names _ _ Bo (names_of _ W Nn) d n c h1 h2). }
    rewrite (balance_pushed read _ _ D). rewrite Z.add_0_l. rewrite receive_app in E4. destruct (receive [] m0) as [[[d' f'] e']|] eqn:Er; [|discriminate].
    pose proof (receive_length _ _ _ _ _ Er) as L. cbn [length] in L. rewrite Z.min_r by lia. rewrite !map_app, D, E2. rewrite <- app_assoc. f_equal. f_equal.
    generalize (Z.to_nat (pushed m0)) as k. induction k as [|k IHk]; [reflexivity|]. cbn [repeat map msg_of]. rewrite IHk. reflexivity.
Qed.
(** Putting trees: the steps taken are those whose messages C33 is about. *)
Theorem C134_tree : forall walk read items, Forall (fun it => (exists b, named (fst it) b) /\ wf (snd it) /\ no_newlines (snd it)) items -> Forall (seen walk read) items ->
  exists fuel0, forall fuel, (fuel0 <= fuel)%nat -> exists ms parts, map (msg_of read) (plan walk fuel true (map fst items)) = map Some ms /\
    Forall2 (fun it part => forall b, named (fst it) b -> whole_tree b (snd it) (fst part) (snd part)) items parts /\ receive [] ms = Some (flat_map fst parts, flat_map snd parts, []).
Proof.
  intros walk read items F G. destruct (tree_msgs walk read items F G) as (f1 & H1). destruct (put_ok items F) as (f2 & H2). exists (Nat.max f1 f2). intros fuel Hf.
  destruct (H1 fuel ltac:(lia)) as (ms & E1 & E2). destruct (H2 fuel ltac:(lia)) as (ms' & parts & E3 & E4 & E5). rewrite E1 in E3. injection E3 as <-.
  exists ms, parts. split; [exact E2|]. split; assumption.
Qed.
Print Assumptions C134_tree.
(** What a step says, apart from times and contents: a line for a file or a directory with its
    mode, or E. *)
Theorem C134_dir : forall stat read buff progress preserve fuel p st, stat p = Some st ->
  let l := acts stat read buff progress preserve fuel (SDir p) in smooth l /\ calls l = [] /\ waits l = (if preserve then 2 else 1)%nat /\
  says l = (if preserve then [time_line st] else []) ++ [str_of "D" ++ mode_text (st_mode st) ++ str_of " 0 " ++ wire_name p ++ [nl]].
Proof. intros stat read buff progress preserve fuel p st H. cbn [acts]. unfold send_pushd. rewrite H. unfold times, send_time. destruct preserve; repeat split; repeat constructor. Qed.
Print Assumptions C134_dir.

(** ** A used client; with *)
(** After a put that failed the next one fails before anything is sent, unless the client
    was closed or the with block left; inside with a put works as with a new client. *)
Theorem C134_spoilt : forall stat read walk buff progress preserve fuel files remote recursive answers,
  put stat read walk buff progress preserve fuel files remote recursive Used answers = Some (Err Generic, None, mksending [] [] answers Used) /\
  forall ch, put stat read walk buff progress preserve fuel files remote recursive (enter (leave ch)) answers = put stat read walk buff progress preserve fuel files remote recursive NoChannel answers.
Proof. intros. split; reflexivity. Qed.
Print Assumptions C134_spoilt.

(** ** Findings *)
Definition stat_ex (z : nat) (p : str) : option stats := if str_eqb p (str_of "d/f") then Some (mkstats 33188 z 5 7) else None.
Definition read_ex (s : string) (p : str) : option str := if str_eqb p (str_of "d/f") then Some (str_of s) else None.
Definition walk_ex (p : str) : option (list (str * list str)) := if str_eqb p (str_of "d") then Some [(str_of "d", [str_of "f"])] else None.
Definition yes (n : nat) : list event := repeat (Piece [chr 0]) n.
(** A file that cannot be opened, times kept: its times have been sent, and they are not
    followed by any file. *)
Theorem C134_times_alone_refuted : exists stat read answers d, put stat read walk_ex 4 false true 9 [str_of "d/f"] (str_of ".") false NoChannel answers = Some (Err IOErr, Some (put_command false (str_of ".")), d) /\
  d_said d = [str_of "T5 0 7 0" ++ [nl]].
Proof. exists (stat_ex 5), (fun _ => None), (yes 5). eexists. split; vm_compute; reflexivity. Qed.
Print Assumptions C134_times_alone_refuted.
(** A file that has grown: the progress function hears of more than the size. *)
Theorem C134_beyond_refuted : exists answers d name, put (stat_ex 5) (read_ex "hello!!") walk_ex 4 true false 9 [str_of "d/f"] (str_of ".") false NoChannel answers = Some (Ok tt, Some (put_command false (str_of ".")), d) /\
  In (name, 5%nat, 7%nat) (d_calls d).
Proof. exists (yes 3). do 2 eexists. split; [vm_compute; reflexivity|]. vm_compute. auto. Qed.
Print Assumptions C134_beyond_refuted.
(** ** Examples *)
Example C134_ex : put (stat_ex 5) (read_ex "hello") walk_ex 3 true true 9 [str_of "d/f"] (str_of "in") false NoChannel (yes 4) =
  Some (Ok tt, Some (str_of "scp -t in"), mksending [str_of "T5 0 7 0" ++ [nl]; str_of "C0644 5 f" ++ [nl]; str_of "hel"; str_of "lo"; [nul]] [(str_of "f", 5%nat, 0%nat); (str_of "f", 5%nat, 3%nat); (str_of "f", 5%nat, 5%nat)] [] NoChannel).
Proof. vm_compute. reflexivity. Qed.
Example C134_ex_refused : put (stat_ex 5) (read_ex "hello") walk_ex 3 true true 9 [str_of "d/f"] (str_of "in") false NoChannel (yes 2 ++ [Piece [chr 1]]) =
  Some (Err SCPError, Some (str_of "scp -t in"), mksending [str_of "T5 0 7 0" ++ [nl]; str_of "C0644 5 f" ++ [nl]] [] [Piece [chr 1]] Used).
Proof. vm_compute. reflexivity. Qed.
Example C134_ex_tree : plan walk_ex 5 true [str_of "d"; str_of "g"] = [SDir (str_of "d"); SFile (str_of "d/f"); SUp; SFile (str_of "g")].
Proof. vm_compute. reflexivity. Qed.
Example C134_ex_seen : seen walk_ex (read_ex "hello") (str_of "d", Dir [(str_of "f", File (str_of "hello"))]).
Proof. split; [reflexivity|]. intros d n c [<-|[]] [H|[]]. cbn in H. injection H as <- <-. reflexivity. Qed.
(** The file of C134_ex, received. *)
Example C134_ex_arrives : let r := get home (fun s => match s with [c] => Some (Z.of_nat (nat_of_ascii c) - 48) | _ => None end) (fun s => Some (octal_value s)) 2 20 1 (str_of "in")
    (map Piece [str_of "T5 0 7 0" ++ [nl]; str_of "C0644 5 f" ++ [nl]; str_of "hel"; str_of "lo"; [nul]]) fs_ex new_client in
  result_of r = Some (Ok tt) /\ In ([str_of "home"; str_of "in"; str_of "f"], Mode 420) (deeds_of r) /\ In ([str_of "home"; str_of "in"; str_of "f"], Time (Some (7, 5))) (deeds_of r) /\ In ([str_of "home"; str_of "in"; str_of "f"], Wrote (str_of "hello")) (deeds_of r).
Proof. vm_compute. repeat split; auto 10. Qed.
