(** Lemmas for messages with attachments. *)
From Coq Require Import ZArith String Ascii Bool List Lia.
From Verif Require Import PyBase PyStr MimeModel MimeSpec CopySpec CopyProofs.
Import ListNotations.
Open Scope Z_scope.
Local Arguments str_of _ : simpl never.

(** ** base64 *)
Lemma digit_at n : (n < 64)%nat -> digit64 (nth n digits64 0) (Z.of_nat n).
Proof. intro H. do 64 (destruct n as [|n]; [vm_compute; intuition (try discriminate)|]). lia. Qed.
Lemma digit_char v : 0 <= v < 64 -> digit64 (char64 v) v.
Proof. intro H. unfold char64. rewrite <- (Z2Nat.id v) at 2 by lia. apply digit_at. lia. Qed.
Lemma digit_range c v : digit64 c v -> 0 <= v < 64 /\ 43 <= c <= 122 /\ c <> 45 /\ c <> 61.
Proof. unfold digit64. lia. Qed.
Lemma digit_inj c v v' : digit64 c v -> digit64 c v' -> v = v'.
Proof. unfold digit64. lia. Qed.
Lemma encode_base64 : forall l, Forall byte l -> base64 l (encode64 l).
Proof.
  assert (G : forall n l, (length l <= n)%nat -> Forall byte l -> base64 l (encode64 l)).
  { induction n as [|n IH]; intros l L F; [destruct l; [constructor|cbn in L; lia]|]. destruct l as [|a [|b [|c l]]]; [constructor| | |].
    - inversion F as [|? ? Ha _]; subst. unfold byte in Ha. cbn [encode64]. cbv zeta. eapply b64_one; [exact Ha| | |]; [apply digit_char|apply digit_char|].
      + split; [apply Z.div_pos; lia|apply Z.div_lt_upper_bound; lia].
      + apply Z.mod_pos_bound; lia.
      + replace (a * 65536 / 262144) with (a / 4) by (replace 262144 with (4 * 65536) by lia; rewrite Z.div_mul_cancel_r by lia; reflexivity). replace (a * 65536 / 4096) with (a * 16) by (replace (a * 65536) with (a * 16 * 4096) by lia; rewrite Z.div_mul by lia; reflexivity).
        pose proof (Z.div_mod a 4 ltac:(lia)). pose proof (Z.div_mod (a * 16) 64 ltac:(lia)). replace (a * 16 / 64) with (a / 4) in * by (replace 64 with (4 * 16) by lia; rewrite Z.div_mul_cancel_r by lia; reflexivity). lia.
    - inversion F as [|? ? Ha F']; subst. inversion F' as [|? ? Hb _]; subst. unfold byte in Ha, Hb. cbn [encode64]. cbv zeta. set (n0 := a * 65536 + b * 256). assert (N : 0 <= n0 < 16777216) by (unfold n0; lia).
      eapply b64_two; [exact Ha|exact Hb|apply digit_char|apply digit_char|apply digit_char|].
      + split; [apply Z.div_pos; lia|apply Z.div_lt_upper_bound; lia].
      + apply Z.mod_pos_bound; lia.
      + apply Z.mod_pos_bound; lia.
      + assert (E : n0 / 64 = (a * 256 + b) * 4) by (unfold n0; replace (a * 65536 + b * 256) with ((a * 256 + b) * 4 * 64) by lia; apply Z.div_mul; lia).
        assert (E1 : n0 / 4096 = n0 / 64 / 64) by (rewrite Z.div_div by lia; reflexivity). assert (E2 : n0 / 262144 = n0 / 4096 / 64) by (rewrite Z.div_div by lia; reflexivity).
        pose proof (Z.div_mod (n0 / 64) 64 ltac:(lia)). pose proof (Z.div_mod (n0 / 4096) 64 ltac:(lia)). lia.
    - inversion F as [|? ? Ha F1]; subst. inversion F1 as [|? ? Hb F2]; subst. inversion F2 as [|? ? Hc F3]; subst. unfold byte in Ha, Hb, Hc. cbn [encode64]. cbv zeta. set (n0 := a * 65536 + b * 256 + c). assert (N : 0 <= n0 < 16777216) by (unfold n0; lia).
      eapply b64_more; [exact Ha|exact Hb|exact Hc|apply digit_char|apply digit_char|apply digit_char|apply digit_char| |apply IH; [cbn in L; lia|exact F3]].
      + split; [apply Z.div_pos; lia|apply Z.div_lt_upper_bound; lia].
      + apply Z.mod_pos_bound; lia.
      + apply Z.mod_pos_bound; lia.
      + apply Z.mod_pos_bound; lia.
      + assert (E1 : n0 / 4096 = n0 / 64 / 64) by (rewrite Z.div_div by lia; reflexivity). assert (E2 : n0 / 262144 = n0 / 4096 / 64) by (rewrite Z.div_div by lia; reflexivity). assert (E0 : n0 = (a * 256 + b) * 256 + c) by (unfold n0; lia).
        pose proof (Z.div_mod n0 64 ltac:(lia)). pose proof (Z.div_mod (n0 / 64) 64 ltac:(lia)). pose proof (Z.div_mod (n0 / 4096) 64 ltac:(lia)). lia. }
  intros l F. apply (G (length l)); [lia|exact F].
Qed.
Ltac bad := match goal with D : digit64 61 _ |- _ => apply digit_range in D; lia end.
Ltac digs := repeat match goal with D : digit64 ?c ?v, D' : digit64 ?c ?w |- _ => assert_fails (constr_eq v w); rewrite (digit_inj c v w D D') in *; clear D end.
Lemma base64_unique l l' t : base64 l t -> base64 l' t -> l = l'.
Proof.
  intro H. revert l'. induction H as [|a c1 c2 v1 v2 Ha D1 D2 E|a b c1 c2 c3 v1 v2 v3 Ha Hb D1 D2 D3 E|a b c c1 c2 c3 c4 v1 v2 v3 v4 l t Ha Hb Hc D1 D2 D3 D4 E H IH]; intros l' H'.
  - inversion H'. reflexivity.
  - inversion H'; subst; try bad. digs. f_equal. lia.
  - inversion H'; subst; try bad. digs. unfold byte in *. match goal with |- [a; b] = [?a'; ?b'] => assert (a = a' /\ b = b') as [-> ->] by lia end. reflexivity.
  - inversion H'; subst; try bad. digs. unfold byte in *. match goal with |- a :: b :: c :: l = ?a' :: ?b' :: ?c' :: ?l0 => assert (a = a' /\ b = b' /\ c = c') as (-> & -> & ->) by lia; rewrite (IH l0) by assumption end. reflexivity.
Qed.
Lemma base64_chars l t : base64 l t -> Forall (fun c => 43 <= c < 128 /\ c <> 45) t.
Proof.
  assert (K : forall c v, digit64 c v -> 43 <= c < 128 /\ c <> 45) by (intros c v D; apply digit_range in D; lia).
  induction 1; repeat (constructor; [first [eapply K; eassumption|lia]|]); try constructor; assumption.
Qed.
Lemma chunks_concat fuel : forall l, (length l <= fuel)%nat -> concat (chunks fuel l) = l /\ Forall (fun x => (length x <= 76)%nat) (chunks fuel l) /\ chunks fuel l <> [] /\ Forall (fun x => forall c, In c x -> In c l) (chunks fuel l).
Proof.
  induction fuel as [|f IH]; intros l L; [destruct l; [|cbn in L; lia]; cbn [chunks concat app length]; split; [reflexivity|]; split; [constructor; [cbn; lia|constructor]|]; split; [discriminate|constructor; [intros c []|constructor]]|]. destruct l as [|x l]; [cbn [chunks concat app length]; split; [reflexivity|]; split; [constructor; [cbn; lia|constructor]|]; split; [discriminate|constructor; [intros c []|constructor]]|]. set (m := x :: l) in *.
  assert (E : chunks (S f) m = firstn 76 m :: chunks f (skipn 76 m)) by reflexivity. rewrite E. destruct (IH (skipn 76 m)) as (A & B & C & D); [rewrite skipn_length; unfold m in *; cbn [length] in *; lia|]. cbn [concat]. rewrite A, firstn_skipn. split; [reflexivity|]. split; [constructor; [apply firstn_le_length|exact B]|]. split; [discriminate|].
  constructor; [intros c I; rewrite <- (firstn_skipn 76 m); apply in_or_app; left; exact I|]. eapply Forall_impl; [|exact D]. cbv beta. intros y Hy c I. rewrite <- (firstn_skipn 76 m). apply in_or_app. right. apply Hy. exact I.
Qed.
Lemma lines64_spec l : Forall byte l -> base64 l (concat (lines64 l)) /\ Forall (fun x => (length x <= 76)%nat) (lines64 l) /\ lines64 l <> [] /\ Forall (Forall (fun c => 43 <= c < 128 /\ c <> 45)) (lines64 l).
Proof.
  intro F. unfold lines64. cbv zeta. destruct (chunks_concat (length (encode64 l)) (encode64 l) ltac:(lia)) as (A & B & C & D). rewrite A. pose proof (encode_base64 l F) as E. split; [exact E|]. split; [exact B|]. split; [exact C|]. eapply Forall_impl; [|exact D]. cbv beta. intros x Hx. apply Forall_forall. intros c I. pose proof (base64_chars _ _ E) as K. rewrite Forall_forall in K. apply K, Hx, I.
Qed.
(** ** Lines *)
Lemma text_lines_spec t : lines_are t (text_lines t).
Proof.
  induction t as [|c r (N & F & E)]; [repeat split; [discriminate|repeat constructor; auto]|]. cbn [text_lines]. destruct (Z.eqb_spec c 10) as [->|Nc].
  - split; [discriminate|]. split; [constructor; [intros []|exact F]|]. cbn [joined]. destruct (text_lines r) as [|l ls]; [congruence|]. rewrite <- E. reflexivity.
  - destruct (text_lines r) as [|l ls]; [congruence|]. inversion F as [|? ? Fl Fs]; subst. split; [discriminate|]. split; [constructor; [intros [H|H]; [congruence|exact (Fl H)]|exact Fs]|]. cbn [joined] in *. destruct ls as [|l' ls]; reflexivity.
Qed.
Lemma lines_unique t ls ls' : lines_are t ls -> lines_are t ls' -> ls = ls'.
Proof.
  assert (G : forall ls ls', Forall (fun l => ~ In 10 l) ls -> Forall (fun l => ~ In 10 l) ls' -> ls <> [] -> ls' <> [] -> joined ls = joined ls' -> ls = ls').
  { assert (S1 : forall l l' (r r' : text), ~ In 10 l -> ~ In 10 l' -> l ++ 10 :: r = l' ++ 10 :: r' -> l = l' /\ r = r'). { induction l as [|c l IH]; intros [|c' l'] r r' H H' E; cbn [app] in E; [split; [reflexivity|congruence]|injection E as E1 E2|injection E as E1 E2|injection E as E1 E2]; [exfalso; apply H'; left; symmetry; exact E1|exfalso; apply H; left; exact E1|]. subst c'. destruct (IH l' r r') as [-> ->]; [intro I; apply H; right; exact I|intro I; apply H'; right; exact I|exact E2|]. split; reflexivity. }
    induction ls0 as [|l ls0 IH]; intros [|l' ls'0] F F' N N' E; try congruence. inversion F as [|? ? Fl Fs]; subst. inversion F' as [|? ? Fl' Fs']; subst. destruct ls0 as [|m ls0], ls'0 as [|m' ls'0]; cbn [joined] in E.
    - congruence.
    - exfalso. apply Fl. rewrite E. apply in_or_app. right. left. reflexivity.
    - exfalso. apply Fl'. rewrite <- E. apply in_or_app. right. left. reflexivity.
    - apply S1 in E; [|assumption|assumption]. destruct E as [-> E]. f_equal. apply IH; try assumption; discriminate. }
  intros (N & F & E) (N' & F' & E'). apply G; try assumption. congruence.
Qed.
Lemma newlines_unix t : unix t (newlines t).
Proof.
  assert (G : forall n t, (length t <= n)%nat -> unix t (newlines t)).
  { induction n as [|n IH]; intros t0 L; [destruct t0; [constructor|cbn in L; lia]|]. destruct t0 as [|c r]; [constructor|]. cbn [newlines]. cbn [length] in L. destruct (Z.eqb_spec c 13) as [->|N]; [|apply unix_char; [exact N|apply IH; lia]].
    destruct r as [|d r]; [apply unix_cr; [discriminate|constructor]|]. cbn [length] in L. destruct (Z.eqb_spec d 10) as [->|Nd]; [apply unix_crlf, IH; lia|]. apply unix_cr; [congruence|apply IH; cbn [length]; lia]. }
  apply (G (length t)). lia.
Qed.
Lemma is_ascii_iff t : is_ascii t = true <-> all_ascii t.
Proof. unfold is_ascii, all_ascii. rewrite forallb_forall, Forall_forall. split; intros H c I; specialize (H c I); lia. Qed.
Lemma lines_ascii t : all_ascii t -> Forall (fun l => all_ascii l) (text_lines t).
Proof.
  induction 1 as [|c r Hc _ IH]; [repeat constructor|]. cbn [text_lines]. destruct (c =? 10); [constructor; [constructor|exact IH]|]. destruct (text_lines r) as [|l ls]; [repeat constructor; exact Hc|]. inversion IH; subst. constructor; [constructor; assumption|assumption].
Qed.
Lemma ascii_lines t : Forall (fun l => all_ascii l) (text_lines t) -> all_ascii t.
Proof.
  induction t as [|c r IH]; [constructor|]. cbn [text_lines]. intro H. destruct (Z.eqb_spec c 10) as [->|_]; [inversion H; subst; constructor; [lia|apply IH; assumption]|]. destruct (text_lines r) as [|l ls] eqn:E; [inversion H as [|? ? Hl _]; subst; inversion Hl; subst; constructor; [assumption|apply IH; constructor]|]. inversion H as [|? ? Hl Hs]; subst. inversion Hl; subst. constructor; [assumption|]. apply IH. constructor; assumption.
Qed.
(** ** Boundaries *)
Lemma base64_unmarked b l : Forall (fun c => 43 <= c < 128 /\ c <> 45) l -> ~ marks b (Text l).
Proof. intros F [E|E]; injection E as ->; inversion F; lia. Qed.
Lemma lines64_unmarked b l : Forall byte l -> Forall (fun x => ~ marks b x) (map Text (lines64 l)).
Proof. intro F. apply Forall_map. destruct (lines64_spec l F) as (_ & _ & _ & K). eapply Forall_impl; [|exact K]. intros x. apply base64_unmarked. Qed.
Lemma between_unique b l ps ps' : between b l ps -> between b l ps' -> ps = ps'.
Proof.
  assert (NE : Text (45 :: 45 :: b ++ [45; 45]) <> Text (45 :: 45 :: b)). { intro E. injection E as E. apply (f_equal (@length Z)) in E. rewrite app_length in E. cbn in E. lia. }
  assert (ST : forall l ps, between b l ps -> exists x r, l = x :: r /\ marks b x) by (intros l0 ps0 [rest|p l1 ps1 _ _]; eexists _, _; (split; [reflexivity|]); [right|left]; reflexivity).
  assert (SP : forall p p' l l' : list line, Forall (fun x => ~ marks b x) p -> Forall (fun x => ~ marks b x) p' -> (exists x r, l = x :: r /\ marks b x) -> (exists x r, l' = x :: r /\ marks b x) -> p ++ l = p' ++ l' -> p = p' /\ l = l').
  { induction p as [|x p IH]; intros [|x' p'] l0 l0' F F' S S' E; cbn [app] in E.
    - split; [reflexivity|exact E].
    - destruct S as (y & r & -> & M). injection E as -> _. inversion F'; subst. contradiction.
    - destruct S' as (y & r & -> & M). injection E as -> _. inversion F; subst. contradiction.
    - injection E as -> E. inversion F; subst. inversion F'; subst. destruct (IH p' l0 l0') as [-> ->]; try assumption. split; reflexivity. }
  intro H. revert ps'. induction H as [rest|p l ps F H IH]; intros ps' H'.
  - inversion H' as [|p l ps'' F' H'' E]; subst; [reflexivity|]. exfalso. apply NE. congruence.
  - inversion H' as [rest E|p' l' ps'' F' H'' E]; subst; [exfalso; apply NE; congruence|]. destruct (SP p' p l' l F' F (ST _ _ H'') (ST _ _ H) ltac:(congruence)) as [-> ->]. f_equal. apply IH. exact H''.
Qed.
Lemma between_all b parts rest : Forall (Forall (fun x => ~ marks b x)) parts -> between b (flat_map (fun p => Text (delimiter b) :: p) parts ++ Text (closing b) :: rest) parts.
Proof.
  induction 1 as [|p parts F _ IH]; [apply between_end|]. cbn [flat_map app]. rewrite <- app_assoc. apply between_part; assumption.
Qed.
