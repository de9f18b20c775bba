(** Proofs about mail. *)
From Coq Require Import ZArith String Ascii Bool List Lia.
From Verif Require Import PyBase PyStr FsModel PathProofs CopySpec CopyProofs EmailModel EmailSpec.
Import ListNotations.
Open Scope Z_scope.

Lemma skipn_twice : forall A (l : list A) b a, skipn a (skipn b l) = skipn (a + b) l.
Proof.
  intros A l b. revert l. induction b as [|b IH]; intros l a; [rewrite Nat.add_0_r; reflexivity|]. rewrite Nat.add_succ_r.
  destruct l as [|x l]; [rewrite !skipn_nil; reflexivity|]. cbn [skipn]. apply IH.
Qed.
Lemma slice_pos : forall A (l : list A) a b, (a <= b <= List.length l)%nat ->
  py_slice l (Z.of_nat a) (Z.of_nat b) = firstn (b - a) (skipn a l).
Proof.
  intros A l a b H. unfold py_slice, slice_index.
  assert (E1 : (Z.of_nat a <? 0) = false) by (apply Z.ltb_ge; lia). assert (E2 : (Z.of_nat b <? 0) = false) by (apply Z.ltb_ge; lia).
  rewrite E1, E2. f_equal; [f_equal; lia|f_equal; lia].
Qed.

Lemma split_loop_mono : forall f f' r m p i ts, (f <= f')%nat -> split_loop f r m p i = Some ts -> split_loop f' r m p i = Some ts.
Proof.
  induction f as [|f IH]; intros f' r m p i ts L H.
  - cbn [split_loop] in H. destruct (i <? Z.of_nat (List.length r)) eqn:E; [discriminate|]. destruct f'; cbn [split_loop]; rewrite E; assumption.
  - destruct f' as [|f']; [lia|]. cbn [split_loop] in *. destruct (i <? Z.of_nat (List.length r)); [|assumption].
    destruct (split_loop f r m p _) as [ts'|] eqn:E; [|discriminate]. rewrite (IH f' r m p _ ts' ltac:(lia) E). assumption.
Qed.

Lemma split_mono : forall f f' r m p ts, (f <= f')%nat -> split_addresses f r m p = Some ts -> split_addresses f' r m p = Some ts.
Proof. intros f f' r m p ts L. unfold split_addresses. destruct (m =? 0); [auto|]. apply split_loop_mono. assumption. Qed.

(** The loop from position [i]. *)
Lemma split_loop_groups : forall (f : nat) (r : list str) m p (i : nat), 2 <= m -> (i <= List.length r)%nat -> (List.length r - i <= f)%nat ->
  exists ts, split_loop f r m p (Z.of_nat i) = Some ts /\ groups (skipn i r) (m - 1) (map snd ts) /\ (forall t, In t ts -> fst t = p) /\
    (ts = [] <-> i = List.length r).
Proof.
  induction f as [|f IH]; intros r m p i Hm Hi Hf.
  - assert (i = List.length r) by lia. subst i. exists []. cbn [split_loop]. rewrite Z.ltb_irrefl. split; [reflexivity|].
    split; [|split; [intros t []|tauto]]. rewrite skipn_all. repeat split; try (cbn; contradiction). intros pre g g' post E. destruct pre; discriminate.
  - cbn [split_loop]. destruct (Z.ltb_spec (Z.of_nat i) (Z.of_nat (List.length r))) as [L|L].
    + set (e := Z.to_nat (Z.min (Z.of_nat (List.length r)) (Z.of_nat i + (m - 1)))).
      assert (Ee : Z.min (Z.of_nat (List.length r)) (Z.of_nat i + (m - 1)) = Z.of_nat e) by (unfold e; lia).
      rewrite Ee. assert (Le : (i < e <= List.length r)%nat) by lia.
      destruct (IH r m p e Hm ltac:(lia) ltac:(lia)) as (ts & E & (G1 & G2 & G3) & G4 & G5). rewrite E.
      eexists. split; [reflexivity|]. rewrite slice_pos by lia. set (g0 := firstn (e - i) (skipn i r)).
      assert (Lg : List.length g0 = (e - i)%nat) by (unfold g0; rewrite firstn_length, skipn_length; lia).
      cbn [map snd]. split; [|split].
      * split; [|split].
        -- cbn [concat]. rewrite G1. replace (skipn e r) with (skipn (e - i) (skipn i r)); [apply firstn_skipn|].
           rewrite skipn_twice. f_equal. lia.
        -- intros g [<-|H]; [rewrite Lg; lia|auto].
        -- intros pre g g' post Eq. destruct pre as [|x pre]; cbn [app] in Eq.
           ++ injection Eq as <- Eq. rewrite Lg. assert (ts <> []) by (destruct ts; [discriminate|congruence]).
              assert (e <> List.length r) by tauto. lia.
           ++ injection Eq as _ Eq. eapply G3. eassumption.
      * intros t [<-|H]; [reflexivity|auto].
      * split; [discriminate|lia].
    + assert (i = List.length r) by lia. subst i. exists []. split; [reflexivity|].
      split; [|split; [intros t []|tauto]]. rewrite skipn_all. repeat split; try (cbn; contradiction). intros pre g g' post E. destruct pre; discriminate.
Qed.

Lemma split_batches : forall f (r : list str) m p, 2 <= m -> (List.length r <= f)%nat ->
  exists ts, split_addresses f r m p = Some ts /\ groups r (m - 1) (map snd ts) /\ (forall t, In t ts -> fst t = p).
Proof.
  intros f r m p Hm Hf. unfold split_addresses. assert (E : (m =? 0) = false) by (apply Z.eqb_neq; lia). rewrite E.
  destruct (split_loop_groups f r m p 0 Hm ltac:(lia) ltac:(lia)) as (ts & E' & G & P & _). exists ts. auto.
Qed.

Lemma split_loop_diverges : forall f r m p i, m <= 1 -> i <= 0 -> r <> [] -> split_loop f r m p i = None.
Proof.
  induction f as [|f IH]; intros r m p i Hm Hi Hr; cbn [split_loop];
    (assert (E : (i <? Z.of_nat (List.length r)) = true) by (apply Z.ltb_lt; destruct r; [congruence|cbn [List.length]; lia])); rewrite E; [reflexivity|].
  rewrite IH; [reflexivity|assumption| |assumption]. lia.
Qed.
Lemma split_diverges : forall f r m p, m = 1 \/ m < 0 -> r <> [] -> split_addresses f r m p = None.
Proof.
  intros f r m p Hm Hr. unfold split_addresses. assert (E : (m =? 0) = false) by (apply Z.eqb_neq; lia). rewrite E.
  apply split_loop_diverges; [lia|lia|assumption].
Qed.

(** Whatever the splitting returns is as described. *)
Lemma split_messages : forall f c ts, split_addresses f (e_recipients c) (max_bcc_of c) (primary_of c) = Some ts -> e_recipients c <> [] -> messages c ts.
Proof.
  intros f c ts H Hr. unfold messages. unfold max_bcc_of in H.
  assert (G : forall m, m <> 0 -> split_addresses f (e_recipients c) m (primary_of c) = Some ts ->
    groups (e_recipients c) (m - 1) (map snd ts) /\ (forall t, In t ts -> fst t = match e_primary c with Some p => p | None => [] end)).
  { intros m Hm Hs. destruct (Z_le_gt_dec 2 m) as [L|L].
    - destruct (split_batches (Nat.max f (List.length (e_recipients c))) (e_recipients c) m (primary_of c) L ltac:(lia)) as (ts' & E & G & P).
      rewrite (split_mono f _ _ _ _ ts (Nat.le_max_l _ _) Hs) in E. injection E as <-. auto.
    - rewrite split_diverges in Hs; [discriminate|lia|assumption]. }
  destruct (e_max_bcc c) as [m|].
  - destruct m as [|m|m]; [|apply G; [lia|assumption]|apply G; [lia|assumption]].
    unfold split_addresses in H. cbn in H. injection H as <-. split.
    + rewrite map_map. apply map_id.
    + intros t Ht. apply in_map_iff in Ht as (r & <- & _). reflexivity.
  - apply (G 25); [lia|assumption].
Qed.

Lemma str_in_spec : forall a l, str_in a l = true <-> In a l.
Proof.
  intros a l. unfold str_in. rewrite existsb_exists. split.
  - intros (x & H & E). destruct (str_eqb_spec a x) as [->|]; [assumption|discriminate].
  - intro H. exists a. split; [assumption|apply str_eqb_refl].
Qed.

Lemma try_servers_spec : forall smtp servers n rcpt m sent ds n' b, try_servers smtp n servers rcpt m sent = (ds, n', b) ->
  exists k, n' = (n + k)%nat /\ (k <= List.length servers)%nat /\
    (forall j, (S j < k)%nat -> ~ clean (smtp (n + j)%nat)) /\
    (k = List.length servers \/ (exists j, k = S j /\ clean (smtp (n + j)%nat))) /\
    ds = concat (map (fun js => hand_on (smtp (n + fst js)%nat) (snd js) rcpt m) (combine (seq 0 k) servers)) /\
    (b = true <-> sent = true \/ exists j, (j < List.length servers)%nat /\ accepts (smtp (n + j)%nat)).
Proof.
  intros smtp. induction servers as [|s servers IH]; intros n rcpt m sent ds n' b H; cbn [try_servers] in H.
  - injection H as <- <- <-. exists 0%nat. split; [lia|]. split; [cbn; lia|]. split; [intros; lia|]. split; [left; reflexivity|]. split; [reflexivity|].
    split; [auto|]. intros [H|(j & H & _)]; [assumption|cbn in H; lia].
  - assert (Step : forall sent0 ds0 b0, try_servers smtp (S n) servers rcpt m sent0 = (ds0, n', b0) -> ~ clean (smtp n) ->
        exists k, n' = (n + k)%nat /\ (k <= List.length (s :: servers))%nat /\ (forall j, (S j < k)%nat -> ~ clean (smtp (n + j)%nat)) /\
          (k = List.length (s :: servers) \/ (exists j, k = S j /\ clean (smtp (n + j)%nat))) /\
          hand_on (smtp n) s rcpt m ++ ds0 = concat (map (fun js => hand_on (smtp (n + fst js)%nat) (snd js) rcpt m) (combine (seq 0 k) (s :: servers))) /\
          (b0 = true <-> sent0 = true \/ exists j, (j < List.length servers)%nat /\ accepts (smtp (S n + j)%nat))).
    { intros sent0 ds0 b0 H0 Nc. destruct (IH (S n) rcpt m sent0 ds0 n' b0 H0) as (k & E1 & E2 & E3 & E4 & E5 & E6). exists (S k).
      split; [lia|]. split; [cbn [List.length]; lia|]. split.
      { intros j Hj. destruct j as [|j]; [rewrite Nat.add_0_r; assumption|]. specialize (E3 j ltac:(lia)). replace (n + S j)%nat with (S n + j)%nat by lia. assumption. }
      split. { destruct E4 as [E4|(j & -> & Hc)]; [left; cbn [List.length]; lia|right]. exists (S j). split; [reflexivity|]. replace (n + S j)%nat with (S n + j)%nat by lia. assumption. }
      split; [|assumption].
      cbn [seq combine map concat fst snd]. rewrite Nat.add_0_r. f_equal. rewrite E5. f_equal.
      rewrite <- seq_shift. clear. generalize (seq 0 k). induction servers as [|s' servers IH2]; intros [|x l]; try reflexivity.
      cbn [map combine fst snd]. f_equal; [f_equal; f_equal; lia|apply IH2]. }
    destruct (smtp n) as [|refused q] eqn:Es.
    + destruct (Step sent ds b H) as (k & E1 & E2 & E3 & E4 & E5 & E6); [intros (r & C); discriminate|].
      exists k. split; [assumption|]. split; [assumption|]. split; [assumption|]. split; [assumption|]. split; [assumption|].
      rewrite E6. split; (intros [Hs|(j & Hj & Ha)]; [left; assumption|right]).
      * exists (S j). split; [cbn [List.length]; lia|]. replace (n + S j)%nat with (S n + j)%nat by lia. assumption.
      * destruct j as [|j]; [rewrite Nat.add_0_r in Ha; exfalso; apply Ha; assumption|]. exists j. split; [cbn [List.length] in Hj; lia|].
        replace (S n + j)%nat with (n + S j)%nat by lia. assumption.
    + assert (Acc : accepts (smtp (n + 0)%nat)) by (rewrite Nat.add_0_r, Es; discriminate).
      assert (Hd : hand_on (Accepts refused q) s rcpt m = [{| d_server := s; d_to := filter (fun a => negb (str_in a refused)) rcpt; d_mail := m |}]).
      { cbn [hand_on]. f_equal. f_equal. apply filter_ext. intro a. destruct (in_dec (list_eq_dec ascii_dec) a refused) as [I|I]; symmetry.
        - apply Bool.negb_false_iff. apply str_in_spec. assumption.
        - apply Bool.negb_true_iff. destruct (str_in a refused) eqn:E; [|reflexivity]. apply str_in_spec in E. contradiction. }
      destruct q.
      * injection H as <- <- <-. exists 1%nat. split; [lia|]. split; [cbn [List.length]; lia|]. split; [intros; lia|].
        split; [right; exists 0%nat; split; [reflexivity|rewrite Nat.add_0_r, Es; eexists; reflexivity]|].
        split; [cbn [seq combine map concat fst snd]; rewrite Nat.add_0_r, Es, Hd; destruct servers; reflexivity|].
        split; [|reflexivity]. intros _. right. exists 0%nat. split; [cbn [List.length]; lia|assumption].
      * destruct (try_servers smtp (S n) servers rcpt m true) as [[ds0 n0] b0] eqn:E. injection H as <- <- <-.
        destruct (Step true ds0 b0 E) as (k & E1 & E2 & E3 & E4 & E5 & E6); [intros (r & C); discriminate|].
        exists k. split; [assumption|]. split; [assumption|]. split; [assumption|]. split; [assumption|]. split; [rewrite Hd in E5; exact E5|].
        split; [|tauto]. intros _. right. exists 0%nat. split; [cbn [List.length]; lia|assumption].
Qed.

(** Servers that never fail after accepting: one delivery, by the first that accepts. *)
Lemma try_servers_once : forall smtp servers n rcpt m ds n' b,
  (forall i, accepts (smtp i) -> clean (smtp i)) ->
  try_servers smtp n servers rcpt m false = (ds, n', b) ->
  (b = true /\ exists i s refused, nth_error servers i = Some s /\ smtp (n + i)%nat = Accepts refused true /\
     (forall j, (j < i)%nat -> smtp (n + j)%nat = Rejects) /\ ds = hand_on (smtp (n + i)%nat) s rcpt m) \/
  (b = false /\ ds = [] /\ forall j, (j < List.length servers)%nat -> smtp (n + j)%nat = Rejects).
Proof.
  intros smtp. induction servers as [|s servers IH]; intros n rcpt m ds n' b Hc H.
  - cbn [try_servers] in H. injection H as <- <- <-. right. repeat split. intros j Hj. cbn in Hj. lia.
  - cbn [try_servers] in H. destruct (smtp n) as [|refused q] eqn:Es.
    + destruct (IH (S n) rcpt m ds n' b Hc H) as [(-> & i & s' & r & E1 & E2 & E3 & E4)|(-> & -> & E)].
      * left. split; [reflexivity|]. exists (S i), s', r. replace (n + S i)%nat with (S n + i)%nat by lia. split; [assumption|]. split; [assumption|]. split; [|assumption].
        intros [|j] Hj; [rewrite Nat.add_0_r; assumption|]. replace (n + S j)%nat with (S n + j)%nat by lia. apply E3. lia.
      * right. repeat split. intros [|j] Hj; [rewrite Nat.add_0_r; assumption|]. replace (n + S j)%nat with (S n + j)%nat by lia. apply E. cbn [List.length] in Hj. lia.
    + destruct (Hc n) as (r & Er); [rewrite Es; discriminate|]. rewrite Es in Er. injection Er as -> ->. injection H as <- <- <-.
      left. split; [reflexivity|]. exists 0%nat, s, r. rewrite Nat.add_0_r, Es. split; [reflexivity|]. split; [reflexivity|]. split; [intros; lia|].
      cbn [hand_on]. f_equal. f_equal. apply filter_ext. intro a. destruct (in_dec (list_eq_dec ascii_dec) a r) as [I|I].
      * apply Bool.negb_false_iff. apply str_in_spec. assumption.
      * apply Bool.negb_true_iff. destruct (str_in a r) eqn:E; [|reflexivity]. apply str_in_spec in E. contradiction.
Qed.

Lemma ideal_hand_on : forall r s rcpt m, r = Accepts [] true -> hand_on r s rcpt m = [{| d_server := s; d_to := rcpt; d_mail := m |}].
Proof.
  intros r s rcpt m ->. cbn [hand_on]. f_equal. f_equal. induction rcpt as [|a rcpt IH]; [reflexivity|]. cbn [filter].
  change (@in_dec (list ascii) (list_eq_dec ascii_dec) a []) with (@in_dec str (list_eq_dec ascii_dec) a []).
  cbn [in_dec]. cbn. f_equal. exact IH.
Qed.

(** All batches with ideal servers. *)
Lemma send_batches_ideal : forall encodes smtp servers mk ts n ds n' b, (forall i, ideal (smtp i)) ->
  send_batches encodes smtp n servers mk ts = (ds, n', b) ->
  exists done rest, ts = done ++ rest /\ (b = true <-> rest = []) /\
    Forall2 (fun t d => d_to d = fst t :: snd t /\ mk (fst t) (snd t) = Ok (d_mail d) /\ encodes (d_mail d) = true /\ In (d_server d) servers) done ds.
Proof.
  intros encodes smtp servers mk. induction ts as [|[a bcc] ts IH]; intros n ds n' b Hi H; cbn [send_batches] in H.
  - injection H as <- <- <-. exists [], []. split; [reflexivity|]. split; [tauto|constructor].
  - assert (Stop : exists done rest, (a, bcc) :: ts = done ++ rest /\ (false = true <-> rest = []) /\
      Forall2 (fun t d => d_to d = fst t :: snd t /\ mk (fst t) (snd t) = Ok (d_mail d) /\ encodes (d_mail d) = true /\ In (d_server d) servers) done []).
    { exists [], ((a, bcc) :: ts). split; [reflexivity|]. split; [split; discriminate|constructor]. }
    destruct (mk a bcc) as [m|e] eqn:Em; [|injection H as <- <- <-; exact Stop].
    destruct (encodes m) eqn:Ec; [|injection H as <- <- <-; exact Stop].
    unfold send_email in H. destruct (try_servers smtp n servers (a :: bcc) m false) as [[ds1 n1] b1] eqn:Et.
    assert (Hc : forall i, accepts (smtp i) -> clean (smtp i)).
    { intros i Ha. destruct (Hi i) as [E|E]; [exfalso; apply Ha; assumption|eexists; exact E]. }
    destruct (try_servers_once _ _ _ _ _ _ _ _ Hc Et) as [(-> & i & s & r & E1 & E2 & _ & E4)|(-> & -> & _)].
    + destruct (send_batches encodes smtp n1 servers mk ts) as [[ds2 n2] b2] eqn:Eb. injection H as <- <- <-.
      destruct (IH n1 ds2 n2 b2 Hi Eb) as (done & rest & Ets & Eb' & F). exists ((a, bcc) :: done), rest. split; [rewrite Ets; reflexivity|]. split; [assumption|].
      destruct (Hi (n + i)%nat) as [C|C]; rewrite C in E2; [discriminate|]. rewrite (ideal_hand_on _ _ _ _ C) in E4. subst ds1. cbn [app].
      constructor; [|assumption]. cbn [d_to d_mail d_server fst snd]. repeat split; auto. eapply nth_error_In. eassumption.
    + injection H as <- <- <-. exact Stop.
Qed.

Lemma send_mail_spec : forall fuel walk encodes smtp c ds r, (forall i, ideal (smtp i)) -> e_recipients c <> [] ->
  send_mail fuel walk encodes smtp c = Some (ds, r) ->
  exists done rest, messages c (done ++ rest) /\ (r <> None <-> rest = []) /\
    Forall2 (fun t d => d_to d = fst t :: snd t /\ attachments walk c = Ok (m_att (d_mail d)) /\ In (d_server d) (e_servers c) /\
      m_from (d_mail d) = e_sender c /\ m_to (d_mail d) = fst t /\ m_subject (d_mail d) = e_subject c /\ m_bcc (d_mail d) = snd t /\ m_body (d_mail d) = e_text c) done ds /\
    (r <> None -> r = Some (List.length (e_files c) + match e_dir c with Some d => List.length (walk d) | None => 0 end)%nat).
Proof.
  intros fuel walk encodes smtp c ds r Hi Hr H. unfold send_mail in H.
  destruct (split_addresses fuel (e_recipients c) (max_bcc_of c) (primary_of c)) as [ts|] eqn:Es; [|discriminate].
  destruct (send_batches _ _ _ _ _ _) as [[ds1 n1] b1] eqn:Eb. injection H as <- <-.
  destruct (send_batches_ideal _ _ _ _ _ _ _ _ _ Hi Eb) as (done & rest & -> & Ebr & F). exists done, rest.
  split; [eapply split_messages; eassumption|]. split.
  { rewrite <- Ebr. destruct b1; split; intro; try discriminate; try congruence. }
  split; [|destruct b1; intro Hn; [reflexivity|exfalso; apply Hn; reflexivity]].
  clear - F. induction F as [|t d done ds (H1 & H2 & H3 & H4) F IH]; constructor; [|assumption].
  destruct (attachments walk c) as [att|]; [|discriminate]. injection H2 as H2. rewrite <- H2. cbn [m_att m_from m_to m_subject m_bcc m_body]. auto 10.
Qed.

Lemma cancel_mail_spec : forall fuel encodes smtp c content ds b, (forall i, ideal (smtp i)) -> e_recipients c <> [] ->
  cancel_mail fuel encodes smtp c content = Some (ds, b) ->
  exists done rest, messages c (done ++ rest) /\ (b = true <-> rest = []) /\
    Forall2 (fun t d => d_to d = fst t :: snd t /\ m_att (d_mail d) = [] /\ In (d_server d) (e_servers c) /\
      m_from (d_mail d) = e_sender c /\ m_to (d_mail d) = fst t /\ m_bcc (d_mail d) = snd t /\
      m_subject (d_mail d) = match e_cancel_subject c with Some s => s | None => e_subject c end /\
      m_body (d_mail d) = match e_cancel_content c, content with Some s, _ => s | None, Some s => s | None, None => str_of "This is a cancel message." end) done ds.
Proof.
  intros fuel encodes smtp c content ds b Hi Hr H. unfold cancel_mail in H.
  destruct (split_addresses fuel (e_recipients c) (max_bcc_of c) (primary_of c)) as [ts|] eqn:Es; [|discriminate].
  destruct (send_batches _ _ _ _ _ _) as [[ds1 n1] b1] eqn:Eb. injection H as <- <-.
  destruct (send_batches_ideal _ _ _ _ _ _ _ _ _ Hi Eb) as (done & rest & -> & Ebr & F). exists done, rest.
  split; [eapply split_messages; eassumption|]. split; [assumption|].
  clear - F. induction F as [|t d done ds (H1 & H2 & H3 & H4) F IH]; constructor; [|assumption].
  injection H2 as H2. rewrite <- H2. cbn [m_att m_from m_to m_subject m_bcc m_body]. repeat split; auto.
  destruct (e_cancel_content c), content; reflexivity.
Qed.

Lemma attachments_spec : forall walk c, (forall d, e_dir c = Some d -> d <> []) ->
  let below := match e_dir c with Some d => walk d | None => [] end in
  match e_zip c with
  | None =>
      match e_files c, e_dir c with
      | [], None => attachments walk c = Ok []
      | [], Some _ => attachments walk c = Err Unbound
      | _, _ => attachments walk c = Ok (map Plain (e_files c ++ below))
      end
  | Some z =>
      match e_files c, e_dir c with
      | [], None => attachments walk c = Ok []
      | _, _ => exists entries, attachments walk c = Ok [Zip z entries] /\ map snd entries = e_files c ++ below
      end
  end.
Proof.
  intros walk c Hd below. unfold attachments, truthy_dir, all_local_files. subst below.
  destruct (e_dir c) as [d|] eqn:Ed.
  - specialize (Hd d eq_refl). assert (Ee : is_empty d = false) by (destruct d; [congruence|reflexivity]). rewrite Ee.
    destruct (e_zip c) as [z|]; destruct (e_files c) as [|f fs]; cbn [List.length Nat.eqb negb orb]; try reflexivity.
    + eexists. split; [reflexivity|]. cbn [map app]. rewrite map_map. apply map_id.
    + eexists. split; [reflexivity|]. cbn [map app snd]. f_equal. rewrite map_app, !map_map. cbn [snd]. rewrite !map_id. reflexivity.
  - destruct (e_zip c) as [z|]; destruct (e_files c) as [|f fs]; cbn [List.length Nat.eqb negb orb]; try reflexivity.
    eexists. split; [reflexivity|]. cbn [map app snd]. f_equal. rewrite map_app, !map_map. cbn [snd map]. rewrite !map_id. reflexivity.
Qed.

(** Names in the archive. *)
Lemma archive_names : forall walk c z entries, e_zip c = Some z -> attachments walk c = Ok [Zip z entries] ->
  exists l1 l2, entries = l1 ++ l2 /\ map snd l1 = e_files c /\ (forall n f, In (n, f) l1 -> base_of f n) /\
    map snd l2 = match e_dir c with Some d => if is_empty d then [] else walk d | None => [] end /\
    (forall d n f rest, e_dir c = Some d -> In (n, f) l2 -> f = d ++ rest -> ~ inside d rest -> n = rest).
Proof.
  intros walk c z entries Hz H. unfold attachments in H. rewrite Hz in H.
  destruct (negb (Nat.eqb (List.length (e_files c)) 0) || truthy_dir c); [|discriminate].
  injection H as <-. eexists _, _. split; [reflexivity|].
  split; [rewrite map_map; apply map_id|]. split.
  { intros n f Hin. apply in_map_iff in Hin as (x & E & _). injection E as <- <-. apply base_exists. }
  unfold truthy_dir, all_local_files. destruct (e_dir c) as [d|]; [|split; [reflexivity|discriminate]]. destruct (is_empty d) eqn:Ed; cbn [negb].
  - split; [reflexivity|]. intros d' n f rest _ [].
  - split; [rewrite map_map; apply map_id|]. intros d' n f rest E Hin Ef Hn. injection E as <-.
    apply in_map_iff in Hin as (x & E & _). injection E as <- <-. subst x. apply replace_prefix; [|assumption].
    destruct d; discriminate.
Qed.
