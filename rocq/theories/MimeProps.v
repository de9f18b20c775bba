(** Properties C113-C114: mail with attachments. *)
From Coq Require Import ZArith String Ascii Bool List Lia.
From Verif Require Import PyBase PyStr CopySpec CopyProofs MimeModel MimeSpec MimeProofs.
Import ListNotations.
Open Scope Z_scope.
Local Arguments str_of _ : simpl never.
Local Arguments encode64 _ : simpl never.

Lemma same_refl n : Forall2 same_letter n n.
Proof. induction n; constructor; [left; reflexivity|assumption]. Qed.
Lemma field_in hs n v : In (n, v) hs -> has_field hs n v.
Proof. intro I. exists n. split; [exact I|apply same_refl]. Qed.
Lemma field_lower hs n n' v : In (n, v) hs -> Forall2 same_letter n n' -> has_field hs n' v.
Proof. intros I F. exists n. split; assumption. Qed.
Lemma addresses_join l : addresses l (join (str_of ", ") l).
Proof. induction l as [|a [|b l] IH]; [constructor|constructor|]. cbn [join] in *. apply addresses_more. exact IH. Qed.

Section Laws.
Variable encode : text -> list Z.
Variable decode : list Z -> option text.
Variable guess : str -> option (str * str) * bool.
Variable file : str -> option (list Z).
Hypothesis files : forall p l, file p = Some l -> Forall byte l.
Hypothesis encoded : forall u, Forall byte (encode u).

Lemma type_of path : of_type guess path (fst (attachment_type guess path)) (snd (attachment_type guess path)).
Proof.
  unfold attachment_type, of_type. destruct (guess path) as [[[m s]|] [|]]; cbn [fst snd]; [right|left; reflexivity|right|right]; (split; [intros t E; discriminate|split; reflexivity]).
Qed.
Lemma type_text path sub : attachment_type guess path = (str_of "text", sub) <-> text_file guess path sub.
Proof.
  unfold attachment_type, text_file. destruct (guess path) as [[[m s]|] [|]]; split; intro E; try discriminate; congruence.
Qed.
Lemma attach_ok b path p : attach encode decode guess file path = Ok p ->
  (forall sub u, text_file guess path sub -> file_says decode file path u -> free_of b u) ->
  brings encode decode guess file path p /\ Forall (fun x => ~ marks b x) p.
Proof.
  intros H FR. unfold attach in H. pose proof (type_of path) as T. pose proof (type_text path) as X. destruct (attachment_type guess path) as [main sub]. cbn [fst snd] in T.
  destruct (file path) as [bytes|] eqn:EF; [|discriminate]. pose proof (files _ _ EF) as FB.
  assert (HM : forall n v, ~ marks b (Head n v)) by (intros n v [E|E]; discriminate).
  assert (HE : ~ marks b (Text [])) by (intros [E|E]; discriminate).
  destruct (str_eqb_spec main (str_of "text")) as [->|NT].
  - apply X in T as _ || idtac. assert (TF : text_file guess path sub) by (apply X; reflexivity). destruct (decode bytes) as [raw|] eqn:ED; [|discriminate].
    assert (FS : file_says decode file path (newlines raw)) by (exists bytes, raw; repeat split; [exact EF|exact ED|apply newlines_unix]).
    set (t := newlines raw) in *. unfold mime_text, mime_text_body in H. destruct (is_ascii t) eqn:EA; apply (f_equal (fun r => match r with Ok q => q | Err _ => [] end)) in H; cbn beta iota in H; subst p.
    + split.
      * eexists [(_, _); (_, _); (_, _); (_, _)], (text_lines t), _. split; [unfold reads; cbn [map fst snd app]; reflexivity|]. split; [apply base_exists|].
        split; [apply field_in; do 3 right; left; reflexivity|]. left. exists sub, t. split; [exact TF|]. split; [exact FS|]. left. split; [apply is_ascii_iff, EA|]. split; [split; [apply field_in; right; right; left; reflexivity|apply text_lines_spec]|].
        apply field_in. left. unfold content_type. rewrite <- !app_assoc. reflexivity.
      * repeat (apply Forall_cons; [first [apply HM|apply HE]|]). apply Forall_map. apply (FR sub t TF FS). apply text_lines_spec.
    + split.
      * eexists [(_, _); (_, _); (_, _); (_, _)], (lines64 (encode t)), _. split; [unfold reads; cbn [map fst snd app]; reflexivity|]. split; [apply base_exists|].
        split; [apply field_in; do 3 right; left; reflexivity|]. left. exists sub, t. split; [exact TF|]. split; [exact FS|]. right. split; [intro A; apply is_ascii_iff in A; congruence|].
        destruct (lines64_spec (encode t) (encoded t)) as (B1 & B2 & _). split; [split; [apply field_in; right; right; left; reflexivity|split; assumption]|].
        apply field_in. left. unfold content_type. rewrite <- !app_assoc. reflexivity.
      * repeat (apply Forall_cons; [first [apply HM|apply HE]|]). apply lines64_unmarked, encoded.
  - apply (f_equal (fun r => match r with Ok q => q | Err _ => [] end)) in H; cbn beta iota in H; subst p. split.
    + eexists [(_, _); (_, _); (_, _); (_, _)], (lines64 bytes), _. split; [unfold reads, mime_bytes; cbn [map fst snd app]; reflexivity|]. split; [apply base_exists|].
      split; [apply field_in; do 3 right; left; reflexivity|]. right. exists bytes, main, sub. split; [intros sub' TF; apply X in TF; congruence|]. split; [exact EF|].
      destruct (lines64_spec bytes FB) as (B1 & B2 & _). split; [split; [apply field_in; right; right; left; reflexivity|split; assumption]|]. split; [exact T|].
      apply field_in. left. reflexivity.
    + unfold mime_bytes. repeat (apply Forall_cons; [first [apply HM|apply HE]|]). apply lines64_unmarked, FB.
Qed.
Lemma attach_err path e : attach encode decode guess file path = Err e <-> refuses decode guess file path e.
Proof.
  unfold attach, refuses. pose proof (type_text path) as X. destruct (attachment_type guess path) as [main sub]. split.
  - destruct (file path) as [bytes|]; [|intro E; left; split; [reflexivity|congruence]]. destruct (str_eqb_spec main (str_of "text")) as [->|_]; [|discriminate]. destruct (decode bytes) eqn:ED; [discriminate|]. intro E. right. exists sub, bytes. repeat split; [apply X; reflexivity|exact ED|congruence].
  - intros [(-> & ->)|(sub' & bytes & TF & -> & ED & ->)]; [reflexivity|]. apply X in TF. injection TF as -> ->. rewrite ED. destruct (str_eqb_spec (str_of "text") (str_of "text")); [reflexivity|congruence].
Qed.
Lemma attach_total path : (exists p, attach encode decode guess file path = Ok p) \/ exists e, attach encode decode guess file path = Err e.
Proof. destruct (attach encode decode guess file path); eauto. Qed.
Lemma all_ok b paths : forall ps, attach_all encode decode guess file paths = Ok ps ->
  (forall p sub u, In p paths -> text_file guess p sub -> file_says decode file p u -> free_of b u) ->
  Forall2 (brings encode decode guess file) paths ps /\ Forall (Forall (fun x => ~ marks b x)) ps.
Proof.
  induction paths as [|p r IH]; intros ps H FR; cbn [attach_all] in H; [injection H as <-; split; constructor|]. destruct (attach encode decode guess file p) as [a|] eqn:EA; [|discriminate]. cbn [bind] in H.
  destruct (attach_all encode decode guess file r) as [l|]; [|discriminate]. cbn [bind] in H. injection H as <-. destruct (IH l eq_refl) as (A & B); [intros q sub u I; apply FR; right; exact I|].
  destruct (attach_ok b p a EA) as (C & D); [intros sub u; apply FR; left; reflexivity|]. split; constructor; assumption.
Qed.
Lemma all_err paths e : attach_all encode decode guess file paths = Err e <-> exists u p v, paths = u ++ p :: v /\ refuses decode guess file p e /\ Forall (fun q => forall e', ~ refuses decode guess file q e') u.
Proof.
  induction paths as [|p r IH]; cbn [attach_all]; [split; [discriminate|intros (u & p & v & E & _); destruct u; discriminate]|]. destruct (attach encode decode guess file p) as [a|e0] eqn:EA; cbn [bind].
  - assert (N : forall e', ~ refuses decode guess file p e') by (intros e' R; apply attach_err in R; congruence). split.
    + intro H. destruct (attach_all encode decode guess file r) as [l|]; [discriminate|]. cbn [bind] in H. apply IH in H. destruct H as (u & q & v & -> & R & F). exists (p :: u), q, v. split; [reflexivity|]. split; [exact R|constructor; assumption].
    + intros ([|x u] & q & v & E & R & F); cbn [app] in E; injection E as -> E; [exfalso; exact (N e R)|]. inversion F; subst. rewrite (proj2 IH); [reflexivity|]. exists u, q, v. auto.
  - apply attach_err in EA as R0. split.
    + intro H. injection H as <-. exists [], p, r. split; [reflexivity|]. split; [exact R0|constructor].
    + intros ([|x u] & q & v & E & R & F); cbn [app] in E; injection E as -> E; [apply attach_err in R; congruence|]. inversion F as [|? ? F0]; subst. exfalso. exact (F0 e0 R0).
Qed.
Lemma head_marks b n v : ~ marks b (Head n v). Proof. intros [E|E]; discriminate. Qed.

(** ** C113  What a receiver finds in a message with attachments *)

(** The header names the subject, the recipient, the sender and - to everyone - the
    addresses of the Bcc list; between the boundaries are first the text and then, in
    order, a part for each attachment, with the bytes of the file, or, for a text file,
    its text with line feeds. *)
Theorem C113_message : forall b address subject sender t attachments bcc m,
  free_of b t -> (forall p sub u, In p attachments -> text_file guess p sub -> file_says decode file p u -> free_of b u) ->
  encoded_message encode decode guess file b address subject sender t attachments bcc = Ok m ->
  exists hs body first parts hs1 ls1 list, m = map (fun h => Head (fst h) (snd h)) hs ++ Text [] :: body /\
    has_field hs (str_of "Subject") subject /\ has_field hs (str_of "To") address /\ has_field hs (str_of "From") sender /\
    addresses bcc list /\ has_field hs (str_of "Bcc") list /\
    between b body (first :: parts) /\
    reads first hs1 ls1 /\ holds_text hs1 ls1 t /\ has_field hs1 (str_of "Content-Type") (str_of "text/plain") /\
    Forall2 (brings encode decode guess file) attachments parts.
Proof.
  intros b address subject sender t attachments bcc m FT FA H. unfold encoded_message in H. destruct (attach_all encode decode guess file attachments) as [ps|] eqn:EA; [|discriminate]. cbn [bind] in H.
  apply (f_equal (fun r => match r with Ok q => q | Err _ => [] end)) in H; cbn beta iota in H. destruct (all_ok b _ _ EA FA) as (B & U).
  eexists [(_, _); (_, _); (_, _); (_, _); (_, _); (_, _)], _, (text_part t), ps, [(_, _); (_, _)], (text_lines t), _. split; [rewrite <- H; cbn [map fst snd app]; reflexivity|].
  split; [apply field_in; do 2 right; left; reflexivity|]. split; [apply field_in; do 3 right; left; reflexivity|]. split; [apply field_in; do 4 right; left; reflexivity|].
  split; [apply addresses_join|]. split; [apply field_in; do 5 right; left; reflexivity|].
  split. { apply (between_all b (text_part t :: ps) [Text []]). constructor; [|exact U]. unfold text_part. repeat (apply Forall_cons; [first [apply head_marks|intros [E|E]; discriminate]|]). apply Forall_map. apply FT, text_lines_spec. }
  split; [unfold reads, text_part; cbn [map fst snd app]; reflexivity|].
  assert (SL : forall c d, (nat_of_ascii c =? nat_of_ascii d)%nat || ((65 <=? nat_of_ascii c) && (nat_of_ascii c <=? 90) && (nat_of_ascii d =? nat_of_ascii c + 32))%nat || ((97 <=? nat_of_ascii c) && (nat_of_ascii c <=? 122) && (nat_of_ascii c =? nat_of_ascii d + 32))%nat = true -> same_letter c d).
  { intros c d E. apply orb_prop in E as [E|E]; [apply orb_prop in E as [E|E]|].
    - left. apply Nat.eqb_eq in E. rewrite <- (ascii_nat_embedding c), <- (ascii_nat_embedding d), E. reflexivity.
    - right. left. apply andb_prop in E as [E E3]. apply andb_prop in E as [E1 E2]. apply Nat.leb_le in E1, E2. apply Nat.eqb_eq in E3. lia.
    - right. right. apply andb_prop in E as [E E3]. apply andb_prop in E as [E1 E2]. apply Nat.leb_le in E1, E2. apply Nat.eqb_eq in E3. lia. }
  split; [split; [|apply text_lines_spec]|split].
  - apply (field_lower _ (str_of "Content-transfer-encoding")); [right; left; reflexivity|]. vm_compute str_of. repeat (constructor; [apply SL; reflexivity|]). constructor.
  - apply (field_lower _ (str_of "Content-type")); [left; reflexivity|]. vm_compute str_of. repeat (constructor; [apply SL; reflexivity|]). constructor.
  - exact B.
Qed.

(** The first attachment that cannot be read decides the exception. *)
Theorem C113_fails : forall b address subject sender t attachments bcc e,
  encoded_message encode decode guess file b address subject sender t attachments bcc = Err e <->
  exists u p v, attachments = u ++ p :: v /\ refuses decode guess file p e /\ Forall (fun q => forall e', ~ refuses decode guess file q e') u.
Proof.
  intros. rewrite <- all_err. unfold encoded_message. destruct (attach_all encode decode guess file attachments); cbn [bind]; split; intro H; try discriminate; congruence.
Qed.

(** ** C114  Which messages can be sent *)

(** With attachments: exactly those whose text is ASCII. *)
Theorem C114_send : forall b address subject sender t attachments bcc m,
  all_ascii b -> encoded_message encode decode guess file b address subject sender t attachments bcc = Ok m ->
  (sendable m = true <-> all_ascii t).
Proof.
  intros b address subject sender t attachments bcc m AB H. unfold encoded_message in H. destruct (attach_all encode decode guess file attachments) as [ps|] eqn:EA; [|discriminate]. cbn [bind] in H.
  apply (f_equal (fun r => match r with Ok q => q | Err _ => [] end)) in H; cbn beta iota in H. subst m.
  assert (S64 : forall l, Forall byte l -> forallb (fun l => match l with Text t => is_ascii t | Head _ _ => true end) (map Text (lines64 l)) = true).
  { intros l F. apply forallb_forall. intros x I. apply in_map_iff in I as (y & <- & I). destruct (lines64_spec l F) as (_ & _ & _ & K). rewrite Forall_forall in K. specialize (K y I). apply is_ascii_iff. unfold all_ascii. eapply Forall_impl; [|exact K]. cbv beta. lia. }
  assert (SA : forall u, forallb (fun l => match l with Text t => is_ascii t | Head _ _ => true end) (map Text (text_lines u)) = true <-> all_ascii u).
  { intro u. rewrite forallb_forall. split.
    - intro F. apply ascii_lines. apply Forall_forall. intros l I. apply is_ascii_iff. apply (F (Text l)). apply in_map. exact I.
    - intros F x I. apply in_map_iff in I as (l & <- & I). apply is_ascii_iff. pose proof (lines_ascii u F) as K. rewrite Forall_forall in K. apply K, I. }
  assert (SP : forall ps0 paths, attach_all encode decode guess file paths = Ok ps0 -> forallb (fun l => match l with Text t => is_ascii t | Head _ _ => true end) (flat_map (fun p => Text (delimiter b) :: p) ps0) = true).
  { assert (DB : is_ascii (delimiter b) = true) by (unfold delimiter; apply is_ascii_iff; constructor; [lia|constructor; [lia|exact AB]]).
    induction ps0 as [|p ps0 IH]; intros paths Q; [reflexivity|]. destruct paths as [|q paths]; [discriminate|]. cbn [attach_all] in Q. destruct (attach encode decode guess file q) as [a|] eqn:Eq; [|discriminate]. cbn [bind] in Q. destruct (attach_all encode decode guess file paths) as [l|] eqn:El; [|discriminate]. cbn [bind] in Q. injection Q as -> ->.
    cbn [flat_map app forallb]. rewrite DB. cbn [andb]. rewrite forallb_app, (IH _ El), andb_true_r. clear IH El.
    unfold attach in Eq. destruct (attachment_type guess q) as [main sub]. destruct (file q) as [bytes|] eqn:EF; [|discriminate]. destruct (str_eqb main (str_of "text")).
    - destruct (decode bytes) as [raw|]; [|discriminate]. apply (f_equal (fun r => match r with Ok q => q | Err _ => [] end)) in Eq; cbn beta iota in Eq. subst p. unfold mime_text, mime_text_body. destruct (is_ascii (newlines raw)) eqn:EA'; rewrite !forallb_app; [rewrite (proj2 (SA _) (proj1 (is_ascii_iff _) EA'))|rewrite (S64 _ (encoded _))]; reflexivity.
    - apply (f_equal (fun r => match r with Ok q => q | Err _ => [] end)) in Eq; cbn beta iota in Eq. subst p. rewrite !forallb_app, (S64 _ (files _ _ EF)). reflexivity. }
  assert (DB : is_ascii (delimiter b) = true) by (unfold delimiter; apply is_ascii_iff; constructor; [lia|constructor; [lia|exact AB]]).
  assert (CB : is_ascii (closing b) = true). { unfold closing. apply is_ascii_iff. constructor; [lia|constructor; [lia|]]. apply Forall_app. split; [exact AB|]. repeat constructor; lia. }
  unfold sendable. rewrite forallb_app. cbn [flat_map]. rewrite !forallb_app, (SP _ _ EA). unfold text_part. cbn [app forallb]. rewrite DB, CB. cbn [is_ascii forallb andb]. rewrite !andb_true_r. apply SA.
Qed.

(** Without: all; and the text is read back as it was, or as its UTF-8. *)
Theorem C114_plain : forall address subject sender t bcc, let m := plain_message encode address subject sender t bcc in
  sendable m = true /\
  exists hs ls list, reads m hs ls /\
    has_field hs (str_of "Subject") subject /\ has_field hs (str_of "To") address /\ has_field hs (str_of "From") sender /\ addresses bcc list /\ has_field hs (str_of "Bcc") list /\
    ((all_ascii t /\ holds_text hs ls t) \/ (~ all_ascii t /\ holds_bytes hs ls (encode t) /\ has_field hs (str_of "Content-Type") (str_of "text/plain; charset=utf-8"))).
Proof.
  intros address subject sender t bcc m. unfold m, plain_message, mime_text, mime_text_body. destruct (is_ascii t) eqn:EA.
  - split.
    + unfold sendable. rewrite !forallb_app. cbn [app forallb is_ascii andb]. apply forallb_forall. intros x I. apply in_map_iff in I as (l & <- & I). apply is_ascii_iff. apply is_ascii_iff in EA. pose proof (lines_ascii t EA) as K. rewrite Forall_forall in K. apply K, I.
    + eexists [(_, _); (_, _); (_, _); (_, _); (_, _); (_, _); (_, _)], (text_lines t), _. split; [unfold reads; cbn [map fst snd app]; reflexivity|].
      split; [apply field_in; do 5 right; left; reflexivity|]. split; [apply field_in; do 4 right; left; reflexivity|]. split; [apply field_in; do 3 right; left; reflexivity|].
      split; [apply addresses_join|]. split; [apply field_in; do 6 right; left; reflexivity|]. left. split; [apply is_ascii_iff, EA|]. split; [apply field_in; do 2 right; left; reflexivity|apply text_lines_spec].
  - destruct (lines64_spec (encode t) (encoded t)) as (B1 & B2 & _ & K). split.
    + unfold sendable. rewrite !forallb_app. cbn [app forallb is_ascii andb]. apply forallb_forall. intros x I. apply in_map_iff in I as (l & <- & I). apply is_ascii_iff. rewrite Forall_forall in K. specialize (K l I). unfold all_ascii. eapply Forall_impl; [|exact K]. cbv beta. lia.
    + eexists [(_, _); (_, _); (_, _); (_, _); (_, _); (_, _); (_, _)], (lines64 (encode t)), _. split; [unfold reads; cbn [map fst snd app]; reflexivity|].
      split; [apply field_in; do 5 right; left; reflexivity|]. split; [apply field_in; do 4 right; left; reflexivity|]. split; [apply field_in; do 3 right; left; reflexivity|].
      split; [apply addresses_join|]. split; [apply field_in; do 6 right; left; reflexivity|]. right. split; [intro A; apply is_ascii_iff in A; congruence|]. split; [split; [apply field_in; do 2 right; left; reflexivity|split; assumption]|].
      apply field_in. left. reflexivity.
Qed.
End Laws.
Print Assumptions C113_message.
Print Assumptions C113_fails.
Print Assumptions C114_send.
Print Assumptions C114_plain.

(** A receiver can read it in one way only: the lines determine the parts, and a part
    its text or its bytes. *)
Theorem C113_unique : forall b l ps ps', between b l ps -> between b l ps' -> ps = ps' /\
  forall p hs ls hs' ls', In p ps -> reads p hs ls -> reads p hs' ls' -> hs = hs' /\ ls = ls' /\
    (forall t t', lines_are t ls -> lines_are t' ls -> t = t') /\ (forall x x', base64 x (concat ls) -> base64 x' (concat ls) -> x = x').
Proof.
  intros b l ps ps' H H'. split; [exact (between_unique _ _ _ _ H H')|]. intros p hs ls hs' ls' _ R R'. unfold reads in *.
  assert (G : forall hs hs' (r r' : list line), map (fun h : str * str => Head (fst h) (snd h)) hs ++ Text [] :: r = map (fun h => Head (fst h) (snd h)) hs' ++ Text [] :: r' -> hs = hs' /\ r = r').
  { induction hs0 as [|[n v] hs0 IH]; intros [|[n' v'] hs0'] r r' E; cbn [map fst snd app] in E; [split; [reflexivity|congruence]|discriminate|discriminate|]. injection E as -> -> E. destruct (IH _ _ _ E) as [-> ->]. split; reflexivity. }
  destruct (G hs hs' (map Text ls) (map Text ls') ltac:(congruence)) as [-> E]. split; [reflexivity|]. split.
  - clear - E. revert ls' E. induction ls as [|a ls IH]; intros [|a' ls'] E; cbn [map] in E; [reflexivity|discriminate|discriminate|]. injection E as -> E. f_equal. apply IH, E.
  - split; [intros t t' (_ & _ & ->) (_ & _ & ->); reflexivity|]. intros x x' B B'. exact (base64_unique _ _ _ B B').
Qed.
Print Assumptions C113_unique.

(** ** Cases *)
(** A file system with a text file with CR LF, one with an accent, and two bytes with the
    same name in two folders; UTF-8 up to two bytes. *)
Definition ex_encode (t : text) : list Z := flat_map (fun c => if c <? 128 then [Z.max 0 c] else [192 + c / 64 mod 32; 128 + c mod 64]) t.
Definition ex_decode (l : list Z) : option text :=
  (fix go (l : list Z) := match l with
     | [] => Some []
     | a :: r => if a <? 128 then option_map (cons a) (go r)
                 else match r with b :: r' => if (192 <=? a) && (128 <=? b) then option_map (cons ((a - 192) * 64 + (b - 128))) (go r') else None | [] => None end
     end) l.
Definition ends_with (suffix s : str) : bool := str_eqb (skipn (length s - length suffix) s) suffix.
Definition ex_guess (p : str) : option (str * str) * bool :=
  if ends_with (str_of ".txt") p then (Some (str_of "text", str_of "plain"), false)
  else if ends_with (str_of ".gz") p then (Some (str_of "application", str_of "x-tar"), true)
  else if ends_with (str_of ".png") p then (Some (str_of "image", str_of "png"), false)
  else (None, false).
Definition ex_file (p : str) : option (list Z) :=
  if str_eqb p (str_of "/a/crlf.txt") then Some [104; 105; 13; 10; 120] else
  if str_eqb p (str_of "/a/e.txt") then Some [195; 169] else
  if str_eqb p (str_of "/a/bad.txt") then Some [233] else
  if str_eqb p (str_of "/a/map.png") then Some [137; 80; 78; 71] else
  if str_eqb p (str_of "/b/map.png") then Some [1; 2] else None.
Definition ex_b : text := codes (str_of "=====1=").
Lemma ex_files : forall p l, ex_file p = Some l -> Forall byte l.
Proof.
  intros p l. unfold ex_file. repeat match goal with |- context [str_eqb ?a ?b] => destruct (str_eqb a b) end; intro E; try discriminate; injection E as <-; repeat (constructor; [unfold byte; lia|]); constructor.
Qed.
Lemma ex_encoded : forall u, Forall byte (ex_encode u).
Proof.
  intro u. unfold ex_encode. apply Forall_flat_map, Forall_forall. intros c _. destruct (Z.ltb_spec c 128); repeat (constructor; [unfold byte|]); try constructor; pose proof (Z.mod_pos_bound (c / 64) 32 ltac:(lia)); pose proof (Z.mod_pos_bound c 64 ltac:(lia)); lia.
Qed.
Definition ex_message := encoded_message ex_encode ex_decode ex_guess ex_file ex_b (str_of "a@x.org") (str_of "ShakeMap") (str_of "b@y.org") (codes (str_of "Hello")).

(** All hypotheses of C113_message and C114_send hold, and the message is sent. *)
Example C113_ex : (forall p l, ex_file p = Some l -> Forall byte l) /\ (forall u, Forall byte (ex_encode u)) /\ free_of ex_b (codes (str_of "Hello")) /\ all_ascii ex_b /\
  (forall p sub u, In p [str_of "/a/e.txt"; str_of "/a/map.png"] -> text_file ex_guess p sub -> file_says ex_decode ex_file p u -> free_of ex_b u) /\
  (exists m, ex_message [str_of "/a/e.txt"; str_of "/a/map.png"] [str_of "c@z.org"; str_of "d@z.org"] = Ok m /\ sendable m = true /\ length m = 30%nat) /\
  ex_message [str_of "/a/e.txt"; str_of "/a/bad.txt"; str_of "/a/none.txt"] [] = Err UnicodeErr /\
  ex_message [str_of "/a/none.txt"; str_of "/a/bad.txt"] [] = Err FileNotFoundError.
Proof.
  assert (FR : forall t, free_of ex_b t <-> Forall (fun l => ~ marks ex_b (Text l)) (text_lines t)) by (intro t; split; [intro F; apply F, text_lines_spec|intros F ls L; rewrite (lines_unique t ls (text_lines t) L (text_lines_spec t)); exact F]).
  split; [exact ex_files|]. split; [exact ex_encoded|]. split; [apply FR; apply Forall_cons; [intros [E|E]; vm_compute in E; discriminate|apply Forall_nil]|]. split; [unfold all_ascii; apply Forall_forall; intros c I; assert (C : forallb (fun c => c <? 128) ex_b = true) by (vm_compute; reflexivity); rewrite forallb_forall in C; specialize (C c I); lia|].
  split. { intros p sub u [<-|[<-|[]]] TF (bytes & raw & E1 & E2 & U).
    - vm_compute in E1. injection E1 as <-. vm_compute in E2. injection E2 as <-. inversion U as [|? ? ? N U'| |]; subst; try lia. inversion U'; subst. apply FR. apply Forall_cons; [intros [E|E]; vm_compute in E; discriminate|apply Forall_nil].
    - vm_compute in TF. discriminate. }
  split; [eexists; vm_compute; repeat split|]. split; vm_compute; reflexivity.
Qed.

(** The line ends of a text file are not kept: two different files, the same message. *)
Theorem C113_newlines_refuted : exists encode decode guess file file' b address subject sender t path bcc m, file path <> file' path /\
  encoded_message encode decode guess file b address subject sender t [path] bcc = Ok m /\ encoded_message encode decode guess file' b address subject sender t [path] bcc = Ok m.
Proof.
  exists ex_encode, ex_decode, ex_guess, ex_file, (fun _ => Some [104; 105; 10; 120]), ex_b, (str_of "a@x.org"), (str_of "ShakeMap"), (str_of "b@y.org"), (codes (str_of "Hello")), (str_of "/a/crlf.txt"), [].
  eexists. split; [vm_compute; discriminate|]. split; vm_compute; reflexivity.
Qed.
Print Assumptions C113_newlines_refuted.
(** Files of the same name in different folders, as found below a local directory, arrive under one name. *)
Theorem C113_names_refuted : exists encode decode guess file p q m hs ls hs' ls' b name rest, p <> q /\
  encoded_message encode decode guess file b (str_of "a@x.org") (str_of "ShakeMap") (str_of "b@y.org") [] [p; q] [] = Ok m /\
  (exists first pp pq body, between b body [first; pp; pq] /\ m = rest ++ body /\ reads pp hs ls /\ reads pq hs' ls') /\
  has_field hs (str_of "Content-Disposition") (str_of "attachment; filename=" ++ name) /\ has_field hs' (str_of "Content-Disposition") (str_of "attachment; filename=" ++ name) /\ ls <> ls'.
Proof.
  pose (m := encoded_message ex_encode ex_decode ex_guess ex_file ex_b (str_of "a@x.org") (str_of "ShakeMap") (str_of "b@y.org") [] [str_of "/a/map.png"; str_of "/b/map.png"] []).
  destruct (C113_message ex_encode ex_decode ex_guess ex_file ex_files ex_encoded ex_b (str_of "a@x.org") (str_of "ShakeMap") (str_of "b@y.org") [] [str_of "/a/map.png"; str_of "/b/map.png"] [] (match m with Ok x => x | Err _ => [] end)) as (hs & body & first & parts & hs1 & ls1 & lst & Em & _ & _ & _ & _ & _ & B & _ & _ & _ & F).
  - intros ls L. rewrite (lines_unique [] ls (text_lines []) L (text_lines_spec [])). constructor; [intros [E|E]; discriminate|constructor].
  - intros p sub u [<-|[<-|[]]] TF; vm_compute in TF; discriminate.
  - unfold m. vm_compute. reflexivity.
  - inversion F as [|p pp ? ? B1 F1]; subst. inversion F1 as [|q pq ? ? B2 F2]; subst. inversion F2; subst.
    destruct B1 as (hsp & lsp & n & R1 & N1 & D1 & K1). destruct B2 as (hsq & lsq & n' & R2 & N2 & D2 & K2).
    assert (n = str_of "map.png") as -> by (apply split_base in N1; symmetry; exact N1).
    assert (n' = str_of "map.png") as -> by (apply split_base in N2; symmetry; exact N2).
    exists ex_encode, ex_decode, ex_guess, ex_file, (str_of "/a/map.png"), (str_of "/b/map.png"), (match m with Ok x => x | Err _ => [] end), hsp, lsp, hsq, lsq, ex_b, (str_of "map.png"), (map (fun h => Head (fst h) (snd h)) hs ++ [Text []]).
    split; [discriminate|]. split; [unfold m; vm_compute; reflexivity|]. split; [exists first, pp, pq, body; split; [exact B|]; split; [rewrite Em, <- app_assoc; reflexivity|split; assumption]|]. split; [exact D1|]. split; [exact D2|].
    intro E. subst lsq. destruct K1 as [(sub & t & TF & _)|(x & main & sub & _ & E1 & (_ & H1 & _) & _)]; [vm_compute in TF; discriminate|]. destruct K2 as [(sub' & t & TF & _)|(y & main' & sub' & _ & E2 & (_ & H2 & _) & _)]; [vm_compute in TF; discriminate|].
    pose proof (base64_unique _ _ _ H1 H2) as E. subst y. vm_compute in E1, E2. congruence.
Qed.
Print Assumptions C113_names_refuted.

(** A text with an accent can be sent alone but not with an attachment. *)
Theorem C114_refuted : exists encode decode guess file b address subject sender t path m,
  (forall p l, file p = Some l -> Forall byte l) /\ (forall u, Forall byte (encode u)) /\ all_ascii b /\
  sendable (plain_message encode address subject sender t []) = true /\
  encoded_message encode decode guess file b address subject sender t [path] [] = Ok m /\ sendable m = false.
Proof.
  exists ex_encode, ex_decode, ex_guess, ex_file, ex_b, (str_of "a@x.org"), (str_of "ShakeMap"), (str_of "b@y.org"), [233], (str_of "/a/map.png").
  eexists. split; [exact ex_files|]. split; [exact ex_encoded|]. split; [unfold all_ascii; apply Forall_forall; intros c I; assert (C : forallb (fun c => c <? 128) ex_b = true) by (vm_compute; reflexivity); rewrite forallb_forall in C; specialize (C c I); lia|]. split; [vm_compute; reflexivity|]. split; vm_compute; reflexivity.
Qed.
Print Assumptions C114_refuted.
(** The hypotheses of C113_unique and C114_plain: two parts, and a text with an accent read back. *)
Example C114_ex : between ex_b [Text (delimiter ex_b); Text []; Text [104]; Text (delimiter ex_b); Text []; Text (closing ex_b)] [[Text []; Text [104]]; [Text []]] /\
  reads [Text []; Text [104]] [] [[104]] /\ sendable (plain_message ex_encode (str_of "a@x.org") (str_of "ShakeMap") (str_of "b@y.org") [104; 233] []) = true /\
  map (fun l => match l with Text x => x | Head _ _ => [] end) (skipn 8 (plain_message ex_encode (str_of "a@x.org") (str_of "ShakeMap") (str_of "b@y.org") [104; 233] [])) = [codes (str_of "aMOp"); []].
Proof.
  split. { apply (between_all ex_b [[Text []; Text [104]]; [Text []]] []). repeat (apply Forall_cons || apply Forall_nil); intros [E|E]; vm_compute in E; discriminate. }
  split; [reflexivity|]. split; vm_compute; reflexivity.
Qed.
