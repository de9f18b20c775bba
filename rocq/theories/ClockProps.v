(** Property C136: objects that give the local time. *)
From Coq Require Import ZArith Reals String Ascii Bool List Lia Lra.
From Flocq Require Import Core.
From Verif Require Import PyBase ZoneModel ZoneSpec ZoneProofs ZoneProps ClockModel.
Import ListNotations.
Open Scope Z_scope.

(** ** Vocabulary *)
(** A question put to an object: an instant and a place. *)
Record question := ask { q_time : Z; q_lat : R; q_lon : R }.
(** An object at some point of its life: made, then asked again any number of times, where errors
    are caught; [qs] are all the questions, the latest first. *)
Inductive lives (k : kind) (pytz : pytz_db) (input : view) : list question -> clock -> Prop :=
| born : forall q c, new_clock k pytz (Ok input) (q_time q) (q_lat q) (q_lon q) = Ok c -> lives k pytz input [q] c
| asked : forall qs c q c' r, lives k pytz input qs c -> update pytz c (q_time q) (q_lat q) (q_lon q) = (c', r) -> lives k pytz input (q :: qs) c'.
(** The latest question that has an answer, and the answer. *)
Inductive latest {A} (answer : question -> res A) : list question -> question -> A -> Prop :=
| latest_here : forall q qs a, answer q = Ok a -> latest answer (q :: qs) q a
| latest_before : forall q qs e q' a, answer q = Err e -> latest answer qs q' a -> latest answer (q :: qs) q' a.
Definition seconds_of (o : offset) : Z := match o with ODelta s => s | OHours h => h * 3600 end.

(** ** Lemmas *)
Definition answer_of k pytz input (q : question) : res local := locate k pytz input (q_time q) (q_lat q) (q_lon q).
Lemma lives_state k pytz input qs c : lives k pytz input qs c ->
  c_kind c = k /\ c_input c = input /\ (exists q, hd_error qs = Some q /\ c_utctime c = q_time q /\ c_lat c = q_lat q /\ c_lon c = q_lon q) /\
  exists q l, latest (answer_of k pytz input) qs q l /\ c_found c = Some l.
Proof.
  induction 1 as [q c H|qs c q c' r H IH U].
  - unfold new_clock, search in H. cbn [bind c_kind c_input c_utctime c_lat c_lon] in H. destruct (locate k pytz input (q_time q) (q_lat q) (q_lon q)) as [l|] eqn:E; [|discriminate]. cbn [bind] in H. injection H as <-. cbn. repeat split; [exists q; repeat split|]. exists q, l. split; [|reflexivity]. apply latest_here. exact E.
  - destruct IH as (Ek & Ei & _ & q0 & l0 & L & F). unfold update, search in U. cbn [c_kind c_input c_utctime c_lat c_lon c_found] in U. rewrite Ek, Ei in U. destruct (locate k pytz input (q_time q) (q_lat q) (q_lon q)) as [l|e] eqn:E; injection U as <- <-; cbn [c_kind c_input c_utctime c_lat c_lon c_found].
    + repeat split; [exists q; repeat split|]. exists q, l. split; [|reflexivity]. apply latest_here. exact E.
    + repeat split; [exists q; repeat split|]. exists q0, l0. split; [|exact F]. apply latest_before with e; [exact E|exact L].
Qed.
Lemma latest_fun {A} (f : question -> res A) qs q a q' a' : latest f qs q a -> latest f qs q' a' -> q = q' /\ a = a'.
Proof. intro H. revert q' a'. induction H as [q qs a E|q qs e q1 a E L IH]; intros q' a' K; inversion K; subst; try congruence; [split; congruence|]. apply IH. assumption. Qed.
Lemma latest_answer {A} (f : question -> res A) qs q a : latest f qs q a -> f q = Ok a.
Proof. induction 1; assumption. Qed.
Lemma find_shift pytz t lat lon feats : forall tz l, find_time_zone pytz t lat lon feats tz = Ok l -> local_time l = t + seconds_of (utc_offset l).
Proof.
  induction feats as [|f fs IH]; intros tz l; cbn [find_time_zone].
  - destruct tz; [|discriminate]. intro H. injection H as <-. reflexivity.
  - destruct (_ || _); [apply IH|]. destruct (is_inside f); [|apply IH]. destruct (pytz (tzid f)) as [u|]; [|discriminate]. destruct (u t); [|discriminate]. intro H. injection H as <-. reflexivity.
Qed.
Lemma find_ne_shift pytz t lon feats : forall tz l, find_time_zone_ne pytz t lon feats tz = Ok l -> local_time l = t + seconds_of (utc_offset l).
Proof.
  induction feats as [|f fs IH]; intros tz l; cbn [find_time_zone_ne].
  - destruct tz; [|discriminate]. intro H. injection H as <-. reflexivity.
  - destruct (is_inside f); [|apply IH]. cbn zeta. destruct (negb _).
    + destruct (pytz _) as [u|]; [|discriminate]. destruct (u t); [|discriminate]. intro H. injection H as <-. reflexivity.
    + intro H. injection H as <-. reflexivity.
Qed.

(** ** Theorems *)
(** Making an object succeeds exactly when the file opens and a new search answers; errors are theirs. *)
Theorem C136_new : forall k pytz opened t lat lon,
  match opened with
  | Err e => new_clock k pytz opened t lat lon = Err e
  | Ok input => match locate k pytz input t lat lon with
                | Err e => new_clock k pytz opened t lat lon = Err e
                | Ok l => exists c, new_clock k pytz opened t lat lon = Ok c /\ get_local_time c = Ok (local_time l) /\ get_utc_offset c = Ok (utc_offset l)
                end
  end.
Proof.
  intros k pytz [input|e] t lat lon; [|reflexivity]. unfold new_clock, search. cbn [bind c_kind c_input c_utctime c_lat c_lon]. destruct (locate k pytz input t lat lon) as [l|e]; cbn [bind]; [|reflexivity]. eexists. split; [reflexivity|]. split; reflexivity.
Qed.
Print Assumptions C136_new.
(** At any point of its life the getters give the answer to the latest question that had one, as a
    new object would: nothing of earlier questions is left, and a failed update changes neither. *)
Theorem C136_latest : forall k pytz input qs c q l, lives k pytz input qs c ->
  latest (fun q => locate k pytz input (q_time q) (q_lat q) (q_lon q)) qs q l ->
  get_local_time c = Ok (local_time l) /\ get_utc_offset c = Ok (utc_offset l) /\
  exists fresh, new_clock k pytz (Ok input) (q_time q) (q_lat q) (q_lon q) = Ok fresh /\ get_local_time fresh = get_local_time c /\ get_utc_offset fresh = get_utc_offset c.
Proof.
  intros k pytz input qs c q l H L. destruct (lives_state _ _ _ _ _ H) as (_ & _ & _ & q1 & l1 & L1 & F). destruct (latest_fun _ _ _ _ _ _ L L1) as [<- <-]. unfold get_local_time, get_utc_offset. rewrite F. split; [reflexivity|]. split; [reflexivity|].
  pose proof (C136_new k pytz (Ok input) (q_time q) (q_lat q) (q_lon q)) as N. cbn beta iota in N. rewrite (latest_answer _ _ _ _ L) in N. destruct N as (fr & N & G1 & G2). exists fr. auto.
Qed.
Print Assumptions C136_latest.
(** There always is such a question, so the two getters never fail. *)
Theorem C136_answers : forall k pytz input qs c, lives k pytz input qs c ->
  exists q l, latest (fun q => locate k pytz input (q_time q) (q_lat q) (q_lon q)) qs q l /\ get_local_time c = Ok (q_time q + seconds_of (utc_offset l)).
Proof.
  intros k pytz input qs c H. destruct (lives_state _ _ _ _ _ H) as (_ & _ & _ & q & l & L & F). exists q, l. split; [exact L|]. unfold get_local_time. rewrite F. f_equal. pose proof (latest_answer _ _ _ _ L) as A. unfold answer_of, locate in A. destruct k; [eapply find_shift|eapply find_ne_shift]; exact A.
Qed.
Print Assumptions C136_answers.
(** An update reports exactly what a new object would have raised. *)
Theorem C136_update : forall k pytz input qs c t lat lon c' r, lives k pytz input qs c -> update pytz c t lat lon = (c', r) ->
  r = bind (new_clock k pytz (Ok input) t lat lon) (fun _ => Ok tt) /\ (forall e, r = Err e -> get_local_time c' = get_local_time c /\ get_utc_offset c' = get_utc_offset c).
Proof.
  intros k pytz input qs c t lat lon c' r H U. destruct (lives_state _ _ _ _ _ H) as (Ek & Ei & _). unfold update, search in U. cbn [c_kind c_input c_utctime c_lat c_lon c_found] in U. rewrite Ek, Ei in U. unfold new_clock, search. cbn [bind c_kind c_input c_utctime c_lat c_lon c_found]. destruct (locate k pytz input t lat lon) as [l|e]; injection U as <- <-; cbn [bind]; (split; [reflexivity|]); [discriminate|]. intros e' _. split; reflexivity.
Qed.
Print Assumptions C136_update.
(** The zone can never be asked for. *)
Theorem C136_zone_refuted : forall k pytz input qs c, lives k pytz input qs c -> get_time_zone c = Err AttributeError.
Proof. reflexivity. Qed.
Print Assumptions C136_zone_refuted.

(** ** Examples *)
Definition square : feature := {| xmin := 0; ymin := 0; xmax := 10; ymax := 10; tzid := str_of "A"; projected := Inside; geographic := Inside; zone_hours := 0 |}.
Definition elsewhere : feature := {| xmin := 20; ymin := 20; xmax := 30; ymax := 30; tzid := str_of "B"; projected := Inside; geographic := Inside; zone_hours := 0 |}.
Definition world : view := fun _ _ => [square; elsewhere].
Definition known : pytz_db := fun n => if str_eqb n (str_of "A") then Some (fun _ => Some 3600) else None.
Lemma in_square t : locate Boundaries known world t 5 5 = Ok {| local_time := t + 3600; timezone_str := str_of "A"; utc_offset := ODelta 3600 |}.
Proof. unfold locate, world, find_time_zone, square. cbn [ymin ymax xmin xmax]. rewrite !Rlt_bool_false by lra. reflexivity. Qed.
Lemma in_elsewhere t : locate Boundaries known world t 25 25 = Err KeyError.
Proof. unfold locate, world, find_time_zone, square, elsewhere. cbn [ymin ymax xmin xmax]. rewrite (Rlt_bool_true 10 25) by lra. rewrite (Rlt_bool_false 25 0) by lra. cbn [orb]. rewrite !Rlt_bool_false by lra. reflexivity. Qed.
(** After an update that fails the object holds the new instant and place beside the old local time. *)
Theorem C136_stale_refuted : exists k pytz input qs c, lives k pytz input qs c /\
  c_utctime c = 7 /\ c_lat c = 25%R /\ c_lon c = 25%R /\ get_local_time c = Ok 3600 /\ locate k pytz input 7 25 25 = Err KeyError.
Proof.
  exists Boundaries, known, world, [ask 7 25 25; ask 0 5 5]. eexists. split; [|split; [|split; [|split; [|split; [|apply in_elsewhere]]]]].
  - eapply asked; [apply born|].
    + unfold new_clock, search. cbn [bind c_kind c_input c_utctime c_lat c_lon q_time q_lat q_lon]. rewrite in_square. reflexivity.
    + unfold update, search. cbn [c_kind c_input c_utctime c_lat c_lon q_time q_lat q_lon]. rewrite in_elsewhere. reflexivity.
  - reflexivity.
  - reflexivity.
  - reflexivity.
  - reflexivity.
Qed.
Print Assumptions C136_stale_refuted.
(** Outside all zones the offset is a number of hours and no duration. *)
Theorem C136_hours_refuted : exists k pytz input qs c h, lives k pytz input qs c /\ get_utc_offset c = Ok (OHours h) /\ get_local_time c = Ok (h * 3600).
Proof.
  exists Boundaries, known, world, [ask 0 15 15]. do 2 eexists. split; [|split].
  - apply born. unfold new_clock, search, locate, world, find_time_zone, square, elsewhere. cbn [bind c_kind c_input c_utctime c_lat c_lon q_time q_lat q_lon ymin ymax xmin xmax]. rewrite (Rlt_bool_true 10 15), (Rlt_bool_true 15 20), (Rlt_bool_false 15 0) by lra. cbn [orb]. reflexivity.
  - reflexivity.
  - reflexivity.
Qed.
Print Assumptions C136_hours_refuted.
Example C136_ex : exists c, lives Boundaries known world [ask 100 5 5] c /\ get_local_time c = Ok 3700 /\ get_utc_offset c = Ok (ODelta 3600).
Proof. eexists. split; [apply born; unfold new_clock, search; cbn [bind c_kind c_input c_utctime c_lat c_lon q_time q_lat q_lon]; rewrite in_square; reflexivity|]. split; reflexivity. Qed.
Example C136_ex_latest : latest (fun q => locate Boundaries known world (q_time q) (q_lat q) (q_lon q)) [ask 7 25 25; ask 0 5 5] (ask 0 5 5) {| local_time := 3600; timezone_str := str_of "A"; utc_offset := ODelta 3600 |}.
Proof. eapply latest_before; [apply in_elsewhere|]. apply latest_here. apply in_square. Qed.
