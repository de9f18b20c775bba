(** Proofs about elapsed times. *)
From Coq Require Import ZArith Reals String Ascii Bool List Lia Lra.
From Flocq Require Import Core.
From Verif Require Import PyBase FloatBase RoundProofs ElapsedModel ElapsedSpec.
Import ListNotations.
Open Scope Z_scope.

Lemma td_total : forall us, td_seconds us + td_days us * 86400 = us / 1000000.
Proof.
  intro us. unfold td_seconds, td_days.
  rewrite (Z.div_mod us 86400000000) at 3 by lia.
  replace (86400000000 * (us / 86400000000) + us mod 86400000000)
    with (us mod 86400000000 + (us / 86400000000 * 86400) * 1000000) by ring.
  rewrite Z.div_add by lia. reflexivity.
Qed.

(** The floating-point remainder is the integer remainder. *)
Lemma float_rem_correct : forall n b, 0 <= n < 2 ^ 45 -> 2 <= b <= 60 -> float_rem n b (n / b) = n mod b.
Proof.
  intros n b Hn Hb. unfold float_rem.
  assert (Hq0 : 0 <= n / b <= n). { split; [apply Z.div_pos; lia|]. apply Z.div_le_upper_bound; nia. }
  rewrite (rnd_int n) by lia. rewrite (rnd_int (n / b)) by lia.
  set (k := n / b) in *. set (x := (IZR n / IZR b)%R).
  assert (Hbp : (2 <= IZR b <= 60)%R) by (split; apply IZR_le; lia).
  assert (Hxb : (x * IZR b = IZR n)%R) by (unfold x; field; lra).
  assert (Hr : n = b * k + n mod b) by (unfold k; apply Z.div_mod; lia).
  assert (Hrb : 0 <= n mod b < b) by (apply Z.mod_pos_bound; lia).
  set (r := n mod b) in *.
  assert (Hrr : (0 <= IZR r <= IZR b - 1)%R).
  { split; [apply (IZR_le 0); lia|]. rewrite <- minus_IZR. apply IZR_le. lia. }
  assert (Hxk : ((x - IZR k) * IZR b = IZR r)%R).
  { rewrite Rmult_minus_distr_r, Hxb. rewrite Hr at 1. rewrite plus_IZR, mult_IZR. ring. }
  assert (E1 : (Rabs (rnd x - x) * IZR b <= / 256)%R).
  { eapply Rle_trans; [apply (quot_err n b); lia|]. rewrite Z.abs_eq by lia.
    destruct Hn as [_ Hn]. apply IZR_lt in Hn.
    replace (IZR (2 ^ 53)) with (256 * IZR (2 ^ 45))%R by (rewrite <- mult_IZR; reflexivity).
    assert (0 < IZR (2 ^ 45))%R by (apply (IZR_lt 0); reflexivity).
    rewrite Rinv_mult. apply (Rmult_le_reg_r (IZR (2 ^ 45))); [assumption|].
    rewrite !Rmult_assoc, Rinv_l by lra. lra. }
  set (q := rnd x) in *.
  assert (Y : (Rabs (q - IZR k) <= 2)%R).
  { replace (q - IZR k)%R with ((q - x) + (x - IZR k))%R by ring.
    eapply Rle_trans; [apply Rabs_triang|].
    assert (Rabs (x - IZR k) <= 1)%R by (rewrite Rabs_pos_eq; nra).
    assert (Rabs (q - x) <= 1)%R by (pose proof (Rabs_pos (q - x)); nra). lra. }
  pose proof (rnd_abs_err (q - IZR k) 1 ltac:(lia) Y) as E2.
  set (y := rnd (q - IZR k)) in *.
  replace (bpow radix2 (1 - 53)) with (/ 4503599627370496)%R in E2 by reflexivity.
  assert (Z1 : (Rabs (y * IZR b - IZR r) <= / 128)%R).
  { rewrite <- Hxk.
    replace (y * IZR b - (x - IZR k) * IZR b)%R with ((y - (q - IZR k)) * IZR b + (q - x) * IZR b)%R by ring.
    eapply Rle_trans; [apply Rabs_triang|]. rewrite !Rabs_mult, (Rabs_pos_eq (IZR b)) by lra.
    pose proof (Rabs_pos (y - (q - IZR k))). nra. }
  assert (Z2 : (Rabs (y * IZR b) <= bpow radix2 6)%R).
  { replace (y * IZR b)%R with ((y * IZR b - IZR r) + IZR r)%R by ring.
    eapply Rle_trans; [apply Rabs_triang|]. rewrite (Rabs_pos_eq (IZR r)) by lra. simpl. lra. }
  pose proof (rnd_abs_err (y * IZR b) 6 ltac:(lia) Z2) as E3.
  replace (bpow radix2 (6 - 53)) with (/ 140737488355328)%R in E3 by reflexivity.
  apply Znearest_imp.
  replace (rnd (y * IZR b) - IZR r)%R with ((rnd (y * IZR b) - y * IZR b) + (y * IZR b - IZR r))%R by ring.
  eapply Rle_lt_trans; [apply Rabs_triang|]. lra.
Qed.

(** Whole seconds between two times. *)
Lemma elapsed_closed : forall t1 t2, 0 <= t1 -> t1 <= t2 -> t2 < datetime_span ->
  let s := (t2 - t1) / 1000000 in
  get_time_elapsed t1 t2 =
  Ok {| weeks := s / 604800; days := s / 86400 mod 7; hours := s / 3600 mod 24;
        minutes := s / 60 mod 60; seconds := s mod 60 |}.
Proof.
  intros t1 t2 H0 H1 H2 s. unfold get_time_elapsed. destruct (t2 <? t1) eqn:E; [lia|].
  rewrite td_total. fold s.
  assert (Hs : 0 <= s < 2 ^ 45).
  { split; [apply Z.div_pos; lia|]. apply Z.div_lt_upper_bound; [lia|]. unfold datetime_span in H2. lia. }
  assert (Hh : s / 60 / 60 = s / 3600) by (rewrite Z.div_div by lia; reflexivity).
  assert (Hd : s / 3600 / 24 = s / 86400) by (rewrite Z.div_div by lia; reflexivity).
  assert (Hw : s / 86400 / 7 = s / 604800) by (rewrite Z.div_div by lia; reflexivity).
  assert (B1 : 0 <= s / 60 < 2 ^ 45) by (split; [apply Z.div_pos; lia|apply Z.div_lt_upper_bound; lia]).
  assert (B2 : 0 <= s / 3600 < 2 ^ 45) by (split; [apply Z.div_pos; lia|apply Z.div_lt_upper_bound; lia]).
  assert (B3 : 0 <= s / 86400 < 2 ^ 45) by (split; [apply Z.div_pos; lia|apply Z.div_lt_upper_bound; lia]).
  assert (F1 : float_rem s 60 (s / 60) = s mod 60) by (apply float_rem_correct; lia).
  assert (F2 : float_rem (s / 60) 60 (s / 3600) = s / 60 mod 60) by (rewrite <- Hh; apply float_rem_correct; lia).
  assert (F3 : float_rem (s / 3600) 24 (s / 86400) = s / 3600 mod 24) by (rewrite <- Hd; apply float_rem_correct; lia).
  assert (F4 : float_rem (s / 86400) 7 (s / 604800) = s / 86400 mod 7) by (rewrite <- Hw; apply float_rem_correct; lia).
  cbv zeta. rewrite Hh, Hd, Hw, F1, F2, F3, F4.
  destruct (60 <=? s) eqn:E1.
  - destruct (60 <=? s / 60) eqn:E2.
    + destruct (24 <=? s / 3600) eqn:E3.
      * destruct (7 <=? s / 86400) eqn:E4.
        -- reflexivity.
        -- rewrite <- Hw. rewrite (Z.div_small (s / 86400) 7) by lia. rewrite (Z.mod_small (s / 86400)) by lia. reflexivity.
      * rewrite <- Hw, <- Hd. rewrite (Z.div_small (s / 3600) 24) by lia. rewrite (Z.mod_small (s / 3600)) by lia. reflexivity.
    + rewrite <- Hw, <- Hd, <- Hh. rewrite (Z.div_small (s / 60) 60) by lia. rewrite (Z.mod_small (s / 60)) by lia. reflexivity.
  - rewrite <- Hw, <- Hd, <- Hh. rewrite (Z.div_small s 60) by lia. rewrite (Z.mod_small s) by lia. reflexivity.
Qed.

Lemma elapsed_correct : forall t1 t2, 0 <= t1 -> t1 <= t2 -> t2 < datetime_span ->
  exists e, get_time_elapsed t1 t2 = Ok e /\
    604800 * weeks e + 86400 * days e + 3600 * hours e + 60 * minutes e + seconds e = (t2 - t1) / 1000000 /\
    0 <= weeks e /\ 0 <= days e < 7 /\ 0 <= hours e < 24 /\ 0 <= minutes e < 60 /\ 0 <= seconds e < 60.
Proof.
  intros t1 t2 H0 H1 H2. eexists. split; [apply elapsed_closed; assumption|]. cbn [weeks days hours minutes seconds].
  set (s := (t2 - t1) / 1000000).
  assert (Hs : 0 <= s) by (apply Z.div_pos; lia). clearbody s. clear -Hs.
  repeat split; try (apply Z.mod_pos_bound; lia); try (apply Z.div_pos; lia).
  Ltac Zify.zify_post_hook ::= Z.div_mod_to_equations. lia.
Qed.

Lemma elapsed_backwards : forall t1 t2, t2 < t1 -> get_time_elapsed t1 t2 = Err Generic.
Proof. intros t1 t2 H. unfold get_time_elapsed. destruct (t2 <? t1) eqn:E; [reflexivity|lia]. Qed.

Lemma phrase_join : forall n unit, phrase n unit =
  str_of_Z n ++ sp ++ (if n =? 1 then str_of unit else str_of unit ++ s_).
Proof.
  intros n unit. unfold phrase, sp, s_. destruct (n =? 1); [rewrite app_nil_r|]; reflexivity.
Qed.

Lemma time_str_phrase : forall b s,
  get_time_str b s (str_of "week") = Ok (phrase b "week" ++ str_of ", " ++ phrase s "day") /\
  get_time_str b s (str_of "day") = Ok (phrase b "day" ++ str_of ", " ++ phrase s "hour") /\
  get_time_str b s (str_of "hour") = Ok (phrase b "hour" ++ str_of ", " ++ phrase s "minute") /\
  get_time_str b s (str_of "minute") = Ok (phrase b "minute" ++ str_of ", " ++ phrase s "second") /\
  get_time_str b s (str_of "second") = Ok (phrase b "second" ++ str_of ", " ++ phrase s "year").
Proof.
  intros b s. rewrite !phrase_join. repeat split; unfold get_time_str;
  match goal with |- context [index_of ?u periods] => let v := eval vm_compute in (index_of u periods) in
     change (index_of u periods) with v end; cbv iota zeta beta;
  cbn [nth periods map List.length Nat.pred]; rewrite <- !app_assoc; reflexivity.
Qed.

Lemma elapsed_string_correct : forall t1 t2, 0 <= t1 -> t1 <= t2 -> t2 < datetime_span ->
  get_elapsed_string t1 t2 = Ok (elapsed_text ((t2 - t1) / 1000000)).
Proof.
  intros t1 t2 H0 H1 H2. unfold get_elapsed_string. rewrite elapsed_closed by assumption. cbn [bind].
  cbn [weeks days hours minutes seconds].
  set (s := (t2 - t1) / 1000000).
  assert (Hs : 0 <= s) by (apply Z.div_pos; lia). clearbody s. clear -Hs.
  unfold elapsed_text.
  destruct (604800 <=? s) eqn:E1.
  - replace (s / 604800 =? 0) with false by (symmetry; apply Z.eqb_neq; lia). cbn [negb].
    destruct (time_str_phrase (s / 604800) (s / 86400 mod 7)) as (T & _). rewrite T.
    replace (s / 86400 mod 7) with (s mod 604800 / 86400) by lia. reflexivity.
  - replace (s / 604800 =? 0) with true by (symmetry; apply Z.eqb_eq; lia). cbn [negb].
    destruct (86400 <=? s) eqn:E2.
    + replace (s / 86400 mod 7) with (s / 86400) by lia.
      replace (s / 86400 =? 0) with false by (symmetry; apply Z.eqb_neq; lia). cbn [negb].
      destruct (time_str_phrase (s / 86400) (s / 3600 mod 24)) as (_ & T & _). rewrite T.
      replace (s / 3600 mod 24) with (s mod 86400 / 3600) by lia. reflexivity.
    + replace (s / 86400 mod 7) with 0 by lia. cbn [Z.eqb negb].
      destruct (3600 <=? s) eqn:E3.
      * replace (s / 3600 mod 24) with (s / 3600) by lia.
        replace (s / 3600 =? 0) with false by (symmetry; apply Z.eqb_neq; lia). cbn [negb].
        destruct (time_str_phrase (s / 3600) (s / 60 mod 60)) as (_ & _ & T & _). rewrite T.
        replace (s / 60 mod 60) with (s mod 3600 / 60) by lia. reflexivity.
      * replace (s / 3600 mod 24) with 0 by lia. cbn [Z.eqb negb].
        destruct (60 <=? s) eqn:E4.
        -- replace (s / 60 mod 60) with (s / 60) by lia.
           replace (s / 60 =? 0) with false by (symmetry; apply Z.eqb_neq; lia). cbn [negb].
           destruct (time_str_phrase (s / 60) (s mod 60)) as (_ & _ & _ & T & _). rewrite T. reflexivity.
        -- replace (s / 60 mod 60) with 0 by lia. cbn [Z.eqb negb].
           replace (s mod 60) with s by lia. rewrite phrase_join. unfold sp, s_.
           destruct (s =? 1) eqn:E5; cbn [negb].
           ++ apply Z.eqb_eq in E5. subst s. reflexivity.
           ++ reflexivity.
Qed.

Lemma time_str_unknown : forall b s u, ~ In u periods -> get_time_str b s u = Err Generic.
Proof.
  intros b s u H. unfold get_time_str.
  assert (E : index_of u periods = None).
  { clear b s. induction periods as [|x l IH]; [reflexivity|]. simpl.
    destruct (str_eqb_spec x u) as [->|Hn]; [exfalso; apply H; left; reflexivity|].
    rewrite IH; [reflexivity|]. intro; apply H; right; assumption. }
  rewrite E. reflexivity.
Qed.
