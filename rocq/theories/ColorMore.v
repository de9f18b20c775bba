From Coq Require Import ZArith Reals String Ascii Bool List Lia Lra Psatz Sorted.
From Flocq Require Import Core Plus_error.
From Verif Require Import PyBase PyStr FloatBase FloatEval ColorModel ColorSpec ColorProofs ColorLut ColorBytes.
Import ListNotations.
Open Scope R_scope.

Lemma rnd_minus_pos : forall a b, is_double a -> is_double b -> a < b -> 0 < rnd (b - a).
Proof.
  intros a b Da Db Hab. assert (0 <= rnd (b - a)) by (rewrite <- rnd_0; apply rnd_le; lra). assert (N : rnd (b - a) <> 0); [|lra].
  unfold rnd, Rminus. apply round_plus_neq_0; [apply FLT_exp_valid; reflexivity|apply monotone_exp_not_FTZ; [apply FLT_exp_valid; reflexivity|apply FLT_exp_monotone]|apply valid_rnd_N|exact Db|apply generic_format_opp; exact Da|lra].
Qed.
Lemma zs_facts : forall z0 z1 rgb0 rgb1 bot top, valid z0 z1 rgb0 rgb1 bot top ->
  let zs := z0 ++ [top] in nth_error zs 0 = Some bot /\ last zs 0 = top /\ increasing zs /\ (1 < List.length zs)%nat /\
  (forall i, (S i < List.length zs)%nat -> nth_error rgb0 i <> None /\ nth_error rgb1 i <> None) /\ (List.length zs - 2 = List.length z0 - 1)%nat /\ bot < top.
Proof.
  intros z0 z1 rgb0 rgb1 bot top [Inc B0 Ne Top Mx Und L0 L1] zs. unfold zs. assert (L : (0 < List.length z0)%nat) by (apply nth_error_Some; congruence).
  split; [rewrite nth_error_app1 by assumption; assumption|]. split; [apply last_last|]. split.
  - intros i a b Ea Eb. destruct (Nat.lt_ge_cases (S i) (List.length z0)) as [H|H].
    + rewrite nth_error_app1 in Ea, Eb by lia. exact (Inc i a b Ea Eb).
    + assert (Hi : S i = List.length z0) by (assert (S i < List.length (z0 ++ [top]))%nat by (apply nth_error_Some; congruence); rewrite app_length in *; cbn in *; lia).
      rewrite nth_error_app1 in Ea by lia. rewrite nth_error_app2 in Eb by lia. replace (S i - List.length z0)%nat with 0%nat in Eb by lia. assert (b = top) by (cbn in Eb; congruence). subst b. left. apply Und. exact (nth_error_In _ _ Ea).
  - rewrite app_length. cbn [List.length]. split; [lia|]. split; [|split; [lia|apply Und; exact (nth_error_In _ _ B0)]]. intros i Hi. rewrite !nth_error_Some. lia.
Qed.
Lemma facts : forall rd z0 z1 rgb0 rgb1 res nan lg bot top p, valid z0 z1 rgb0 rgb1 bot top -> 0 < rd (top - bot) ->
  new_palette rd z0 z1 rgb0 rgb1 res nan lg = inl p ->
  holds rd p (z0 ++ [top]) bot top rgb0 rgb1 /\ (256 <= p_n p)%Z /\ to_rgba (nan_list rd nan) = Some (p_bad p) /\ p_log p = lg /\
  colours_of res (rd (rd (top - bot) / match res with Some s => s | None => 1 end)) (p_n p).
Proof.
  intros rd z0 z1 rgb0 rgb1 res nan lg bot top p V Pd E.
  assert (Hnan : exists bad, to_rgba (nan_list rd nan) = Some bad).
  { unfold new_palette in E. destruct (_ && _ && _) in E; [discriminate|]. destruct (amin z0); [|discriminate]. destruct (amax z1); [|discriminate]. cbv zeta in E.
    do 4 (match type of E with match ?M with _ => _ end = _ => destruct M; [|discriminate] end). destruct to_rgba; [eauto|discriminate]. }
  destruct Hnan as (bad & Hbad).
  assert (Lp : lengths_pass z0 z1 rgb0 rgb1).
  { apply check_pass. destruct (_ && _ && _) eqn:Q; [|reflexivity]. exfalso. unfold new_palette in E. rewrite Q in E. discriminate. }
  assert (Hn : exists n, colours_of res (rd (rd (top - bot) / match res with Some s => s | None => 1 end)) n).
  { destruct res as [s|]; [|exists 256%Z; reflexivity]. eexists. split; [|reflexivity]. intros ->. unfold new_palette in E. apply check_pass in Lp. rewrite Lp in E.
    destruct V as [Inc B0 Ne Top Mx Und L0 L1].
    assert (Emin : amin z0 = Some bot) by (destruct z0 as [|z l]; [discriminate|]; injection B0 as ->; apply inc_min; assumption).
    assert (Emax : amax z1 = Some top) by (apply amax_iff; split; [rewrite <- Top; apply last_in; assumption|assumption]).
    rewrite Emin, Emax in E. cbv zeta in E. do 3 (match type of E with match ?M with _ => _ end = _ => destruct M; [|discriminate] end).
    rewrite (proj2 (reqb_iff 0 0) eq_refl), (proj2 (rlt_iff 0 (rd (top - bot))) Pd) in E. discriminate. }
  destruct Hn as (n & Hn). destruct (new_ok rd z0 z1 rgb0 rgb1 res nan lg bot top n bad V Lp Hn Hbad) as (p' & E' & Hp & En & Eb & El). rewrite E in E'. assert (p' = p) by congruence. subst p'.
  rewrite En, Eb. split; [assumption|]. split; [destruct res; cbn in Hn; lia|]. auto.
Qed.
Lemma rgba_range : forall l r g b a, to_rgba l = Some (r, g, b, a) -> 0 <= r <= 1 /\ 0 <= g <= 1 /\ 0 <= b <= 1 /\ 0 <= a <= 1.
Proof.
  intros l r g b a E. unfold to_rgba in E. destruct (forallb _ l) eqn:F; [|discriminate]. rewrite forallb_forall in F.
  assert (G : forall x, In x l -> 0 <= x <= 1) by (intros x Hx; specialize (F x Hx); apply andb_true_iff in F as [F1 F2]; apply rle_iff in F1, F2; lra).
  destruct l as [|r' [|g' [|b' [|a' [|]]]]]; try discriminate; injection E as <- <- <- <-; repeat split; try (apply G; cbn; tauto); lra.
Qed.
(** Every number has a colour. *)
Lemma color_total : forall rd z0 z1 rgb0 rgb1 res nan lg bot top p ln v, valid z0 z1 rgb0 rgb1 bot top -> 0 < rd (top - bot) ->
  new_palette rd z0 z1 rgb0 rgb1 res nan lg = inl p -> sound rd (p_n p) ->
  exists r g b a, color rd ln p v = Ok (r, g, b, a) /\ 0 <= r <= 1 /\ 0 <= g <= 1 /\ 0 <= b <= 1 /\ 0 <= a <= 1.
Proof.
  intros rd z0 z1 rgb0 rgb1 res nan lg bot top p ln v V Pd E S. destruct (facts _ _ _ _ _ _ _ _ _ _ _ V Pd E) as (Hp & N & Hb & El & _).
  destruct (zs_facts _ _ _ _ _ _ V) as (F1 & F2 & F3 & F4 & F5 & F6 & Lt). set (zs := z0 ++ [top]) in *. unfold color.
  rewrite (checks_ok rd (p_n p) S p zs bot top rgb0 rgb1 Hp Pd F1 F2 F3 F4). cbn [negb].
  destruct (lut_index rd (p_n p) _) as [i|] eqn:Ei.
  - apply index_range in Ei; [|assumption].
    assert (G : exists f, forall c, lut rd (p_n p) (p_rows p c) i = Ok (clip01 (f c))).
    { destruct (Z.eq_dec i 0) as [->|]; [|destruct (Z.eq_dec i (p_n p - 1)) as [->|]].
      - destruct (nth_error rgb0 0) as [a|] eqn:Ea; [|exfalso; apply (proj1 (F5 0%nat F4)); assumption]. exists (fun c => rd (chan c a / 255)). exact (lut_first rd (p_n p) p zs bot top rgb0 rgb1 Hp F1 a Ea).
      - destruct (nth_error rgb1 (List.length zs - 2)) as [b|] eqn:Eb; [|exfalso; apply (proj2 (F5 (List.length zs - 2)%nat ltac:(lia))); assumption]. exists (fun c => rd (chan c b / 255)). exact (lut_last rd (p_n p) S p zs bot top rgb0 rgb1 Hp F4 b Eb).
      - destruct (lut_inner rd (p_n p) S p zs bot top rgb0 rgb1 Hp Pd F1 F2 F3 F4 F5 i ltac:(lia)) as (k & za & zb & a & b & _ & _ & _ & _ & _ & Hl). eexists (fun c => _). exact Hl. }
    destruct G as (f & G). rewrite !G. cbn [bind]. do 4 eexists. split; [reflexivity|]. repeat split; try apply clip_range; lra.
  - destruct (p_bad p) as [[[r g] b] a]. do 4 eexists. split; [reflexivity|]. exact (rgba_range _ _ _ _ _ Hb).
Qed.
(** Values beyond the ends. *)
Lemma index_low : forall rd n p zs bot top rgb0 rgb1 x, sound rd n -> rd (IZR n) = IZR n -> holds rd p zs bot top rgb0 rgb1 -> 0 < rd (top - bot) -> x <= bot -> lut_index rd n (norm rd p (Fin x)) = Some 0%Z.
Proof.
  intros rd n p zs bot top rgb0 rgb1 x S Rn Hp Pd Hx. cbn [norm lut_index]. rewrite (h_min _ _ _ _ _ _ _ Hp), (h_max _ _ _ _ _ _ _ Hp).
  assert (A : adjust rd bot top x <= 0) by (rewrite <- (adj_bot rd n S bot top); apply (adj_mono rd n S bot top Pd); assumption). assert (Pn : 0 < IZR n) by (apply IZR_lt; pose proof (so_pos _ _ S); lia).
  assert (B : rd (adjust rd bot top x * IZR n) <= 0) by (apply Rle_trans with (rd 0); [apply (so_mono _ _ S); nra|rewrite (so_0 _ _ S); lra]).
  destruct (rlt _ 0) eqn:T; [reflexivity|]. apply rlt_f in T. assert (Z : rd (adjust rd bot top x * IZR n) = 0) by lra. rewrite Z. destruct (rle (IZR n) 0) eqn:Q; [apply rle_iff in Q; lra|]. f_equal. apply (Ztrunc_IZR 0).
Qed.
Lemma index_high : forall rd n p zs bot top rgb0 rgb1 x, sound rd n -> rd (IZR n) = IZR n -> holds rd p zs bot top rgb0 rgb1 -> 0 < rd (top - bot) -> top <= x -> lut_index rd n (norm rd p (Fin x)) = Some (n - 1)%Z.
Proof.
  intros rd n p zs bot top rgb0 rgb1 x S Rn Hp Pd Hx. cbn [norm lut_index]. rewrite (h_min _ _ _ _ _ _ _ Hp), (h_max _ _ _ _ _ _ _ Hp).
  assert (A : 1 <= adjust rd bot top x) by (rewrite <- (adj_top rd n S bot top Pd) at 1; apply (adj_mono rd n S bot top Pd); assumption). assert (Pn : 0 < IZR n) by (apply IZR_lt; pose proof (so_pos _ _ S); lia).
  assert (B : IZR n <= rd (adjust rd bot top x * IZR n)) by (rewrite <- Rn at 1; apply (so_mono _ _ S); nra).
  destruct (rlt _ 0) eqn:T; [apply rlt_iff in T; lra|]. rewrite (proj2 (rle_iff _ _) B). reflexivity.
Qed.
Lemma hex_val : forall v, (0 <= v < 16)%Z -> hexval (hex_digit v) v.
Proof.
  intros v Hv. unfold hexval. assert (C : In v (map Z.of_nat (seq 0 16))) by (apply in_map_iff; exists (Z.to_nat v); split; [lia|apply in_seq; lia]). cbn in C.
  repeat (destruct C as [<-|C]; [eexists; split; [reflexivity|split; [reflexivity|lia]]|]). destruct C.
Qed.
Lemma to255_range : forall rd c, (forall x y, x <= y -> rd x <= rd y) -> rd 0 = 0 -> rd 255 = 255 -> 0 <= c <= 1 -> (0 <= to255 rd c <= 255)%Z.
Proof.
  intros rd c M R0 R1 Hc. unfold to255. assert (A : 0 <= rd (c * 255) <= 255) by (split; [apply Rle_trans with (rd 0); [lra|apply M; lra]|apply Rle_trans with (rd 255); [apply M; lra|lra]]). rewrite Ztrunc_floor by lra.
  split; [apply Zfloor_lub; lra|]. apply le_IZR. eapply Rle_trans; [apply Zfloor_lb|]. lra.
Qed.
