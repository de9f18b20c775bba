(** Colour palettes. *)
From Coq Require Import ZArith Reals String Ascii Bool List Lia Lra Psatz Sorted.
From Flocq Require Import Core.
From Verif Require Import PyBase PyStr FloatBase FloatEval ColorModel ColorSpec ColorProofs ColorLut ColorBytes ColorMore.
Import ListNotations.
Open Scope R_scope.

(** ** C40: which lengths are refused *)
Theorem C40_check : forall rd z0 z1 rgb0 rgb1 res nan lg, new_palette rd z0 z1 rgb0 rgb1 res nan lg = inr ConsistentLength <->
  (List.length z0 <> List.length z1 /\ List.length z1 <> List.length rgb0 /\ List.length rgb0 <> List.length rgb1).
Proof.
  intros rd z0 z1 rgb0 rgb1 res nan lg. split.
  - intro E. unfold new_palette in E. destruct (_ && _ && _) eqn:C in E.
    + rewrite !andb_true_iff, !negb_true_iff, !Nat.eqb_neq in C. tauto.
    + destruct (amin z0); [|discriminate]. destruct (amax z1); [|discriminate]. cbv zeta in E.
      match type of E with match ?M with _ => _ end = _ => destruct M; [|discriminate] end. match type of E with match ?M with _ => _ end = _ => destruct M; [|discriminate] end. match type of E with match ?M with _ => _ end = _ => destruct M; [|discriminate] end.
      match type of E with match ?M with _ => _ end = _ => destruct M; [|discriminate] end. destruct to_rgba; discriminate.
  - intros (A & B & C). unfold new_palette. apply Nat.eqb_neq in A, B, C. rewrite A, B, C. reflexivity.
Qed.
Print Assumptions C40_check.
(** What passes the check needs at least one value of each kind and a colour for
    every band; other differences in length are not noticed. *)
Theorem C40_index : forall rd z0 z1 rgb0 rgb1 nan lg bad, z0 <> [] -> z1 <> [] -> lengths_pass z0 z1 rgb0 rgb1 -> to_rgba (nan_list rd nan) = Some bad ->
  ((List.length z0 <= List.length rgb0 /\ List.length z0 <= List.length rgb1)%nat <-> exists p, new_palette rd z0 z1 rgb0 rgb1 None nan lg = inl p) /\
  ((List.length z0 > List.length rgb0 \/ List.length z0 > List.length rgb1)%nat <-> new_palette rd z0 z1 rgb0 rgb1 None nan lg = inr (Raised IndexError)).
Proof.
  intros rd z0 z1 rgb0 rgb1 nan lg bad N0 N1 Lp Hb.
  assert (G : ((List.length z0 <= List.length rgb0 /\ List.length z0 <= List.length rgb1)%nat -> exists p, new_palette rd z0 z1 rgb0 rgb1 None nan lg = inl p) /\
              ((List.length z0 > List.length rgb0 \/ List.length z0 > List.length rgb1)%nat -> new_palette rd z0 z1 rgb0 rgb1 None nan lg = inr (Raised IndexError))).
  { unfold new_palette. apply check_pass in Lp. rewrite Lp. destruct z0 as [|z z0]; [contradiction|]. destruct z1 as [|y z1]; [contradiction|]. cbn [amin amax].
    set (vmin := fold_left Rmin z0 z). set (vmax := fold_left Rmax z1 y). cbv zeta.
    match goal with |- context [rows rd ?x ?a ?b Red] => set (xs := x); set (A := a); set (B := b) end.
    assert (Lx : List.length xs = S (S (List.length z0))) by (unfold xs; rewrite app_length, map_length; cbn; lia). assert (LA : List.length A = S (List.length rgb0)) by (unfold A; rewrite app_length; cbn; lia).
    assert (LB : List.length B = S (List.length rgb1)) by reflexivity. cbn [List.length]. split.
    - intros [H0 H1]. assert (R : forall c, exists l, rows rd xs A B c = Some l) by (intro c; destruct (rows_ok rd xs A B c) as (l & E & _); [lia|lia|eauto]).
      destruct (R Red) as (r & ->), (R Green) as (g & ->), (R Blue) as (b & ->). rewrite Hb. eauto.
    - intro H. assert (R : rows rd xs A B Red = None) by (apply rows_short; lia). rewrite R. reflexivity. }
  destruct G as [G1 G2]. split; split; try assumption.
  - intros (p & E). destruct (Nat.le_gt_cases (List.length z0) (List.length rgb0)) as [H0|H0]; [|rewrite G2 in E by lia; discriminate]. destruct (Nat.le_gt_cases (List.length z0) (List.length rgb1)) as [H1|H1]; [auto|rewrite G2 in E by lia; discriminate].
  - intro E. destruct (Nat.le_gt_cases (List.length z0) (List.length rgb0)) as [H0|H0]; [|auto]. destruct (Nat.le_gt_cases (List.length z0) (List.length rgb1)) as [H1|H1]; [|auto]. destruct G1 as (p & E'); [auto|congruence].
Qed.
Print Assumptions C40_index.
(** ** C39 *)
(** Exact arithmetic: the colour shown for a value is the palette's colour for a
    value at most one step of the table away, and exactly at the ends. *)
Theorem C39_interpolates : forall z0 z1 rgb0 rgb1 res nan bot top p ln x, let ex := fun x : R => x in
  valid z0 z1 rgb0 rgb1 bot top -> Forall color_ok rgb0 -> Forall color_ok rgb1 -> new_palette ex z0 z1 rgb0 rgb1 res nan false = inl p -> bot <= x <= top ->
  exists z c, get_data_color ex ln p (Fin x) (str_of "mlab") = Ok (Mlab (red c / 255, green c / 255, blue c / 255, 1)) /\
    painted z0 top rgb0 rgb1 z c /\ bot <= z <= top /\ Rabs (z - x) <= (top - bot) / IZR (p_n p - 1) /\ (256 <= p_n p)%Z /\
    (x = bot -> z = bot) /\ (x = top -> z = top).
Proof.
  intros z0 z1 rgb0 rgb1 res nan bot top p ln x ex V C0 C1 E Hx.
  assert (Pd : 0 < ex (top - bot)) by (destruct (zs_facts _ _ _ _ _ _ V) as (_ & _ & _ & _ & _ & _ & Lt); unfold ex; lra).
  destruct (facts ex _ _ _ _ _ _ _ _ _ _ V Pd E) as (Hp & N256 & _ & El & Hn). assert (En : exists n, p_n p = n) by eauto. destruct En as (n & En). rewrite En in N256, Hn.
  destruct (zs_facts _ _ _ _ _ _ V) as (F1 & F2 & F3 & F4 & F5 & F6 & Lt). set (zs := z0 ++ [top]) in *. pose proof (sound_exact n N256) as S. fold ex in S.
  assert (PN : 0 < IZR (n - 1)) by (apply IZR_lt; lia). assert (PN0 : 0 < IZR n) by (apply IZR_lt; lia).
  assert (Ck : lut_checks ex p = true) by (apply (checks_ok ex n S p zs bot top rgb0 rgb1 Hp Pd F1 F2 F3 F4)).
  set (t := (x - bot) / (top - bot)). assert (Ht : 0 <= t <= 1).
  { unfold t. split; [apply Rmult_le_reg_r with (top - bot)|apply Rmult_le_reg_r with (top - bot)]; try lra; unfold Rdiv; rewrite Rmult_assoc, Rinv_l by lra; lra. }
  assert (Idx : exists i, lut_index ex n (norm ex p (Fin x)) = Some i /\ (0 <= i <= n - 1)%Z /\ Rabs (IZR i / IZR (n - 1) - t) <= 1 / IZR (n - 1) /\ (x = bot -> i = 0%Z) /\ (x = top -> i = n - 1)%Z).
  { cbn [norm]. unfold adjust. rewrite (h_min _ _ _ _ _ _ _ Hp), (h_max _ _ _ _ _ _ _ Hp). unfold ex at 2 3 4. fold t.
    destruct (lut_index ex n (Fin t)) as [i|] eqn:Ei; [|cbn [lut_index] in Ei; destruct (rlt (ex (t * IZR n)) 0); [discriminate|]; destruct (rle (IZR n) (ex (t * IZR n))); discriminate].
    pose proof (index_range _ _ _ _ N256 Ei) as Ri. exists i. split; [reflexivity|]. split; [assumption|]. cbn in Ei. unfold ex in Ei.
    assert (Hm : rlt (t * IZR n) 0 = false) by (apply rlt_f; nra). rewrite Hm in Ei.
    assert (D : Rabs (IZR i - t * IZR (n - 1)) <= 1 -> Rabs (IZR i / IZR (n - 1) - t) <= 1 / IZR (n - 1)).
    { intro D. replace (IZR i / IZR (n - 1) - t) with ((IZR i - t * IZR (n - 1)) / IZR (n - 1)) by (field; lra). unfold Rdiv. rewrite Rabs_mult, (Rabs_pos_eq (/ IZR (n - 1))) by (left; apply Rinv_0_lt_compat; assumption).
      apply Rmult_le_compat_r; [left; apply Rinv_0_lt_compat|]; assumption. }
    assert (Nm : IZR n = IZR (n - 1) + 1) by (rewrite minus_IZR; lra).
    destruct (rle (IZR n) (t * IZR n)) eqn:T1.
    - apply rle_iff in T1. assert (t = 1) by nra. injection Ei as <-. split; [apply D; replace (IZR (n - 1) - t * IZR (n - 1)) with 0 by nra; rewrite Rabs_R0; lra|]. split; [|auto]. intros ->. unfold t in *. exfalso. replace (bot - bot) with 0 in * by ring. unfold Rdiv in *. lra.
    - assert (T2 : t * IZR n < IZR n) by (unfold rle in T1; destruct Rle_dec; [discriminate|lra]). injection Ei as Ei. rewrite Ztrunc_floor in Ei by nra. pose proof (Zfloor_lb (t * IZR n)) as Lb. pose proof (Zfloor_ub (t * IZR n)) as Ub. rewrite Ei in Lb, Ub.
      split; [apply D; apply Rabs_le; nra|]. split; intros ->; unfold t in *.
      + rewrite <- Ei. replace ((bot - bot) / (top - bot) * IZR n) with 0 by (unfold Rdiv; ring). apply (Zfloor_IZR 0).
      + exfalso. replace ((top - bot) / (top - bot)) with 1 in T2 by (field; lra). lra. }
  destruct Idx as (i & Ei & Ri & Di & I0 & I1).
  assert (Cid : forall c k a l, Forall color_ok l -> nth_error l k = Some a -> 0 <= chan c a / 255 <= 1).
  { intros c k a l Fl Ea. rewrite Forall_forall in Fl. specialize (Fl a (nth_error_In _ _ Ea)). destruct a as [[r g] b]. destruct Fl as (R1 & R2 & R3). cbn in R1, R2, R3. destruct c; cbn; lra. }
  assert (Result : forall c, (forall ch, lut ex n (p_rows p ch) i = Ok (clip01 (chan ch c / 255))) -> (forall ch, 0 <= chan ch c / 255 <= 1) ->
     get_data_color ex ln p (Fin x) (str_of "mlab") = Ok (Mlab (red c / 255, green c / 255, blue c / 255, 1))).
  { intros c Hl Hc. unfold get_data_color, color. rewrite Ck, El, En, Ei. cbn [negb]. rewrite (Hl Red), (Hl Green), (Hl Blue). cbn [bind]. rewrite !clip_id by apply Hc. destruct c as [[r g] b]. reflexivity. }
  assert (Dz : forall z, z = bot + IZR i / IZR (n - 1) * (top - bot) -> Rabs (z - x) <= (top - bot) / IZR (p_n p - 1)).
  { intros z ->. rewrite En. assert (Ex : x = bot + t * (top - bot)) by (unfold t; field; lra). rewrite Ex at 1. replace (bot + IZR i / IZR (n - 1) * (top - bot) - (bot + t * (top - bot))) with ((IZR i / IZR (n - 1) - t) * (top - bot)) by ring.
    rewrite Rabs_mult, (Rabs_pos_eq (top - bot)) by lra. replace ((top - bot) / IZR (n - 1)) with (1 / IZR (n - 1) * (top - bot)) by (unfold Rdiv; ring). apply Rmult_le_compat_r; [lra|assumption]. }
  assert (Rz : 0 <= IZR i / IZR (n - 1) <= 1).
  { assert (0 <= IZR i <= IZR (n - 1)) by (split; apply IZR_le; lia). split; [apply Rmult_le_reg_r with (IZR (n - 1))|apply Rmult_le_reg_r with (IZR (n - 1))]; try lra; unfold Rdiv; rewrite Rmult_assoc, Rinv_l by lra; lra. }
  exists (bot + IZR i / IZR (n - 1) * (top - bot)). rewrite <- En in N256.
  assert (Tail : bot <= bot + IZR i / IZR (n - 1) * (top - bot) <= top /\ Rabs (bot + IZR i / IZR (n - 1) * (top - bot) - x) <= (top - bot) / IZR (p_n p - 1) /\ (256 <= p_n p)%Z /\
    (x = bot -> bot + IZR i / IZR (n - 1) * (top - bot) = bot) /\ (x = top -> bot + IZR i / IZR (n - 1) * (top - bot) = top)).
  { split; [nra|]. split; [apply Dz; reflexivity|]. split; [assumption|]. split; intro Q.
    - rewrite (I0 Q). unfold Rdiv. rewrite Rmult_0_l. ring.
    - rewrite (I1 Q). field. lra. }
  destruct (Z.eq_dec i 0) as [->|Hi0]; [|destruct (Z.eq_dec i (n - 1)) as [->|Hi1]].
  - destruct (nth_error rgb0 0) as [a|] eqn:Ea; [|exfalso; apply (proj1 (F5 0%nat F4)); assumption]. exists a.
    assert (Rs := Result a (lut_first ex n p zs bot top rgb0 rgb1 Hp F1 a Ea) (fun ch => Cid ch 0%nat a rgb0 C0 Ea)).
    split; [exact Rs|]. split; [|exact Tail]. right. split; [|assumption]. replace (bot + 0 / IZR (n - 1) * (top - bot)) with bot by (unfold Rdiv; ring). apply (v_bot _ _ _ _ _ _ V).
  - destruct (nth_error rgb1 (List.length zs - 2)) as [b|] eqn:Eb; [|exfalso; apply (proj2 (F5 (List.length zs - 2)%nat ltac:(lia))); assumption].
    assert (Rs := Result b (lut_last ex n S p zs bot top rgb0 rgb1 Hp F4 b Eb) (fun ch => Cid ch _ b rgb1 C1 Eb)).
    destruct (nth_error rgb0 (List.length zs - 2)) as [a|] eqn:Ea; [|exfalso; apply (proj1 (F5 (List.length zs - 2)%nat ltac:(lia))); assumption].
    assert (Lz : (List.length zs = List.length z0 + 1)%nat) by (unfold zs; rewrite app_length; reflexivity).
    destruct (nth_error z0 (List.length zs - 2)) as [za|] eqn:Eza; [|apply nth_error_None in Eza; lia].
    replace (bot + IZR (n - 1) / IZR (n - 1) * (top - bot)) with top in * by (field; lra).
    exists b. split; [exact Rs|]. split; [|exact Tail].
    assert (Et : nth_error zs (Datatypes.S (List.length zs - 2)) = Some top) by (unfold zs at 1; rewrite nth_error_app2 by lia; replace (Datatypes.S (List.length zs - 2) - List.length z0)%nat with 0%nat by lia; reflexivity).
    left. exists (List.length zs - 2)%nat, {| b_from := za; b_to := top; b_first := a; b_last := b |}. split; [split; [assumption|split; [exact Et|split; assumption]]|]. cbn [b_from b_to].
      assert (za < top) by (apply (v_under _ _ _ _ _ _ V); exact (nth_error_In _ _ Eza)). split; [lra|]. unfold mix. cbn [b_from b_to b_first b_last].
      replace ((top - za) / (top - za)) with 1 by (field; lra). repeat split; ring.
  - destruct (lut_inner ex n S p zs bot top rgb0 rgb1 Hp Pd F1 F2 F3 F4 F5 i ltac:(lia)) as (k & za & zb & a & b & Ka & Kb & Ea & Eb & Hv & Hl).
    unfold scale, adjust, xind, ex in Hv, Hl. set (z := bot + IZR i / IZR (n - 1) * (top - bot)) in *.
    replace (IZR (n - 1) * (IZR i * (1 / IZR (n - 1)))) with (IZR i) in Hv, Hl by (field; lra).
    assert (Ez : IZR i = (z - bot) / (top - bot) * IZR (n - 1)) by (unfold z; field; lra).
    assert (Mono : forall u w, (u - bot) / (top - bot) * IZR (n - 1) < (w - bot) / (top - bot) * IZR (n - 1) -> u < w).
    { intros u w Q. apply Rmult_lt_reg_r in Q; [|assumption]. unfold Rdiv in Q. apply Rmult_lt_reg_r in Q; [lra|apply Rinv_0_lt_compat; lra]. }
    rewrite Ez in Hv. assert (Ha : za < z) by (apply Mono; apply Hv). assert (Hb : z <= zb) by (apply Rnot_lt_le; intro Q; assert (Q' : (zb - bot) / (top - bot) * IZR (n - 1) < (z - bot) / (top - bot) * IZR (n - 1)) by (apply Rmult_lt_compat_r; [assumption|]; unfold Rdiv; apply Rmult_lt_compat_r; [apply Rinv_0_lt_compat|]; lra); lra).
    set (s := (z - za) / (zb - za)).
    assert (Hs : 0 <= s <= 1).
    { unfold s. split; [apply Rmult_le_reg_r with (zb - za)|apply Rmult_le_reg_r with (zb - za)]; try lra; unfold Rdiv; rewrite Rmult_assoc, Rinv_l by lra; lra. }
    exists ((1 - s) * red a + s * red b, (1 - s) * green a + s * green b, (1 - s) * blue a + s * blue b).
    assert (Chn : forall ch, chan ch ((1 - s) * red a + s * red b, (1 - s) * green a + s * green b, (1 - s) * blue a + s * blue b) / 255 = (1 - s) * (chan ch a / 255) + s * (chan ch b / 255)).
    { intros ch. destruct a as [[ar ag] ab], b as [[br bg] bb]. destruct ch; unfold red, green, blue, chan, fst, snd; field. }
    assert (Rs : get_data_color ex ln p (Fin x) (str_of "mlab") = Ok (Mlab (((1 - s) * red a + s * red b) / 255, ((1 - s) * green a + s * green b) / 255, ((1 - s) * blue a + s * blue b) / 255, 1))).
    { apply (Result ((1 - s) * red a + s * red b, (1 - s) * green a + s * green b, (1 - s) * blue a + s * blue b)); intro ch; rewrite Chn.
      - eapply eq_trans; [exact (Hl ch)|]. f_equal. f_equal.
        assert (Fr : (IZR i - (za - bot) / (top - bot) * IZR (n - 1)) / ((zb - bot) / (top - bot) * IZR (n - 1) - (za - bot) / (top - bot) * IZR (n - 1)) = s).
        { rewrite Ez. unfold s. assert (Pw : 0 < IZR (n - 1) / (top - bot)) by (apply Rdiv_lt_0_compat; lra). set (w := IZR (n - 1) / (top - bot)) in *.
          replace ((z - bot) / (top - bot) * IZR (n - 1) - (za - bot) / (top - bot) * IZR (n - 1)) with ((z - za) * w) by (unfold w; field; lra).
          replace ((zb - bot) / (top - bot) * IZR (n - 1) - (za - bot) / (top - bot) * IZR (n - 1)) with ((zb - za) * w) by (unfold w; field; lra). clearbody w. field. split; lra. }
        rewrite Fr. ring.
      - pose proof (Cid ch k a rgb0 C0 Ea). pose proof (Cid ch k b rgb1 C1 Eb). nra. }
    split; [exact Rs|]. split; [|exact Tail]. left.
    assert (Lk : (k < List.length z0)%nat) by (assert (Datatypes.S k < List.length zs)%nat by (apply nth_error_Some; congruence); unfold zs in *; rewrite app_length in *; cbn in *; lia).
    exists k, {| b_from := za; b_to := zb; b_first := a; b_last := b |}. split; [split; [unfold zs in Ka; rewrite nth_error_app1 in Ka by assumption; exact Ka|split; [exact Kb|split; assumption]]|].
    split; [split; assumption|]. unfold mix. cbn [b_from b_to b_first b_last]. fold s. repeat split.
Qed.
Print Assumptions C39_interpolates.

(** Double arithmetic: every number has a colour in every format, with channels
    in their range, and the formats agree; other formats are refused.  The
    answer in the array format, though, is 1020 zeros and ones. *)
Theorem C39_formats : forall z0 z1 rgb0 rgb1 res nan lg bot top p ln v, valid z0 z1 rgb0 rgb1 bot top -> is_double bot -> is_double top ->
  new_palette rnd z0 z1 rgb0 rgb1 res nan lg = inl p -> (p_n p <= 2 ^ 50)%Z ->
  exists r g b a : R, exists kr kg kb ka : Z, exists h1 h2 h3 h4 h5 h6 : ascii,
    (0 <= r <= 1 /\ 0 <= g <= 1 /\ 0 <= b <= 1 /\ 0 <= a <= 1) /\ get_data_color rnd ln p v (str_of "mlab") = Ok (Mlab (r, g, b, a)) /\
    ((0 <= kr <= 255)%Z /\ (0 <= kg <= 255)%Z /\ (0 <= kb <= 255)%Z /\ (0 <= ka <= 255)%Z) /\ get_data_color rnd ln p v (str_of "255") = Ok (C255 kr kg kb ka) /\
    (IZR kr <= rnd (255 * r) < IZR kr + 1 /\ IZR kg <= rnd (255 * g) < IZR kg + 1 /\ IZR kb <= rnd (255 * b) < IZR kb + 1 /\ IZR ka <= rnd (255 * a) < IZR ka + 1) /\
    get_data_color rnd ln p v (str_of "hex") = Ok (Hex [chr 35; h1; h2; h3; h4; h5; h6]) /\
    (exists v1 v2 v3 v4 v5 v6, hexval h1 v1 /\ hexval h2 v2 /\ hexval h3 v3 /\ hexval h4 v4 /\ hexval h5 v5 /\ hexval h6 v6 /\
       (kr = 16 * v1 + v2 /\ kg = 16 * v3 + v4 /\ kb = 16 * v5 + v6)%Z) /\
    (exists l, get_data_color rnd ln p v (str_of "array") = Ok (Array l) /\ List.length l = 1020%nat /\ forall k, In k l -> (k = 0 \/ k = 1)%Z) /\
    (forall f, ~ In f (map str_of ["mlab"; "255"; "hex"; "array"]%string) -> get_data_color rnd ln p v f = Err AttributeError).
Proof.
  intros z0 z1 rgb0 rgb1 res nan lg bot top p ln v V Db Dt E Hn.
  destruct (zs_facts _ _ _ _ _ _ V) as (_ & _ & _ & _ & _ & _ & Lt). pose proof (rnd_minus_pos bot top Db Dt Lt) as Pd.
  destruct (facts _ _ _ _ _ _ _ _ _ _ _ V Pd E) as (_ & N & _).
  destruct (color_total rnd z0 z1 rgb0 rgb1 res nan lg bot top p ln v V Pd E (sound_rnd _ (conj N Hn))) as (r & g & b & a & Ec & Hr & Hg & Hb & Ha).
  assert (R255 : forall c, 0 <= c <= 1 -> (0 <= to255 rnd c <= 255)%Z) by (intros c Hc; apply to255_range; [apply rnd_le|apply rnd_0|apply (rnd_int 255); lia|assumption]).
  assert (F255 : forall c, 0 <= c <= 1 -> IZR (to255 rnd c) <= rnd (255 * c) < IZR (to255 rnd c) + 1).
  { intros c Hc. rewrite (Rmult_comm 255 c). unfold to255. rewrite Ztrunc_floor by (rewrite <- rnd_0; apply rnd_le; lra). split; [apply Zfloor_lb|apply Zfloor_ub]. }
  assert (Hx : forall k, (0 <= k <= 255)%Z -> hexval (hex_digit (k / 16)) (k / 16) /\ hexval (hex_digit (k mod 16)) (k mod 16) /\ (k = 16 * (k / 16) + k mod 16)%Z).
  { intros k Hk. split; [apply hex_val; split; [apply Z.div_pos; lia|apply Z.div_lt_upper_bound; lia]|]. split; [apply hex_val; apply Z.mod_pos_bound; lia|apply Z.div_mod; lia]. }
  pose proof (Hx _ (R255 r Hr)) as (X1 & X2 & X3). pose proof (Hx _ (R255 g Hg)) as (X4 & X5 & X6). pose proof (Hx _ (R255 b Hb)) as (X7 & X8 & X9).
  exists r, g, b, a, (to255 rnd r), (to255 rnd g), (to255 rnd b), (to255 rnd a).
  do 6 eexists. split; [auto|]. unfold get_data_color. rewrite Ec. cbn [bind]. split; [reflexivity|]. split; [auto|]. split; [reflexivity|]. split; [auto|]. split; [reflexivity|].
  split; [do 6 eexists; split; [exact X1|]; split; [exact X2|]; split; [exact X4|]; split; [exact X5|]; split; [exact X7|]; split; [exact X8|]; auto|]. split.
  - eexists. split; [reflexivity|]. assert (T : forall c, 0 <= c <= 1 -> (Ztrunc c = 0 \/ Ztrunc c = 1)%Z).
    { intros c Hc. rewrite Ztrunc_floor by lra. assert (0 <= Zfloor c)%Z by (apply Zfloor_lub; lra). assert (Zfloor c <= 1)%Z by (apply le_IZR; eapply Rle_trans; [apply Zfloor_lb|lra]). lia. }
    split.
    + assert (G : forall (l : list Z) m, List.length (concat (repeat l m)) = (m * List.length l)%nat) by (intros l m; induction m as [|m IH]; cbn; [reflexivity|rewrite app_length, IH; reflexivity]). rewrite G. reflexivity.
    + intros k Hk. apply in_concat in Hk as (l & Hl & Hk). apply repeat_spec in Hl. subst l. cbn [map In] in Hk. destruct Hk as [<-|[<-|[<-|[<-|[]]]]]; apply T; assumption.
  - intros f Hf. cbn [map In] in Hf. repeat match goal with |- context [str_eqb f ?s] => destruct (str_eqb_spec f s) as [->|_]; [exfalso; apply Hf; cbn; tauto|] end. reflexivity.
Qed.
Print Assumptions C39_formats.
(** Below the range and above it the colours of the ends are shown, exactly. *)
Theorem C39_ends : forall z0 z1 rgb0 rgb1 res nan bot top p ln v ar ag ab br bg bb, valid z0 z1 rgb0 rgb1 bot top -> is_double bot -> is_double top ->
  new_palette rnd z0 z1 rgb0 rgb1 res nan false = inl p -> (p_n p <= 2 ^ 50)%Z ->
  nth_error rgb0 0 = Some (IZR ar, IZR ag, IZR ab) -> nth_error rgb1 (List.length z0 - 1) = Some (IZR br, IZR bg, IZR bb) ->
  (forall k, In k [ar; ag; ab; br; bg; bb] -> 0 <= k <= 255)%Z ->
  ((v = NegInf \/ exists x, v = Fin x /\ x <= bot) -> get_data_color rnd ln p v (str_of "255") = Ok (C255 ar ag ab 255)) /\
  ((v = PosInf \/ exists x, v = Fin x /\ top <= x) -> get_data_color rnd ln p v (str_of "255") = Ok (C255 br bg bb 255)).
Proof.
  intros z0 z1 rgb0 rgb1 res nan bot top p ln v ar ag ab br bg bb V Db Dt E Hn Ea Eb Hk.
  destruct (zs_facts _ _ _ _ _ _ V) as (F1 & F2 & F3 & F4 & F5 & F6 & Lt). pose proof (rnd_minus_pos bot top Db Dt Lt) as Pd. rewrite <- F6 in Eb.
  destruct (facts _ _ _ _ _ _ _ _ _ _ _ V Pd E) as (Hp & N & _ & El & _). pose proof (sound_rnd _ (conj N Hn)) as S. set (zs := z0 ++ [top]) in *.
  assert (Rn : rnd (IZR (p_n p)) = IZR (p_n p)) by (apply rnd_int; lia).
  assert (Ck := checks_ok rnd _ S p zs bot top rgb0 rgb1 Hp Pd F1 F2 F3 F4).
  assert (By : forall k, (0 <= k <= 255)%Z -> to255 rnd (clip01 (rnd (IZR k / 255))) = k).
  { intros k Hk'. assert (0 <= IZR k <= 255) by (split; apply IZR_le; lia). rewrite clip_id by (split; [rewrite <- rnd_0|rewrite <- (rnd_int 1) by lia]; apply rnd_le; lra).
    unfold to255. rewrite byte_back by assumption. apply Ztrunc_IZR. }
  assert (One : to255 rnd 1 = 255%Z) by (unfold to255; rewrite Rmult_1_l, (rnd_int 255) by lia; apply (Ztrunc_IZR 255)).
  assert (Neg : rlt (rnd (p_vmax p - p_vmin p)) 0 = false) by (apply rlt_f; rewrite (h_min _ _ _ _ _ _ _ Hp), (h_max _ _ _ _ _ _ _ Hp); lra).
  assert (G : forall i x y z, lut_index rnd (p_n p) (norm rnd p v) = Some i -> (forall c, lut rnd (p_n p) (p_rows p c) i = Ok (clip01 (rnd (chan c (IZR x, IZR y, IZR z) / 255)))) ->
    (forall k, In k [x; y; z] -> 0 <= k <= 255)%Z -> get_data_color rnd ln p v (str_of "255") = Ok (C255 x y z 255)).
  { intros i x y z Ei Hl Hz. unfold get_data_color, color. rewrite Ck, El, Ei, !Hl. cbn [negb bind]. cbn [str_eqb]. change (str_eqb (str_of "255") (str_of "mlab")) with false. change (str_eqb (str_of "255") (str_of "255")) with true. cbv iota.
    cbn [chan]. rewrite !By, One by (apply Hz; cbn; tauto). reflexivity. }
  split; intro Hv.
  - apply (G 0%Z).
    + destruct Hv as [->|(x & -> & Hx)]; [unfold norm; rewrite Neg; reflexivity|exact (index_low _ _ _ _ _ _ _ _ _ S Rn Hp Pd Hx)].
    + exact (lut_first rnd _ p zs bot top rgb0 rgb1 Hp F1 _ Ea).
    + intros k Hk'. apply Hk. cbn in *. tauto.
  - apply (G (p_n p - 1)%Z).
    + destruct Hv as [->|(x & -> & Hx)]; [unfold norm; rewrite Neg; reflexivity|exact (index_high _ _ _ _ _ _ _ _ _ S Rn Hp Pd Hx)].
    + exact (lut_last rnd _ S p zs bot top rgb0 rgb1 Hp F4 _ Eb).
    + intros k Hk'. apply Hk. cbn in *. tauto.
Qed.
Print Assumptions C39_ends.

(** The presets. *)
Lemma nan_ok : forall l, (List.length l = 4)%nat -> (forall k, In k l -> 0 <= k <= 255)%Z -> exists bad, to_rgba (nan_list rnd (NanSeq (map IZR l))) = Some bad.
Proof.
  intros l Ll Hl. unfold to_rgba, nan_list. rewrite map_map.
  assert (P : forallb (fun c => rle 0 c && rle c 1) (map (fun x => rnd (IZR x / 255)) l) = true).
  { apply forallb_forall. intros c Hc. apply in_map_iff in Hc as (k & <- & Hk). specialize (Hl k Hk). assert (0 <= IZR k <= 255) by (split; apply IZR_le; lia).
    apply andb_true_iff. rewrite !rle_iff. split; [rewrite <- rnd_0|rewrite <- (rnd_int 1) by lia]; apply rnd_le; lra. }
  rewrite P. destruct l as [|? [|? [|? [|? [|]]]]]; try discriminate. cbn [map]. eauto.
Qed.
Ltac vals := let y := fresh in let Hy := fresh in intros y Hy; cbn in Hy; repeat (destruct Hy as [<-|Hy]; [lra|]); destruct Hy.
Ltac cols := cbn [mmi pop topo grays t_rgb0 t_rgb1 map z_rgb]; repeat (apply Forall_cons; [unfold color_ok, red, green, blue; cbn [fst snd]; lra|]); apply Forall_nil.
Definition usable (t : preset) (bot top : R) : Prop :=
  valid (map IZR (t_z0 t)) (map IZR (t_z1 t)) (map z_rgb (t_rgb0 t)) (map z_rgb (t_rgb1 t)) bot top /\ Forall color_ok (map z_rgb (t_rgb0 t)) /\ Forall color_ok (map z_rgb (t_rgb1 t)).
Lemma use_mmi : usable mmi 0 10.
Proof.
  split; [|split; cols].
  constructor; cbn [mmi t_z0 t_z1 t_rgb0 t_rgb1 map List.length]; [|reflexivity|discriminate|reflexivity|vals|vals|lia|lia].
  intros i a b Ea Eb. do 9 (destruct i as [|i]; [cbn in Ea, Eb; injection Ea as <-; injection Eb as <-; lra|]). cbn in Eb. destruct i; discriminate.
Qed.
Lemma use_pop : usable pop 0 50000.
Proof.
  split; [|split; cols].
  constructor; cbn [pop grays t_z0 t_z1 t_rgb0 t_rgb1 map List.length]; [|reflexivity|discriminate|reflexivity|vals|vals|lia|lia].
  intros i a b Ea Eb. do 7 (destruct i as [|i]; [cbn in Ea, Eb; injection Ea as <-; injection Eb as <-; lra|]). cbn in Eb. destruct i; discriminate.
Qed.
Lemma use_topo : usable topo (-100) 9200.
Proof.
  split; [|split; cols].
  constructor; cbn [topo t_z0 t_z1 t_rgb0 t_rgb1 map List.length]; [|reflexivity|discriminate|reflexivity|vals|vals|lia|lia].
  intros i a b Ea Eb. do 10 (destruct i as [|i]; [cbn in Ea, Eb; injection Ea as <-; injection Eb as <-; lra|]). cbn in Eb. destruct i; discriminate.
Qed.
Lemma ceil_small : forall x s, 0 <= x <= 10 -> / 20 <= s -> Z.max 256 (Zceil (rnd (rnd x / s))) = 256%Z.
Proof.
  intros x s Hx Hs. assert (A : rnd x <= 10) by (rewrite <- (rnd_int 10) by lia; apply rnd_le; lra).
  assert (B : rnd (rnd x / s) <= 200). { rewrite <- (rnd_int 200) by lia. apply rnd_le. assert (0 <= rnd x) by (rewrite <- rnd_0; apply rnd_le; lra). apply Rmult_le_reg_r with s; [lra|]. unfold Rdiv. rewrite Rmult_assoc, Rinv_l by lra. lra. }
  assert (C : (Zceil (rnd (rnd x / s)) <= 200)%Z) by (apply Zceil_glb; assumption). lia.
Qed.
Theorem C39_presets : forall ln,
  (exists p, from_preset rnd (str_of "mmi") = inl p /\ p_n p = 256%Z /\ get_data_color rnd ln p (Fin 0) (str_of "255") = Ok (C255 255 255 255 255) /\ get_data_color rnd ln p (Fin 10) (str_of "255") = Ok (C255 200 0 0 255)) /\
  (exists p, from_preset rnd (str_of "pop") = inl p /\ p_n p = 50000%Z /\ get_data_color rnd ln p (Fin 0) (str_of "255") = Ok (C255 255 255 255 255) /\ get_data_color rnd ln p (Fin 50000) (str_of "255") = Ok (C255 0 0 0 255)) /\
  (exists p, from_preset rnd (str_of "shaketopo") = inl p /\ p_n p = 9300%Z /\ get_data_color rnd ln p (Fin (-100)) (str_of "255") = Ok (C255 195 255 193 255) /\ get_data_color rnd ln p (Fin 9200) (str_of "255") = Ok (C255 255 0 0 255)) /\
  (forall s, ~ In s (map str_of ["mmi"; "pop"; "shaketopo"]%string) -> from_preset rnd s = inr (Raised UnsupportedArgumentError)).
Proof.
  intro ln.
  assert (D : forall k, (Z.abs k <= 2 ^ 53)%Z -> is_double (IZR k)) by apply double_int_le.
  assert (Gen : forall t bot top n, usable t (IZR bot) (IZR top) -> (Z.abs bot <= 2 ^ 53)%Z -> (Z.abs top <= 2 ^ 53)%Z -> lengths_pass (map IZR (t_z0 t)) (map IZR (t_z1 t)) (map z_rgb (t_rgb0 t)) (map z_rgb (t_rgb1 t)) -> List.length (t_nan t) = 4%nat -> (forall k, In k (t_nan t) -> 0 <= k <= 255)%Z ->
    colours_of (Some (rnd (t_resolution t))) (rnd (rnd (IZR top - IZR bot) / rnd (t_resolution t))) n -> (n <= 2 ^ 50)%Z ->
    exists p, new_palette rnd (map IZR (t_z0 t)) (map IZR (t_z1 t)) (map z_rgb (t_rgb0 t)) (map z_rgb (t_rgb1 t)) (Some (rnd (t_resolution t))) (NanSeq (map IZR (t_nan t))) false = inl p /\ p_n p = n /\
      forall ar ag ab br bg bb, nth_error (t_rgb0 t) 0 = Some (ar, ag, ab) -> nth_error (t_rgb1 t) (List.length (t_z0 t) - 1) = Some (br, bg, bb) -> (forall k, In k [ar; ag; ab; br; bg; bb] -> 0 <= k <= 255)%Z ->
        get_data_color rnd ln p (Fin (IZR bot)) (str_of "255") = Ok (C255 ar ag ab 255) /\ get_data_color rnd ln p (Fin (IZR top)) (str_of "255") = Ok (C255 br bg bb 255)).
  { intros t bot top n (V & _) Hb Ht Lp Ln Hnan Hn Hn50. destruct (nan_ok _ Ln Hnan) as (bad & Hbad).
    destruct (new_ok rnd _ _ _ _ (Some (rnd (t_resolution t))) _ false _ _ n bad V Lp Hn Hbad) as (p & E & _ & En & _). exists p. split; [exact E|]. split; [exact En|].
    intros ar ag ab br bg bb Ea Eb Hk. assert (Hn' : (p_n p <= 2 ^ 50)%Z) by lia. split.
    - apply (C39_ends _ _ _ _ _ _ (IZR bot) (IZR top) p ln (Fin (IZR bot)) ar ag ab br bg bb V (D _ Hb) (D _ Ht) E Hn'); [rewrite nth_error_map, Ea; reflexivity|rewrite map_length, nth_error_map, Eb; reflexivity|assumption|]. right. exists (IZR bot). split; [reflexivity|lra].
    - apply (C39_ends _ _ _ _ _ _ (IZR bot) (IZR top) p ln (Fin (IZR top)) ar ag ab br bg bb V (D _ Hb) (D _ Ht) E Hn'); [rewrite nth_error_map, Ea; reflexivity|rewrite map_length, nth_error_map, Eb; reflexivity|assumption|]. right. exists (IZR top). split; [reflexivity|lra]. }
  assert (R1 : rnd 1 = 1) by (apply (rnd_int 1); lia).
  split; [|split; [|split]].
  - destruct (Gen mmi 0%Z 10%Z 256%Z use_mmi ltac:(lia) ltac:(lia)) as (p & E & En & H); [left; reflexivity|reflexivity|cbn; intros; lia| |lia|].
    + assert (T : / 20 <= rnd (t_resolution mmi)).
      { cbn [mmi t_resolution]. apply Rle_trans with (rnd (IZR 1 * bpow radix2 (-4))); [rewrite rnd_id by (apply double_F2R; lia); change (bpow radix2 (-4)) with (/ 16); lra|]. apply rnd_le. change (bpow radix2 (-4)) with (/ 16). lra. }
      split; [lra|]. symmetry. apply ceil_small; [lra|exact T].
    + exists p. split; [exact E|]. split; [exact En|]. apply H; [reflexivity|reflexivity|cbn; intros; lia].
  - destruct (Gen pop 0%Z 50000%Z 50000%Z use_pop ltac:(lia) ltac:(lia)) as (p & E & En & H); [left; reflexivity|reflexivity|cbn; intros; lia| |lia|].
    + cbn [pop t_resolution]. rewrite R1. split; [lra|]. rewrite <- minus_IZR, (rnd_int (50000 - 0)) by lia. unfold Rdiv. rewrite Rinv_1, Rmult_1_r, (rnd_int (50000 - 0)), Zceil_IZR by lia. reflexivity.
    + exists p. split; [exact E|]. split; [exact En|]. apply H; [reflexivity|reflexivity|cbn; intros; lia].
  - destruct (Gen topo (-100)%Z 9200%Z 9300%Z use_topo ltac:(lia) ltac:(lia)) as (p & E & En & H); [right; right; reflexivity|reflexivity|cbn; intros; lia| |lia|].
    + cbn [topo t_resolution]. rewrite R1. split; [lra|]. rewrite <- minus_IZR, (rnd_int (9200 - -100)) by lia. unfold Rdiv. rewrite Rinv_1, Rmult_1_r, (rnd_int (9200 - -100)), Zceil_IZR by lia. reflexivity.
    + exists p. split; [exact E|]. split; [exact En|]. apply H; [reflexivity|reflexivity|cbn; intros; lia].
  - intros s Hs. cbn [map In] in Hs. unfold from_preset. repeat match goal with |- context [str_eqb s ?n] => destruct (str_eqb_spec s n) as [->|_]; [exfalso; apply Hs; cbn; tauto|] end. reflexivity.
Qed.
Print Assumptions C39_presets.
(** The packaged topography palette has eleven lower and ten upper values. *)
Theorem C40_mismatch_refuted : exists p, from_preset rnd (str_of "shaketopo") = inl p /\ (List.length (t_z0 topo) <> List.length (t_z1 topo))%nat.
Proof. destruct (C39_presets (fun x => x)) as (_ & _ & (p & E & _) & _). exists p. split; [exact E|discriminate]. Qed.
Print Assumptions C40_mismatch_refuted.

(** A value which is not a number gets the colour given for it. *)
Theorem C39_nan : forall z0 z1 rgb0 rgb1 res l lg bot top p ln r g b a, valid z0 z1 rgb0 rgb1 bot top -> is_double bot -> is_double top ->
  new_palette rnd z0 z1 rgb0 rgb1 res l lg = inl p -> (p_n p <= 2 ^ 50)%Z -> (forall k, In k [r; g; b; a] -> 0 <= k <= 255)%Z ->
  (l = NanSeq [IZR r; IZR g; IZR b; IZR a] \/ (l = NanSeq [IZR r; IZR g; IZR b] /\ a = 255%Z) \/ (l = NanInt r /\ g = r /\ b = r /\ a = r)) ->
  get_data_color rnd ln p NaN (str_of "255") = Ok (C255 r g b a).
Proof.
  intros z0 z1 rgb0 rgb1 res l lg bot top p ln r g b a V Db Dt E Hn Hk Hl.
  destruct (zs_facts _ _ _ _ _ _ V) as (F1 & F2 & F3 & F4 & F5 & F6 & Lt). pose proof (rnd_minus_pos bot top Db Dt Lt) as Pd.
  destruct (facts _ _ _ _ _ _ _ _ _ _ _ V Pd E) as (Hp & N & Hb & El & _). pose proof (sound_rnd _ (conj N Hn)) as S.
  assert (Ck := checks_ok rnd _ S p _ bot top rgb0 rgb1 Hp Pd F1 F2 F3 F4).
  assert (Hbad : p_bad p = (rnd (IZR r / 255), rnd (IZR g / 255), rnd (IZR b / 255), rnd (IZR a / 255))).
  { assert (One : rnd (IZR 255 / 255) = 1) by (replace (IZR 255 / 255) with 1 by lra; apply (rnd_int 1); lia).
    unfold to_rgba in Hb. destruct (forallb _ _); [|discriminate]. destruct Hl as [->|[(-> & ->)|(-> & -> & -> & ->)]]; unfold nan_list in Hb; cbn [map repeat] in Hb; [congruence| |congruence]. rewrite One. congruence. }
  unfold get_data_color, color. rewrite Ck. cbn [negb]. replace (norm rnd p (if p_log p then np_log ln NaN else NaN)) with NaN by (destruct (p_log p); reflexivity). cbn [lut_index bind]. rewrite Hbad.
  change (str_eqb (str_of "255") (str_of "mlab")) with false. change (str_eqb (str_of "255") (str_of "255")) with true. cbv iota.
  assert (By : forall k, (0 <= k <= 255)%Z -> to255 rnd (rnd (IZR k / 255)) = k) by (intros k Hk'; unfold to255; rewrite byte_back by assumption; apply Ztrunc_IZR).
  rewrite !By by (apply Hk; cbn; tauto). reflexivity.
Qed.
Print Assumptions C39_nan.

(** A logarithmic palette shows for a value what the plain one shows for its
    logarithm; for zero it shows the lowest colour and for negative values the
    one for missing data. *)
Theorem C39_log : forall rd z0 z1 rgb0 rgb1 res nan p ln f x, new_palette rd z0 z1 rgb0 rgb1 res nan true = inl p ->
  exists q, new_palette rd z0 z1 rgb0 rgb1 res nan false = inl q /\
    (0 < x -> get_data_color rd ln p (Fin x) f = get_data_color rd ln q (Fin (ln x)) f) /\
    get_data_color rd ln p (Fin 0) f = get_data_color rd ln q NegInf f /\ (x < 0 -> get_data_color rd ln p (Fin x) f = get_data_color rd ln q NaN f).
Proof.
  intros rd z0 z1 rgb0 rgb1 res nan p ln f x E. unfold new_palette in *. destruct (_ && _ && _); [discriminate|]. destruct (amin z0); [|discriminate]. destruct (amax z1); [|discriminate]. cbv zeta in *.
  do 4 (match type of E with match ?M with _ => _ end = _ => destruct M; [|discriminate] end). destruct to_rgba; [|discriminate]. eexists. split; [reflexivity|]. injection E as <-.
  assert (G : forall v w, np_log ln v = w -> forall a b c d e g, get_data_color rd ln {| p_log := true; p_vmin := a; p_vmax := b; p_bad := c; p_rows := d; p_n := e |} v g = get_data_color rd ln {| p_log := false; p_vmin := a; p_vmax := b; p_bad := c; p_rows := d; p_n := e |} w g).
  { intros v w <- vm vx bd rw nn g. reflexivity. }
  split; [|split]; intros; apply G; cbn [np_log].
  - rewrite (proj2 (rlt_iff 0 x)) by assumption. reflexivity.
  - rewrite (proj2 (rlt_f 0 0)) by lra. rewrite (proj2 (reqb_iff 0 0) eq_refl). reflexivity.
  - rewrite (proj2 (rlt_f 0 x)) by lra. destruct (reqb x 0) eqn:Q; [apply reqb_iff in Q; lra|reflexivity].
Qed.
Print Assumptions C39_log.
(** Of the upper values only the number, the greatest and the last matter: gaps
    between bands are painted over. *)
Theorem C39_gaps : forall rd z0 z1 z1' rgb0 rgb1 res nan lg m, List.length z1 = List.length z1' -> greatest_of z1 m -> greatest_of z1' m -> last z1 0 = last z1' 0 ->
  new_palette rd z0 z1 rgb0 rgb1 res nan lg = new_palette rd z0 z1' rgb0 rgb1 res nan lg.
Proof. intros rd z0 z1 z1' rgb0 rgb1 res nan lg m Ll G G' La. unfold new_palette. apply amax_iff in G, G'. rewrite G, G', La, Ll. reflexivity. Qed.
Print Assumptions C39_gaps.
Example C39_ex_gaps : greatest_of [1; 3] 3 /\ greatest_of [2; 3] 3.
Proof. split; split; cbn; try tauto; intros y [<-|[<-|[]]]; lra. Qed.

(** The colours listed for a value are not those shown for it, even in exact
    arithmetic: intensity 5 is listed as (122, 255, 147). *)
Theorem C39_listed_refuted : exists p c, let ex := fun x : R => x in from_preset ex (str_of "mmi") = inl p /\
  nth_error (t_z0 mmi) 5 = Some 5%Z /\ nth_error (t_rgb0 mmi) 5 = Some (122, 255, 147)%Z /\ nth_error (t_rgb1 mmi) 4 = Some (122, 255, 147)%Z /\
  get_data_color ex (fun x => x) p (Fin 5) (str_of "mlab") = Ok (Mlab c) /\ 124 / 255 < fst (fst (fst c)).
Proof.
  set (ex := fun x : R => x). destruct use_mmi as (V & _).
  assert (Hb : to_rgba (nan_list ex (NanSeq (map IZR (t_nan mmi)))) = Some (0, 0, 0, 0)).
  { unfold to_rgba, nan_list. cbn [mmi t_nan map forallb]. unfold ex. replace (0 / 255) with 0 by lra. rewrite (proj2 (rle_iff 0 0)), (proj2 (rle_iff 0 1)) by lra. reflexivity. }
  assert (Hn : colours_of (Some (ex (t_resolution mmi))) (ex (ex (10 - 0) / ex (t_resolution mmi))) 256).
  { unfold ex. cbn [mmi t_resolution]. split; [lra|]. assert (C : (Zceil ((10 - 0) / 0.1) <= 100)%Z) by (apply Zceil_glb; lra). lia. }
  destruct (new_ok ex _ _ _ _ (Some (ex (t_resolution mmi))) _ false _ _ 256%Z _ V ltac:(left; reflexivity) Hn Hb) as (p & E & Hp & En & _ & El).
  exists p. destruct (zs_facts _ _ _ _ _ _ V) as (F1 & F2 & F3 & F4 & F5 & F6 & Lt). pose proof (sound_exact 256 ltac:(lia)) as S. fold ex in S.
  assert (Pd : 0 < ex (10 - 0)) by (unfold ex; lra). assert (Ck := checks_ok ex _ S p _ _ _ _ _ Hp Pd F1 F2 F3 F4).
  destruct (lut_inner ex 256 S p _ _ _ _ _ Hp Pd F1 F2 F3 F4 F5 128%Z ltac:(lia)) as (k & za & zb & a & b & Ka & Kb & Ea & Eb & Hv & Hl).
  unfold scale, adjust, xind, ex in Hv. change (256 - 1)%Z with 255%Z in Hv. replace (IZR 255 * (IZR 128 * (1 / IZR 255))) with 128 in Hv by field.
  assert (K : k = 5%nat).
  { cbn [mmi t_z0 map app] in Ka, Kb. do 11 (destruct k as [|k]; [cbn in Ka, Kb; try discriminate; injection Ka as <-; injection Kb as <-; first [reflexivity|exfalso; lra]|]). cbn in Kb. destruct k; discriminate. }
  subst k. cbn in Ka, Kb, Ea, Eb. injection Ka as <-. injection Kb as <-. injection Ea as <-. injection Eb as <-.
  eexists. split; [exact E|]. split; [reflexivity|]. split; [reflexivity|]. split; [reflexivity|].
  assert (Ei : lut_index ex 256 (norm ex p (Fin 5)) = Some 128%Z).
  { cbn [norm lut_index]. rewrite (h_min _ _ _ _ _ _ _ Hp), (h_max _ _ _ _ _ _ _ Hp). unfold adjust, ex. replace ((5 - 0) / (10 - 0) * 256) with (IZR 128) by field. rewrite (proj2 (rlt_f _ _)) by lra. destruct (rle 256 128) eqn:Q; [apply rle_iff in Q; lra|]. f_equal. apply Ztrunc_IZR. }
  split.
  - unfold get_data_color, color. rewrite Ck, El, En, Ei. cbn [negb]. rewrite !Hl. cbn [bind]. reflexivity.
  - cbn [fst chan]. unfold scale, adjust, xind, ex. change (256 - 1)%Z with 255%Z. unfold clip01. rewrite Rmax_left by lra. apply Rmin_glb_lt; lra.
Qed.
Print Assumptions C39_listed_refuted.

(** A palette made from a colour map samples it at the ends of the bands and
    rounds to whole values. *)
Theorem C39_from_map : forall rd z0 z1 cmap res nan lg, 
  (List.length z0 <> List.length z1 <-> from_color_map rd z0 z1 cmap res nan lg = inr ConsistentLength) /\
  forall bot top, List.length z0 = List.length z1 -> least_of z0 bot -> greatest_of z1 top ->
    exists rgb0 rgb1, from_color_map rd z0 z1 cmap res nan lg = new_palette rd z0 z1 rgb0 rgb1 res nan lg /\ List.length rgb0 = List.length z0 /\ List.length rgb1 = List.length z1 /\
      forall i z c ch, ((nth_error z0 i = Some z /\ nth_error rgb0 i = Some c) \/ (nth_error z1 i = Some z /\ nth_error rgb1 i = Some c)) ->
        exists k, chan ch c = IZR k /\ Rabs (IZR k - rd (chan ch (cmap (rd (rd (z - bot) / rd (top - bot)))) * 255)) <= / 2.
Proof.
  intros rd z0 z1 cmap res nan lg. split.
  - split.
    + intro H. unfold from_color_map. apply Nat.eqb_neq in H. rewrite H. reflexivity.
    + intro E. unfold from_color_map in E. destruct (Nat.eqb_spec (List.length z0) (List.length z1)) as [H|H]; [|assumption]. cbn [negb] in E. destruct (amin z0); [|discriminate]. destruct (amax z1); [|discriminate].
      apply C40_check in E. rewrite !map_length in E. tauto.
  - intros bot top Ll Lo Gr. unfold from_color_map. rewrite Ll, Nat.eqb_refl. cbn [negb]. apply amin_iff in Lo. apply amax_iff in Gr. rewrite Lo, Gr. do 2 eexists. split; [reflexivity|]. rewrite !map_length. split; [congruence|]. split; [reflexivity|].
    intros i z c ch H. assert (G : c = (let '(r, g, b) := cmap (adjust rd bot top z) in (IZR (ZnearestE (rd (r * 255))), IZR (ZnearestE (rd (g * 255))), IZR (ZnearestE (rd (b * 255)))))).
    { destruct H as [[Ez Ec]|[Ez Ec]]; rewrite nth_error_map, Ez in Ec; cbn [option_map] in Ec; congruence. }
    rewrite G. unfold adjust. destruct (cmap _) as [[r g] b]. destruct ch; cbn [chan]; eexists; split; try reflexivity; apply nearest_half.
Qed.
Print Assumptions C39_from_map.
Example C39_ex_map : least_of [0; 1] 0 /\ greatest_of [1; 2] 2.
Proof. split; split; cbn; try tauto; intros y [<-|[<-|[]]]; lra. Qed.
(** The presets meet the conditions of the theorems above. *)
Example C39_ex_valid : usable mmi 0 10 /\ usable pop 0 50000 /\ usable topo (-100) 9200.
Proof. exact (conj use_mmi (conj use_pop use_topo)). Qed.
Example C40_ex : lengths_pass [0; 1] [1] [(0, 0, 0); (0, 0, 0)] [(0, 0, 0); (0, 0, 0)] /\ ~ lengths_pass [0; 1] [1] [(0, 0, 0); (0, 0, 0)] [(0, 0, 0)].
Proof. split; unfold lengths_pass; cbn; lia. Qed.

(** A palette whose values are out of order is built without complaint and fails
    when a colour is asked for (exact arithmetic). *)
Lemma inc_of_check : forall f (l : list R), (forall x y, f x <= f y -> x <= y) -> forallb (fun ab => rle (fst ab) (snd ab)) (combine (map f l) (tl (map f l))) = true -> increasing l.
Proof.
  intros f l Hf. induction l as [|a l IH]; intros C i x y Ex Ey; [destruct i; discriminate|]. destruct l as [|b l]; [destruct i as [|[|]]; discriminate|].
  cbn [map tl combine forallb fst snd] in C. apply andb_true_iff in C as [C1 C2]. apply rle_iff in C1. destruct i as [|i].
  - cbn in Ex, Ey. injection Ex as <-. injection Ey as <-. apply Hf. exact C1.
  - exact (IH C2 i x y Ex Ey).
Qed.
Theorem C39_unordered : forall z0 z1 rgb0 rgb1 res nan lg bot top p ln v f, let ex := fun x : R => x in
  least_of z0 bot -> greatest_of z1 top -> new_palette ex z0 z1 rgb0 rgb1 res nan lg = inl p ->
  ~ (increasing (z0 ++ [top]) /\ last z1 0 = top /\ bot < top) -> bot <= top ->
  get_data_color ex ln p v f = Err ValueError.
Proof.
  intros z0 z1 rgb0 rgb1 res nan lg bot top p ln v f ex Lo Gr E Bad Hbt. apply amin_iff in Lo. apply amax_iff in Gr.
  assert (C : lut_checks ex p = false).
  { destruct (lut_checks ex p) eqn:C; [|reflexivity]. exfalso. apply Bad. clear Bad.
    assert (F : p_vmin p = bot /\ p_vmax p = top /\ map x_of (p_rows p Red) = map (adjust ex bot top) (z0 ++ [last z1 0])).
    { unfold new_palette in E. destruct (_ && _ && _); [discriminate|]. rewrite Lo, Gr in E. cbv zeta in E. match type of E with context [rows ex ?x ?a ?b Red] => destruct (rows ex x a b Red) as [r|] eqn:Er in E; [|discriminate] end.
      do 3 (match type of E with match ?M with _ => _ end = _ => destruct M; [|discriminate] end). destruct to_rgba; [|discriminate]. apply rows_x in Er as (Er & _). injection E as <-. cbn. split; [reflexivity|]. split; [reflexivity|]. rewrite map_app. exact Er. }
    destruct F as (F1 & F2 & F3). unfold lut_checks in C. rewrite F1, F2, F3 in C. rewrite !andb_true_iff in C. destruct C as (((C1 & C2) & C3) & C4).
    apply negb_true_iff in C1. unfold ex at 1 in C1. assert (Lt : bot < top) by (destruct (Req_dec top bot) as [->|N]; [|lra]; replace (bot - bot) with 0 in C1 by ring; rewrite (proj2 (reqb_iff 0 0) eq_refl) in C1; discriminate).
    rewrite map_app in C3. cbn [map] in C3. rewrite last_last in C3. apply reqb_iff in C3. unfold adjust, ex in C3.
    assert (La : last z1 0 = top). { assert (H : (last z1 0 - bot) / (top - bot) * (top - bot) = 1 * (top - bot)) by (rewrite C3; reflexivity). unfold Rdiv in H. rewrite Rmult_assoc, Rinv_l in H; lra. }
    split; [|split; [exact La|exact Lt]]. rewrite La in C4. refine (inc_of_check _ _ _ C4). intros x y H. unfold adjust, ex in H. apply Rmult_le_reg_r in H; [lra|]. apply Rinv_0_lt_compat. lra. }
  unfold get_data_color, color. rewrite C. reflexivity.
Qed.
Print Assumptions C39_unordered.
Example C39_ex_unordered : least_of [1; 0] 0 /\ greatest_of [2; 3] 3 /\ ~ increasing [1; 0; 3].
Proof. split; [|split]; [split; cbn; try tauto; intros y [<-|[<-|[]]]; lra|split; cbn; try tauto; intros y [<-|[<-|[]]]; lra|]. intro H. specialize (H 0%nat 1 0 eq_refl eq_refl). lra. Qed.
