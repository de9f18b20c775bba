From Coq Require Import ZArith Reals String Ascii Bool List Lia Lra Psatz Sorted.
From Flocq Require Import Core.
From Verif Require Import PyBase PyStr FloatBase FloatEval ColorModel ColorSpec ColorProofs.
Import ListNotations.
Open Scope R_scope.

Lemma nth_ext_eq : forall {A} (l l' : list A), (forall i, nth_error l i = nth_error l' i) -> l = l'.
Proof.
  intros A l. induction l as [|x l IH]; intros [|y l'] H; [reflexivity|specialize (H 0%nat); discriminate|specialize (H 0%nat); discriminate|].
  pose proof (H 0%nat) as H0. injection H0 as ->. f_equal. apply IH. intro i. exact (H (S i)).
Qed.
Definition colours_of (res : option R) (width : R) (n : Z) : Prop :=
  match res with None => n = 256%Z | Some s => s <> 0 /\ n = Z.max 256 (Zceil width) end.
Record holds (rd : R -> R) (p : palette) (zs : list R) (bot top : R) (rgb0 rgb1 : list rgb) : Prop := {
  h_min : p_vmin p = bot; h_max : p_vmax p = top;
  h_rows : forall c, map x_of (p_rows p c) = map (adjust rd bot top) zs;
  h_len : forall c, List.length (p_rows p c) = List.length zs;
  h_first : forall c i z a, nth_error zs i = Some z -> nth_error rgb0 i = Some a -> exists y0, nth_error (p_rows p c) i = Some (adjust rd bot top z, y0, rd (chan c a / 255));
  h_last : forall c i z b, nth_error zs (S i) = Some z -> nth_error rgb1 i = Some b -> exists y1, nth_error (p_rows p c) (S i) = Some (adjust rd bot top z, rd (chan c b / 255), y1) }.

Lemma check_pass : forall (z0 z1 : list R) (rgb0 rgb1 : list rgb), lengths_pass z0 z1 rgb0 rgb1 <->
  negb (Nat.eqb (@List.length R z0) (@List.length R z1)) && negb (Nat.eqb (List.length z1) (@List.length rgb rgb0)) && negb (Nat.eqb (List.length rgb0) (@List.length rgb rgb1)) = false.
Proof.
  intros. unfold lengths_pass. rewrite !andb_false_iff, !negb_false_iff, !Nat.eqb_eq. tauto.
Qed.
Lemma rows_x : forall rd xs A B c l, rows rd xs A B c = Some l -> map x_of l = xs /\ List.length l = List.length xs /\
  forall i x, nth_error xs i = Some x -> exists a b, nth_error B i = Some a /\ nth_error A i = Some b /\ nth_error l i = Some (x, rd (chan c a / 255), rd (chan c b / 255)).
Proof.
  intros rd xs A B c l E. assert (HA : (List.length xs <= List.length A)%nat /\ (List.length xs <= List.length B)%nat).
  { destruct (Nat.lt_ge_cases (List.length A) (List.length xs)) as [H|H]; [assert (rows rd xs A B c = None) by (apply rows_short; auto); congruence|].
    destruct (Nat.lt_ge_cases (List.length B) (List.length xs)) as [H'|H']; [assert (rows rd xs A B c = None) by (apply rows_short; auto); congruence|auto]. }
  destruct (rows_ok rd xs A B c (proj1 HA) (proj2 HA)) as (l' & E' & Ll & H). rewrite E in E'. assert (l = l') by congruence. subst l'. split; [|auto].
  apply nth_ext_eq. intro i. rewrite nth_error_map. destruct (nth_error xs i) as [x|] eqn:Ex.
  - destruct (H i x Ex) as (a & b & _ & _ & En). rewrite En. reflexivity.
  - apply nth_error_None in Ex. assert (En : nth_error l i = None) by (apply nth_error_None; lia). rewrite En. reflexivity.
Qed.

Lemma new_ok : forall rd z0 z1 rgb0 rgb1 res nan lg bot top n bad, valid z0 z1 rgb0 rgb1 bot top -> lengths_pass z0 z1 rgb0 rgb1 ->
  colours_of res (rd (rd (top - bot) / match res with Some s => s | None => 1 end)) n -> to_rgba (nan_list rd nan) = Some bad ->
  exists p, new_palette rd z0 z1 rgb0 rgb1 res nan lg = inl p /\ holds rd p (z0 ++ [top]) bot top rgb0 rgb1 /\ p_n p = n /\ p_bad p = bad /\ p_log p = lg.
Proof.
  intros rd z0 z1 rgb0 rgb1 res nan lg bot top n bad V Lp Hn Hb. unfold new_palette. apply check_pass in Lp. rewrite Lp.
  destruct V as [Inc B0 Ne Top Mx Und L0 L1].
  assert (Emin : amin z0 = Some bot). { destruct z0 as [|z l]; [discriminate|]. injection B0 as ->. apply inc_min. assumption. }
  assert (Emax : amax z1 = Some top). { apply amax_iff. split; [rewrite <- Top; apply last_in; assumption|assumption]. }
  rewrite Emin, Emax, Top. set (xs := map (adjust rd bot top) z0 ++ [adjust rd bot top top]).
  assert (Exs : xs = map (adjust rd bot top) (z0 ++ [top])) by (unfold xs; rewrite map_app; reflexivity).
  assert (Lx : List.length xs = S (List.length z0)) by (unfold xs; rewrite app_length, map_length; cbn; lia). clearbody xs.
  match goal with |- context [rows rd xs ?a ?b Red] => set (A := a); set (B := b) end.
  assert (R : forall c, exists l, rows rd xs A B c = Some l).
  { intro c. destruct (rows_ok rd xs A B c) as (l & E & _); [unfold A; rewrite app_length; cbn [List.length]; lia|unfold B; cbn [List.length]; lia|eauto]. }
  destruct (R Red) as (r & Er). destruct (R Green) as (g & Eg). destruct (R Blue) as (b & Eb). rewrite Er, Eg, Eb.
  assert (En : match res with None => Ok 256%Z | Some s => if reqb s 0 then if rlt 0 (rd (top - bot)) then Err OverflowError else Ok 256%Z else Ok (Z.max 256 (Zceil (rd (rd (top - bot) / s)))) end = Ok n).
  { destruct res as [s|]; cbn in Hn; [|rewrite Hn; reflexivity]. destruct Hn as [Hs ->]. destruct (reqb s 0) eqn:Q; [apply reqb_iff in Q; contradiction|reflexivity]. }
  rewrite En, Hb. eexists. split; [reflexivity|]. cbn [p_n p_bad p_log]. split; [|auto].
  assert (Rc : forall c, rows rd xs A B c = Some (match c with Red => r | Green => g | Blue => b end)) by (intros []; assumption).
  constructor; cbn [p_vmin p_vmax p_rows]; try reflexivity; intro c; destruct (rows_x _ _ _ _ _ _ (Rc c)) as (X1 & X2 & X3).
  - rewrite X1. exact Exs.
  - rewrite X2, Exs, map_length. reflexivity.
  - intros i z a Ez Ea. destruct (X3 i (adjust rd bot top z)) as (b' & a' & E1 & E2 & E3); [rewrite Exs, nth_error_map, Ez; reflexivity|].
    unfold A in E2. rewrite nth_error_app1 in E2 by (apply nth_error_Some; congruence). assert (a' = a) by congruence. subst a'. eauto.
  - intros i z b' Ez Eb'. destruct (X3 (S i) (adjust rd bot top z)) as (b'' & a' & E1 & E2 & E3); [rewrite Exs, nth_error_map, Ez; reflexivity|].
    unfold B in E1. cbn [nth_error] in E1. assert (b'' = b') by congruence. subst b''. eauto.
Qed.

Lemma search_in : forall l x v, x < v -> (exists y, In y l /\ v <= y) -> exists k a b, searchsorted (x :: l) v = S k /\ nth_error (x :: l) k = Some a /\ nth_error (x :: l) (S k) = Some b /\ a < v <= b.
Proof.
  induction l as [|y l IH]; intros x v Hx (m & Hm & Hv); [destruct Hm|]. cbn [searchsorted]. rewrite (proj2 (rlt_iff x v) Hx).
  destruct (Rlt_dec y v) as [Hy|Hy].
  - destruct (IH y v Hy) as (k & a & b & E1 & E2 & E3 & E4); [exists m; split; [destruct Hm as [<-|Hm]; [lra|assumption]|assumption]|].
    exists (S k), a, b. split; [f_equal; exact E1|]. auto.
  - exists 0%nat, x, y. cbn [searchsorted]. rewrite (proj2 (rlt_f y v) ltac:(lra)). cbn. repeat split; auto; lra.
Qed.
Definition all_rows (rd : R -> R) (zs : list R) (bot top : R) := map (adjust rd bot top) zs.

Section Tab.
Variable rd : R -> R.
Variable n : Z.
Hypothesis S : sound rd n.
Variables (p : palette) (zs : list R) (bot top : R) (rgb0 rgb1 : list rgb).
Hypothesis H : holds rd p zs bot top rgb0 rgb1.
Hypothesis Pd : 0 < rd (top - bot).
Hypothesis First : nth_error zs 0 = Some bot.
Hypothesis Last : last zs 0 = top.
Hypothesis Inc : increasing zs.
Hypothesis Two : (1 < List.length zs)%nat.
Lemma adj_bot : adjust rd bot top bot = 0.
Proof. unfold adjust. replace (bot - bot) with 0 by ring. rewrite (so_0 _ _ S). unfold Rdiv. rewrite Rmult_0_l. apply (so_0 _ _ S). Qed.
Lemma adj_top : adjust rd bot top top = 1.
Proof. unfold adjust, Rdiv. rewrite Rinv_r by lra. apply (so_1 _ _ S). Qed.
Lemma adj_mono : forall x y, x <= y -> adjust rd bot top x <= adjust rd bot top y.
Proof.
  intros x y Hxy. unfold adjust. apply (so_mono _ _ S). apply Rmult_le_compat_r; [left; apply Rinv_0_lt_compat; assumption|]. apply (so_mono _ _ S). lra.
Qed.
Lemma zs_split : exists mid, zs = bot :: mid ++ [top].
Proof.
  destruct zs as [|z l] eqn:E; [discriminate|]. injection First as ->. destruct (list_eq_dec Req_EM_T l []) as [->|Ne]; [cbn in Two; lia|].
  destruct (exists_last Ne) as (l' & x & ->). rewrite <- Last. exists l'. f_equal. f_equal. f_equal. rewrite app_comm_cons, last_last. reflexivity.
Qed.
Lemma combine_inc : forall f (l : list R), (forall x y, x <= y -> f x <= f y) -> increasing l -> forallb (fun ab => rle (fst ab) (snd ab)) (combine (map f l) (tl (map f l))) = true.
Proof.
  intros f l Hf. induction l as [|a l IH]; intro I; [reflexivity|]. destruct l as [|b l]; [reflexivity|].
  cbn [map tl combine forallb fst snd]. rewrite (proj2 (rle_iff _ _) (Hf a b (I 0%nat a b eq_refl eq_refl))). apply IH. intros i x y Ex Ey. exact (I (1 + i)%nat x y Ex Ey).
Qed.
Lemma checks_ok : lut_checks rd p = true.
Proof.
  unfold lut_checks. rewrite (h_rows _ _ _ _ _ _ _ H), (h_min _ _ _ _ _ _ _ H), (h_max _ _ _ _ _ _ _ H).
  rewrite (combine_inc (adjust rd bot top) zs adj_mono Inc), andb_true_r.
  destruct zs_split as (mid & ->). cbn [map hd]. rewrite map_app, adj_bot. cbn [map]. rewrite app_comm_cons, last_last, adj_top.
  rewrite (proj2 (reqb_iff 0 0) eq_refl), (proj2 (reqb_iff 1 1) eq_refl). destruct (reqb (rd (top - bot)) 0) eqn:E; [apply reqb_iff in E; lra|reflexivity].
Qed.
(** Entry [i] of the table. *)
Lemma nIZR : 0 < IZR (n - 1).
Proof. apply IZR_lt. pose proof (so_pos _ _ S). lia. Qed.
Definition scale (z : R) : R := rd (adjust rd bot top z * IZR (n - 1)).
Lemma lut_inner : (forall i, (Datatypes.S i < List.length zs)%nat -> nth_error rgb0 i <> None /\ nth_error rgb1 i <> None) ->
  forall i, (0 < i < n - 1)%Z -> exists k za zb a b, nth_error zs k = Some za /\ nth_error zs (Datatypes.S k) = Some zb /\ nth_error rgb0 k = Some a /\ nth_error rgb1 k = Some b /\
    scale za < xind rd n i <= scale zb /\
    forall c, lut rd n (p_rows p c) i = Ok (clip01 (rd (rd (rd (rd (xind rd n i - scale za) / rd (scale zb - scale za)) * rd (rd (chan c b / 255) - rd (chan c a / 255))) + rd (chan c a / 255)))).
Proof.
  intros Hc i Hi. pose proof (so_x _ _ S i Hi) as X.
  assert (Esc : forall c, map (fun r => rd (x_of r * IZR (n - 1))) (p_rows p c) = map scale zs).
  { intro c. rewrite <- (map_map x_of (fun x => rd (x * IZR (n - 1)))), (h_rows _ _ _ _ _ _ _ H c), map_map. reflexivity. }
  assert (Sb : scale bot = 0) by (unfold scale; rewrite adj_bot, Rmult_0_l; apply (so_0 _ _ S)).
  assert (St : scale top = IZR (n - 1)) by (unfold scale; rewrite adj_top, Rmult_1_l; apply (so_n _ _ S)).
  destruct zs_split as (mid & Ez).
  destruct (search_in (map scale (mid ++ [top])) (scale bot) (xind rd n i)) as (k & xa & xb & E1 & E2 & E3 & E4).
  { rewrite Sb. lra. }
  { exists (scale top). split; [apply in_map; apply in_or_app; right; left; reflexivity|rewrite St; lra]. }
  change (scale bot :: map scale (mid ++ [top])) with (map scale (bot :: mid ++ [top])) in *. rewrite <- Ez in *.
  rewrite nth_error_map in E2, E3. destruct (nth_error zs k) as [za|] eqn:Ka; [|discriminate]. destruct (nth_error zs (Datatypes.S k)) as [zb|] eqn:Kb; [|discriminate].
  assert (xa = scale za) by (cbn in E2; congruence). assert (xb = scale zb) by (cbn in E3; congruence). subst xa xb.
  assert (Lk : (Datatypes.S k < List.length zs)%nat) by (apply nth_error_Some; congruence). destruct (Hc k Lk) as [Na Nb].
  destruct (nth_error rgb0 k) as [a|] eqn:Ea; [|contradiction]. destruct (nth_error rgb1 k) as [b|] eqn:Eb; [|contradiction].
  exists k, za, zb, a, b. split; [assumption|]. split; [assumption|]. split; [assumption|]. split; [assumption|]. split; [assumption|]. intro c. unfold lut.
  destruct (i =? 0)%Z eqn:Z0; [lia|]. destruct (i =? n - 1)%Z eqn:Z1; [lia|]. rewrite (Esc c), E1, !nth_error_map, Ka, Kb. cbn [option_map].
  destruct (h_first _ _ _ _ _ _ _ H c k za a Ka Ea) as (y0 & ->). destruct (h_last _ _ _ _ _ _ _ H c k zb b Kb Eb) as (y1 & ->). reflexivity.
Qed.
Lemma lut_first : forall a, nth_error rgb0 0 = Some a -> forall c, lut rd n (p_rows p c) 0 = Ok (clip01 (rd (chan c a / 255))).
Proof.
  intros a Ea c. destruct (h_first _ _ _ _ _ _ _ H c 0%nat bot a First Ea) as (y0 & E). unfold lut. cbn [Z.eqb]. destruct (p_rows p c) as [|[[x u] v] l]; [discriminate|]. cbn [nth_error] in E. assert (Ev : v = rd (chan c a / 255)) by congruence. rewrite Ev. reflexivity.
Qed.
Lemma last_nth : forall {A} (l : list A) d, l <> [] -> nth_error l (List.length l - 1) = Some (last l d).
Proof. intros A l d Hl. destruct (exists_last Hl) as (l' & x & ->). rewrite last_last, app_length. cbn [List.length]. rewrite nth_error_app2 by lia. replace (List.length l' + 1 - 1 - List.length l')%nat with 0%nat by lia. reflexivity. Qed.
Lemma lut_last : forall b, nth_error rgb1 (List.length zs - 2) = Some b -> forall c, lut rd n (p_rows p c) (n - 1) = Ok (clip01 (rd (chan c b / 255))).
Proof.
  intros b Eb c. assert (Ne : p_rows p c <> []) by (intro E; pose proof (h_len _ _ _ _ _ _ _ H c) as L; rewrite E in L; cbn in L; lia).
  assert (Nz : zs <> []) by (intro E; rewrite E in Two; cbn in Two; lia).
  pose proof (last_nth zs 0 Nz) as El. replace (List.length zs - 1)%nat with (Datatypes.S (List.length zs - 2)) in El by lia.
  destruct (h_last _ _ _ _ _ _ _ H c _ _ b El Eb) as (y1 & E). replace (Datatypes.S (List.length zs - 2)) with (List.length zs - 1)%nat in E by lia.
  rewrite <- (h_len _ _ _ _ _ _ _ H c), (last_nth _ (0, 0, 0) Ne) in E. unfold lut. pose proof (so_pos _ _ S). destruct (n - 1 =? 0)%Z eqn:Z0; [lia|]. rewrite Z.eqb_refl.
  assert (E' : last (p_rows p c) (0, 0, 0) = (adjust rd bot top (last zs 0), rd (chan c b / 255), y1)) by congruence. rewrite E'. reflexivity.
Qed.
End Tab.

Lemma index_range : forall rd n x i, (256 <= n)%Z -> lut_index rd n x = Some i -> (0 <= i <= n - 1)%Z.
Proof.
  intros rd n x i Hn E. destruct x as [x| | |]; cbn in E; try discriminate; try (injection E as <-; lia).
  destruct (rlt (rd (x * IZR n)) 0) eqn:A; [injection E as <-; lia|]. destruct (rle (IZR n) (rd (x * IZR n))) eqn:B; [injection E as <-; lia|]. injection E as <-.
  apply rlt_f in A. assert (B' : rd (x * IZR n) < IZR n) by (unfold rle in B; destruct Rle_dec; [discriminate|lra]). rewrite Ztrunc_floor by assumption. split; [apply Zfloor_lub; assumption|].
  apply Zlt_succ_le. apply lt_IZR. eapply Rle_lt_trans; [apply Zfloor_lb|]. replace (Z.succ (n - 1)) with n by lia. assumption.
Qed.
Lemma clip_range : forall x, 0 <= clip01 x <= 1.
Proof. intro x. unfold clip01, Rmin, Rmax. repeat destruct Rle_dec; lra. Qed.
Lemma clip_id : forall x, 0 <= x <= 1 -> clip01 x = x.
Proof. intros x Hx. unfold clip01. rewrite Rmax_left, Rmin_left; lra. Qed.
