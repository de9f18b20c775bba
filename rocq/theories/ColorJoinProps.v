(** The bands of the presets join up (C39). *)
From Coq Require Import ZArith Reals String Ascii Bool List Lia Lra.
From Verif Require Import PyBase FloatBase FloatEval ColorModel ColorSpec ColorProofs ColorProps.
Import ListNotations.
Open Scope R_scope.

Lemma rows_nth rd xs rgb0 rgb1 c r k x y0 y1 : rows rd xs rgb0 rgb1 c = Some r -> nth_error r k = Some (x, y0, y1) ->
  exists a b, nth_error xs k = Some x /\ nth_error rgb1 k = Some a /\ nth_error rgb0 k = Some b /\ y0 = rd (chan c a / 255) /\ y1 = rd (chan c b / 255).
Proof.
  unfold rows. intros H N.
  assert (G : forall n s r, fold_right (fun i acc => match acc, nth_error xs i, nth_error rgb1 i, nth_error rgb0 i with
      | Some l, Some x, Some a, Some b => Some ((x, rd (chan c a / 255), rd (chan c b / 255)) :: l) | _, _, _, _ => None end) (Some []) (seq s n) = Some r ->
      forall k, nth_error r k = Some (x, y0, y1) -> exists a b, nth_error xs (s + k) = Some x /\ nth_error rgb1 (s + k) = Some a /\ nth_error rgb0 (s + k) = Some b /\ y0 = rd (chan c a / 255) /\ y1 = rd (chan c b / 255)).
  { clear. induction n as [|n IH]; intros s r H k N.
    - injection H as <-. destruct k; discriminate.
    - cbn [seq fold_right] in H. destruct (fold_right _ (Some []) (seq (S s) n)) as [l|] eqn:E; [|discriminate]. destruct (nth_error xs s) as [x'|] eqn:E1; [|discriminate]. destruct (nth_error rgb1 s) as [a|] eqn:E2; [|discriminate]. destruct (nth_error rgb0 s) as [b|] eqn:E3; [|discriminate].
      injection H as <-. destruct k as [|k].
      + cbn in N. injection N as <- <- <-. exists a, b. rewrite Nat.add_0_r. auto.
      + cbn in N. destruct (IH _ _ E k N) as (a' & b' & H). exists a', b'. replace (s + S k)%nat with (S s + k)%nat by lia. exact H. }
  apply (G _ _ _ H k N).
Qed.
Lemma palette_rows rd z0 z1 rgb0 rgb1 res nan lg p : new_palette rd z0 z1 rgb0 rgb1 res nan lg = inl p ->
  exists xs d l, forall c, rows rd xs (rgb0 ++ [l]) (d :: rgb1) c = Some (p_rows p c).
Proof.
  unfold new_palette. destruct (_ && _)%bool; [discriminate|]. destruct (amin z0) as [vmin|]; [|discriminate]. destruct (amax z1) as [vmax|]; [|discriminate]. cbv zeta.
  set (xs := (map (adjust rd vmin vmax) z0 ++ [adjust rd vmin vmax (last z1 0)])%list). set (l := (0.999 * 255, 0.999 * 255, 0.999 * 255) : rgb). set (d := (-0.999 * 255, -0.999 * 255, -0.999 * 255) : rgb).
  destruct (rows rd xs _ _ Red) as [r|] eqn:R; [|discriminate]. destruct (rows rd xs _ _ Green) as [g|] eqn:G; [|discriminate]. destruct (rows rd xs _ _ Blue) as [b|] eqn:B; [|discriminate].
  match goal with |- match ?n with _ => _ end = _ -> _ => destruct n; [|discriminate] end. destruct (to_rgba _); [|discriminate]. intros [= <-]. exists xs, d, l. intros []; assumption.
Qed.
Lemma p_rows_red rd z0 z1 rgb0 rgb1 res nan lg p : new_palette rd z0 z1 rgb0 rgb1 res nan lg = inl p ->
  forall c k x y0 y1, (0 < k)%nat -> (k < List.length rgb0)%nat -> nth_error (p_rows p c) k = Some (x, y0, y1) ->
  exists a b, nth_error rgb1 (k - 1) = Some a /\ nth_error rgb0 k = Some b /\ y0 = rd (chan c a / 255) /\ y1 = rd (chan c b / 255).
Proof.
  intros E c k x y0 y1 K L N. destruct (palette_rows _ _ _ _ _ _ _ _ _ E) as (xs & d & l & H). destruct (rows_nth _ _ _ _ _ _ _ _ _ _ (H c) N) as (a & b & _ & A & B & Y0 & Y1).
  exists a, b. destruct k as [|k]; [lia|]. cbn [nth_error] in A. rewrite Nat.sub_succ, Nat.sub_0_r. rewrite nth_error_app1 in B by exact L. auto.
Qed.
(** Inside the palettes mmi and shaketopo the colour below a boundary is that above
    it; the palette pop is grey. *)
Theorem C39_seamless rd name p : (name = str_of "mmi" \/ name = str_of "shaketopo") -> from_preset rd name = inl p ->
  forall c k x y0 y1, (0 < k < List.length (p_rows p c) - 1)%nat -> nth_error (p_rows p c) k = Some (x, y0, y1) -> y0 = y1.
Proof.
  intros Hn E c k x y0 y1 K N.
  assert (Len : forall z0 z1 rgb0 rgb1 res nan lg, new_palette rd z0 z1 rgb0 rgb1 res nan lg = inl p -> List.length rgb0 = List.length z0 -> (List.length (p_rows p c) - 1 <= List.length rgb0)%nat).
  { clear. intros z0 z1 rgb0 rgb1 res nan lg E L. destruct (palette_rows _ _ _ _ _ _ _ _ _ E) as (xs & d & l & H). destruct (Nat.le_gt_cases (List.length (p_rows p c) - 1) (List.length rgb0)) as [Q|Q]; [exact Q|].
    destruct (nth_error (p_rows p c) (S (List.length rgb0))) as [[[x y0] y1]|] eqn:N; [|apply nth_error_None in N; lia].
    destruct (rows_nth _ _ _ _ _ _ _ _ _ _ (H c) N) as (a & b & _ & _ & B & _). assert (Q2 : (S (List.length rgb0) < List.length (rgb0 ++ [l]))%nat) by (apply nth_error_Some; congruence). rewrite app_length in Q2. cbn in Q2. lia. }
  destruct Hn as [-> | ->]; unfold from_preset in E; cbn [str_eqb str_of list_ascii_of_string Ascii.eqb Bool.eqb andb] in E.
  - pose proof (Len _ _ _ _ _ _ _ E eq_refl) as L. destruct (p_rows_red _ _ _ _ _ _ _ _ _ E c k x y0 y1 (proj1 K) ltac:(lia) N) as (a & b & A & B & -> & ->).
    cbn [mmi t_rgb0 map List.length] in L. do 10 (destruct k as [|k]; [try (exfalso; lia); cbn in A, B; injection A as <-; injection B as <-; reflexivity|]). lia.
  - pose proof (Len _ _ _ _ _ _ _ E eq_refl) as L. destruct (p_rows_red _ _ _ _ _ _ _ _ _ E c k x y0 y1 (proj1 K) ltac:(lia) N) as (a & b & A & B & -> & ->).
    cbn [topo t_rgb0 map List.length] in L. do 11 (destruct k as [|k]; [try (exfalso; lia); cbn in A, B; injection A as <-; injection B as <-; reflexivity|]). lia.
Qed.
Print Assumptions C39_seamless.
(** The palette pop is grey, and darker in every band than in the one below. *)
Theorem C39_grey rd p : (forall x y, x <= y -> rd x <= rd y) -> from_preset rd (str_of "pop") = inl p ->
  forall k c c' x y0 y1 x' y0' y1', nth_error (p_rows p c) k = Some (x, y0, y1) -> nth_error (p_rows p c') k = Some (x', y0', y1') ->
    x = x' /\ y0 = y0' /\ y1 = y1' /\ ((0 < k < 8)%nat -> y1 <= y0).
Proof.
  intros Mo E k c c' x y0 y1 x' y0' y1' N N'. unfold from_preset in E. cbn [str_eqb str_of list_ascii_of_string Ascii.eqb Bool.eqb andb] in E.
  revert E. unfold new_palette. destruct (_ && _)%bool; [discriminate|]. destruct (amin _) as [vmin|]; [|discriminate]. destruct (amax _) as [vmax|]; [|discriminate]. cbv zeta.
  set (xs := (map (adjust rd vmin vmax) _ ++ [adjust rd vmin vmax (last _ 0)])%list).
  destruct (rows rd xs _ _ Red) as [r|] eqn:R; [|discriminate]. destruct (rows rd xs _ _ Green) as [g|] eqn:G; [|discriminate]. destruct (rows rd xs _ _ Blue) as [b|] eqn:B; [|discriminate].
  match goal with |- match ?n with _ => _ end = _ -> _ => destruct n; [|discriminate] end. destruct (to_rgba _); [|discriminate]. intros [= <-].
  assert (H : forall c, rows rd xs (map z_rgb (t_rgb0 pop) ++ [(0.999 * 255, 0.999 * 255, 0.999 * 255)]) ((-0.999 * 255, -0.999 * 255, -0.999 * 255) :: map z_rgb (t_rgb1 pop)) c = Some (match c with Red => r | Green => g | Blue => b end)) by (intros []; assumption).
  assert (N0 : nth_error (match c with Red => r | Green => g | Blue => b end) k = Some (x, y0, y1)) by (destruct c; exact N).
  assert (N0' : nth_error (match c' with Red => r | Green => g | Blue => b end) k = Some (x', y0', y1')) by (destruct c'; exact N').
  destruct (rows_nth _ _ _ _ _ _ _ _ _ _ (H c) N0) as (aa & dd & X & A & D & -> & ->). destruct (rows_nth _ _ _ _ _ _ _ _ _ _ (H c') N0') as (a' & d' & X' & A' & D' & -> & ->).
  rewrite X in X'. injection X' as <-. rewrite A in A'. injection A' as <-. rewrite D in D'. injection D' as <-.
  assert (S1 : forall c, chan c aa = chan Red aa /\ chan c dd = chan Red dd).
  { intros c0. destruct k as [|k]; [cbn in A, D; injection A as <-; injection D as <-; destruct c0; split; reflexivity|]. cbn [nth_error] in A.
    do 8 (destruct k as [|k]; [cbn in A, D; injection A as <-; injection D as <-; destruct c0; split; reflexivity|]). destruct k; discriminate A. }
  split; [reflexivity|]. rewrite !(proj1 (S1 c)), !(proj2 (S1 c)), !(proj1 (S1 c')), !(proj2 (S1 c')). split; [reflexivity|]. split; [reflexivity|].
  intros K. apply Mo. clear - A D K. destruct k as [|k]; [lia|]. cbn [nth_error] in A. do 7 (destruct k as [|k]; [cbn in A, D; injection A as <-; injection D as <-; cbn [chan]; lra|]). lia.
Qed.
Print Assumptions C39_grey.
Lemma rows_len rd xs rgb0 rgb1 c r : rows rd xs rgb0 rgb1 c = Some r -> List.length r = List.length xs.
Proof.
  unfold rows. intros H.
  assert (G : forall n s r, fold_right (fun i acc => match acc, nth_error xs i, nth_error rgb1 i, nth_error rgb0 i with
      | Some l, Some x, Some a, Some b => Some ((x, rd (chan c a / 255), rd (chan c b / 255)) :: l) | _, _, _, _ => None end) (Some []) (seq s n) = Some r -> List.length r = n).
  { clear. induction n as [|n IH]; intros s r H; [injection H as <-; reflexivity|].
    cbn [seq fold_right] in H. destruct (fold_right _ (Some []) (seq (S s) n)) as [l|] eqn:E; [|discriminate]. destruct (nth_error xs s); [|discriminate]. destruct (nth_error rgb1 s); [|discriminate]. destruct (nth_error rgb0 s); [|discriminate]. injection H as <-. cbn. f_equal. exact (IH _ _ E). }
  exact (G _ _ _ H).
Qed.
Example C39_ex_seamless : exists p y0, from_preset rnd (str_of "mmi") = inl p /\ (0 < 2 < List.length (p_rows p Red) - 1)%nat /\ exists x y1, nth_error (p_rows p Red) 2 = Some (x, y0, y1).
Proof.
  destruct (C39_presets (fun x => x)) as ((p & E & _) & _). exists p.
  assert (L : List.length (p_rows p Red) = 11%nat).
  { unfold from_preset in E. cbn [str_eqb str_of list_ascii_of_string Ascii.eqb Bool.eqb andb] in E. revert E. unfold new_palette. destruct (_ && _)%bool; [discriminate|]. destruct (amin _) as [vmin|]; [|discriminate]. destruct (amax _) as [vmax|]; [|discriminate]. cbv zeta.
    destruct (rows _ _ _ _ Red) as [r|] eqn:R; [|discriminate]. destruct (rows _ _ _ _ Green) as [g|]; [|discriminate]. destruct (rows _ _ _ _ Blue) as [b|]; [|discriminate].
    match goal with |- match ?n with _ => _ end = _ -> _ => destruct n; [|discriminate] end. destruct (to_rgba _); [|discriminate]. intros [= <-]. cbn [p_rows]. rewrite (rows_len _ _ _ _ _ _ R). reflexivity. }
  destruct (nth_error (p_rows p Red) 2) as [[[x y0] y1]|] eqn:N; [|apply nth_error_None in N; lia]. exists y0. split; [exact E|]. split; [lia|]. exists x, y1. reflexivity.
Qed.
Example C39_ex_grey : (exists p, from_preset rnd (str_of "pop") = inl p) /\ forall x y, x <= y -> rnd x <= rnd y.
Proof. split; [destruct (C39_presets (fun x => x)) as (_ & (p & E & _) & _); exists p; exact E|]. intros x y. apply rnd_le. Qed.
