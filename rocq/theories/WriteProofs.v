(** Lemmas for WriteProps. *)
From Coq Require Import ZArith Reals String Ascii Bool List Lia Lra.
From Flocq Require Import Core.
From Verif Require Import PyBase VecModel GeoModel RuptModel PolyModel FactoryModel WriteModel PolySpec TextSpec FactorySpec WriteSpec TextProofs ReadProofs.
Import ListNotations.
Open Scope R_scope.

(** ** Numerals *)
Lemma places_fun x r r' : four_places x r -> four_places x r' -> r = r'.
Proof.
  intros (n & -> & A & E) (m & -> & B & F). destruct (Z.eq_dec n m) as [->|N]; [reflexivity|exfalso].
  assert (D : 1 / 10000 <= Rabs (IZR n / 10000 - IZR m / 10000)).
  { replace (IZR n / 10000 - IZR m / 10000) with (IZR (n - m) / 10000) by (rewrite minus_IZR; field). unfold Rdiv. rewrite Rabs_mult, (Rabs_right (/ 10000)) by lra. rewrite <- abs_IZR. assert (1 <= IZR (Z.abs (n - m))) by (apply IZR_le; lia). lra. }
  assert (T : Rabs (IZR n / 10000 - IZR m / 10000) <= Rabs (x - IZR n / 10000) + Rabs (x - IZR m / 10000)).
  { replace (IZR n / 10000 - IZR m / 10000) with (- (x - IZR n / 10000) + (x - IZR m / 10000)) by ring. eapply Rle_trans; [apply Rabs_triang|]. rewrite Rabs_Ropp. lra. }
  assert (En : Z.even n = true) by (apply E; lra). assert (Em : Z.even m = true) by (apply F; lra).
  apply Z.even_spec in En, Em. destruct En as [n' ->], Em as [m' ->].
  assert (2 / 10000 <= Rabs (IZR (2 * n') / 10000 - IZR (2 * m') / 10000)).
  { replace (IZR (2 * n') / 10000 - IZR (2 * m') / 10000) with (IZR (2 * (n' - m')) / 10000) by (rewrite !mult_IZR, minus_IZR; field). unfold Rdiv. rewrite Rabs_mult, (Rabs_right (/ 10000)) by lra. rewrite <- abs_IZR. assert (2 <= IZR (Z.abs (2 * (n' - m')))) by (apply IZR_le; lia). lra. }
  lra.
Qed.
Lemma nearest_places y : let n := ZnearestE y in Rabs (y - IZR n) <= / 2 /\ (Rabs (y - IZR n) = / 2 -> Z.even n = true).
Proof.
  intro n. pose proof (Znearest_half (fun x => negb (Z.even x)) y) as H. change (Znearest (fun x => negb (Z.even x)) y) with n in H.
  assert (H' : Rabs (y - IZR n) <= / 2) by exact H. split; [exact H'|]. intro E.
  unfold n, Znearest in *. destruct (Rcompare_spec (y - IZR (Zfloor y)) (/ 2)) as [C|C|C].
  - pose proof (Zfloor_lb y). rewrite Rabs_right in E by lra. lra.
  - destruct (Z.even (Zfloor y)) eqn:Ev; cbn [negb] in *; [exact Ev|]. assert (Q : Zceil y = (Zfloor y + 1)%Z). { apply Zceil_floor_neq. intro Q. rewrite Q in C. lra. } rewrite Q, Z.even_add, Ev. reflexivity.
  - assert (Q : Zceil y = (Zfloor y + 1)%Z). { apply Zceil_floor_neq. intro Q. rewrite Q in C. lra. } rewrite Q, plus_IZR in E. pose proof (Zfloor_ub y). rewrite Rabs_left in E by lra. lra.
Qed.
Lemma nearest_nonneg y : 0 <= y -> (0 <= ZnearestE y)%Z.
Proof.
  intro H. destruct (nearest_places y) as [B _]. apply Rabs_le_inv in B. assert (-1 < IZR (ZnearestE y)) by lra. apply lt_IZR in H0. lia.
Qed.
Definition places4 (x : R) : R := (if Rlt_dec x 0 then -1 else 1) * (IZR (ZnearestE (Rabs x * 10000)) / 10000).
Lemma places4_ok x : four_places x (places4 x).
Proof.
  unfold places4. set (n := ZnearestE (Rabs x * 10000)). destruct (nearest_places (Rabs x * 10000)) as [A E]. fold n in A, E.
  assert (K : Rabs (Rabs x - IZR n / 10000) = Rabs (Rabs x * 10000 - IZR n) / 10000). { replace (Rabs x - IZR n / 10000) with ((Rabs x * 10000 - IZR n) * / 10000) by field. rewrite Rabs_mult, (Rabs_right (/ 10000)) by lra. reflexivity. }
  destruct (Rlt_dec x 0) as [L|L].
  - exists (- n)%Z. split; [rewrite opp_IZR; field|]. rewrite (Rabs_left x) in K, A, E by lra. replace (x - -1 * (IZR n / 10000)) with (- (- x - IZR n / 10000)) by ring. rewrite Rabs_Ropp, K. split; [lra|]. intro Q. rewrite Z.even_opp. apply E. lra.
  - exists n. rewrite Rmult_1_l. split; [reflexivity|]. rewrite (Rabs_right x) in K, A, E by lra. rewrite K. split; [lra|]. intro Q. apply E. lra.
Qed.
Lemma digit_char_ok d : (0 <= d < 10)%Z -> is_digit (digit_char d) = true /\ Z.of_nat (nat_of_ascii (digit_char d)) = (48 + d)%Z.
Proof.
  intro H. assert (C : (d = 0 \/ d = 1 \/ d = 2 \/ d = 3 \/ d = 4 \/ d = 5 \/ d = 6 \/ d = 7 \/ d = 8 \/ d = 9)%Z) by lia.
  repeat (destruct C as [->|C]; [split; reflexivity|]). subst d. split; reflexivity.
Qed.
Lemma fixed4_shape x : exists w f, all_digits w /\ w <> [] /\ all_digits f /\ f <> [] /\ fixed4 x = (if Rlt_dec x 0 then str_of "-" else []) ++ w ++ str_of "." ++ f /\
  (if Rlt_dec x 0 then -1 else 1) * (IZR (digits_value w) + IZR (digits_value f) / 10 ^ length f) = places4 x.
Proof.
  unfold fixed4. set (n := ZnearestE (Rabs x * 10000)). assert (Hn : (0 <= n)%Z). { apply nearest_nonneg. pose proof (Rabs_pos x). lra. }
  assert (Hw : (0 <= n / 10000)%Z) by (apply Z.div_pos; lia). destruct (str_of_Z_nonneg _ Hw) as (W1 & W2 & W3).
  assert (Hr : (0 <= n mod 10000 < 10000)%Z) by (apply Z.mod_pos_bound; lia). remember (n mod 10000)%Z as r eqn:Er.
  assert (D1 : (0 <= r / 1000 < 10)%Z) by (split; [apply Z.div_pos; lia|apply Z.div_lt_upper_bound; lia]).
  assert (D2 : (0 <= r / 100 mod 10 < 10)%Z) by (apply Z.mod_pos_bound; lia). assert (D3 : (0 <= r / 10 mod 10 < 10)%Z) by (apply Z.mod_pos_bound; lia). assert (D4 : (0 <= r mod 10 < 10)%Z) by (apply Z.mod_pos_bound; lia).
  exists (str_of_Z (n / 10000)), [digit_char (r / 1000); digit_char (r / 100 mod 10); digit_char (r / 10 mod 10); digit_char (r mod 10)]. split; [exact W1|]. split; [exact W2|]. split; [repeat (constructor; [apply digit_char_ok; assumption|]); constructor|]. split; [discriminate|]. split; [reflexivity|].
  assert (E : digits_value [digit_char (r / 1000); digit_char (r / 100 mod 10); digit_char (r / 10 mod 10); digit_char (r mod 10)] = r).
  { unfold digits_value. cbn [fold_left]. rewrite (proj2 (digit_char_ok _ D1)), (proj2 (digit_char_ok _ D2)), (proj2 (digit_char_ok _ D3)), (proj2 (digit_char_ok _ D4)).
    pose proof (Z.div_mod r 10 ltac:(lia)) as A1. pose proof (Z.div_mod (r / 10) 10 ltac:(lia)) as A2. pose proof (Z.div_mod (r / 100) 10 ltac:(lia)) as A3. rewrite Z.div_div in A2, A3 by lia. change (10 * 10)%Z with 100%Z in A2. change (100 * 10)%Z with 1000%Z in A3. lia. }
  rewrite E, W3. unfold places4. fold n. f_equal. cbn [length]. assert (N : n = (10000 * (n / 10000) + r)%Z) by (rewrite Er; apply Z.div_mod; lia). rewrite N at 2. rewrite plus_IZR, mult_IZR. field.
Qed.
Lemma fixed4_number number x r : reads_decimals number -> four_places x r -> number (fixed4 x) = Some r.
Proof.
  intros N P. destruct (fixed4_shape x) as (w & f & W & W0 & F & F0 & -> & V). rewrite (places_fun _ _ _ P (places4_ok x)). destruct (N w f W W0 F F0) as [N1 N2]. destruct (Rlt_dec x 0).
  - rewrite N2, <- V. f_equal. ring.
  - cbn [app]. rewrite N1, <- V. f_equal. ring.
Qed.
(** The characters of numerals. *)
Definition numeric (c : ascii) : Prop := (is_digit c = true \/ c = "-"%char) \/ c = "."%char.
Lemma numeric_plain c : numeric c -> (nat_of_ascii c < 128)%nat /\ c <> chr 10 /\ c <> chr 13 /\ blank c = false /\ c <> "#"%char /\ c <> ">"%char.
Proof.
  assert (K : Forall (fun c => numeric c -> (nat_of_ascii c < 128)%nat /\ c <> chr 10 /\ c <> chr 13 /\ blank c = false /\ c <> "#"%char /\ c <> ">"%char) (map ascii_of_nat (seq 0 256))).
  { apply Forall_forall. intros d I N. apply in_map_iff in I. destruct I as (k & <- & I). apply in_seq in I.
    destruct N as [[N| ->]| ->].
    - unfold is_digit in N. rewrite nat_ascii_embedding in N by lia. apply andb_prop in N. destruct N as [A B]. apply Nat.leb_le in A. apply Nat.leb_le in B. assert (C : (k = 48 \/ k = 49 \/ k = 50 \/ k = 51 \/ k = 52 \/ k = 53 \/ k = 54 \/ k = 55 \/ k = 56 \/ k = 57)%nat) by lia.
      repeat (destruct C as [->|C]; [split; [cbn; lia|repeat split; discriminate]|]). subst k. split; [cbn; lia|repeat split; discriminate].
    - split; [cbn; lia|repeat split; discriminate].
    - split; [cbn; lia|repeat split; discriminate]. }
  rewrite Forall_forall in K. apply K. apply in_map_iff. exists (nat_of_ascii c). split; [apply ascii_nat_embedding|]. apply in_seq. pose proof (nat_ascii_bounded c). lia.
Qed.
Lemma fixed4_numeric x : Forall numeric (fixed4 x) /\ (exists c r, fixed4 x = c :: r) /\ (exists r c, fixed4 x = r ++ [c]).
Proof.
  destruct (fixed4_shape x) as (w & f & W & W0 & F & F0 & -> & _). split; [|split].
  - assert (D : forall l, all_digits l -> Forall numeric l) by (intros l A; eapply Forall_impl; [|exact A]; intros a B; left; left; exact B).
    apply Forall_app. split; [destruct (Rlt_dec x 0); [constructor; [left; right; reflexivity|constructor]|constructor]|]. apply Forall_app. split; [apply D; exact W|]. apply Forall_app. split; [constructor; [right; reflexivity|constructor]|apply D; exact F].
  - destruct (Rlt_dec x 0); [eexists; eexists; reflexivity|]. destruct w as [|c w]; [congruence|]. eexists; eexists; reflexivity.
  - destruct (exists_last F0) as (f' & c & ->). exists ((if Rlt_dec x 0 then str_of "-" else []) ++ w ++ str_of "." ++ f'), c. rewrite <- !app_assoc. reflexivity.
Qed.
(** ** Lines *)
Definition vertex_body (p : point) : str := let '(lon, lat, dep) := p in fixed4 lat ++ str_of " " ++ fixed4 lon ++ str_of " " ++ fixed4 dep.
Definition quad_lines (q : quad) : list str := [vertex_body (q0 q); vertex_body (q1 q); vertex_body (q2 q); vertex_body (q3 q); vertex_body (q0 q); str_of ">"].
Definition ended (l : str) : str := l ++ [chr 10].
Lemma vertex_line_ended p : vertex_line p = ended (vertex_body p).
Proof. destruct p as [[lon lat] dep]. unfold vertex_line, ended, vertex_body. rewrite <- !app_assoc. reflexivity. Qed.
Lemma text_lines reference quads : rupture_text reference quads = flat_map ended ((str_of "#" ++ reference) :: flat_map quad_lines quads).
Proof.
  unfold rupture_text. cbn [flat_map]. unfold ended at 1. rewrite <- !app_assoc. do 3 f_equal. induction quads as [|q quads IH]; [reflexivity|]. cbn [flat_map]. rewrite flat_map_app, <- IH. f_equal. unfold quad_text, quad_lines. rewrite !vertex_line_ended. cbn [flat_map]. rewrite app_nil_r. reflexivity.
Qed.
Lemma lines_ended ls : Forall no_end ls -> lines_from [] (flat_map ended ls) = map ended ls.
Proof.
  intro F. apply lines_iff. induction F as [|l ls N _ IH]; [constructor|]. cbn [flat_map map]. unfold ended at 1. rewrite <- app_assoc. apply lines_more; [exact N|left; reflexivity|exact IH].
Qed.
Lemma ascii_bytes t : Forall (fun c => (nat_of_ascii c < 128)%nat) t -> file_bytes t = t.
Proof.
  unfold file_bytes. induction 1 as [|c t H _ IH]; [reflexivity|]. cbn [flat_map]. rewrite IH. unfold utf8_char. destruct (Nat.ltb_spec (nat_of_ascii c) 128); [reflexivity|lia].
Qed.
Lemma body_chars p : Forall (fun c => (nat_of_ascii c < 128)%nat /\ c <> chr 10 /\ c <> chr 13) (vertex_body p).
Proof.
  assert (K : forall x, Forall (fun c => (nat_of_ascii c < 128)%nat /\ c <> chr 10 /\ c <> chr 13) (fixed4 x)).
  { intro x. eapply Forall_impl; [|exact (proj1 (fixed4_numeric x))]. intros c H. destruct (numeric_plain c H) as (A & B & C & _). auto. }
  assert (S : Forall (fun c => (nat_of_ascii c < 128)%nat /\ c <> chr 10 /\ c <> chr 13) (str_of " ")) by (constructor; [split; [cbn; lia|split; discriminate]|constructor]).
  destruct p as [[lon lat] dep]. unfold vertex_body. do 4 (apply Forall_app; split; [first [apply K|exact S]|]). apply K.
Qed.
Lemma says_body number nf p : forall lat lon dep, reads_decimals number -> vertex_places p (lon, lat, dep) ->
  says number nf (ended (vertex_body p)) (IVertex (if nf then (lat, lon, dep) else (lon, lat, dep))).
Proof.
  intros lat lon dep N. destruct p as [[lon0 lat0] dep0]. intros (P1 & P2 & P3). unfold vertex_body.
  destruct (fixed4_numeric lat0) as (A1 & (h & ht & A2) & _). destruct (fixed4_numeric lon0) as (B1 & (b & bt & B2) & _). destruct (fixed4_numeric dep0) as (C1 & (cc & ct & C2) & (l & lc & C3)).
  pose proof (fixed4_number number _ _ N P1) as F1. pose proof (fixed4_number number _ _ N P2) as F2. pose proof (fixed4_number number _ _ N P3) as F3.
  assert (Hh : numeric h) by (rewrite A2 in A1; inversion A1; assumption). assert (Hl : numeric lc) by (rewrite C3 in C1; apply Forall_app in C1; destruct C1 as [_ C1]; inversion C1; assumption).
  apply numeric_plain in Hh. apply numeric_plain in Hl. destruct Hh as (_ & _ & _ & H1 & H2 & H3). destruct Hl as (_ & _ & _ & L1 & _).
  assert (NB : forall x, Forall (fun c => blank c = false) (fixed4 x)) by (intro x; eapply Forall_impl; [|exact (proj1 (fixed4_numeric x))]; intros c H; exact (proj1 (proj2 (proj2 (proj2 (numeric_plain c H)))))).
  assert (NE : forall x, fixed4 x <> []) by (intro x; destruct (fixed4_numeric x) as (_ & (c & r & ->) & _); discriminate).
  assert (T : trimmed (ended (fixed4 lat0 ++ str_of " " ++ fixed4 lon0 ++ str_of " " ++ fixed4 dep0)) (h :: ht ++ str_of " " ++ fixed4 lon0 ++ str_of " " ++ fixed4 dep0)).
  { exists [], [chr 10]. split; [unfold ended; rewrite A2; reflexivity|]. split; [constructor|]. split; [constructor; [reflexivity|constructor]|]. intros c r [E|E]; [injection E as <- _; exact H1|].
    rewrite C3, !app_assoc in E. rewrite app_comm_cons in E. apply app_inj_tail in E. destruct E as [_ <-]. exact L1. }
  assert (Sp : forall r, exists c r', str_of " " ++ r = c :: r' /\ blank c = true) by (intro r; exists " "%char, r; split; reflexivity).
  assert (W : words (ended (fixed4 lat0 ++ str_of " " ++ fixed4 lon0 ++ str_of " " ++ fixed4 dep0)) [fixed4 lat0; fixed4 lon0; fixed4 dep0]).
  { unfold ended. rewrite <- !app_assoc. apply (words_more []); [constructor|apply NE|apply NB|right; apply Sp|]. apply (words_more (str_of " ")); [constructor; [reflexivity|constructor]|apply NE|apply NB|right; apply Sp|]. apply (words_more (str_of " ")); [constructor; [reflexivity|constructor]|apply NE|apply NB|right; exists (chr 10), []; split; reflexivity|]. apply words_none. constructor; [reflexivity|constructor]. }
  exact (says_vertex number nf _ h _ _ _ _ _ _ _ T H2 H3 (or_introl W) F2 F1 F3).
Qed.
Lemma says_sign number nf : says number nf (ended (str_of ">")) ISeparator.
Proof.
  apply (says_separator _ _ _ []). exists [], [chr 10]. split; [reflexivity|]. split; [constructor|]. split; [constructor; [reflexivity|constructor]|]. intros c r [E|E].
  - injection E as <- _. reflexivity.
  - destruct r as [|? [|? r]]; [injection E as <-; reflexivity|discriminate|discriminate].
Qed.
Lemma says_reference number nf s k : kept s k -> says number nf (ended (str_of "#" ++ s)) (IComment k).
Proof.
  intros (t & b & -> & B & L & ->). apply says_comment. exists [], (b ++ [chr 10]). split; [unfold ended; cbn [app str_of list_ascii_of_string]; rewrite <- !app_assoc; reflexivity|]. split; [constructor|].
  split; [apply Forall_app; split; [exact B|constructor; [reflexivity|constructor]]|]. intros c r [E|E]; [injection E as <- _; reflexivity|].
  destruct (rev t) as [|x t'] eqn:R.
  - assert (t = []) by (rewrite <- (rev_involutive t), R; reflexivity). subst t. destruct r as [|? [|? r]]; [injection E as <-; reflexivity|discriminate|discriminate].
  - assert (Et : t = rev t' ++ [x]) by (rewrite <- (rev_involutive t), R; reflexivity). rewrite Et, app_comm_cons in E. apply app_inj_tail in E. destruct E as [_ <-]. apply (L (rev t')). exact Et.
Qed.
(** ** Rings *)
Definition arranged (nf : bool) : vertex -> vertex := if nf then lat_first else as_is.
Lemma arranged_eq nf lon lat dep : arranged nf (lon, lat, dep) = if nf then (lat, lon, dep) else (lon, lat, dep).
Proof. destruct nf; reflexivity. Qed.
Lemma quad_says number nf q p : reads_decimals number -> ring_places (arranged nf) q p -> Forall2 (says number nf) (map ended (quad_lines q)) (map (fun v => IVertex v) p ++ [ISeparator]).
Proof.
  intros N (a & b & c & d & A & B & C & D & ->). assert (K : forall v w, vertex_places v w -> says number nf (ended (vertex_body v)) (IVertex (arranged nf w))) by (intros v [[lon lat] dep] P; rewrite arranged_eq; apply says_body; assumption).
  unfold quad_lines. cbn [map app]. repeat (constructor; [first [apply K; assumption|apply says_sign]|]). constructor.
Qed.
Lemma quads_say number nf quads polys : reads_decimals number -> Forall2 (ring_places (arranged nf)) quads polys ->
  Forall2 (says number nf) (map ended (flat_map quad_lines quads)) (flat_map (fun p => map (fun v => IVertex v) p ++ [ISeparator]) polys).
Proof.
  intros N F. induction F as [|q p quads polys H _ IH]; [constructor|]. cbn [flat_map]. rewrite map_app. apply Forall2_app; [apply quad_says; assumption|exact IH].
Qed.
Lemma ring_groups (polys : list (list vertex)) : Forall (fun p => p <> []) polys -> groups (vertices_of (flat_map (fun p => map (fun v => IVertex v) p ++ [ISeparator]) polys)) polys.
Proof.
  induction 1 as [|p polys N _ IH]; [constructor|]. cbn [flat_map]. unfold vertices_of in *. rewrite !flat_map_app. cbn [flat_map app]. rewrite <- app_assoc. cbn [app].
  assert (E : flat_map (fun i => match i with IVertex v => [Some v] | ISeparator => [None] | _ => [] end) (map (fun v => IVertex v) p) = map Some p) by (clear; induction p as [|v p IHp]; [reflexivity|cbn; rewrite IHp; reflexivity]). rewrite E.
  apply groups_run; [exact N|right; eexists; reflexivity|]. apply groups_sep. exact IH.
Qed.
Lemma ring_reference (polys : list (list vertex)) : reference_of (flat_map (fun p => map (fun v => IVertex v) p ++ [ISeparator]) polys) = [].
Proof.
  induction polys as [|p polys IH]; [reflexivity|]. cbn [flat_map]. unfold reference_of in *. rewrite !flat_map_app, IH. cbn [flat_map app]. rewrite app_nil_r. induction p as [|v p IHp]; [reflexivity|exact IHp].
Qed.
Lemma chr_nat n : (n < 256)%nat -> nat_of_ascii (chr n) = n.
Proof. intro H. apply nat_ascii_embedding. exact H. Qed.
Lemma utf8_bytes s b : utf8 s b -> file_bytes s = b.
Proof.
  unfold file_bytes. induction 1 as [|c s b H _ IH|c x y s b H X Y E _ IH]; [reflexivity| |]; cbn [flat_map]; rewrite IH; unfold utf8_char.
  - destruct (Nat.ltb_spec (nat_of_ascii c) 128); [reflexivity|lia].
  - destruct (Nat.ltb_spec (nat_of_ascii c) 128); [lia|]. cbn [app]. set (u := nat_of_ascii x) in *. set (v := nat_of_ascii y) in *.
    assert (D : (nat_of_ascii c / 64 = u - 192)%nat) by (rewrite E; symmetry; apply (Nat.div_unique _ _ _ (v - 128)); lia).
    assert (M : (nat_of_ascii c mod 64 = v - 128)%nat) by (rewrite E; symmetry; apply (Nat.mod_unique _ _ (u - 192)); lia).
    rewrite D, M. replace (192 + (u - 192))%nat with u by lia. replace (128 + (v - 128))%nat with v by lia. unfold u, v, chr. rewrite !ascii_nat_embedding. reflexivity.
Qed.
Lemma utf8_line s b : utf8 s b -> one_line s -> one_line b.
Proof.
  unfold one_line. induction 1 as [|c s b H _ IH|c x y s b H X Y E _ IH]; intro O; [constructor| |]; inversion O as [|? ? O1 O2]; subst.
  - constructor; auto.
  - constructor; [|constructor; [|auto]]; split; intros ->; cbn in *; lia.
Qed.
Lemma file_lines reference bytes quads : utf8 reference bytes -> one_line reference -> lines_from [] (file_bytes (rupture_text reference quads)) = map ended ((str_of "#" ++ bytes) :: flat_map quad_lines quads).
Proof.
  intros U O. assert (Ls : Forall (Forall (fun c => (nat_of_ascii c < 128)%nat /\ c <> chr 10 /\ c <> chr 13)) (flat_map quad_lines quads)).
  { induction quads as [|q quads IH]; [constructor|]. cbn [flat_map]. apply Forall_app. split; [|exact IH].
    unfold quad_lines. repeat (constructor; [apply body_chars|]). constructor; [|constructor]. constructor; [split; [cbn; lia|split; discriminate]|constructor]. }
  assert (E : file_bytes (rupture_text reference quads) = flat_map ended ((str_of "#" ++ bytes) :: flat_map quad_lines quads)).
  { rewrite text_lines. cbn [flat_map]. unfold file_bytes. rewrite flat_map_app. f_equal.
    - unfold ended. rewrite !flat_map_app. f_equal. f_equal. exact (utf8_bytes _ _ U).
    - apply ascii_bytes. induction Ls as [|l ls H _ IH]; [constructor|]. cbn [flat_map]. apply Forall_app. split; [|exact IH]. unfold ended. apply Forall_app. split; [eapply Forall_impl; [|exact H]; intros c (A & _); exact A|constructor; [cbn; lia|constructor]]. }
  rewrite E. apply lines_ended. constructor; [apply Forall_app; split; [constructor; [split; discriminate|constructor]|exact (utf8_line _ _ U O)]|].
  eapply Forall_impl; [|exact Ls]. intros l H. eapply Forall_impl; [|exact H]. intros c (_ & A & B). auto.
Qed.
Lemma vertex_places_ex v : exists w, vertex_places v w.
Proof. destruct v as [[lon lat] dep]. exists (places4 lon, places4 lat, places4 dep). repeat split; apply places4_ok. Qed.
Lemma places_self x r : four_places x r -> four_places r r.
Proof. intros (n & -> & _). exists n. split; [reflexivity|]. replace (IZR n / 10000 - IZR n / 10000) with 0 by ring. rewrite Rabs_R0. split; lra. Qed.
