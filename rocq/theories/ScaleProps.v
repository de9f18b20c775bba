(** The scale bar. *)
From Coq Require Import ZArith Reals String Ascii Bool List Lia Lra Psatz Sorted.
From Flocq Require Import Core.
From Verif Require Import PyBase PyStr FloatBase NpModel NpProofs ScaleModel ScaleSpec ScaleProofs.
Import ListNotations.
Open Scope R_scope.

Definition ex (x : R) : R := x.
Definition known_proj (p : proj) : Prop := match p with Projected (Some u) => In u known_units | _ => True end.

Lemma meters_ok : forall rd cosd ax, (exists m, data_to_meters rd cosd ax = Ok m) \/ data_to_meters rd cosd ax = Err KeyError.
Proof.
  intros rd cosd ax. unfold data_to_meters. destruct (a_proj ax) as [|[u|]]; [left; eauto| |left; eexists; reflexivity]. destruct (unit_of rd u); [left; eauto|right; reflexivity].
Qed.
Lemma meters_iff : forall rd cosd ax, (exists m, data_to_meters rd cosd ax = Ok m) <-> known_proj (a_proj ax).
Proof.
  intros rd cosd ax. unfold data_to_meters, known_proj. destruct (a_proj ax) as [|[u|]]; [split; eauto| |split; [trivial|intros _; eexists; reflexivity]].
  rewrite <- (unit_known rd u). destruct (unit_of rd u); [split; [discriminate|eauto]|split; [intros (? & ?); discriminate|intro C; exfalso; apply C; reflexivity]].
Qed.
Lemma pos_iff : forall pos, existsb (str_eqb pos) (map str_of ["ll"; "lr"; "ul"; "ur"]%string) = true <-> In pos corners.
Proof. intro pos. rewrite existsb_exists. split; [intros (x & Hx & E); destruct (str_eqb_spec pos x); [subst; exact Hx|discriminate]|intro H; exists pos; split; [exact H|apply str_eqb_refl]]. Qed.
Lemma div_iff : forall d, existsb (Z.eqb d) [2; 3; 4; 5; 6]%Z = true <-> (2 <= d <= 6)%Z.
Proof. intro d. rewrite existsb_exists. split; [intros (x & Hx & E); apply Z.eqb_eq in E; cbn in Hx; lia|intro H; exists d; split; [cbn; lia|apply Z.eqb_refl]]. Qed.
(** ** C38: the arguments that are accepted *)
Theorem C38_errors : forall rd cosd table ax pos padx pady units bar divs e, table <> [] ->
  (draw_scale rd cosd table ax pos padx pady units bar divs = Err e <->
   ((bar = None /\ divs <> None \/ bar <> None /\ divs = None) /\ e = RequiredArgumentError) \/
   ((bar = None <-> divs = None) /\ e = ValueError /\
      ((exists d, divs = Some d /\ ~ (2 <= d <= 6)%Z) \/ ~ In units known_units \/ ~ In pos corners \/ a_geo ax = false)) \/
   ((bar = None <-> divs = None) /\ (forall d, divs = Some d -> (2 <= d <= 6)%Z) /\ In units known_units /\ In pos corners /\ a_geo ax = true /\
      ((~ known_proj (a_proj ax) /\ e = KeyError) \/ (known_proj (a_proj ax) /\ bar <> None /\ e = Unbound)))).
Proof.
  intros rd cosd table ax pos padx pady units bar divs e Ht. unfold draw_scale.
  destruct (xorb (match bar with None => false | _ => true end) (match divs with None => false | _ => true end)) eqn:X.
  { destruct bar, divs; try discriminate; split.
    - intro H. injection H as <-. left. split; [right; split; [discriminate|reflexivity]|reflexivity].
    - intros [[_ ->]|[([A B] & _)|([A B] & _)]]; [reflexivity|discriminate (B eq_refl)|discriminate (B eq_refl)].
    - intro H. injection H as <-. left. split; [left; split; [reflexivity|discriminate]|reflexivity].
    - intros [[_ ->]|[([A B] & _)|([A B] & _)]]; [reflexivity|discriminate (A eq_refl)|discriminate (A eq_refl)]. }
  assert (Both : bar = None <-> divs = None) by (destruct bar, divs; try discriminate; split; congruence).
  assert (NB : ~ (bar = None /\ divs <> None \/ bar <> None /\ divs = None)) by tauto.
  destruct (match divs with Some d => negb (existsb (Z.eqb d) [2; 3; 4; 5; 6]%Z) | None => false end) eqn:D.
  { destruct divs as [d|]; [|discriminate]. apply negb_true_iff in D. assert (Nd : ~ (2 <= d <= 6)%Z) by (rewrite <- div_iff; congruence). split.
    - intro H. injection H as <-. right; left. split; [assumption|]. split; [reflexivity|]. left. eauto.
    - intros [[A _]|[(_ & -> & _)|(_ & A & _)]]; [contradiction|reflexivity|]. exfalso. apply Nd. apply A. reflexivity. }
  assert (Dv : forall d, divs = Some d -> (2 <= d <= 6)%Z) by (intros d ->; apply negb_false_iff in D; apply div_iff; assumption).
  destruct (unit_of rd units) as [unit|] eqn:U.
  2:{ assert (Nu : ~ In units known_units) by (rewrite <- (unit_known rd); intro C; apply C; assumption). split.
      - intro H. injection H as <-. right; left. split; [assumption|]. split; [reflexivity|]. auto.
      - intros [[A _]|[(_ & -> & _)|(_ & _ & A & _)]]; [contradiction|reflexivity|contradiction]. }
  assert (Ku : In units known_units) by (rewrite <- (unit_known rd); congruence).
  destruct (existsb (str_eqb pos) (map str_of ["ll"; "lr"; "ul"; "ur"]%string)) eqn:P; cbn [negb].
  2:{ assert (Np : ~ In pos corners) by (rewrite <- pos_iff; congruence). split.
      - intro H. injection H as <-. right; left. split; [assumption|]. split; [reflexivity|]. auto.
      - intros [[A _]|[(_ & -> & _)|(_ & _ & _ & A & _)]]; [contradiction|reflexivity|contradiction]. }
  apply pos_iff in P. destruct (a_geo ax) eqn:G; cbn [negb].
  2:{ split.
      - intro H. injection H as <-. right; left. split; [assumption|]. split; [reflexivity|]. auto.
      - intros [[A _]|[(_ & -> & _)|(_ & _ & _ & _ & A & _)]]; [contradiction|reflexivity|discriminate]. }
  assert (NV : ~ ((exists d, divs = Some d /\ ~ (2 <= d <= 6)%Z) \/ ~ In units known_units \/ ~ In pos corners \/ true = false)).
  { intros [(d & A & B)|[A|[A|A]]]; [apply B; auto|contradiction|contradiction|discriminate]. }
  destruct (meters_ok rd cosd ax) as [(m & M)|M]; rewrite M.
  2:{ assert (Nk : ~ known_proj (a_proj ax)) by (rewrite <- (meters_iff rd cosd); intros (m & C); congruence). split.
      - intro H. injection H as <-. right; right. split; [assumption|]. split; [assumption|]. split; [assumption|]. split; [assumption|]. split; [reflexivity|]. auto.
      - intros [[A _]|[(_ & _ & A)|(_ & _ & _ & _ & _ & [[_ ->]|[A _]])]]; [contradiction|contradiction|reflexivity|contradiction]. }
  assert (Kp : known_proj (a_proj ax)) by (rewrite <- (meters_iff rd cosd); eauto).
  destruct bar as [b|].
  - split.
    + intro H. injection H as <-. right; right. split; [assumption|]. split; [assumption|]. split; [assumption|]. split; [assumption|]. split; [reflexivity|]. right. split; [assumption|]. split; [discriminate|reflexivity].
    + intros [[A _]|[(_ & _ & A)|(_ & _ & _ & _ & _ & [[A _]|(_ & _ & ->)])]]; [contradiction|contradiction|contradiction|reflexivity].
  - destruct (nearest_in rd table (quarter_width rd ax m unit) Ht) as ([l d] & C & _). rewrite C. destruct (a_to_data ax _) as [p q]. split; [discriminate|].
    intros [[A _]|[(_ & _ & A)|(_ & _ & _ & _ & _ & [[A _]|(_ & A & _)])]]; [contradiction|contradiction|contradiction|exfalso; apply A; reflexivity].
Qed.
Print Assumptions C38_errors.
(** In particular a bar length given by the caller never gives a scale bar. *)
Theorem C38_given_length_fails : forall rd cosd table ax pos padx pady units len divs s, draw_scale rd cosd table ax pos padx pady units (Some len) divs <> Ok s.
Proof.
  intros rd cosd table ax pos padx pady units len divs s H. unfold draw_scale in H. destruct divs as [d|]; [|discriminate]. cbn [xorb] in H. destruct (negb (existsb (Z.eqb d) [2; 3; 4; 5; 6]%Z)); [discriminate|].
  destruct (unit_of rd units); [|discriminate]. destruct (negb (existsb (str_eqb pos) _)); [discriminate|]. destruct (negb (a_geo ax)); [discriminate|]. destruct (data_to_meters rd cosd ax); discriminate.
Qed.
Print Assumptions C38_given_length_fails.

Lemma drawn : forall rd cosd table ax pos padx pady units s, draw_scale rd cosd table ax pos padx pady units None None = Ok s ->
  exists unit m l d, unit_of rd units = Some unit /\ data_to_meters rd cosd ax = Ok m /\ choose rd table (quarter_width rd ax m unit) = Ok (l, d) /\ In pos corners /\
    s_length s = l /\ s_divisions s = d /\ s_data s = rd (rd (IZR l * unit) * rd (1 / m)) /\
    s_left_axes s = (if str_eqb pos (str_of "ul") || str_eqb pos (str_of "ll") then padx else rd (rd (1 - padx) - rd (s_data s / rd (a_xmax ax - a_xmin ax)))) /\
    s_right_axes s = (if str_eqb pos (str_of "ul") || str_eqb pos (str_of "ll") then rd (padx + rd (s_data s / rd (a_xmax ax - a_xmin ax))) else rd (1 - padx)) /\
    s_bottom_axes s = (if str_eqb pos (str_of "ul") || str_eqb pos (str_of "ur") then rd (rd (1 - pady) - rd (a_bar_height ax / rd (a_ymax ax - a_ymin ax))) else pady) /\
    s_top_axes s = (if str_eqb pos (str_of "ul") || str_eqb pos (str_of "ur") then rd (1 - pady) else rd (pady + rd (a_bar_height ax / rd (a_ymax ax - a_ymin ax)))) /\
    (s_left s, s_bottom s) = a_to_data ax (s_left_axes s, s_bottom_axes s) /\
    s_bars s = bars rd (s_left s) (s_data s) d /\ s_labels s = labels rd (s_left s) (s_data s) (IZR l) d.
Proof.
  intros rd cosd table ax pos padx pady units s H. unfold draw_scale in H. cbn [xorb] in H. destruct (unit_of rd units) as [unit|]; [|discriminate].
  destruct (existsb (str_eqb pos) _) eqn:P; [|discriminate]. apply pos_iff in P. destruct (a_geo ax); [|discriminate]. cbn [negb] in H. destruct (data_to_meters rd cosd ax) as [m|]; [|discriminate].
  destruct (choose rd table (quarter_width rd ax m unit)) as [[l d]|] eqn:C; [|discriminate]. destruct (a_to_data ax _) as [p q] eqn:T in H. injection H as <-.
  exists unit, m, l, d. cbn [s_length s_divisions s_data s_left_axes s_right_axes s_bottom_axes s_top_axes s_left s_bottom s_bars s_labels]. repeat (split; [assumption || reflexivity || exact (eq_sym T)|]). reflexivity.
Qed.
(** The length is the tabulated one nearest to a quarter of the map's width, the
    shorter of two equally near; the parts are those of the table. *)
Theorem C38_length : forall cosd ax pos padx pady units s, draw_scale rnd cosd lengths ax pos padx pady units None None = Ok s ->
  exists unit m, unit_of rnd units = Some unit /\ data_to_meters rnd cosd ax = Ok m /\ tabulated (s_length s) (s_divisions s) /\
    let q := rnd (rnd (rnd (rnd (rnd (a_xmax ax - a_xmin ax) * m) * 1) / unit) * 0.25) in
    (q <= IZR (2 ^ 40) -> forall l d, tabulated l d -> Rabs (q - IZR (s_length s)) <= Rabs (q - IZR l) /\ ((l < s_length s)%Z -> Rabs (q - IZR (s_length s)) < Rabs (q - IZR l))).
Proof.
  intros cosd ax pos padx pady units s H. destruct (drawn _ _ _ _ _ _ _ _ _ H) as (unit & m & l & d & U & M & C & _ & <- & <- & _). exists unit, m. split; [assumption|]. split; [assumption|]. split.
  - apply lengths_tab. destruct (nearest_in rnd lengths (quarter_width rnd ax m unit) ltac:(discriminate)) as (l' & C' & Hl). rewrite C in C'. injection C' as <-. exact Hl.
  - intros q Hq l' d' T. apply lengths_tab in T. assert (Dq : is_double q) by apply rnd_double. exact (choose_nearest q _ Dq Hq C (l', d') T).
Qed.
Print Assumptions C38_length.
(** The table: every length is a whole number of its 2 to 6 parts. *)
Theorem C38_parts : forall l d, tabulated l d -> (exists u, l = u * d)%Z /\ (2 <= d <= 6)%Z /\ (4 <= l <= 200000)%Z.
Proof. exact tab_div. Qed.
Print Assumptions C38_parts.
Example C38_ex_parts : tabulated 240 6 /\ tabulated 75 3.
Proof. split; apply lengths_tab; cbn; tauto. Qed.

Lemma chosen_tab : forall rd cosd ax pos padx pady units s, draw_scale rd cosd lengths ax pos padx pady units None None = Ok s -> tabulated (s_length s) (s_divisions s).
Proof.
  intros rd cosd ax pos padx pady units s H. destruct (drawn _ _ _ _ _ _ _ _ _ H) as (unit & m & l & d & U & M & C & _ & <- & <- & _).
  apply lengths_tab. destruct (nearest_in rd lengths (quarter_width rd ax m unit) ltac:(discriminate)) as (l' & C' & Hl). rewrite C in C'. injection C' as <-. exact Hl.
Qed.
(** In exact arithmetic the bar is as long as it says, and its parts are equal,
    adjacent and alternately white and black. *)
Theorem C38_bars : forall cosd ax pos padx pady units s, draw_scale ex cosd lengths ax pos padx pady units None None = Ok s ->
  exists unit m, unit_of ex units = Some unit /\ data_to_meters ex cosd ax = Ok m /\ s_data s = IZR (s_length s) * unit / m /\
    Z.of_nat (List.length (s_bars s)) = s_divisions s /\
    forall i bl br black, nth_error (s_bars s) i = Some (bl, br, black) ->
      bl = s_left s + s_data s * INR i / IZR (s_divisions s) /\ br = s_left s + s_data s * INR (S i) / IZR (s_divisions s) /\ black = Nat.odd i.
Proof.
  intros cosd ax pos padx pady units s H. pose proof (chosen_tab _ _ _ _ _ _ _ _ H) as T. destruct (tab_div _ _ T) as (_ & Hd & _).
  destruct (drawn _ _ _ _ _ _ _ _ _ H) as (unit & m & l & d & U & M & C & _ & El & Ed & Edt & _ & _ & _ & _ & _ & Eb & _). exists unit, m. split; [assumption|]. split; [assumption|].
  subst l d. split; [rewrite Edt; unfold ex, Rdiv; ring|]. rewrite Eb. unfold bars. rewrite map_length, seq_length. split; [lia|].
  intros i bl br black E. rewrite nth_error_map in E. destruct (nth_error (seq 0 (Z.to_nat (s_divisions s))) i) as [j|] eqn:Ej; [|discriminate].
  assert (Hj : j = i). { assert (L : (i < Z.to_nat (s_divisions s))%nat) by (rewrite <- (seq_length (Z.to_nat (s_divisions s)) 0); apply nth_error_Some; congruence).
    rewrite (nth_error_nth' _ 0%nat) in Ej by (rewrite seq_length; assumption). rewrite seq_nth in Ej by assumption. injection Ej as <-. reflexivity. }
  subst j. cbn [option_map] in E. injection E as <- <- <-. unfold bar_left_edge, ex. rewrite S_INR. split; [|split; [|reflexivity]]; unfold Rdiv; ring.
Qed.
Print Assumptions C38_bars.
(** The numbers in double arithmetic: the tick of part [i] is labelled with [i]
    parts of the length, exactly. *)
Theorem C38_label_text : forall l d i, tabulated l d -> (Z.of_nat i < d)%Z -> tick_label rnd (IZR l) d i = (Z.of_nat i * (l / d))%Z.
Proof. intros l d i. apply label_exact. apply rnd_int. Qed.
Print Assumptions C38_label_text.
(** In exact arithmetic a label saying [n] stands [n] units from the start; there
    are labels at both ends. *)
Theorem C38_labels : forall cosd ax pos padx pady units s, draw_scale ex cosd lengths ax pos padx pady units None None = Ok s ->
  exists unit m, unit_of ex units = Some unit /\ data_to_meters ex cosd ax = Ok m /\
    (forall x t, In (x, t) (s_labels s) -> exists n, t = str_of_Z n /\ (0 <= n <= s_length s)%Z /\ x = s_left s + IZR n * unit / m) /\
    (exists mid, s_labels s = (s_left s, str_of_Z 0) :: mid ++ [(s_left s + s_data s, str_of_Z (s_length s))] /\
       Z.of_nat (List.length mid) = if Z.even (s_divisions s) then (s_divisions s / 2 - 1)%Z else 0%Z).
Proof.
  intros cosd ax pos padx pady units s H. pose proof (chosen_tab _ _ _ _ _ _ _ _ H) as T. destruct (tab_div _ _ T) as ((u & Eu) & Hd & Hl).
  destruct (drawn _ _ _ _ _ _ _ _ _ H) as (unit & m & l & d & U & M & C & _ & El & Ed & Edt & _ & _ & _ & _ & _ & _ & Eb). exists unit, m. split; [assumption|]. split; [assumption|]. subst l d.
  assert (Hx : forall k, (Z.abs k <= 2 ^ 53)%Z -> ex (IZR k) = IZR k) by reflexivity.
  assert (Nd : IZR (s_divisions s) <> 0) by (apply not_0_IZR; lia). rewrite Eb. unfold labels. split.
  - intros x t Hin. apply in_app_iff in Hin as [Hin|[Hin|[]]].
    + apply in_flat_map in Hin as (i & Hi & Hin). apply in_seq in Hi. destruct (Nat.even i && _) eqn:Ev; [|destruct Hin]. destruct Hin as [E|[]]. injection E as <- <-.
      assert (Li : (Z.of_nat i < s_divisions s)%Z) by lia. exists (Z.of_nat i * u)%Z.
      rewrite (label_exact ex _ _ i Hx T Li). rewrite Eu at 1. rewrite Z.div_mul by lia. split; [reflexivity|]. split; [nia|]. unfold bar_left_edge, ex. rewrite Edt. unfold ex.
      rewrite mult_IZR, <- INR_IZR_INZ. assert (E' : IZR (s_length s) = IZR u * IZR (s_divisions s)) by (rewrite <- mult_IZR; f_equal; assumption). rewrite E'. unfold Rdiv. rewrite Rmult_1_l. generalize (/ m). intro v. field. assumption.
    + injection Hin as <- <-. exists (s_length s). rewrite Ztrunc_IZR. split; [reflexivity|]. split; [lia|]. rewrite Edt. unfold ex, Rdiv. ring.
  - rewrite Ztrunc_IZR. assert (Z0 : bar_left_edge ex (s_left s) (s_data s) (s_divisions s) 0 = s_left s) by (unfold bar_left_edge, ex; cbn [INR]; ring).
    assert (L0 : tick_label ex (IZR (s_length s)) (s_divisions s) 0 = 0%Z) by (rewrite (label_exact ex _ _ 0 Hx T) by lia; lia).
    change (ex (s_left s + s_data s)) with (s_left s + s_data s).
    assert (Cs : s_divisions s = 2%Z \/ s_divisions s = 3%Z \/ s_divisions s = 4%Z \/ s_divisions s = 5%Z \/ s_divisions s = 6%Z) by lia.
    revert Z0 L0. destruct Cs as [Ec|[Ec|[Ec|[Ec|Ec]]]]; rewrite Ec; intros Z0 L0; cbv [Z.to_nat Pos.to_nat Pos.iter_op Nat.add seq flat_map Nat.even Nat.eqb Z.even andb orb app]; rewrite Z0, L0;
    [exists []|exists []|eexists [_]|exists []|eexists [_; _]]; (split; [reflexivity|reflexivity]).
Qed.
Print Assumptions C38_labels.
(** The bar ends at the padding of the corner asked for. *)
Theorem C38_corner : forall cosd ax pos padx pady units s, draw_scale ex cosd lengths ax pos padx pady units None None = Ok s ->
  let w := s_data s / (a_xmax ax - a_xmin ax) in let h := a_bar_height ax / (a_ymax ax - a_ymin ax) in
  s_right_axes s - s_left_axes s = w /\ s_top_axes s - s_bottom_axes s = h /\
  ((pos = str_of "ll" /\ s_left_axes s = padx /\ s_bottom_axes s = pady) \/ (pos = str_of "lr" /\ s_right_axes s = 1 - padx /\ s_bottom_axes s = pady) \/
   (pos = str_of "ul" /\ s_left_axes s = padx /\ s_top_axes s = 1 - pady) \/ (pos = str_of "ur" /\ s_right_axes s = 1 - padx /\ s_top_axes s = 1 - pady)) /\
  (s_left s, s_bottom s) = a_to_data ax (s_left_axes s, s_bottom_axes s).
Proof.
  intros cosd ax pos padx pady units s H w h. destruct (drawn _ _ _ _ _ _ _ _ _ H) as (unit & m & l & d & U & M & C & P & El & Ed & Edt & A1 & A2 & A3 & A4 & A5 & _).
  unfold ex in A1, A2, A3, A4. cbn in P. unfold w, h. destruct P as [<-|[<-|[<-|[<-|[]]]]]; cbn in A1, A2, A3, A4; rewrite A1, A2, A3, A4; (split; [ring|split; [ring|split; [|rewrite A5, A1, A3; reflexivity]]]); auto 10.
Qed.
Print Assumptions C38_corner.
(** On a map at least 16 units wide the bar takes at most 5/14 of the width. *)
Theorem C38_fits : forall cosd ax pos padx pady units s unit m, draw_scale ex cosd lengths ax pos padx pady units None None = Ok s ->
  unit_of ex units = Some unit -> data_to_meters ex cosd ax = Ok m -> 0 < m -> 0 < unit -> a_xmin ax < a_xmax ax ->
  16 <= (a_xmax ax - a_xmin ax) * m / unit -> s_right_axes s - s_left_axes s <= 5 / 14.
Proof.
  intros cosd ax pos padx pady units s unit m H U M Pm Pu Pw W. destruct (C38_corner _ _ _ _ _ _ _ H) as (Ew & _). rewrite Ew.
  destruct (drawn _ _ _ _ _ _ _ _ _ H) as (unit' & m' & l & d & U' & M' & C & P & El & Ed & Edt & _). rewrite U in U'. injection U' as <-. rewrite M in M'. injection M' as <-.
  pose proof (choose_exact _ _ C) as Near. cbn [fst] in Near. unfold quarter_width, ex in Near. set (w := (a_xmax ax - a_xmin ax) * m / unit) in *.
  replace ((a_xmax ax - a_xmin ax) * m * 1 / unit * 0.25) with (w / 4) in Near by (replace 0.25 with (/ 4) by lra; unfold w; field; lra).
  assert (Dt : s_data s / (a_xmax ax - a_xmin ax) = IZR l / w) by (rewrite Edt; unfold ex, w; field; lra). rewrite Dt.
  assert (Tl : In (l, d) lengths) by (destruct (nearest_in ex lengths (quarter_width ex ax m unit) ltac:(discriminate)) as (l' & C' & Hl); rewrite C in C'; injection C' as <-; exact Hl).
  assert (G : IZR l <= 5 / 14 * w).
  2:{ apply Rmult_le_reg_r with w; [lra|]. unfold Rdiv at 1. rewrite Rmult_assoc, Rinv_l by lra. lra. }
  clear - Near Tl W. 
  assert (Prev : forall a b, (a < b)%Z -> (7 * b <= 10 * (a + b) / 2)%Z -> In a (map fst lengths) -> l = b -> IZR l <= 5 / 14 * w).
  { intros a b Lab R7 Ha ->. apply in_map_iff in Ha as ([a' d'] & <- & Ha). destruct (Near _ Ha) as [_ N]. cbn [fst] in *. specialize (N Lab).
    assert (Hab : IZR a' < IZR b) by (apply IZR_lt; assumption).
    assert (Mid : (IZR a' + IZR b) / 2 < w / 4) by (revert N; unfold Rabs; repeat destruct Rcase_abs; lra).
    assert (R7' : (14 * b <= 10 * (a' + b))%Z) by (pose proof (Z.mul_div_le (10 * (a' + b)) 2 ltac:(lia)); lia).
    apply IZR_le in R7'. rewrite !mult_IZR, plus_IZR in R7'. lra. }
  cbn in Tl. destruct Tl as [Tl|Tl]; [injection Tl as <- <-; lra|].
  Ltac go Prev a := match goal with |- IZR ?b <= _ => apply (Prev a b); [reflexivity|vm_compute; discriminate|cbn; tauto|reflexivity] end.
  repeat (destruct Tl as [Tl|Tl]; [injection Tl as <- <-; first
    [go Prev 4%Z|go Prev 10%Z|go Prev 12%Z|go Prev 15%Z|go Prev 20%Z|go Prev 30%Z|go Prev 40%Z|go Prev 75%Z|go Prev 100%Z|go Prev 120%Z|go Prev 150%Z|go Prev 200%Z|go Prev 240%Z|go Prev 300%Z
    |go Prev 400%Z|go Prev 600%Z|go Prev 750%Z|go Prev 1000%Z|go Prev 2000%Z|go Prev 4000%Z|go Prev 6000%Z|go Prev 10000%Z|go Prev 20000%Z|go Prev 40000%Z|go Prev 60000%Z|go Prev 75000%Z|go Prev 100000%Z]|]).
  destruct Tl.
Qed.
Print Assumptions C38_fits.

(** A map less than four units wide gets a bar longer than the map. *)
Lemma choose_short : forall q l, 0 <= q <= 1 -> choose ex lengths q = Ok l -> fst l = 4%Z.
Proof.
  intros q l Hq C. destruct (choose_exact q l C (4, 4)%Z ltac:(left; reflexivity)) as [N _]. cbn [fst] in N.
  assert (Tl : In l lengths) by (destruct (nearest_in ex lengths q ltac:(discriminate)) as (l' & C' & Hl); rewrite C in C'; injection C' as <-; exact Hl).
  assert (B : (fst l <= 4)%Z). { apply le_IZR. revert N. unfold Rabs. repeat destruct Rcase_abs; lra. }
  destruct l as [l d]. apply lengths_tab, tab_div in Tl as (_ & _ & Tl). cbn [fst] in *. lia.
Qed.
Definition tiny : axes := {| a_geo := true; a_proj := Projected None; a_xmin := 0; a_xmax := 2000; a_ymin := 0; a_ymax := 2000; a_to_data := fun p => p; a_bar_height := 1; a_tick := 1; a_gap := 1 |}.
Theorem C38_too_long_refuted : exists ax s, a_xmax ax - a_xmin ax = 2000 /\ a_proj ax = Projected None /\
  draw_scale ex cos lengths ax (str_of "ll") 0.1 0.1 (str_of "km") None None = Ok s /\ s_data s = 4000 /\ 1 < s_right_axes s.
Proof.
  exists tiny.
  assert (D : exists s, draw_scale ex cos lengths tiny (str_of "ll") 0.1 0.1 (str_of "km") None None = Ok s).
  { destruct (draw_scale ex cos lengths tiny (str_of "ll") 0.1 0.1 (str_of "km") None None) as [s|e] eqn:E; [eauto|]. exfalso.
    apply C38_errors in E; [|discriminate]. destruct E as [([[_ A]|[A _]] & _)|[(_ & _ & [(d & A & _)|[A|[A|A]]])|(_ & _ & _ & _ & _ & [[A _]|(_ & A & _)])]]; try discriminate; try (apply A; reflexivity); try (apply A; cbn; tauto). }
  destruct D as (s & D). exists s. destruct (drawn _ _ _ _ _ _ _ _ _ D) as (unit & m & l & d & U & M & C & _ & _ & _ & Edt & _ & Er & _).
  assert (Hu : unit = 1000) by (cbn in U; unfold ex in U; congruence). assert (Hm : m = 1) by (cbn in M; unfold ex in M; congruence). subst unit m.
  assert (Hl : l = 4%Z). { apply (choose_short _ _) in C; [exact C|]. unfold quarter_width, ex, tiny; cbn [a_xmax a_xmin]. lra. }
  subst l. split; [cbn; lra|]. split; [reflexivity|]. split; [exact D|].
  assert (E4 : s_data s = 4000) by (rewrite Edt; unfold ex; lra). split; [exact E4|].
  change (str_eqb (str_of "ll") (str_of "ul") || str_eqb (str_of "ll") (str_of "ll"))%bool with true in Er. cbv iota in Er. rewrite Er, E4. unfold ex, tiny; cbn [a_xmax a_xmin]. lra.
Qed.
Print Assumptions C38_too_long_refuted.
(** The units in terms of one another, before rounding. *)
Definition metres (u : string) (v : R) : Prop := forall rd, unit_of rd (str_of u) = Some (rd v).
Theorem C38_units : exists m inch ft yd mi kmi fath ch link usin usft usyd usch usmi iy ift ich,
  (metres "m" m /\ m = 1 /\ metres "km" (1000 * m) /\ metres "dm" (m / 10) /\ metres "cm" (m / 100) /\ metres "mm" (m / 1000)) /\
  (metres "in" inch /\ inch = 2.54 * (m / 100) /\ metres "ft" ft /\ ft = 12 * inch /\ metres "yd" yd /\ yd = 3 * ft /\ metres "mi" mi /\ mi = 1760 * yd /\
   metres "kmi" kmi /\ kmi = 1852 * m /\ metres "fath" fath /\ fath = 2 * yd /\ metres "ch" ch /\ mi = 80 * ch /\ metres "link" link /\ ch = 100 * link) /\
  (metres "us-in" usin /\ m = 39.37 * usin /\ metres "us-ft" usft /\ Rabs (usft - 12 * usin) < 1 / 10 ^ 12 /\ metres "us-yd" usyd /\ Rabs (usyd - 36 * usin) < 1 / 10 ^ 12 /\
   metres "us-ch" usch /\ Rabs (usch - 66 * (12 * usin)) < 1 / 10 ^ 12 /\ metres "us-mi" usmi /\ Rabs (usmi - 5280 * (12 * usin)) < 1 / 10 ^ 11) /\
  (metres "ind-yd" iy /\ iy = 0.91439523 * m /\ metres "ind-ft" ift /\ iy = 3 * ift /\ metres "ind-ch" ich /\ ich = 22 * iy).
Proof.
  exists 1, 0.0254, 0.3048, 0.9144, 1609.344, 1852, 1.8288, 20.1168, 0.201168, (1 / 39.37), 0.304800609601219, 0.914401828803658, 20.11684023368047, 1609.347218694437, 0.91439523, 0.30479841, 20.11669506.
  assert (F : forall v w, (forall rd : R -> R, Some (rd v) = Some (rd w)) <-> v = w) by (intros v w; split; [intro H; specialize (H ex); unfold ex in H; congruence|intros -> rd; reflexivity]).
  assert (G : forall n v w, (forall rd, unit_of rd (str_of n) = Some (rd w)) -> w = v -> metres n v) by (intros n v w H <-; exact H).
  repeat split; try (eapply G; [intro rd; reflexivity|lra]); try lra; apply Rabs_def1; lra.
Qed.
Print Assumptions C38_units.
(** A map 1000 km wide gets a bar of 240 km in six parts. *)
Definition wide : axes := {| a_geo := true; a_proj := Projected (Some (str_of "m")); a_xmin := 0; a_xmax := 1000000; a_ymin := 0; a_ymax := 1000000; a_to_data := fun p => (1000000 * fst p, 1000000 * snd p); a_bar_height := 1; a_tick := 1; a_gap := 1 |}.
Example C38_ex : exists s, draw_scale ex cos lengths wide (str_of "ur") 0.1 0.1 (str_of "km") None None = Ok s /\ s_length s = 240%Z /\ s_divisions s = 6%Z /\ data_to_meters ex cos wide = Ok 1 /\ unit_of ex (str_of "km") = Some 1000 /\
  16 <= (a_xmax wide - a_xmin wide) * 1 / 1000.
Proof.
  assert (D : exists s, draw_scale ex cos lengths wide (str_of "ur") 0.1 0.1 (str_of "km") None None = Ok s).
  { destruct (draw_scale ex cos lengths wide (str_of "ur") 0.1 0.1 (str_of "km") None None) as [s|e] eqn:E; [eauto|]. exfalso.
    apply C38_errors in E; [|discriminate]. destruct E as [([[_ A]|[A _]] & _)|[(_ & _ & [(d & A & _)|[A|[A|A]]])|(_ & _ & _ & _ & _ & [[A _]|(_ & A & _)])]]; try discriminate; try (apply A; reflexivity); try (apply A; cbn; tauto). }
  destruct D as (s & D). exists s. split; [exact D|]. pose proof (chosen_tab _ _ _ _ _ _ _ _ D) as T. destruct (drawn _ _ _ _ _ _ _ _ _ D) as (unit & m & l & d & U & M & C & _ & El & Ed & _).
  assert (Hu : unit = 1000) by (cbn in U; unfold ex in U; congruence). assert (Hm : m = 1) by (cbn in M; unfold ex in M; congruence). subst unit m l d.
  destruct (choose_exact _ _ C (240, 6)%Z ltac:(cbn; tauto)) as [N _]. cbn [fst] in N. unfold quarter_width, ex, wide in N. cbn [a_xmax a_xmin] in N.
  replace ((1000000 - 0) * 1 * 1 / 1000 * 0.25) with 250 in N by lra.
  assert (B : (240 <= s_length s <= 260)%Z) by (split; apply le_IZR; revert N; unfold Rabs; repeat destruct Rcase_abs; lra).
  assert (El : s_length s = 240%Z /\ s_divisions s = 6%Z).
  { apply lengths_tab in T. cbn in T. repeat (destruct T as [T|T]; [injection T; intros; subst; lia|]). destruct T. }
  destruct El. repeat split; try assumption; cbn; try reflexivity; lra.
Qed.
