(** Lemmas for the polygon properties. *)
From Coq Require Import ZArith Reals String Ascii Bool List Lia Lra.
From Verif Require Import PyBase PyStr VecModel VecProofs GeoModel GeoTrig RuptModel PolyModel PolySpec.
Import ListNotations.
Open Scope nat_scope.

Lemma reqd_refl x : reqd x x = true. Proof. apply reqd_iff. reflexivity. Qed.
Lemma point_eqb_iff a b : point_eqb a b = true <-> a = b.
Proof.
  destruct a as [[a1 a2] a3], b as [[b1 b2] b3]. unfold point_eqb. rewrite !andb_true_iff, !reqd_iff. split.
  - intros [[-> ->] ->]. reflexivity.
  - intro H. injection H as -> -> ->. auto.
Qed.
Lemma is_space_blank c : is_space c = blank c.
Proof. destruct c as [[] [] [] [] [] [] [] []]; reflexivity. Qed.

(** ** Text *)
Lemma span_blank s a b : span is_space s = (a, b) -> s = a ++ b /\ blanks a /\ (forall c r, b = c :: r -> blank c = false).
Proof.
  revert a b. induction s as [|x s IH]; intros a b; cbn [span].
  - intro H. injection H as <- <-. split; [reflexivity|]. split; [constructor|]. discriminate.
  - destruct (is_space x) eqn:E.
    + destruct (span is_space s) as [a' b'] eqn:Es. intro H. injection H as <- <-. destruct (IH _ _ eq_refl) as (-> & B & N). split; [reflexivity|]. split; [|exact N]. constructor; [rewrite <- is_space_blank; exact E|exact B].
    + intro H. injection H as <- <-. split; [reflexivity|]. split; [constructor|]. intros c r H. injection H as -> ->. rewrite <- is_space_blank. exact E.
Qed.
Lemma lstrip_spec s : exists a, s = a ++ lstrip s /\ blanks a /\ forall c r, lstrip s = c :: r -> blank c = false.
Proof. unfold lstrip. destruct (span is_space s) as [a b] eqn:E. exists a. apply (span_blank _ _ _ E). Qed.
Lemma span_app s t : blanks s -> (forall c r, t = c :: r -> blank c = false) -> span is_space (s ++ t) = (s, t).
Proof.
  induction s as [|x s IH]; intros B N; cbn [app].
  - destruct t as [|c r]; [reflexivity|]. cbn [span]. rewrite is_space_blank, (N c r eq_refl). reflexivity.
  - inversion B; subst. cbn [span]. rewrite is_space_blank, H1, (IH H2 N). reflexivity.
Qed.
Lemma lstrip_app s t : blanks s -> (forall c r, t = c :: r -> blank c = false) -> lstrip (s ++ t) = t.
Proof. intros B N. unfold lstrip. rewrite (span_app s t B N). reflexivity. Qed.
Lemma blanks_rev s : blanks s -> blanks (rev s).
Proof. intro H. apply Forall_rev. exact H. Qed.
Lemma blanks_app s t : blanks (s ++ t) <-> blanks s /\ blanks t.
Proof. apply Forall_app. Qed.
Lemma strip_trimmed s : trimmed s (strip s).
Proof.
  unfold strip. destruct (lstrip_spec s) as (a & E & Ba & Na). set (u := lstrip s) in *. destruct (lstrip_spec (rev u)) as (b & E' & Bb & Nb). set (w := lstrip (rev u)) in *.
  assert (Eu : u = rev w ++ rev b) by (rewrite <- rev_app_distr, <- E', rev_involutive; reflexivity).
  exists a, (rev b). rewrite <- Eu. split; [exact E|]. split; [exact Ba|]. split; [apply blanks_rev; exact Bb|]. intros c r [H|H].
  - apply (Na c (r ++ rev b)). rewrite Eu, H. reflexivity.
  - apply (Nb c (rev r)). rewrite <- (rev_involutive w), H, rev_app_distr. reflexivity.
Qed.
Lemma trimmed_strip s t : trimmed s t -> strip s = t.
Proof.
  intros (a & b & -> & Ba & Bb & N). unfold strip. destruct t as [|c r].
  - cbn [app]. assert (X : lstrip (a ++ b) = []). { rewrite <- (app_nil_r (a ++ b)). apply lstrip_app; [apply blanks_app; auto|discriminate]. } rewrite X. reflexivity.
  - rewrite (lstrip_app a ((c :: r) ++ b)) by (try assumption; intros c' r' H; cbn [app] in H; injection H as -> _; apply (N c' r); auto).
    rewrite rev_app_distr. rewrite lstrip_app; [apply rev_involutive|apply blanks_rev; exact Bb|].
    intros c' r' H. apply (N c' (rev r')). right. rewrite <- (rev_involutive (c :: r)), H. reflexivity.
Qed.
Lemma trimmed_iff s t : trimmed s t <-> strip s = t.
Proof. split; [apply trimmed_strip|intros <-; apply strip_trimmed]. Qed.
Lemma blanks_strip s : blanks s <-> strip s = [].
Proof.
  rewrite <- trimmed_iff. split.
  - intro H. exists s, []. rewrite app_nil_r. split; [reflexivity|]. split; [exact H|]. split; [constructor|]. intros c r [E|E]; [discriminate|]. symmetry in E. apply app_eq_nil in E. destruct E; discriminate.
  - intros (a & b & -> & Ba & Bb & _). apply blanks_app. auto.
Qed.

Lemma words_from_spec s : forall cur, Forall (fun c => blank c = false) cur ->
  exists w rest, s = w ++ rest /\ Forall (fun c => blank c = false) w /\ (rest = [] \/ exists c r, rest = c :: r /\ blank c = true) /\
  words_from cur s = match rev cur ++ w with [] => [] | x => [x] end ++ match rest with [] => [] | _ :: r => words_from [] r end.
Proof.
  induction s as [|c s IH]; intros cur Hc; cbn [words_from].
  - exists [], []. split; [reflexivity|]. split; [constructor|]. split; [auto|]. rewrite !app_nil_r. destruct cur as [|x cur]; [reflexivity|]. cbn [rev]. destruct (rev cur ++ [x]) eqn:E; [apply app_eq_nil in E; destruct E; discriminate|reflexivity].
  - rewrite is_space_blank. destruct (blank c) eqn:B.
    + exists [], (c :: s). split; [reflexivity|]. split; [constructor|]. split; [right; exists c, s; auto|]. rewrite app_nil_r. destruct cur as [|x cur]; [reflexivity|]. cbn [rev]. destruct (rev cur ++ [x]) eqn:E; [apply app_eq_nil in E; destruct E; discriminate|reflexivity].
    + destruct (IH (c :: cur) (Forall_cons _ B Hc)) as (w & rest & -> & Hw & Hr & E). exists (c :: w), rest. split; [reflexivity|]. split; [constructor; assumption|]. split; [exact Hr|]. rewrite E. cbn [rev]. rewrite <- app_assoc. reflexivity.
Qed.
Lemma words_blank_app a s ws : blanks a -> words s ws -> words (a ++ s) ws.
Proof.
  intros Ha H. inversion H; subst.
  - constructor. apply blanks_app. auto.
  - rewrite app_assoc. apply words_more; try assumption. apply blanks_app. auto.
Qed.
Lemma split_blanks_words s : words s (split_blanks s).
Proof.
  unfold split_blanks. remember (length s) as n eqn:En. revert s En. induction n as [n IH] using lt_wf_ind. intros s ->.
  destruct (words_from_spec s [] (Forall_nil _)) as (w & rest & E & Hw & Hr & Ew). rewrite Ew. cbn [rev app].
  assert (R : words rest (match rest with [] => [] | _ :: r => words_from [] r end)).
  { destruct Hr as [-> |(c & r & -> & B)]; [constructor; constructor|]. apply (words_blank_app [c] r); [constructor; [exact B|constructor]|]. apply (IH (length r)); [|reflexivity]. rewrite E, app_length. cbn [length]. lia. }
  rewrite E. destruct w as [|x w].
  - cbn [app]. exact R.
  - replace ((x :: w) ++ rest) with ([] ++ (x :: w) ++ rest) by reflexivity. cbn [app]. change (x :: w ++ rest) with ([] ++ (x :: w) ++ rest). apply words_more; [constructor|discriminate|exact Hw|exact Hr|exact R].
Qed.
Lemma words_from_blank a s cur : blanks a -> words_from cur (a ++ s) = match a with [] => words_from cur s | _ => match cur with [] => words_from [] s | _ => rev cur :: words_from [] s end end.
Proof.
  revert cur. induction a as [|c a IH]; intros cur B; [reflexivity|]. inversion B; subst. cbn [app words_from]. rewrite is_space_blank, H1, (IH [] H2). destruct cur; destruct a; reflexivity.
Qed.
Lemma words_from_word w s cur : Forall (fun c => blank c = false) w -> words_from cur (w ++ s) = words_from (rev w ++ cur) s.
Proof.
  revert cur. induction w as [|c w IH]; intros cur B; [reflexivity|]. inversion B; subst. cbn [app words_from rev]. rewrite is_space_blank, H1, (IH (c :: cur) H2), <- app_assoc. reflexivity.
Qed.
Lemma words_split s ws : words s ws -> split_blanks s = ws.
Proof.
  unfold split_blanks. induction 1 as [s B|s w rest ws B N W R H IH].
  - rewrite <- (app_nil_r s), (words_from_blank s [] [] B). destruct s; reflexivity.
  - assert (X : words_from [] (s ++ w ++ rest) = words_from [] (w ++ rest)) by (rewrite (words_from_blank s _ [] B); destruct s; reflexivity). rewrite X, (words_from_word w rest [] W), app_nil_r.
    assert (M : exists x y, rev w = x :: y). { destruct (rev w) eqn:E; [|eauto]. exfalso. apply N. rewrite <- (rev_involutive w), E. reflexivity. }
    destruct M as (x & y & M). destruct R as [-> |(c & r & -> & Bc)].
    + cbn [words_from] in *. rewrite M. subst ws. rewrite <- M, rev_involutive. reflexivity.
    + cbn [words_from] in *. rewrite is_space_blank, Bc in *. rewrite M, <- M, rev_involutive, IH. reflexivity.
Qed.
Lemma words_iff s ws : words s ws <-> split_blanks s = ws.
Proof. split; [apply words_split|intros <-; apply split_blanks_words]. Qed.

Lemma split_at_parts sep s : parts sep s (split_at sep s).
Proof.
  induction s as [|c s IH]; cbn [split_at].
  - split; [discriminate|]. split; [constructor; [intros []|constructor]|reflexivity].
  - destruct IH as (Ne & F & E). destruct (Ascii.eqb_spec c sep) as [-> |N].
    + split; [discriminate|]. split; [constructor; [intros []|exact F]|]. destruct (split_at sep s) as [|h t] eqn:X; [congruence|]. cbn [join app]. f_equal. exact E.
    + destruct (split_at sep s) as [|h t] eqn:X; [congruence|]. split; [discriminate|]. inversion F; subst. split; [constructor; [intros [H|H]; [congruence|contradiction]|assumption]|]. destruct t; reflexivity.
Qed.
Lemma split_at_one sep p : ~ In sep p -> split_at sep p = [p].
Proof.
  induction p as [|c p IH]; intro N; [reflexivity|]. cbn [split_at]. rewrite IH by (intro H; apply N; right; exact H).
  destruct (Ascii.eqb_spec c sep) as [-> |_]; [exfalso; apply N; left; reflexivity|reflexivity].
Qed.
Lemma split_at_app sep p s : ~ In sep p -> split_at sep (p ++ sep :: s) = p :: split_at sep s.
Proof.
  induction p as [|c p IH]; intro N; cbn [app split_at]; [rewrite Ascii.eqb_refl; reflexivity|]. rewrite IH by (intro H; apply N; right; exact H).
  destruct (Ascii.eqb_spec c sep) as [-> |_]; [exfalso; apply N; left; reflexivity|reflexivity].
Qed.
Lemma parts_split sep s ps : parts sep s ps -> split_at sep s = ps.
Proof.
  intros (Ne & F & ->). induction ps as [|p ps IH]; [congruence|]. inversion F as [|? ? Np F']; subst.
  destruct ps as [|q ps].
  - apply split_at_one. exact Np.
  - change (join [sep] (p :: q :: ps)) with (p ++ sep :: join [sep] (q :: ps)). rewrite (split_at_app sep p _ Np). f_equal. apply IH; [discriminate|exact F'].
Qed.
Lemma parts_iff sep s ps : parts sep s ps <-> split_at sep s = ps.
Proof. split; [apply parts_split|intros <-; apply split_at_parts]. Qed.

Lemma py_replace_drop c s : py_replace s [c] [] = filter (fun x => negb (Ascii.eqb x c)) s.
Proof.
  unfold py_replace. induction s as [|x s IH]; [reflexivity|]. cbn [replace_skip starts_with filter List.length Nat.sub]. rewrite Ascii.eqb_sym. destruct (Ascii.eqb x c); cbn [andb negb app]; rewrite IH; reflexivity.
Qed.

(** ** Checking *)
Lemma check_pairs_ok p js : check_pairs p js = Ok tt <->
  forall j, In j js -> exists t b, nth_error p j = Some t /\ nth_error (rev p) (j + 1) = Some b /\ shallower t b.
Proof.
  induction js as [|j js IH]; cbn [check_pairs].
  - split; [intros _ j []|reflexivity].
  - destruct (nth_error p j) as [t|] eqn:Et; [destruct (nth_error (rev p) (j + 1)) as [b|] eqn:Eb|].
    + destruct (rleb (depth_of b) (depth_of t)) eqn:L.
      * split; [discriminate|]. intro H. destruct (H j (or_introl eq_refl)) as (t' & b' & E1 & E2 & Sh). rewrite Et in E1. rewrite Eb in E2. injection E1 as <-. injection E2 as <-. apply rleb_iff in L. unfold shallower, depth_of in *. lra.
      * rewrite IH. split.
        -- intros H k [<-|K]; [exists t, b; repeat split; auto; unfold shallower; apply rleb_f in L; unfold depth_of in L; lra|apply H; exact K].
        -- intros H k K. apply H. right. exact K.
    + split; [discriminate|]. intro H. destruct (H j (or_introl eq_refl)) as (t' & b' & E1 & E2 & Sh). congruence.
    + split; [discriminate|]. intro H. destruct (H j (or_introl eq_refl)) as (t' & b' & E1 & E2 & Sh). congruence.
Qed.
Lemma check_pairs_err p js : (forall j, In j js -> j + 1 < length p) -> check_pairs p js = Ok tt \/ check_pairs p js = Err ValueError.
Proof.
  induction js as [|j js IH]; intro H; cbn [check_pairs]; [auto|].
  destruct (nth_error p j) as [t|] eqn:Et; [|apply nth_error_None in Et; specialize (H j (or_introl eq_refl)); lia].
  destruct (nth_error (rev p) (j + 1)) as [b|] eqn:Eb; [|apply nth_error_None in Eb; rewrite rev_length in Eb; specialize (H j (or_introl eq_refl)); lia].
  destruct (rleb _ _); [auto|]. apply IH. intros k K. apply H. right. exact K.
Qed.
Lemma Forall2_nth {A B} (P : A -> B -> Prop) l m : length l = length m ->
  (forall j x y, nth_error l j = Some x -> nth_error m j = Some y -> P x y) -> Forall2 P l m.
Proof.
  revert m. induction l as [|x l IH]; intros [|y m] L H; try discriminate; constructor.
  - apply (H 0); reflexivity.
  - apply IH; [injection L as L; exact L|]. intros j. apply (H (S j)).
Qed.
Lemma Forall2_nth_inv {A B} (P : A -> B -> Prop) l m j x : Forall2 P l m -> nth_error l j = Some x -> exists y, nth_error m j = Some y /\ P x y.
Proof.
  intro F. revert j. induction F as [|a b l m H F IH]; intros [|j] E; try discriminate; cbn in *.
  - injection E as ->. eauto.
  - apply IH. exact E.
Qed.
Lemma nth_error_first {A} (l m : list A) j : j < length l -> nth_error (l ++ m) j = nth_error l j.
Proof. intro H. apply nth_error_app1. exact H. Qed.
Lemma div2_double k : Nat.div2 (k + k) = k.
Proof. replace (k + k) with (2 * k) by lia. apply Nat.div2_double. Qed.
Lemma even_odd k : Nat.even (k + k + 1) = false.
Proof. replace (k + k + 1) with (2 * k + 1) by lia. rewrite Nat.add_comm, Nat.even_add, Nat.even_mul. reflexivity. Qed.
Lemma outline_length top bot p : outline_of_edges top bot p -> length p = length top + length top + 1 /\ 0 < length top.
Proof. intros (f & r & -> & L & ->). rewrite !app_length, rev_length, L. cbn [length]. lia. Qed.
Lemma outline_closed top bot p : outline_of_edges top bot p -> closed p.
Proof. intros (f & r & -> & L & ->). exists f, (r ++ rev bot). cbn [app]. rewrite <- app_assoc. reflexivity. Qed.
Lemma check_polygon_ok p : check_polygon p = Ok tt <-> well_ordered p.
Proof.
  unfold check_polygon. split.
  - destruct (Nat.even (length p)) eqn:Ev; [discriminate|]. destruct p as [|a p']; [discriminate|]. set (p := a :: p') in *. destruct (rev p) as [|z r] eqn:Er; [discriminate|]. destruct (point_eqb a z) eqn:Ez; [|discriminate]. cbn [negb]. apply point_eqb_iff in Ez. subst z. rewrite check_pairs_ok. rewrite Er.
    assert (Ep : p = rev r ++ [a]) by (rewrite <- (rev_involutive p), Er; reflexivity).
    assert (Ln : length p = length r + 1) by (rewrite Ep, app_length, rev_length; reflexivity).
    assert (Od : exists m, length r = m + m). { assert (O : Nat.odd (length p) = true) by (unfold Nat.odd; rewrite Ev; reflexivity). apply Nat.odd_spec in O. destruct O as [m O]. exists m. lia. }
    destruct Od as [m Lr]. replace (length p - 1) with (m + m) by lia. rewrite div2_double. intro H.
    destruct m as [|m']; [left; exists a; rewrite Ep; destruct r; [reflexivity|cbn in Lr; lia]|]. right. set (m := S m') in *.
    exists (rev (skipn m r)), (firstn m r).
    assert (L1 : length (firstn m r) = m) by (apply firstn_length_le; lia). assert (L2 : length (rev (skipn m r)) = m) by (rewrite rev_length, skipn_length; lia).
    assert (Es : p = rev (skipn m r) ++ rev (firstn m r) ++ [a]). { rewrite app_assoc, <- rev_app_distr, firstn_skipn. exact Ep. }
    split.
    + destruct (rev (skipn m r)) as [|f rest] eqn:Ef; [discriminate|]. exists f, rest. split; [reflexivity|]. split; [lia|]. assert (f = a) as -> by (cbn [app] in Es; unfold p in Es; congruence). exact Es.
    + apply Forall2_nth; [lia|]. intros j x y Hx Hy. assert (j < m) by (rewrite <- L2; apply nth_error_Some; congruence).
      destruct (H j) as (t & b & E1 & E2 & Sh); [apply in_seq; lia|]. rewrite Es, nth_error_first in E1 by lia. replace (j + 1) with (S j) in E2 by lia. cbn [nth_error] in E2. rewrite <- (firstn_skipn m r), nth_error_first in E2 by lia. congruence.
  - intros [[v ->]|(top & bot & O & F)].
    + cbn. rewrite (proj2 (point_eqb_iff v v) eq_refl). reflexivity.
    + destruct (outline_length _ _ _ O) as [Ln Lp]. rewrite Ln, even_odd. destruct O as (f & rest & Et & Lb & Ep).
      assert (Er : rev p = f :: bot ++ rev top) by (rewrite Ep, !rev_app_distr, rev_involutive, <- app_assoc; reflexivity).
      assert (Eh : exists p', p = f :: p') by (rewrite Ep, Et; cbn [app]; eauto). destruct Eh as [p' Eh]. rewrite Eh. rewrite <- Eh, Er. rewrite (proj2 (point_eqb_iff f f) eq_refl). cbn [negb].
      replace (length top + length top + 1 - 1) with (length top + length top) by lia. rewrite div2_double. apply check_pairs_ok. intros j Hj. apply in_seq in Hj. rewrite Er.
      destruct (nth_error top j) as [t|] eqn:E1; [|apply nth_error_None in E1; lia]. destruct (Forall2_nth_inv _ _ _ _ _ F E1) as (b & E2 & Sh). exists t, b.
      split; [rewrite Ep, nth_error_first by lia; exact E1|]. split; [|exact Sh]. replace (j + 1) with (S j) by lia. cbn [nth_error]. rewrite nth_error_first by lia. exact E2.
Qed.
Lemma check_polygon_cases p : check_polygon p = Ok tt \/ check_polygon p = Err ValueError.
Proof.
  unfold check_polygon. destruct (Nat.even (length p)) eqn:Ev; [auto|]. destruct p as [|a p']; [discriminate|]. set (p := a :: p') in *. destruct (rev p) as [|z r] eqn:Er.
  - exfalso. assert (X : length (rev p) = 0) by (rewrite Er; reflexivity). rewrite rev_length in X. discriminate.
  - destruct (point_eqb a z); cbn [negb]; [|auto]. apply check_pairs_err. intros j Hj. apply in_seq in Hj. pose proof (Nat.div2_div (length p - 1)) as D. assert (X : (length p - 1) / 2 * 2 <= length p - 1) by (rewrite Nat.mul_comm; apply Nat.mul_div_le; lia). lia.
Qed.
Lemma well_ordered_dec p : well_ordered p \/ ~ well_ordered p.
Proof. destruct (check_polygon_cases p) as [H|H]; [left; apply check_polygon_ok; exact H|right; rewrite <- check_polygon_ok, H; discriminate]. Qed.
Lemma well_ordered_closed p : well_ordered p -> (exists v, p = [v]) \/ closed p.
Proof. intros [H|(t & b & O & _)]; [auto|right; apply (outline_closed _ _ _ O)]. Qed.

(** ** Rotation *)
Definition close (c : list point) : list point := match c with [] => [] | f :: _ => c ++ [f] end.
Definition cyc (k : nat) (c : list point) : list point := skipn k c ++ firstn k c.
Lemma closed_close p : closed p <-> exists c, c <> [] /\ p = close c.
Proof.
  split.
  - intros (v & body & ->). exists (v :: body). split; [discriminate|reflexivity].
  - intros (c & N & ->). destruct c as [|v body]; [congruence|]. exists v, body. reflexivity.
Qed.
Lemma close_length c : c <> [] -> length (close c) = length c + 1.
Proof. destruct c; [congruence|]. intros _. cbn [close]. rewrite app_length. reflexivity. Qed.
Lemma cyc_length k c : length (cyc k c) = length c.
Proof. unfold cyc. rewrite app_length, Nat.add_comm, <- app_length, firstn_skipn. reflexivity. Qed.
Lemma cyc_nonempty k c : c <> [] -> cyc k c <> [].
Proof. intros N H. apply N. apply length_zero_iff_nil. rewrite <- (cyc_length k c), H. reflexivity. Qed.
Lemma rotate_close c : c <> [] -> rotate_polygon (close c) = Ok (close (match c with [] => [] | f :: r => r ++ [f] end)).
Proof.
  intro N. destruct c as [|f r]; [congruence|]. unfold rotate_polygon. cbn [close app]. change (f :: r ++ [f]) with ((f :: r) ++ [f]). rewrite rev_app_distr. cbn [app rev]. rewrite (proj2 (point_eqb_iff f f) eq_refl). cbn [negb]. change (f :: r ++ [f]) with ((f :: r) ++ [f]). rewrite removelast_last.
  destruct (r ++ [f]) as [|x y] eqn:E; [apply app_eq_nil in E; destruct E; discriminate|]. reflexivity.
Qed.
Lemma skipn_cons {A} (l : list A) k : k < length l -> exists x, nth_error l k = Some x /\ skipn k l = x :: skipn (S k) l /\ firstn (S k) l = firstn k l ++ [x].
Proof.
  revert k. induction l as [|a l IH]; intros k H; [cbn in H; lia|]. destruct k as [|k].
  - exists a. repeat split; reflexivity.
  - destruct (IH k) as (x & E1 & E2 & E3); [cbn in H; lia|]. exists x. cbn [nth_error skipn firstn]. split; [exact E1|]. split; [exact E2|]. cbn [firstn] in E3. rewrite E3. reflexivity.
Qed.
Lemma rotate_cyc k c : k < length c -> rotate_polygon (close (cyc k c)) = Ok (close (cyc (S k) c)).
Proof.
  intro H. rewrite rotate_close by (apply cyc_nonempty; intros ->; cbn in H; lia). unfold cyc. destruct (skipn_cons c k H) as (x & _ & E1 & E2). rewrite E1, E2. cbn [app]. rewrite <- app_assoc. reflexivity.
Qed.
Lemma started_cyc k c p' : c <> [] -> k < length c -> (started_at k (close c) p' <-> p' = close (cyc k c)).
Proof.
  intros N H. split.
  - intros (v & body & a & b & w & r & E & Eab & La & Ew & ->). assert (Ec : c = v :: body). { destruct c as [|f c']; [congruence|]. cbn [close] in E. change (f :: c' ++ [f]) with ((f :: c') ++ [f]) in E. change (v :: body ++ [v]) with ((v :: body) ++ [v]) in E. apply app_inj_tail in E. apply E. }
    assert (X : cyc k c = b ++ a). { unfold cyc. rewrite Ec, Eab, <- La, skipn_app, firstn_app, Nat.sub_diag, firstn_all, skipn_all. cbn. rewrite app_nil_r. reflexivity. } rewrite X, Ew. reflexivity.
  - intros ->. destruct c as [|v body] eqn:Ec; [congruence|]. rewrite <- Ec in *. destruct (cyc k c) as [|w r] eqn:Ew; [exfalso; apply (cyc_nonempty k c N Ew)|].
    exists v, body, (firstn k c), (skipn k c), w, r. split; [rewrite Ec; reflexivity|]. split; [rewrite firstn_skipn; auto|]. split; [apply firstn_length_le; lia|]. split; [exact Ew|reflexivity].
Qed.
Lemma fix_loop_spec t : forall k c, c <> [] -> k + t <= length c ->
  match fix_loop t (close (cyc k c)) with
  | Ok (p', true) => exists k', k <= k' < k + t /\ p' = close (cyc k' c) /\ well_ordered p' /\ forall j, k <= j < k' -> ~ well_ordered (close (cyc j c))
  | Ok (_, false) => forall j, k <= j < k + t -> ~ well_ordered (close (cyc j c))
  | Err _ => False
  end.
Proof.
  induction t as [|t IH]; intros k c N H; cbn [fix_loop].
  - intros j Hj. lia.
  - destruct (check_polygon_cases (close (cyc k c))) as [E|E]; rewrite E.
    + exists k. split; [lia|]. split; [reflexivity|]. split; [apply check_polygon_ok; exact E|]. intros j Hj. lia.
    + assert (W : ~ well_ordered (close (cyc k c))) by (rewrite <- check_polygon_ok, E; discriminate).
      rewrite rotate_cyc by lia. cbn [bind]. specialize (IH (S k) c N ltac:(lia)). destruct (fix_loop t (close (cyc (S k) c))) as [[p' [|]]|e]; [| |exact IH].
      * destruct IH as (k' & K & E' & W' & F). exists k'. split; [lia|]. split; [exact E'|]. split; [exact W'|]. intros j Hj. destruct (Nat.eq_dec j k) as [-> |]; [exact W|apply F; lia].
      * intros j Hj. destruct (Nat.eq_dec j k) as [-> |]; [exact W|apply IH; lia].
Qed.
Definition lone (p : list point) : Prop := length p < 2.
(** What the repair does to one polygon. *)
Lemma fix_loop_closed p : closed p ->
  (exists p', first_start well_ordered p p' /\ fix_loop (length p - 1) p = Ok (p', true)) \/
  ((forall p', ~ first_start well_ordered p p') /\ exists p', fix_loop (length p - 1) p = Ok (p', false)).
Proof.
  intro Hc. apply closed_close in Hc. destruct Hc as (c & N & ->). pose proof (fix_loop_spec (length c) 0 c N ltac:(lia)) as H. rewrite (close_length c N). replace (length c + 1 - 1) with (length c) by lia.
  assert (E0 : cyc 0 c = c) by (unfold cyc; cbn; apply app_nil_r). rewrite E0 in H. destruct (fix_loop (length c) (close c)) as [[p' [|]]|e]; [| |contradiction].
  - left. exists p'. split; [|reflexivity]. destruct H as (k & K & E & W & F). exists k. rewrite (close_length c N). split; [lia|]. split; [apply started_cyc; [exact N|lia|exact E]|]. split; [exact W|]. intros j q Hj Hs. apply started_cyc in Hs; [|exact N|lia]. subst q. apply F. lia.
  - right. split; [|eauto]. intros q (k & K & S & W & _). rewrite (close_length c N) in K. apply started_cyc in S; [|exact N|lia]. subst q. apply (H k); [lia|exact W].
Qed.
Lemma fix_loop_lone p : lone p -> fix_loop (length p - 1) p = Ok (p, false).
Proof. unfold lone. destruct p as [|a [|b p]]; cbn; intros; try lia; reflexivity. Qed.
Lemma closed_dec p : closed p \/ (~ closed p /\ lone p) \/ (~ closed p /\ ~ lone p).
Proof.
  unfold lone. destruct p as [|a p].
  - right. left. split; [intros (v & b & E); discriminate|cbn; lia].
  - destruct p as [|b p] using rev_ind.
    + right. left. split; [intros (v & b & E); injection E as E1 E2; destruct b; discriminate|cbn; lia].
    + destruct (point_eqb a b) eqn:E.
      * left. apply point_eqb_iff in E. subst b. exists a, p. reflexivity.
      * right. right. split; [|cbn; rewrite app_length; cbn; lia]. intros (v & body & X). injection X as -> X. apply app_inj_tail in X. destruct X as [_ ->]. rewrite (proj2 (point_eqb_iff v v) eq_refl) in E. discriminate.
Qed.
Lemma fix_loop_open p : ~ closed p -> ~ lone p -> fix_loop (length p - 1) p = Err Generic.
Proof.
  intros C L. unfold lone in L. destruct (length p - 1) as [|t] eqn:El; [lia|]. cbn [fix_loop].
  assert (W : ~ well_ordered p). { intro W. destruct (well_ordered_closed p W) as [[v ->]|X]; [cbn in L; lia|contradiction]. }
  destruct (check_polygon_cases p) as [E|E]; [exfalso; apply W, check_polygon_ok; exact E|]. rewrite E. unfold rotate_polygon. destruct p as [|a p']; [cbn in L; lia|]. destruct (rev (a :: p')) as [|z r] eqn:Er.
  - apply (f_equal (@length point)) in Er. rewrite rev_length in Er. discriminate.
  - destruct (point_eqb z a) eqn:Ez; [|reflexivity]. exfalso. apply C. apply point_eqb_iff in Ez. subst z. destruct p' as [|b p'] using rev_ind; [cbn in L; lia|]. clear IHp'. change (a :: p' ++ [b]) with ((a :: p') ++ [b]) in Er. rewrite rev_app_distr in Er. injection Er as -> _. exists a, p'. reflexivity.
Qed.

(** ** Reading *)
Definition apply_item (st : tstate) (i : item) : tstate :=
  let '(reference, polygons, polygon) := st in
  match i with
  | IBlank => st
  | IComment t => (reference ++ t, polygons, polygon)
  | ISeparator => (reference, flush polygons polygon, [])
  | IVertex v => (reference, polygons, v :: polygon)
  end.
Section Reading.
Variable fparse : str -> option R.
Variable nf : bool.
Lemma read_line_ok st line st' : read_line fparse nf st line = Ok st' <-> exists i, says fparse nf line i /\ st' = apply_item st i.
Proof.
  destruct st as [[reference polygons] polygon]. unfold read_line. destruct (strip line) as [|h t] eqn:Es.
  - split.
    + intro H. injection H as <-. exists IBlank. split; [constructor; apply blanks_strip; exact Es|reflexivity].
    + intros (i & [B|u Tr|u Tr|h u a b c x y z Tr _ _ _ _ _ _] & ->); [reflexivity| | |]; apply trimmed_strip in Tr; congruence.
  - assert (Nb : ~ blanks line) by (rewrite blanks_strip, Es; discriminate). cbn [begins]. destruct (Ascii.eqb_spec h hash) as [-> |Nh].
    { rewrite py_replace_drop. split.
      - intro H. injection H as <-. exists (IComment (filter (fun c => negb (Ascii.eqb c "#"%char)) t)). split; [apply says_comment; apply trimmed_iff; exact Es|]. reflexivity.
      - intros (i & [B|u Tr|u Tr|h u a b c x y z Tr N1 _ _ _ _ _] & ->); try contradiction; apply trimmed_strip in Tr; rewrite Es in Tr; injection Tr as Tr'; subst.
        + reflexivity.
        + discriminate.
        + exfalso. apply N1. reflexivity. }
    destruct (Ascii.eqb_spec h gt) as [-> |Ng].
    { split.
      - intro H. injection H as <-. exists ISeparator. split; [apply (says_separator _ _ _ t); apply trimmed_iff; exact Es|reflexivity].
      - intros (i & [B|u Tr|u Tr|h u a b c x y z Tr _ N2 _ _ _ _] & ->); try contradiction; apply trimmed_strip in Tr; rewrite Es in Tr; injection Tr as Tr'; subst; [discriminate|reflexivity|]. exfalso. apply N2. reflexivity. }
    assert (Sv : forall i, says fparse nf line i <-> exists a b c x y z, fields nf line a b c /\ fparse a = Some x /\ fparse b = Some y /\ fparse c = Some z /\ i = IVertex (if nf then (x, y, z) else (y, x, z))).
    { intro i. split.
      - intros [B|u Tr|u Tr|h' u a b c x y z Tr N1 N2 F A1 A2 A3]; try contradiction; try (apply trimmed_strip in Tr; rewrite Es in Tr; injection Tr as Tr'; subst; exfalso; first [apply Nh; reflexivity|apply Ng; reflexivity]). exists a, b, c, x, y, z. auto.
      - intros (a & b & c & x & y & z & F & A1 & A2 & A3 & ->). apply (says_vertex _ _ _ h t a b c); try assumption. apply trimmed_iff. exact Es. }
    set (ps := line_parts nf line).
    assert (Fp : forall a b c, fields nf line a b c <-> ps = Ok [a; b; c]).
    { intros a b c. unfold fields, ps, line_parts. rewrite words_iff, parts_iff. split.
      - intros [-> |(-> & (w & W) & E)]; [reflexivity|]. apply words_iff in W. rewrite W. change comma with ","%char. rewrite E. reflexivity.
      - destruct (split_blanks line) as [|w [|w' ws]] eqn:W.
        + intro H. left. congruence.
        + destruct nf; [discriminate|]. intro H. right. split; [reflexivity|]. split; [exists w; apply words_iff; exact W|]. change ","%char with comma. destruct (split_at comma line) as [|q [|q' qs]] eqn:Q; congruence.
        + intro H. left. congruence. }
    split.
    + intro H. destruct ps as [[|a [|b [|c [|d l]]]]|e] eqn:Ep; cbn [bind] in H; try discriminate. destruct (fparse a) as [x|] eqn:A1; [|discriminate]. destruct (fparse b) as [y|] eqn:A2; [|discriminate]. destruct (fparse c) as [z|] eqn:A3; [|discriminate]. injection H as <-.
      exists (IVertex (if nf then (x, y, z) else (y, x, z))). split; [|destruct nf; reflexivity]. apply Sv. exists a, b, c, x, y, z. repeat split; try assumption. apply Fp. reflexivity.
    + intros (i & S & ->). apply Sv in S. destruct S as (a & b & c & x & y & z & F & A1 & A2 & A3 & ->). apply Fp in F. rewrite F. cbn [bind]. rewrite A1, A2, A3. destruct nf; reflexivity.
Qed.
Lemma read_line_err st line e : read_line fparse nf st line = Err e -> e = ValueError \/ e = Generic.
Proof.
  destruct st as [[reference polygons] polygon]. unfold read_line. destruct (strip line) as [|h t]; [discriminate|]. destruct (begins hash _); [discriminate|]. destruct (begins gt _); [discriminate|].
  set (ps := line_parts nf line). assert (H : forall e, ps = Err e -> e = Generic).
  { intro e'. unfold ps, line_parts. destruct (split_blanks line) as [|w [|w' ws]]; try discriminate. destruct nf; [congruence|]. destruct (split_at comma line) as [|q [|q' qs]]; congruence. }
  destruct ps as [l|e'] eqn:Ep; cbn [bind].
  - destruct l as [|a [|b [|c [|d l]]]]; intro X; try (injection X as <-; auto; fail). destruct (fparse a), (fparse b), (fparse c); try discriminate; injection X as <-; auto.
  - intro X. injection X as <-. right. apply H. reflexivity.
Qed.
Lemma read_lines_ok lines : forall st st', read_lines fparse nf st lines = Ok st' <-> exists items, Forall2 (says fparse nf) lines items /\ st' = fold_left apply_item items st.
Proof.
  induction lines as [|l lines IH]; intros st st'; cbn [read_lines].
  - split; [intro H; injection H as <-; exists []; split; [constructor|reflexivity]|]. intros (items & F & ->). inversion F. reflexivity.
  - split.
    + destruct (read_line fparse nf st l) as [st1|e] eqn:E; [|discriminate]. cbn [bind]. intro H. apply IH in H. destruct H as (items & F & ->). apply read_line_ok in E. destruct E as (i & S & ->). exists (i :: items). split; [constructor; assumption|reflexivity].
    + intros (items & F & ->). inversion F as [|? i ? items' S F']; subst. assert (E : read_line fparse nf st l = Ok (apply_item st i)) by (apply read_line_ok; eauto). rewrite E. cbn [bind]. apply IH. exists items'. split; [exact F'|reflexivity].
Qed.
Lemma read_lines_err lines : forall st e, read_lines fparse nf st lines = Err e -> e = ValueError \/ e = Generic.
Proof.
  induction lines as [|l lines IH]; intros st e; cbn [read_lines]; [discriminate|]. destruct (read_line fparse nf st l) as [st1|e1] eqn:E; cbn [bind]; [apply IH|]. intro H. injection H as <-. apply (read_line_err _ _ _ E).
Qed.
End Reading.
Lemma collected items : forall reference ps p, exists gs, groups (map Some (rev p) ++ vertices_of items) gs /\
  let '(reference', ps', p') := fold_left apply_item items (reference, ps, p) in reference' = reference ++ reference_of items /\ rev (flush ps' p') = rev ps ++ gs.
Proof.
  induction items as [|i items IH]; intros reference ps p.
  - cbn [fold_left]. unfold vertices_of, reference_of. cbn [flat_map]. rewrite app_nil_r. destruct p as [|v p].
    + exists []. split; [constructor|]. rewrite !app_nil_r. auto.
    + exists [rev (v :: p)]. split; [|split; [rewrite app_nil_r; reflexivity|reflexivity]]. rewrite <- (app_nil_r (map Some _)). apply groups_run; [cbn; intro H; apply app_eq_nil in H; destruct H; discriminate|auto|constructor].
  - cbn [fold_left]. destruct i as [|t| |v]; cbn [apply_item].
    + destruct (IH reference ps p) as (gs & G & H). exists gs. split; [exact G|exact H].
    + destruct (IH (reference ++ t) ps p) as (gs & G & H). exists gs. split; [exact G|]. destruct (fold_left _ _ _) as [[r' ps'] p']. destruct H as [H1 H2]. split; [|exact H2]. rewrite H1, <- app_assoc. reflexivity.
    + destruct (IH reference (flush ps p) []) as (gs & G & H). cbn [rev map app] in G. destruct p as [|v p].
      * exists gs. split; [cbn [rev map app]; apply groups_sep; exact G|exact H].
      * exists (rev (v :: p) :: gs). split.
        -- apply groups_run; [cbn; intro X; apply app_eq_nil in X; destruct X; discriminate|right; eexists; reflexivity|apply groups_sep; exact G].
        -- destruct (fold_left _ _ _) as [[r' ps'] p']. destruct H as [H1 H2]. split; [exact H1|]. rewrite H2. cbn [flush]. cbn [rev]. rewrite <- !app_assoc. reflexivity.
    + destruct (IH reference ps (v :: p)) as (gs & G & H). exists gs. split; [|exact H]. cbn [rev] in G. rewrite map_app, <- app_assoc in G. exact G.
Qed.
Fixpoint collect (cur : list point) (l : list (option point)) : list (list point) :=
  match l with
  | [] => match cur with [] => [] | _ => [rev cur] end
  | None :: l' => match cur with [] => [] | _ => [rev cur] end ++ collect [] l'
  | Some v :: l' => collect (v :: cur) l'
  end.
Lemma collect_some r l cur : collect cur (map Some r ++ l) = collect (rev r ++ cur) l.
Proof. revert cur. induction r as [|v r IH]; intro cur; [reflexivity|]. cbn [map app collect rev]. rewrite IH, <- app_assoc. reflexivity. Qed.
Lemma groups_collect l gs : groups l gs -> collect [] l = gs.
Proof.
  induction 1 as [|l g H IH|r l gs N E H IH]; [reflexivity|exact IH|]. rewrite collect_some, app_nil_r. assert (M : exists x y, rev r = x :: y). { destruct (rev r) eqn:X; [|eauto]. exfalso. apply N. rewrite <- (rev_involutive r), X. reflexivity. } destruct M as (x & y & M).
  destruct E as [-> |(l' & ->)]; cbn [collect app] in *; rewrite M, <- M, rev_involutive; cbn [app]; rewrite IH; reflexivity.
Qed.
Lemma groups_unique l g1 g2 : groups l g1 -> groups l g2 -> g1 = g2.
Proof. intros H1 H2. rewrite <- (groups_collect _ _ H1). apply groups_collect. exact H2. Qed.

(** Repairing all polygons. *)
Definition open (p : list point) : Prop := ~ closed p /\ ~ lone p.
Definition hopeless (p : list point) : Prop := forall p', ~ first_start well_ordered p p'.
Lemma fix_all_spec gs : (Exists open gs /\ fix_all gs = Err Generic) \/
  (Forall (fun g => ~ open g) gs /\ exists gs' ok, fix_all gs = Ok (gs', ok) /\ (ok = true -> Forall2 (first_start well_ordered) gs gs') /\ (ok = false -> Exists hopeless gs)).
Proof.
  induction gs as [|g gs IH]; cbn [fix_all].
  - right. split; [constructor|]. exists [], true. split; [reflexivity|]. split; [constructor|discriminate].
  - destruct (closed_dec g) as [C|[[C L]|[C L]]].
    + destruct (fix_loop_closed g C) as [(p' & F & E)|(F & p' & E)]; rewrite E; cbn [bind].
      * destruct IH as [[X ->]|(X & gs' & ok & -> & H1 & H2)]; [left; split; [apply Exists_cons_tl; exact X|reflexivity]|]. right. split; [constructor; [intros [O _]; contradiction|exact X]|]. exists (p' :: gs'), ok. split; [reflexivity|]. split; [intro K; constructor; [exact F|apply H1; exact K]|intro K; apply Exists_cons_tl, H2, K].
      * destruct IH as [[X ->]|(X & gs' & ok & -> & H1 & H2)]; [left; split; [apply Exists_cons_tl; exact X|reflexivity]|]. right. split; [constructor; [intros [O _]; contradiction|exact X]|]. exists (p' :: gs'), false. split; [reflexivity|]. split; [discriminate|intros _; apply Exists_cons_hd; exact F].
    + rewrite (fix_loop_lone g L). cbn [bind]. assert (F : hopeless g) by (intros p' (k & K & _); unfold lone in L; lia).
      destruct IH as [[X ->]|(X & gs' & ok & -> & H1 & H2)]; [left; split; [apply Exists_cons_tl; exact X|reflexivity]|]. right. split; [constructor; [intros [_ O]; contradiction|exact X]|]. exists (g :: gs'), false. split; [reflexivity|]. split; [discriminate|intros _; apply Exists_cons_hd; exact F].
    + rewrite (fix_loop_open g C L). left. split; [apply Exists_cons_hd; split; assumption|reflexivity].
Qed.
Lemma check_all_spec gs : (Forall well_ordered gs /\ check_all gs = Ok tt) \/ (~ Forall well_ordered gs /\ check_all gs = Err ValueError).
Proof.
  induction gs as [|g gs IH]; cbn [check_all]; [left; split; [constructor|reflexivity]|]. destruct (check_polygon_cases g) as [E|E]; rewrite E; cbn [bind].
  - apply check_polygon_ok in E. destruct IH as [[F ->]|[F ->]]; [left; split; [constructor; assumption|reflexivity]|right; split; [|reflexivity]]. intro H. inversion H. contradiction.
  - right. split; [|reflexivity]. intro H. inversion H as [|? ? W]; subst. apply check_polygon_ok in W. congruence.
Qed.
Lemma first_start_ok p p' : first_start well_ordered p p' -> well_ordered p'.
Proof. intros (k & _ & _ & W & _). exact W. Qed.
Lemma starts_ok gs gs' : Forall2 (first_start well_ordered) gs gs' -> Forall well_ordered gs'.
Proof. induction 1; constructor; [apply (first_start_ok _ _ H)|assumption]. Qed.
Lemma not_hopeless gs gs' : Forall2 (first_start well_ordered) gs gs' -> ~ Exists hopeless gs.
Proof. induction 1 as [|g g' gs gs' H F IH]; intro E; inversion E as [? ? K|? ? K]; subst; [apply (K _ H)|apply IH; exact K]. Qed.
Lemma first_start_fun p q r : first_start well_ordered p q -> first_start well_ordered p r -> q = r.
Proof.
  intros (k & K & S & W & M) (k' & K' & S' & W' & M').
  assert (C : closed p) by (destruct S as (v & body & _ & _ & _ & _ & -> & _); exists v, body; reflexivity). apply closed_close in C. destruct C as (c & N & ->). rewrite (close_length c N) in *.
  assert (k = k'). { destruct (lt_eq_lt_dec k k') as [[H|H]|H]; [exfalso; apply (M' k q H S W)|exact H|exfalso; apply (M k' r H S' W')]. } subst k'.
  apply started_cyc in S; [|exact N|lia]. apply started_cyc in S'; [|exact N|lia]. congruence.
Qed.
Lemma starts_fun gs a b : Forall2 (first_start well_ordered) gs a -> Forall2 (first_start well_ordered) gs b -> a = b.
Proof. intro F. revert b. induction F as [|g x gs a H F IH]; intros b G; inversion G; subst; [reflexivity|]. f_equal; [apply (first_start_fun g); assumption|apply IH; assumption]. Qed.
Lemma well_ordered_first p : well_ordered p -> ~ lone p -> first_start well_ordered p p.
Proof.
  intros W L. destruct (well_ordered_closed p W) as [[v ->]|C]; [exfalso; apply L; unfold lone; cbn; lia|]. apply closed_close in C. destruct C as (c & N & ->). exists 0. rewrite (close_length c N). assert (0 < length c) by (destruct c; [congruence|cbn; lia]). split; [lia|]. split; [apply started_cyc; try assumption; unfold cyc; cbn; rewrite app_nil_r; reflexivity|]. split; [exact W|intros j q Hj; lia].
Qed.
(** From the polygons read to the result. *)
Definition finish (reference : str) (original : list (list point)) : res (str * list (list point)) :=
  bind (fix_all original) (fun r => let '(polygons, fixed) := r in
  let polygons := if fixed then polygons else original in
  bind (check_all polygons) (fun _ => Ok (reference, polygons))).
Lemma text_finish fparse nf lines items gs : Forall2 (says fparse nf) lines items -> groups (vertices_of items) gs -> text_to_json fparse nf lines = finish (reference_of items) gs.
Proof.
  intros F G. unfold text_to_json. assert (E : read_lines fparse nf ([], [], []) lines = Ok (fold_left apply_item items ([], [], []))) by (apply read_lines_ok; eauto). rewrite E. cbn [bind].
  destruct (collected items [] [] []) as (gs' & G' & H). cbn [rev map app] in G'. rewrite (groups_unique _ _ _ G G'). destruct (fold_left _ _ _) as [[r ps] p]. destruct H as [-> H]. cbn [app rev] in H. rewrite H. reflexivity.
Qed.
Lemma text_inv fparse nf lines r : text_to_json fparse nf lines = r ->
  (exists items gs, Forall2 (says fparse nf) lines items /\ groups (vertices_of items) gs /\ r = finish (reference_of items) gs) \/ ((forall items, ~ Forall2 (says fparse nf) lines items) /\ exists e, r = Err e /\ (e = ValueError \/ e = Generic)).
Proof.
  intros <-. destruct (read_lines fparse nf ([], [], []) lines) as [st|e] eqn:E.
  - left. pose proof E as E'. apply read_lines_ok in E'. destruct E' as (items & F & _). destruct (collected items [] [] []) as (gs & G & _). cbn [rev map app] in G. exists items, gs. split; [exact F|]. split; [exact G|]. apply text_finish; assumption.
  - right. split; [intros items F; assert (X : read_lines fparse nf ([], [], []) lines = Ok (fold_left apply_item items ([], [], []))) by (apply read_lines_ok; eauto); congruence|]. exists e. split; [unfold text_to_json; rewrite E; reflexivity|apply (read_lines_err _ _ _ _ _ E)].
Qed.
