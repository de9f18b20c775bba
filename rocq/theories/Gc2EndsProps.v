(** C90: the ends of the traces looked at, and the ruptures for which no GC2 coordinates are found. *)
From Coq Require Import ZArith Reals String Ascii Bool List Lra Lia Psatz.
From Verif Require Import PyBase PyStr VecModel GeoModel GeoTrig GeoSpec GeoProofs RuptModel RuptSpec PolyModel PolySpec BuildModel BuildSpec BuildProofs EdgeProofs SizeModel SizeSpec SizeProps VecProofs DipProofs EquatorProofs EcefProps EdgeProps Gc2Model Gc2Spec Gc2Proofs Gc2Props Gc2TraceProofs Gc2TraceProps.
Import ListNotations.
Open Scope R_scope.

Definition several (groups : list nat) : Prop := exists g h, In g groups /\ In h groups /\ g <> h.
Lemma inc_nodup l : increasing l -> NoDup l.
Proof. induction l as [|g l IH]; intro H; constructor; destruct (inc_lt _ _ H) as [H' B]; [intro I; specialize (B g I); lia|exact (IH H')]. Qed.
Lemma unique_in groups g : In g (unique groups) <-> In g groups.
Proof. destruct (unique_groups groups) as [_ H]. apply H. Qed.
Lemma unique_nodup groups : NoDup (unique groups).
Proof. destruct (unique_groups groups) as [I _]. apply inc_nodup, I. Qed.
Lemma several_two groups : several groups -> (2 <= length (unique groups))%nat.
Proof.
  intros (g & h & G & H & N). apply (NoDup_incl_length (l := [g; h])); [constructor; [intros [->|[]]; congruence|constructor; [intros []|constructor]]|].
  intros x [<-|[<-|[]]]; apply unique_in; assumption.
Qed.
Lemma all_below groups : forallb (fun k => (k <? length (unique groups))%nat) (unique groups) = true -> numbered_to (length (unique groups)) groups.
Proof.
  intros F g. rewrite forallb_forall in F. split; intro H; [apply Nat.ltb_lt, F, unique_in, H|]. apply unique_in.
  apply (NoDup_length_incl (l := unique groups) (l' := seq 0 (length (unique groups)))); [apply unique_nodup|rewrite seq_length; lia| |apply in_seq; lia].
  intros x X. apply in_seq. specialize (F x X). apply Nat.ltb_lt in F. lia.
Qed.
Lemma skip_checks fuel c quads groups lon lat : several groups -> 
  (compute_gc2 fuel c quads groups lon lat = Some (Err IndexError) /\ forall n, ~ numbered_to n groups) \/
  exists n, (2 <= n)%nat /\ numbered_to n groups /\ compute_gc2 fuel c quads groups lon lat = 
    match farthest quads groups (it_seg (seq 0 n)) 0 None with
    | Err e => Some (Err e)
    | Ok None => Some (Err Unbound)
    | Ok (Some (A0, A1)) =>
        match trace_vectors quads groups (seq 0 n) with
        | Err e => Some (Err e)
        | Ok bs =>
            match orientation fuel bs A0 A1 with
            | None => None
            | Some nom =>
                if negb (length groups =? length quads)%nat then Some (Err IndexError)
                else Some (bind (rearrange (n_dc nom) groups quads) (fun quads => sum_up c lon lat (offset nom groups quads) quads far_end))
            end
        end
    end.
Proof.
  intro S. pose proof (several_two _ S) as T. unfold compute_gc2. replace (length (unique groups) =? 0)%nat with false by (symmetry; apply Nat.eqb_neq; lia). replace (length (unique groups) =? 1)%nat with false by (symmetry; apply Nat.eqb_neq; lia).
  destruct (forallb _ (unique groups)) eqn:F; cbn [negb].
  - right. apply all_below in F. exists (length (unique groups)). split; [exact T|]. split; [exact F|]. rewrite (numbered_unique _ _ F), seq_length. reflexivity.
  - left. split; [reflexivity|]. intros n N. pose proof (numbered_unique n groups N) as E. rewrite E, seq_length in F. assert (X : forallb (fun k => (k <? n)%nat) (seq 0 n) = true) by (apply forallb_forall; intros k K; apply in_seq in K; apply Nat.ltb_lt; lia). congruence.
Qed.
Lemma farthest_apart quads groups ks : forall d A PQ, (A = None -> 0 <= d) -> (forall PQ', A = Some PQ' -> 0 < surface_distance (fst PQ') (snd PQ') /\ 0 <= d) ->
  farthest quads groups ks d A = Ok (Some PQ) -> 0 < surface_distance (fst PQ) (snd PQ).
Proof.
  induction ks as [|k ks IH]; intros d A PQ H1 H2; cbn [farthest].
  - intro E. injection E as ->. apply (H2 PQ eq_refl).
  - destruct (ends_at quads groups k) as [PQ1|e]; cbn [bind]; [|discriminate]. unfold rltb. destruct (Rlt_dec d _) as [L|L].
    + apply IH; [discriminate|]. intros PQ' E. injection E as <-. assert (0 <= d) by (destruct A as [x|]; [apply (H2 x eq_refl)|apply H1; reflexivity]). lra.
    + apply IH; assumption.
Qed.

(** The search for the side the origin lies on ends after at most two rounds. *)
Theorem C90_ends : forall fuel c quads groups lon lat, (2 <= fuel)%nat -> exists r, compute_gc2 fuel c quads groups lon lat = Some r.
Proof.
  intros fuel c quads groups lon lat F. destruct (Nat.le_gt_cases 2 (length (unique groups))) as [L|L].
  - assert (S : several groups).
    { destruct (unique groups) as [|g [|h u]] eqn:E; cbn [length] in L; try lia. exists g, h. pose proof (unique_nodup groups) as N. rewrite E in N. split; [apply unique_in; rewrite E; left; reflexivity|]. split; [apply unique_in; rewrite E; right; left; reflexivity|]. intros ->. inversion N as [|x l X _]; subst. apply X. left; reflexivity. }
    destruct (skip_checks fuel c quads groups lon lat S) as [[-> _]|(n & _ & _ & ->)]; [eauto|]. destruct (farthest quads groups (it_seg (seq 0 n)) 0 None) as [[[A0 A1]|]|e] eqn:EF; eauto. destruct (trace_vectors quads groups (seq 0 n)) as [bs|e]; eauto.
    destruct (orientation_ends fuel bs A0 A1 F) as (nom & -> & _); [|destruct (negb _); eauto]. apply surface_vec. refine (farthest_apart _ _ _ _ _ _ _ _ EF); [intros; lra|discriminate].
  - unfold compute_gc2. destruct (length (unique groups)) as [|[|k]] eqn:E; [cbn [Nat.eqb]; eauto|cbn [Nat.eqb]; eauto|exfalso; lia].
Qed.
Print Assumptions C90_ends.

(** Traces not numbered 0, 1, 2, … are not served. *)
Theorem C90_gap : forall fuel c quads groups lon lat, several groups -> (forall n, ~ numbered_to n groups) -> compute_gc2 fuel c quads groups lon lat = Some (Err IndexError).
Proof. intros fuel c quads groups lon lat S N. destruct (skip_checks fuel c quads groups lon lat S) as [[E _]|(n & _ & X & _)]; [exact E|elim (N n X)]. Qed.
Print Assumptions C90_gap.

Lemma ends_error quads groups k e : ends_at quads groups k = Err e -> e = IndexError.
Proof.
  destruct k as [[g h] [f0 f1]]. unfold ends_at, get. 
  destruct f0; match goal with |- context [nth_error quads ?i] => destruct (nth_error quads i) end; cbn [bind]; try congruence; destruct f1; match goal with |- context [nth_error quads ?i] => destruct (nth_error quads i) end; cbn [bind]; congruence.
Qed.
Lemma farthest_error quads groups ks k e : In k ks -> ends_at quads groups k = Err e -> forall d A, farthest quads groups ks d A = Err IndexError.
Proof.
  intros I E. induction ks as [|k' ks IH]; [contradiction|]. intros d A. cbn [farthest]. destruct (ends_at quads groups k') as [PQ|e'] eqn:E'; cbn [bind].
  - destruct I as [->|I]; [congruence|]. destruct (rltb _ _); apply IH; exact I.
  - rewrite (ends_error _ _ _ _ E'). reflexivity.
Qed.
Lemma last_pos g groups : iq1 (groups ++ [g]) g = length groups.
Proof.
  unfold iq1, where_group. rewrite app_length. cbn [length]. rewrite Nat.add_1_r, seq_S, Nat.add_0_l.
  assert (C : combine (seq 0 (length groups) ++ [length groups]) (groups ++ [g]) = combine (seq 0 (length groups)) groups ++ [(length groups, g)]).
  { generalize (length groups) at 2 4 as m. generalize (seq_length (length groups) 0). generalize (seq 0 (length groups)) as s. induction groups as [|x l IH]; intros [|y s] E m; cbn [length] in E; try lia; [reflexivity|]. cbn [app combine]. f_equal. apply IH. lia. }
  rewrite C, filter_app. cbn [filter snd]. rewrite Nat.eqb_refl, map_app. cbn [map fst]. apply last_last.
Qed.
(** Nor is a rupture with fewer quadrilaterals than places in its group index. *)
Theorem C90_short : forall fuel c quads groups lon lat, several groups -> (length quads < length groups)%nat -> compute_gc2 fuel c quads groups lon lat = Some (Err IndexError).
Proof.
  intros fuel c quads groups lon lat S L. destruct (skip_checks fuel c quads groups lon lat S) as [[E _]|(n & N2 & N & ->)]; [exact E|].
  destruct (exists_last (l := groups)) as (gs & g & E); [intros ->; cbn in L; lia|]. assert (G : (g < n)%nat) by (apply N; rewrite E; apply in_app_iff; right; left; reflexivity).
  assert (P : get quads (iq1 groups g) = Err IndexError). { rewrite E, last_pos. unfold get. replace (nth_error quads (length gs)) with (@None quad); [reflexivity|]. symmetry. apply nth_error_None. rewrite E, app_length in L. cbn [length] in L. lia. }
  assert (X : exists k e, In k (it_seg (seq 0 n)) /\ ends_at quads groups k = Err e).
  { destruct (Nat.eq_dec g 0) as [->|NZ].
    - exists (0, 1, (true, false))%nat, IndexError. split; [apply it_in; lia|]. unfold ends_at. rewrite P. reflexivity.
    - assert (Q : exists e, ends_at quads groups (0%nat, g, (false, false)) = Err e). { unfold ends_at. rewrite P. destruct (get quads (iq0 groups 0)); cbn [bind]; eauto. }
      destruct Q as (e & Q). exists (0%nat, g, (false, false)), e. split; [apply it_in; lia|exact Q]. }
  destruct X as (k & e & I & X). rewrite (farthest_error _ _ _ k e I X). reflexivity.
Qed.
Print Assumptions C90_short.
(** A rupture without quadrilaterals has no coordinates, but its ry0 is zero. *)
Theorem C90_nothing : forall fuel c lon lat, compute_gc2 fuel c [] [] lon lat = Some (Ok (mkgc2 None None None None 0)).
Proof.
  intros fuel c lon lat. unfold compute_gc2. cbn. unfold finish. cbn. rewrite (proj2 (reqd_iff 0 0) eq_refl). reflexivity.
Qed.
Print Assumptions C90_nothing.
Lemma edge_quads_length e js : forall qs, edge_quads e js = Ok qs -> length qs = length js.
Proof.
  induction js as [|j js IH]; intros qs; cbn [edge_quads]; [intro E; injection E as <-; reflexivity|].
  repeat (match goal with |- bind ?x _ = _ -> _ => destruct x as [?|?] eqn:?; cbn [bind]; [|discriminate] end). intro E. injection E as <-. cbn [length]. f_equal. apply IH. reflexivity.
Qed.
Lemma edge_groups_length e gs : (forall g, In g gs -> In g (e_group e)) -> forall qs, edge_quads_groups e gs = Ok qs -> (length qs + length gs = list_sum (map (count_occ Nat.eq_dec (e_group e)) gs))%nat.
Proof.
  induction gs as [|g gs IH]; intros I qs; cbn [edge_quads_groups]; [intro E; injection E as <-; reflexivity|]. rewrite where_length.
  destruct (edge_quads e _) as [q1|] eqn:E1; cbn [bind]; [|discriminate]. destruct (edge_quads_groups e gs) as [q2|] eqn:E2; cbn [bind]; [|discriminate]. intro E. injection E as <-.
  apply edge_quads_length in E1. rewrite seq_length in E1. specialize (IH ltac:(intros x X; apply I; right; exact X) q2 eq_refl). pose proof (I g (or_introl eq_refl)) as C. apply (count_occ_In Nat.eq_dec) in C.
  rewrite app_length. cbn [length map]. change (list_sum (?x :: ?l)) with (x + list_sum l)%nat. lia.
Qed.
Lemma counts_le l : forall gs, NoDup gs -> (list_sum (map (count_occ Nat.eq_dec l) gs) <= length l)%nat.
Proof.
  induction l as [|x l IH]; intros gs N.
  - assert (Z : list_sum (map (count_occ Nat.eq_dec []) gs) = 0%nat) by (clear N; induction gs as [|g gs IH]; [reflexivity|exact IH]). rewrite Z. cbn. lia.
  - specialize (IH gs N). cbn [length]. assert (H : (list_sum (map (count_occ Nat.eq_dec (x :: l)) gs) <= list_sum (map (count_occ Nat.eq_dec l) gs) + (if in_dec Nat.eq_dec x gs then 1 else 0))%nat).
    { clear IH. induction N as [|g gs X N IH]; [cbn; lia|]. cbn [map]. change (list_sum (?y :: ?r)) with (y + list_sum r)%nat. destruct (Nat.eq_dec x g) as [->|NE]; [rewrite count_occ_cons_eq by reflexivity|rewrite count_occ_cons_neq by exact NE].
      - destruct (in_dec Nat.eq_dec g gs) as [C|_]; [elim (X C)|]. destruct (in_dec Nat.eq_dec g (g :: gs)) as [_|C]; [lia|elim C; left; reflexivity].
      - destruct (in_dec Nat.eq_dec x gs) as [C|C]; destruct (in_dec Nat.eq_dec x (g :: gs)) as [D|D]; try lia. elim D. right. exact C. }
    destruct (in_dec Nat.eq_dec x gs); lia.
Qed.
(** No rupture given by edges has GC2 coordinates once it has two parts. *)
Theorem C90_edges : forall fuel c e quads lon lat, several (e_group e) -> edge_get_quadrilaterals e = Ok quads -> compute_gc2 fuel c quads (e_group e) lon lat = Some (Err IndexError).
Proof.
  intros fuel c e quads lon lat S E. apply C90_short; [exact S|]. unfold edge_get_quadrilaterals in E. apply edge_groups_length in E; [|intros g; apply unique_in]. pose proof (counts_le (e_group e) _ (unique_nodup (e_group e))). pose proof (several_two _ S). lia.
Qed.
Print Assumptions C90_edges.

(** Traces that all begin and end at one place have none either. *)
Theorem C90_close : forall fuel c quads groups lon lat, several groups -> length groups = length quads -> (exists n, numbered_to n groups) ->
  (forall P Q r, end_pair groups quads P Q -> apart P Q r -> r = 0) -> compute_gc2 fuel c quads groups lon lat = Some (Err Unbound).
Proof.
  intros fuel c quads groups lon lat S L (m & M) Z. destruct (skip_checks fuel c quads groups lon lat S) as [[_ X]|(n & N2 & N & ->)]; [elim (X m M)|].
  destruct (farthest_spec quads groups (it_seg (seq 0 n))) with (d := 0) (A := @None (point * point)) as (r & Er & Hr); [|reflexivity|].
  { intros [[g h] [f0 f1]] I. apply it_in in I. destruct (ends_at_pair n groups quads g h f0 f1 N L I) as (PQ & E & _). eauto. }
  rewrite Er. destruct r as [[A A']|]; [|reflexivity]. exfalso. destruct Hr as (D & _ & [X|([[g h] [f0 f1]] & I & E)] & _); [discriminate|]. apply it_in in I. destruct (ends_at_pair n groups quads g h f0 f1 N L I) as (PQ & E' & H). rewrite E in E'. injection E' as <-.
  specialize (Z _ _ _ H (surface_dist _ _)). lra.
Qed.
Print Assumptions C90_close.

(** The places where the traces of a rupture begin and end. *)
Definition trace_end (groups : list nat) (quads : list quad) (g : nat) (P : point) : Prop :=
  exists l x, picks g groups quads l /\ ((begins l x /\ P = q0 x) \/ (finishes l x /\ P = q1 x)).
(** With one segment to a trace, the two places taken are the ends of two traces that lie farthest apart. *)
Theorem C90_farthest : forall groups quads P Q, NoDup groups -> farthest_pair groups quads P Q ->
  (exists g h, g <> h /\ trace_end groups quads g P /\ trace_end groups quads h Q) /\ 
  exists r, apart P Q r /\ forall g h P' Q' r', g <> h -> trace_end groups quads g P' -> trace_end groups quads h Q' -> apart P' Q' r' -> r' <= r.
Proof.
  intros groups quads P Q N [EP (r & A & _ & M)].
  assert (SG : forall g l x, picks g groups quads l -> begins l x \/ finishes l x -> begins l x /\ finishes l x).
  { intros g l x Pl H. destruct (picks_length _ _ _ _ Pl) as [_ C]. assert (C1 : (length l <= 1)%nat) by (rewrite C; apply NoDup_count_occ; exact N).
    destruct H as [[r1 ->]|[r1 ->]]; [destruct r1; [|cbn [length] in C1; lia]|destruct r1; [|cbn [app length] in C1; rewrite app_length in C1; cbn [length] in C1; lia]]; split; exists []; reflexivity. }
  assert (TE : forall P' Q', end_pair groups quads P' Q' -> exists g h, g <> h /\ trace_end groups quads g P' /\ trace_end groups quads h Q').
  { intros P' Q' (g & h & lg & lh & x & y & GH & Pg & Ph & HP & HQ). exists g, h. split; [lia|]. split; [exists lg, x; auto|]. exists lh, y. split; [exact Ph|]. destruct HQ as [[F ->]|[B ->]]; [left|right]; (split; [|reflexivity]); eapply SG; eauto. }
  split; [destruct EP as [EP|EP]; [apply TE; exact EP|destruct (TE _ _ EP) as (g & h & X & Y & W); exists h, g; auto]|]. exists r. split; [exact A|].
  assert (LT : forall g h P' Q', (g < h)%nat -> trace_end groups quads g P' -> trace_end groups quads h Q' -> end_pair groups quads P' Q').
  { intros g h P' Q' GH (lg & x & Pg & HP) (lh & y & Ph & HQ). exists g, h, lg, lh, x, y. repeat (split; [assumption|]). destruct HQ as [[B ->]|[F ->]]; [left|right]; (split; [|reflexivity]); eapply SG; eauto. }
  intros g h P' Q' r' NE T1 T2 A'. destruct (Nat.lt_total g h) as [X|[X|X]]; [eapply M; [eapply LT; eauto|exact A']|congruence|eapply M; [eapply (LT h g); eauto|apply apart_sym; exact A']].
Qed.
Print Assumptions C90_farthest.

Lemma apart_equator a b d d' : 0 <= b - a <= 180 -> apart (a, 0, d) (b, 0, d') (6371 * deg (b - a)).
Proof.
  intro H. exists (deg (b - a)). split; [|reflexivity]. pose proof PI_RGT_0. split; [unfold deg; split; nra|].
  unfold place. cbn [vx vy vz]. rewrite deg0, cos_0, sin_0. replace (deg (b - a)) with (deg b - deg a) by (unfold deg; field). rewrite cos_minus. ring.
Qed.
Definition at_equator (a b : R) : quad := mkquad (a, 0, 0) (b, 0, 0) (b, 0, 10) (a, 0, 10).
(** With more segments it is not so: the far end of a later trace is overlooked. *)
Theorem C90_farthest_refuted : exists groups quads P Q r, numbered_to 2 groups /\ length groups = length quads /\ trace_end groups quads 0 P /\ trace_end groups quads 1 Q /\ apart P Q r /\
  (exists P' Q', farthest_pair groups quads P' Q') /\ forall P' Q' r', farthest_pair groups quads P' Q' -> apart P' Q' r' -> r' < r.
Proof.
  set (quads := [at_equator 0 1; at_equator 10 11; at_equator 11 12]). exists [0; 1; 1]%nat, quads, (0, 0, 0), (12, 0, 0), (6371 * deg (12 - 0)).
  assert (N : numbered_to 2 [0; 1; 1]%nat) by (intro g; cbn [In]; lia).
  assert (P0 : picks 0 [0; 1; 1]%nat quads [at_equator 0 1]) by (unfold quads; repeat constructor; lia).
  assert (P1 : picks 1 [0; 1; 1]%nat quads [at_equator 10 11; at_equator 11 12]) by (unfold quads; repeat constructor; lia).
  assert (EP : end_pair [0; 1; 1]%nat quads (0, 0, 0) (11, 0, 0)).
  { exists 0%nat, 1%nat, [at_equator 0 1], [at_equator 10 11; at_equator 11 12], (at_equator 0 1), (at_equator 10 11). split; [lia|]. split; [exact P0|]. split; [exact P1|]. split; [left; split; [exists []; reflexivity|reflexivity]|right; split; [eexists; reflexivity|reflexivity]]. }
  assert (ALL : forall P Q, end_pair [0; 1; 1]%nat quads P Q -> exists a, P = (a, 0, 0) /\ Q = (11, 0, 0) /\ 0 <= a <= 1).
  { intros P Q (g & h & lg & lh & x & y & GH & Pg & Ph & HP & HQ). assert (h < 2)%nat. { apply N. destruct (in_dec Nat.eq_dec h [0; 1; 1]%nat) as [I|I]; [exact I|]. destruct (picks_length _ _ _ _ Ph) as [_ C]. apply count_occ_not_In with (eq_dec := Nat.eq_dec) in I. rewrite I in C. destruct lh; [|discriminate]. destruct HQ as [[[r E] _]|[[r E] _]]; [destruct r; discriminate|discriminate]. }
    assert (g = 0%nat) by lia. assert (h = 1%nat) by lia. subst g h. rewrite (picks_fun _ _ _ _ _ Pg P0) in HP. rewrite (picks_fun _ _ _ _ _ Ph P1) in HQ.
    assert (X : x = at_equator 0 1). { destruct HP as [[[r E] _]|[[r E] _]]; [injection E as <-; reflexivity|]. destruct r as [|z r]; [injection E as <-; reflexivity|destruct r; discriminate]. } subst x.
    assert (HQ' : Q = (11, 0, 0)). { destruct HQ as [[[r E] ->]|[[r E] ->]]; [|injection E as <- _; reflexivity]. destruct r as [|z [|z' r]]; [discriminate|injection E as _ <-; reflexivity|destruct r; discriminate]. }
    destruct HP as [[_ ->]|[_ ->]]; [exists 0|exists 1]; (split; [reflexivity|]); (split; [exact HQ'|lra]). }
  assert (FAR : apart (0, 0, 0) (11, 0, 0) (6371 * deg (11 - 0))) by (apply apart_equator; lra). pose proof PI_RGT_0 as PI0.
  split; [exact N|]. split; [reflexivity|]. split; [exists [at_equator 0 1], (at_equator 0 1); split; [exact P0|left; split; [exists []; reflexivity|reflexivity]]|]. split; [exists [at_equator 10 11; at_equator 11 12], (at_equator 11 12); split; [exact P1|right; split; [exists [at_equator 10 11]; reflexivity|reflexivity]]|]. split; [apply apart_equator; lra|]. split.
  - exists (0, 0, 0), (11, 0, 0). split; [left; exact EP|]. exists (6371 * deg (11 - 0)). split; [exact FAR|]. split; [unfold deg; nra|]. intros P' Q' r' E A. destruct (ALL _ _ E) as (a & -> & -> & Ha). rewrite (apart_fun _ _ _ _ A (apart_equator a 11 0 0 ltac:(lra))). unfold deg. nra.
  - assert (X : forall P' Q' r', end_pair [0; 1; 1]%nat quads P' Q' -> apart P' Q' r' -> r' < 6371 * deg (12 - 0)). { intros P' Q' r' E A. destruct (ALL _ _ E) as (a & -> & -> & Ha). rewrite (apart_fun _ _ _ _ A (apart_equator a 11 0 0 ltac:(lra))). unfold deg. nra. }
    intros P' Q' r' [[E|E] _] A; [exact (X _ _ _ E A)|exact (X _ _ _ E (apart_sym _ _ _ A))].
Qed.
Print Assumptions C90_farthest_refuted.

(** A rupture in two traces, from 90 west to the meridian and on to 90 east, seen from the pole. *)
Lemma two_numbered : numbered_to 2 [0; 1]%nat. Proof. intro g. cbn [In]. lia. Qed.
Lemma two_pair : end_pair [0; 1]%nat [quarter_before; quarter] (-90, 0, 0) (90, 0, 0).
Proof.
  exists 0%nat, 1%nat, [quarter_before], [quarter], quarter_before, quarter. split; [lia|]. split; [repeat constructor; lia|]. split; [repeat constructor; lia|].
  split; [left; split; [exists []; reflexivity|reflexivity]|right; split; [exists []; reflexivity|reflexivity]].
Qed.
Lemma dist_sym u w : dist u w = dist w u. Proof. unfold dist. f_equal. ring. Qed.
Lemma half_turned : Forall (fun q => clear_of (0, 0) (0, 90, 0) (q1 q) (q0 q) (ecef (q1 q)) (ecef (q0 q))) [quarter_before; quarter].
Proof.
  pose proof quarter_long as L. pose proof before_long as L'. constructor; [|constructor; [|constructor]].
  - exists (0, 0), (-6371, 0), (0, 6371), 0, 6371. split; [exact quarter_start|]. split; [exact before_start|]. split; [exact at_pole|]. split; [exists 6371, (-1), 0; cbn [fst snd]; repeat split; lra|]. rewrite dist_sym. fold (top_length quarter_before). split; [lra|intros [X _]; lra].
  - exists (6371, 0), (0, 0), (0, 6371), 6371, 6371. split; [exact quarter_end|]. split; [exact quarter_start|]. split; [exact at_pole|]. split; [exists 6371, (-1), 0; cbn [fst snd]; repeat split; lra|]. rewrite dist_sym. fold (top_length quarter). split; [lra|intros [X _]; lra].
Qed.
Example C89_ex_two : exists g T U, compute_gc2 2 (0, 0) [quarter_before; quarter] [0; 1]%nat 0 90 = Some (Ok g) /\ g_T g = Some T /\ g_U g = Some U /\ g_rx g = Some T.
Proof.
  destruct (C89_several 2 (0, 0) [quarter_before; quarter] [0; 1]%nat 2 0 90 0) as (P & Q & a & trs & quads' & vs & v & T & U & r0 & _ & _ & _ & _ & _ & _ & _ & _ & _ & _ & E);
    [lia|lia|exact two_numbered|reflexivity| |exact half_beside|exact half_turned|].
  - exists (-90, 0, 0), (90, 0, 0), (6371 * deg (90 - -90)). split; [exact two_pair|]. split; [apply apart_equator; lra|]. pose proof PI_RGT_0. unfold deg. nra.
  - eexists. exists T, U. split; [exact E|]. repeat split; reflexivity.
Qed.
Lemma two_several : several [0; 2]%nat. Proof. exists 0%nat, 2%nat. cbn [In]. repeat split; auto; lia. Qed.
Example C90_ex_gap : compute_gc2 5 (0, 0) [quarter_before; quarter] [0; 2]%nat 0 90 = Some (Err IndexError).
Proof. apply C90_gap; [exact two_several|]. intros n N. destruct (N 0%nat) as [A0 _], (N 1%nat) as [_ B1], (N 2%nat) as [A2 _]. cbn [In] in *. lia. Qed.
Definition edge_top : list (list point) := [[(0, 0, 0); (1, 0, 0)]; [(3, 0, 0); (4, 0, 0)]].
Definition edge_low : list (list point) := [[(0, 0, 10); (1, 0, 10)]; [(3, 0, 10); (4, 0, 10)]].
Example C90_ex_edges : exists quads, edge_get_quadrilaterals (built edge_top edge_low) = Ok quads /\ length quads = 2%nat /\ several (e_group (built edge_top edge_low)) /\ 
  compute_gc2 5 (0, 0) quads (e_group (built edge_top edge_low)) 0 90 = Some (Err IndexError).
Proof.
  destruct (C52_count edge_top edge_low) as (quads & E & L); [repeat constructor; discriminate|discriminate|repeat constructor; cbn; lra|repeat constructor; cbn; lra|].
  exists quads. split; [exact E|]. split; [exact L|]. assert (S : several (e_group (built edge_top edge_low))) by (exists 0%nat, 1%nat; cbn; repeat split; auto; lia). split; [exact S|]. apply C90_edges; assumption.
Qed.
Example C90_ex_close : compute_gc2 5 (0, 0) [at_equator 7 7; at_equator 7 7] [1; 0]%nat 0 90 = Some (Err Unbound).
Proof.
  apply C90_close; [exists 0%nat, 1%nat; cbn; repeat split; auto; lia|reflexivity|exists 2%nat; intro g; cbn [In]; lia|].
  assert (X : forall g l x, picks g [1; 0]%nat [at_equator 7 7; at_equator 7 7] l -> In x l -> x = at_equator 7 7).
  { intros g l x P I. apply picks_filter in P. subst l. apply in_map_iff in I. destruct I as ([k q] & <- & I). apply filter_In in I. destruct I as [I _]. cbn [combine In] in I. destruct I as [E|[E|[]]]; injection E as _ <-; reflexivity. }
  intros P Q r (g & h & lg & lh & x & y & _ & Pg & Ph & HP & HQ) A. 
  assert (P = (7, 0, 0)) by (destruct HP as [[[l ->] ->]|[[l ->] ->]]; rewrite (X g _ x Pg); try reflexivity; [left; reflexivity|apply in_app_iff; right; left; reflexivity]).
  assert (Q = (7, 0, 0)) by (destruct HQ as [[[l ->] ->]|[[l ->] ->]]; rewrite (X h _ y Ph); try reflexivity; [apply in_app_iff; right; left; reflexivity|left; reflexivity]).
  subst P Q. rewrite (apart_fun _ _ _ _ A (apart_equator 7 7 0 0 ltac:(lra))). unfold deg. lra.
Qed.
Example C90_ex_farthest : farthest_pair [0; 1]%nat [quarter_before; quarter] (-90, 0, 0) (90, 0, 0).
Proof.
  split; [left; exact two_pair|]. exists (6371 * deg (90 - -90)). split; [apply apart_equator; lra|]. pose proof PI_RGT_0. split; [unfold deg; nra|]. intros [[a b] x] [[a' b'] x'] r' _ (t & [B _] & ->). unfold deg. replace (90 - -90) with 180 by ring. replace (180 * PI / 180) with PI by field. lra.
Qed.
