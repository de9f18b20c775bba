(** Lemmas for the ComCat properties. *)
From Coq Require Import ZArith String Ascii Bool List Lia.
From Verif Require Import PyBase PyStr OriginModel OriginProofs PolyModel PolySpec PolyProofs JsonModel ComcatModel ComcatSpec PathProofs.
Import ListNotations.
Local Arguments str_of _ : simpl never.

Lemma dget_split {A} k (d : dict A) v : dget k d = Some v <-> exists before after, d = before ++ (k, v) :: after /\ ~ In k (map fst before).
Proof.
  split.
  - induction d as [|[k' v'] d IH]; [discriminate|]. cbn [dget]. destruct (str_eqb_spec k k') as [<-|Ne].
    + intros [= <-]. exists [], d. split; [reflexivity|]. intros [].
    + intros H. destruct (IH H) as (b & a & -> & Ni). exists ((k', v') :: b), a. split; [reflexivity|]. cbn. intros [E|E]; [congruence|contradiction].
  - intros (b & a & -> & Ni). induction b as [|[k' v'] b IH]; cbn [app dget].
    + rewrite str_eqb_refl. reflexivity.
    + destruct (str_eqb_spec k k') as [<-|Ne]; [exfalso; apply Ni; left; reflexivity|]. apply IH. intros H. apply Ni. right. exact H.
Qed.
Lemma jpath_iff ks : forall d v, jpath ks d = Ok v <-> at_path d ks v.
Proof.
  induction ks as [|k ks IH]; intros d v; cbn [jpath].
  - split; [intros [= ->]; constructor|]. intros H. inversion H. reflexivity.
  - split.
    + destruct d as [| | | | | |d]; try discriminate. cbn [jkey]. destruct (dget k d) as [w|] eqn:E; [|discriminate]. cbn [bind]. intros H. apply dget_split in E as (b & a & -> & Ni). constructor; [exact Ni|]. apply IH. exact H.
    + intros H. inversion H as [|before k' w after ks' v' Ni Hp]; subst. cbn [jkey]. rewrite (proj2 (dget_split k _ w)); [|exists before, after; auto]. cbn [bind]. apply IH. exact Hp.
Qed.
Lemma jkey_iff k d v : jkey k d = Ok v <-> at_path d [k] v.
Proof. rewrite <- jpath_iff. cbn [jpath]. destruct (jkey k d); cbn [bind]; split; congruence. Qed.

Lemma is_comma_iff c : is_comma c = true <-> c = ComcatSpec.comma.
Proof. unfold is_comma. rewrite Ascii.eqb_eq. reflexivity. Qed.
Lemma span_commas s a b : span is_comma s = (a, b) -> s = a ++ b /\ Forall (eq ComcatSpec.comma) a /\ (forall c r, b = c :: r -> c <> ComcatSpec.comma).
Proof.
  revert a b. induction s as [|c s IH]; intros a b; cbn [span].
  - intros [= <- <-]. repeat split; [constructor|discriminate].
  - destruct (is_comma c) eqn:E.
    + destruct (span is_comma s) as [a' b'] eqn:Es. intros [= <- <-]. destruct (IH _ _ eq_refl) as (-> & F & H). apply is_comma_iff in E as ->. repeat split; [constructor; [reflexivity|exact F]|exact H].
    + intros [= <- <-]. repeat split; [constructor|]. intros c' r [= -> ->]. intros Ec. apply is_comma_iff in Ec. congruence.
Qed.
Lemma span_comma_app s t : Forall (eq ComcatSpec.comma) s -> (forall c r, t = c :: r -> c <> ComcatSpec.comma) -> span is_comma (s ++ t) = (s, t).
Proof.
  induction 1 as [|c s <- F IH]; intros H; cbn [app].
  - destruct t as [|c r]; [reflexivity|]. cbn [span]. destruct (is_comma c) eqn:E; [|reflexivity]. apply is_comma_iff in E. exfalso. exact (H _ _ eq_refl E).
  - cbn [span]. rewrite (proj2 (is_comma_iff _) eq_refl), (IH H). reflexivity.
Qed.
Lemma commas_rev s : Forall (eq ComcatSpec.comma) s -> Forall (eq ComcatSpec.comma) (rev s).
Proof. rewrite !Forall_forall. intros H x Hx. apply H. apply in_rev. exact Hx. Qed.
Lemma core_strip s : core s (strip_commas s).
Proof.
  unfold strip_commas. destruct (span is_comma s) as [a t] eqn:E1. destruct (span is_comma (rev (snd (a, t)))) as [b u] eqn:E2. cbn [snd] in *.
  apply span_commas in E1 as (-> & Fa & H1). apply span_commas in E2 as (E & Fb & H2).
  assert (Et : t = rev u ++ rev b) by (rewrite <- rev_app_distr, <- E, rev_involutive; reflexivity).
  exists a, (rev b). split; [rewrite Et; reflexivity|]. split; [exact Fa|]. split; [apply commas_rev; exact Fb|].
  intros c r [Ec|Ec].
  - apply (H1 c (r ++ rev b)). rewrite Et, Ec. reflexivity.
  - apply (H2 c (rev r)). rewrite <- (rev_involutive u), Ec, rev_app_distr. reflexivity.
Qed.
Lemma core_unique s t : core s t -> strip_commas s = t.
Proof.
  intros (a & b & -> & Fa & Fb & H). unfold strip_commas.
  destruct t as [|c t'].
  - cbn [app]. assert (F : Forall (eq ComcatSpec.comma) (a ++ b)) by (apply Forall_app; auto). rewrite <- (app_nil_r (a ++ b)). rewrite span_comma_app by (exact F || discriminate). reflexivity.
  - rewrite span_comma_app; [|exact Fa|intros c' r [= <- <-]; apply (H c t'); left; reflexivity]. cbn [snd].
    rewrite rev_app_distr. rewrite span_comma_app; [cbn [snd]; apply rev_involutive|apply commas_rev; exact Fb|].
    intros c' r E. apply (H c' (rev r)). right. rewrite <- (rev_involutive (c :: t')), E. reflexivity.
Qed.
Lemma listed_iff d l : listed d = Ok l <-> exists s, d = JStr s /\ items s l.
Proof.
  split.
  - destruct d; try discriminate. intros [= <-]. exists s. split; [reflexivity|]. exists (strip_commas s). split; [apply core_strip|]. apply split_at_parts.
  - intros (s & -> & t & C & P). cbn [listed]. f_equal. rewrite (core_unique _ _ C). apply parts_split. exact P.
Qed.
Lemma items_some s : exists l, items s l /\ l <> [].
Proof. exists (split_at PolyModel.comma (strip_commas s)). pose proof (split_at_parts PolyModel.comma (strip_commas s)) as P. split; [exists (strip_commas s); split; [apply core_strip|exact P]|]. exact (proj1 P). Qed.
Lemma remove_iff x l rest : remove_first x l = Ok rest <-> exists a, x = JStr a /\ without a l rest.
Proof.
  split.
  - revert rest. induction l as [|b l IH]; intros rest; [discriminate|]. cbn [remove_first]. destruct (jeq x b) eqn:E.
    + intros [= <-]. destruct x; try discriminate. cbn [jeq] in E. destruct (str_eqb_spec s b) as [->|]; [|discriminate]. exists b. split; [reflexivity|]. exists [], l. repeat split. intros [].
    + destruct (remove_first x l) as [r|] eqn:Er; [|discriminate]. cbn [bind]. intros [= <-]. destruct (IH _ eq_refl) as (a & -> & p & q & -> & Ni & ->). exists a. split; [reflexivity|]. exists (b :: p), q. repeat split.
      intros [->|H]; [|contradiction]. cbn [jeq] in E. rewrite str_eqb_refl in E. discriminate.
  - intros (a & -> & p & q & -> & Ni & ->). induction p as [|b p IH]; cbn [app remove_first jeq].
    + rewrite str_eqb_refl. reflexivity.
    + destruct (str_eqb_spec a b) as [->|Ne]; [exfalso; apply Ni; left; reflexivity|]. rewrite IH; [reflexivity|]. intros H. apply Ni. right. exact H.
Qed.
Lemma remove_err x l e : remove_first x l = Err e -> e = ValueError /\ forall a, In a l -> x <> JStr a.
Proof.
  revert e. induction l as [|b l IH]; intros e; cbn [remove_first].
  - intros [= <-]. split; [reflexivity|]. intros a [].
  - destruct (jeq x b) eqn:E; [discriminate|]. destruct (remove_first x l) as [r|e'] eqn:Er; [discriminate|]. cbn [bind]. intros [= <-]. destruct (IH _ eq_refl) as [-> H]. split; [reflexivity|].
    intros a [<-|Ha]; [|apply H; exact Ha]. intros ->. cbn [jeq] in E. rewrite str_eqb_refl in E. discriminate.
Qed.
Lemma prefix_iff p s : starts_with p s = true <-> prefix p s.
Proof. apply PathProofs.starts_with_app. Qed.
Lemma max_ge l : forall n m, In m (n :: l) -> m <= fold_left Nat.max l n.
Proof.
  induction l as [|a l IH]; intros n m; cbn [fold_left].
  - intros [->|[]]. lia.
  - intros [->|[->|H]]; [pose proof (IH (Nat.max m a) _ (or_introl eq_refl)); lia|pose proof (IH (Nat.max n m) _ (or_introl eq_refl)); lia|]. apply IH. right. exact H.
Qed.
Lemma max_in l : forall n, In (fold_left Nat.max l n) (n :: l).
Proof.
  induction l as [|a l IH]; intros n; cbn [fold_left]; [left; reflexivity|]. destruct (IH (Nat.max n a)) as [E|H]; [|right; right; exact H]. rewrite <- E. destruct (Nat.max_spec n a) as [[_ ->]|[_ ->]]; [right; left|left]; reflexivity.
Qed.
Lemma index_split n l : In n l -> exists before after, l = before ++ n :: after /\ ~ In n before /\ index_nat n l = length before.
Proof.
  induction l as [|a l IH]; [intros []|]. cbn [index_nat]. destruct (Nat.eqb_spec a n) as [->|Ne].
  - intros _. exists [], l. repeat split. intros [].
  - intros [E|H]; [contradiction|]. destruct (IH H) as (b & c & -> & Ni & ->). exists (a :: b), c. repeat split. intros [E|E]; contradiction.
Qed.
Lemma pick_some l id : l <> [] -> exists s before after, pick_source l id = Ok s /\ l = before ++ s :: after /\
  (forall t, In t l -> match_length id t <= match_length id s) /\ (forall t, In t before -> match_length id t <> match_length id s).
Proof.
  intros Hl. unfold pick_source. destruct l as [|t0 l']; [contradiction|]. set (l := t0 :: l') in *.
  change (map (match_length id) l) with (match_length id t0 :: map (match_length id) l'). cbv iota.
  set (m := fold_left Nat.max (map (match_length id) l') (match_length id t0)).
  pose proof (max_in (map (match_length id) l') (match_length id t0)) as Hin. fold m in Hin. change (In m (map (match_length id) l)) in Hin.
  assert (Hge : forall t, In t l -> match_length id t <= m) by (intros t Ht; apply max_ge; change (In (match_length id t) (map (match_length id) l)); apply in_map; exact Ht).
  change (match_length id t0 :: map (match_length id) l') with (map (match_length id) l).
  destruct (index_split _ _ Hin) as (b & c & E & Ni & ->). apply map_eq_app in E as (lb & lc & El & Eb & Ec). destruct lc as [|s lc]; [discriminate|]. cbn [map] in Ec. injection Ec as Em _.
  exists s, lb, lc. rewrite <- Eb, map_length, El, nth_error_app2, Nat.sub_diag by lia. cbn [nth_error]. split; [reflexivity|]. split; [reflexivity|]. rewrite Em. rewrite <- El. split; [exact Hge|].
  intros t Ht Et. apply Ni. rewrite <- Eb, <- Et. apply in_map. exact Ht.
Qed.
Lemma match_length_iff id s : match_length id s = length s /\ prefix s id \/ match_length id s = 0 /\ ~ prefix s id.
Proof. unfold match_length. destruct (starts_with s id) eqn:E; [left|right]; (split; [reflexivity|]); rewrite <- prefix_iff; congruence. Qed.
Lemma prefix_same id s t : prefix s id -> prefix t id -> length s = length t -> s = t.
Proof. intros [r ->] [q E] L. apply app_eq_app in E as (l & [[-> _]|[-> _]]); rewrite app_length in L; destruct l; cbn in L; try lia; rewrite app_nil_r; reflexivity. Qed.
Lemma pick_iff l id s : l <> [] -> (pick_source l id = Ok s <-> belongs l id s).
Proof.
  intros Hl. destruct (pick_some l id Hl) as (s0 & b & a & -> & El & Mx & Ft).
  assert (B : belongs l id s0).
  { destruct (match_length_iff id s0) as [[M P]|[M P]].
    - destruct s0 as [|c s0].
      + right. cbn [length] in M. split.
        * intros t Ht Pt. specialize (Mx t Ht). destruct (match_length_iff id t) as [[Mt _]|[_ N]]; [|contradiction]. rewrite M, Mt in Mx. destruct t; [reflexivity|cbn in Mx; lia].
        * destruct b as [|t b]; [exists a; exact El|]. exfalso. apply (Ft t); [left; reflexivity|]. assert (Ht : In t l) by (rewrite El; left; reflexivity). specialize (Mx t Ht). lia.
      + left. exists b, a. split; [exact El|]. split; [exact P|]. split; [discriminate|]. intros t Ht Pt. specialize (Mx t Ht). destruct (match_length_iff id t) as [[Mt _]|[_ N]]; [|contradiction]. lia.
    - right. split.
      + intros t Ht Pt. specialize (Mx t Ht). destruct (match_length_iff id t) as [[Mt _]|[_ N]]; [|contradiction]. rewrite M, Mt in Mx. destruct t; [reflexivity|cbn in Mx; lia].
      + destruct b as [|t b]; [exists a; exact El|]. exfalso. apply (Ft t); [left; reflexivity|]. assert (Ht : In t l) by (rewrite El; left; reflexivity). specialize (Mx t Ht). lia. }
  split; [intros [= <-]; exact B|]. intros B'. f_equal.
  destruct B as [(b0 & a0 & E0 & P0 & N0 & M0)|[Z0 [r0 E0]]], B' as [(b1 & a1 & E1 & P1 & N1 & M1)|[Z1 [r1 E1]]].
  - apply (prefix_same id); [assumption|assumption|]. assert (I0 : In s0 l) by (rewrite E0; apply in_elt). assert (I1 : In s l) by (rewrite E1; apply in_elt). specialize (M0 s I1 P1). specialize (M1 s0 I0 P0). lia.
  - exfalso. apply N0. apply Z1; [rewrite E0; apply in_elt|exact P0].
  - exfalso. apply N1. apply Z0; [rewrite E1; apply in_elt|exact P1].
  - congruence.
Qed.
Lemma picks_iff l ids : l <> [] -> forall ss, pick_sources l ids = Ok ss <-> Forall2 (belongs l) ids ss.
Proof.
  intros Hl. induction ids as [|i ids IH]; intros ss; cbn [pick_sources].
  - split; [intros [= <-]; constructor|]. intros H. inversion H. reflexivity.
  - split.
    + destruct (pick_source l i) as [s|] eqn:E; [|discriminate]. cbn [bind]. destruct (pick_sources l ids) as [t|]; [|discriminate]. cbn [bind]. intros [= <-]. constructor; [apply pick_iff; assumption|]. apply IH. reflexivity.
    + intros H. inversion H as [|? s ? t B F]; subst. apply (pick_iff l i s Hl) in B. rewrite B. cbn [bind]. apply IH in F. rewrite F. reflexivity.
Qed.
Lemma picks_ok l ids : l <> [] -> exists ss, pick_sources l ids = Ok ss.
Proof.
  intros Hl. induction ids as [|i ids [ss IH]]; cbn [pick_sources]; [exists []; reflexivity|]. destruct (pick_some l i Hl) as (s & _ & _ & -> & _). cbn [bind]. rewrite IH. exists (s :: ss). reflexivity.
Qed.
