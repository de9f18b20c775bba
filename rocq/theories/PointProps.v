(** C93, C94: point ruptures and rupture contexts. *)
From Coq Require Import ZArith Reals String Ascii Bool List Lra Lia Psatz.
From Verif Require Import PyBase PyStr GeoModel GeoTrig GeoSpec GeoProofs GeoProps PolyModel OriginModel OriginSpec OriginProofs OriginProps DistModel DistSpec PointSpec.
Import ListNotations.
Open Scope R_scope.

Lemma rltb_iff a b : rltb a b = true <-> a < b.
Proof. unfold rltb. destruct (Rlt_dec a b); split; [auto|auto|discriminate|contradiction]. Qed.
Lemma rltb_no a b : rltb a b = false <-> b <= a.
Proof. unfold rltb. destruct (Rlt_dec a b); split; [discriminate|lra|lra|auto]. Qed.

(** C93. *)
Lemma text_is (v : value) (m : string) : match v with VStr s => str_eqb s (str_of m) | _ => false end = true <-> v = VStr (str_of m).
Proof. destruct v; split; try discriminate; intro H; [apply str_eqb_eq in H; subst; reflexivity|injection H as ->; apply str_eqb_eq; reflexivity]. Qed.
Lemma text_not (v : value) (m : string) : match v with VStr s => str_eqb s (str_of m) | _ => false end = false <-> v <> VStr (str_of m).
Proof. rewrite <- text_is. destruct (match v with VStr s => str_eqb s (str_of m) | _ => false end); split; congruence. Qed.
(** The coefficients by region and mechanism. *)
Theorem C93_coefficients : forall o p, distinct o -> (ps2ff_params o = Ok p <-> adjusted_by o p).
Proof.
  intros o p D. unfold ps2ff_params. set (mech := match dget (str_of "mech") o with Some m => m | None => VStr (str_of "ALL") end).
  assert (ME : forall m : string, mech = VStr (str_of m) <-> In (str_of "mech", VStr (str_of m)) o \/ (~ has o (str_of "mech") /\ str_of m = str_of "ALL")).
  { intro m. unfold mech. destruct (dget (str_of "mech") o) as [v|] eqn:E.
    - split; [intros ->; left; apply dget_sound; exact E|]. intros [I|[N _]]; [apply (dget_in _ _ _ D) in I; congruence|]. elim N. exists v. apply dget_sound. exact E.
    - apply dget_none in E. split; [intro X; right; split; [exact E|congruence]|]. intros [I|[_ ->]]; [elim E; eexists; exact I|reflexivity]. }
  assert (INJ : forall a b : string, str_of a = str_of b -> a = b) by (intros a b X; rewrite <- (string_of_list_ascii_of_string a), <- (string_of_list_ascii_of_string b); f_equal; exact X).
  assert (ME' : forall m : string, mech = VStr (str_of m) <-> In (str_of "mech", VStr (str_of m)) o \/ (~ has o (str_of "mech") /\ m = "ALL"%string)).
  { intro m. rewrite ME. split; (intros [X|[X Y]]; [auto|right; split; [exact X|]]); [apply INJ; exact Y|subst; reflexivity]. } clear ME.
  destruct (dget (str_of "_tectonic_region") o) as [region|] eqn:ER.
  - assert (RI : forall v, In (str_of "_tectonic_region", v) o <-> region = v) by (intro v; rewrite <- (dget_in _ _ _ D), ER; split; congruence).
    assert (RR : forall r m, region = VStr (str_of r) -> mech = VStr (str_of m) -> forall q, by_region r m q -> adjusted_by o q). { intros r m Rr Mm q Q. apply ME' in Mm. eapply in_region; [apply RI; exact Rr|exact Mm|exact Q]. }
    assert (RU : adjusted_by o p -> (exists r m, region = VStr (str_of r) /\ mech = VStr (str_of m) /\ by_region r m p) \/ (~ known_region region /\ p = mkparams WC94 MechA 10 90 1.7)).
    { intros [r m q I J B|N]; [left; exists r, m; split; [apply RI; exact I|split; [apply ME'; exact J|exact B]]|right; split; [apply N; apply RI; reflexivity|reflexivity]]. }
    destruct (match region with VStr s => str_eqb s (str_of "Active Shallow Crust") | _ => false end) eqn:R1; [apply text_is in R1|apply text_not in R1].
    + destruct (match mech with VStr s => str_eqb s (str_of "ALL") | _ => false end) eqn:M1; [apply text_is in M1|apply text_not in M1].
      { split; [intro E; injection E as <-; eapply RR; [exact R1|exact M1|constructor]|]. intro A. destruct (RU A) as [(r & m & E1 & E2 & B)|[N _]]; [|elim N; left; exact R1]. rewrite R1 in E1. rewrite M1 in E2. injection E1 as E1. injection E2 as E2. inversion B; subst; first [reflexivity|discriminate]. }
      destruct (match mech with VStr s => str_eqb s (str_of "RS") | _ => false end) eqn:M2; [apply text_is in M2|apply text_not in M2].
      { split; [intro E; injection E as <-; eapply RR; [exact R1|exact M2|constructor]|]. intro A. destruct (RU A) as [(r & m & E1 & E2 & B)|[N _]]; [|elim N; left; exact R1]. rewrite R1 in E1. rewrite M2 in E2. injection E1 as E1. injection E2 as E2. inversion B; subst; first [reflexivity|discriminate]. }
      destruct (match mech with VStr s => str_eqb s (str_of "NM") | _ => false end) eqn:M3; [apply text_is in M3|apply text_not in M3].
      { split; [intro E; injection E as <-; eapply RR; [exact R1|exact M3|constructor]|]. intro A. destruct (RU A) as [(r & m & E1 & E2 & B)|[N _]]; [|elim N; left; exact R1]. rewrite R1 in E1. rewrite M3 in E2. injection E1 as E1. injection E2 as E2. inversion B; subst; first [reflexivity|discriminate]. }
      destruct (match mech with VStr s => str_eqb s (str_of "SS") | _ => false end) eqn:M4; [apply text_is in M4|apply text_not in M4].
      { split; [intro E; injection E as <-; eapply RR; [exact R1|exact M4|constructor]|]. intro A. destruct (RU A) as [(r & m & E1 & E2 & B)|[N _]]; [|elim N; left; exact R1]. rewrite R1 in E1. rewrite M4 in E2. injection E1 as E1. injection E2 as E2. inversion B; subst; first [reflexivity|discriminate]. }
      split; [discriminate|]. intro A. destruct (RU A) as [(r & m & E1 & E2 & B)|[N _]]; [|elim N; left; exact R1]. rewrite R1 in E1. injection E1 as E1. inversion B; subst; try discriminate; congruence.
    + destruct (match region with VStr s => str_eqb s (str_of "Stable Shallow Crust") | _ => false end) eqn:R2; [apply text_is in R2|apply text_not in R2].
      { destruct (match mech with VStr s => str_eqb s (str_of "ALL") | _ => false end) eqn:M1; [apply text_is in M1|apply text_not in M1].
      { split; [intro E; injection E as <-; eapply RR; [exact R2|exact M1|constructor]|]. intro A. destruct (RU A) as [(r & m & E1 & E2 & B)|[N _]]; [|elim N; right; exact R2]. rewrite R2 in E1. rewrite M1 in E2. injection E1 as E1. injection E2 as E2. inversion B; subst; first [reflexivity|discriminate]. }
      destruct (match mech with VStr s => str_eqb s (str_of "RS") | _ => false end) eqn:M2; [apply text_is in M2|apply text_not in M2].
      { split; [intro E; injection E as <-; eapply RR; [exact R2|exact M2|constructor]|]. intro A. destruct (RU A) as [(r & m & E1 & E2 & B)|[N _]]; [|elim N; right; exact R2]. rewrite R2 in E1. rewrite M2 in E2. injection E1 as E1. injection E2 as E2. inversion B; subst; first [reflexivity|discriminate]. }
      destruct (match mech with VStr s => str_eqb s (str_of "NM") | _ => false end) eqn:M3; [apply text_is in M3|apply text_not in M3].
      { split; [intro E; injection E as <-; eapply RR; [exact R2|exact M3|constructor]|]. intro A. destruct (RU A) as [(r & m & E1 & E2 & B)|[N _]]; [|elim N; right; exact R2]. rewrite R2 in E1. rewrite M3 in E2. injection E1 as E1. injection E2 as E2. inversion B; subst; first [reflexivity|discriminate]. }
      destruct (match mech with VStr s => str_eqb s (str_of "SS") | _ => false end) eqn:M4; [apply text_is in M4|apply text_not in M4].
      { split; [intro E; injection E as <-; eapply RR; [exact R2|exact M4|constructor]|]. intro A. destruct (RU A) as [(r & m & E1 & E2 & B)|[N _]]; [|elim N; right; exact R2]. rewrite R2 in E1. rewrite M4 in E2. injection E1 as E1. injection E2 as E2. inversion B; subst; first [reflexivity|discriminate]. }
      split; [discriminate|]. intro A. destruct (RU A) as [(r & m & E1 & E2 & B)|[N _]]; [|elim N; right; exact R2]. rewrite R2 in E1. injection E1 as E1. inversion B; subst; try discriminate; congruence. }
      split; [intro E; injection E as <-; apply elsewhere; intros v I; apply RI in I; subst v; intros [X|X]; contradiction|]. intro A. destruct (RU A) as [(r & m & E1 & E2 & B)|[_ ->]]; [|reflexivity]. inversion B; subst; contradiction.
  - apply dget_none in ER. split; [intro E; injection E as <-; apply elsewhere; intros v I; elim ER; exists v; exact I|]. intros [r m q I J B|N]; [elim ER; eexists; exact I|reflexivity].
Qed.
Print Assumptions C93_coefficients.

Lemma known_four m : known m <-> exists x : string, In x ["SS"; "NM"; "RS"; "ALL"]%string /\ m = str_of x.
Proof. split; [intros (r & []); eexists; (split; [|reflexivity]); cbn [In]; tauto|]. intros (x & I & ->). cbn [In] in I. destruct I as [<-|[<-|[<-|[<-|[]]]]]; eexists; constructor. Qed.
Lemma has_coefficients o m : distinct o -> In (str_of "mech", VStr m) o -> known m -> exists p, adjusted_by o p.
Proof.
  intros D I K. apply known_four in K. destruct K as (x & X & ->). destruct (dget (str_of "_tectonic_region") o) as [v|] eqn:E.
  - assert (U : forall w, In (str_of "_tectonic_region", w) o -> w = v) by (intros w W; apply (dget_in _ _ _ D) in W; congruence). apply dget_sound in E.
    destruct (match v with VStr s => str_eqb s (str_of "Active Shallow Crust") | _ => false end) eqn:R1; [apply text_is in R1; subst v|apply text_not in R1].
    { cbn [In] in X. destruct X as [<-|[<-|[<-|[<-|[]]]]]; eexists; (eapply in_region; [exact E|left; exact I|constructor]). }
    destruct (match v with VStr s => str_eqb s (str_of "Stable Shallow Crust") | _ => false end) eqn:R2; [apply text_is in R2; subst v|apply text_not in R2].
    { cbn [In] in X. destruct X as [<-|[<-|[<-|[<-|[]]]]]; eexists; (eapply in_region; [exact E|left; exact I|constructor]). }
    eexists. apply elsewhere. intros w W. apply U in W. subst w. intros [Y|Y]; contradiction.
  - apply dget_none in E. eexists. apply elsewhere. intros w W. elim E. exists w. exact W.
Qed.
(** There are coefficients for every origin, also after setMechanism. *)
Theorem C93_origin : forall fparse ev o, distinct ev -> snd (new_origin fparse ev) = Ok o -> exists p, ps2ff_params o = Ok p.
Proof.
  intros fparse ev o D E. destruct (C55_attributes fparse ev o D E) as (Do & m & r & _ & R & I & _). destruct (has_coefficients o m Do I) as (p & A); [exists r; exact R|]. exists p. apply (C93_coefficients o p Do). exact A.
Qed.
Print Assumptions C93_origin.
Theorem C93_mechanism : forall rd o m rake dip o', distinct o -> set_mechanism rd o m rake dip = (o', Ok tt) -> exists p, ps2ff_params o' = Ok p.
Proof.
  intros rd o m rake dip o' D. unfold set_mechanism. destruct m as [m|]; [|discriminate]. destruct (mech_table m) as [[r0 d0]|] eqn:T; [|discriminate].
  assert (K : known m). { apply known_four. unfold mech_table in T. destruct (str_eqb m (str_of "RS")) eqn:Q1; [apply str_eqb_eq in Q1; exists "RS"%string; split; [cbn [In]; tauto|exact Q1]|]. destruct (str_eqb m (str_of "NM")) eqn:Q2; [apply str_eqb_eq in Q2; exists "NM"%string; split; [cbn [In]; tauto|exact Q2]|].
    destruct (str_eqb m (str_of "SS")) eqn:Q3; [apply str_eqb_eq in Q3; exists "SS"%string; split; [cbn [In]; tauto|exact Q3]|]. destruct (str_eqb m (str_of "ALL")) eqn:Q4; [apply str_eqb_eq in Q4; exists "ALL"%string; split; [cbn [In]; tauto|exact Q4]|]. discriminate T. }
  destruct (match dip with Some d => if (num_below d 0 || num_above d 90)%bool then Err ValueError else Ok d | None => Ok (Fin d0) end) as [d|]; [|discriminate]. cbv zeta.
  destruct (match rake with Some r => _ | None => _ end) as [r|]; [|discriminate]. intro E. injection E as <-.
  set (o1 := dset (str_of "rake") (VFloat r) (dset (str_of "dip") (VFloat d) o)). assert (D1 : distinct o1) by (apply dset_distinct, dset_distinct; exact D). assert (D2 : distinct (dset (str_of "mech") (VStr m) o1)) by (apply dset_distinct; exact D1).
  destruct (has_coefficients (dset (str_of "mech") (VStr m) o1) m D2) as (p & A); [apply dset_in; [exact D1|auto]|exact K|]. exists p. apply (C93_coefficients _ p D2). exact A.
Qed.
Print Assumptions C93_mechanism.
(** Any other mechanism fails in the known regions. *)
Theorem C93_unbound : forall o r v, distinct o -> In (str_of "_tectonic_region", r) o -> known_region r -> In (str_of "mech", v) o -> (forall m, v = VStr m -> ~ known m) -> ps2ff_params o = Err Unbound.
Proof.
  intros o r v D R K M N. destruct (ps2ff_params o) as [p|e] eqn:E.
  - exfalso. apply (C93_coefficients o p D) in E. destruct E as [r' m q I J B|X]; [|exact (X r R K)]. destruct J as [J|[J _]]; [|elim J; exists v; exact M]. apply (dget_in _ _ _ D) in J, M. assert (V : v = VStr (str_of m)) by congruence. apply (N _ V), known_four. exists m. split; [|reflexivity]. inversion B; subst; cbn [In]; tauto.
  - unfold ps2ff_params in E. destruct (dget (str_of "_tectonic_region") o); [|discriminate]. cbv zeta in E. repeat (match type of E with (if ?x then _ else _) = _ => destruct x end; try discriminate). all: congruence.
Qed.
Print Assumptions C93_unbound.

(** Interpolation. *)
Lemma between_cons a b l f x y : between_rows (a :: b :: l) f x y <-> (w_repi a <= x <= w_repi b /\ (y - f a) * (w_repi b - w_repi a) = (f b - f a) * (x - w_repi a)) \/ between_rows (b :: l) f x y.
Proof.
  split.
  - intros ([|z pre] & c & d & post & E & H); cbn [app] in E; [injection E as <- <- <-; left; exact H|injection E as <- E; right; exists pre, c, d, post; split; [exact E|exact H]].
  - intros [H|(pre & c & d & post & E & H)]; [exists [], a, b, l; split; [reflexivity|exact H]|exists (a :: pre), c, d, post; split; [cbn [app]; rewrite E; reflexivity|exact H]].
Qed.
Lemma between_one a f x y : ~ between_rows [a] f x y.
Proof. intros ([|z [|z' pre]] & c & d & post & E & H); discriminate. Qed.
Lemma between_ge a l f x y : rising (a :: l) -> between_rows (a :: l) f x y -> w_repi a <= x.
Proof.
  revert a. induction l as [|b l IH]; intros a Rs B; [elim (between_one _ _ _ _ B)|]. inversion Rs as [|a' b' l' L R']; subst. apply between_cons in B. destruct B as [[H _]|B]; [lra|]. specialize (IH b R' B). lra.
Qed.
Lemma between_start a l f y : rising (a :: l) -> between_rows (a :: l) f (w_repi a) y -> y = f a.
Proof.
  destruct l as [|b l]; intros Rs B; [elim (between_one _ _ _ _ B)|]. inversion Rs as [|a' b' l' L R']; subst. apply between_cons in B. destruct B as [[_ E]|B]; [nra|]. apply (between_ge _ _ _ _ _ R') in B. lra.
Qed.
Lemma between_fun table f x y y' : rising table -> between_rows table f x y -> between_rows table f x y' -> y = y'.
Proof.
  induction 1 as [a|a b l L R' IH]; intros B B'; [elim (between_one _ _ _ _ B)|]. apply between_cons in B, B'. destruct B as [[H E]|B], B' as [[H' E']|B'].
  - assert (Z : (y - y') * (w_repi b - w_repi a) = 0) by lra. apply Rmult_integral in Z. lra.
  - pose proof (between_ge _ _ _ _ _ R' B'). assert (x = w_repi b) by lra. subst x. rewrite (between_start _ _ _ _ R' B'). nra.
  - pose proof (between_ge _ _ _ _ _ R' B). assert (x = w_repi b) by lra. subst x. rewrite (between_start _ _ _ _ R' B). nra.
  - apply IH; assumption.
Qed.
Lemma bracket_spec x : forall rest r0, rest <> [] -> rising (r0 :: rest) -> exists before a b after, bracket w_repi x r0 rest = Some (a, b) /\ r0 :: rest = before ++ a :: b :: after /\ w_repi a < w_repi b /\
  (before = [] \/ w_repi a < x) /\ (after = [] \/ x <= w_repi b).
Proof.
  induction rest as [|r1 rest IH]; intros r0 N Rs; [congruence|]. inversion Rs as [|a' b' l' L R']; subst. destruct rest as [|r2 rest].
  - exists [], r0, r1, []. split; [cbn [bracket]; destruct (rltb (w_repi r1) x); reflexivity|]. split; [reflexivity|]. auto.
  - change (bracket w_repi x r0 (r1 :: r2 :: rest)) with (if rltb (w_repi r1) x then bracket w_repi x r1 (r2 :: rest) else Some (r0, r1)). destruct (rltb (w_repi r1) x) eqn:C; [apply rltb_iff in C|apply rltb_no in C].
    + destruct (IH r1 ltac:(discriminate) R') as (pre & a & b & post & E & S & Lab & P1 & P2). exists (r0 :: pre), a, b, post. split; [exact E|]. split; [cbn [app]; rewrite <- S; reflexivity|]. split; [exact Lab|]. split; [|exact P2]. right. destruct P1 as [->|P1]; [|exact P1]. cbn [app] in S. injection S as <- _. exact C.
    + exists [], r0, r1, (r2 :: rest). split; [reflexivity|]. split; [reflexivity|]. split; [exact L|]. split; [left; reflexivity|right; exact C].
Qed.
Lemma last_app {A} (l : list A) x d : last (l ++ [x]) d = x. Proof. apply last_last. Qed.
(** Between the rows of the table the distance goes along straight lines. *)
Theorem C93_line : forall table f lo hi x y, rising table -> reaches table lo hi -> lo <= x <= hi -> (interp table f x = Ok y <-> between_rows table f x y).
Proof.
  intros table f lo hi x y Rs (a0 & l & b0 & -> & A & B) H.
  assert (G : exists z, interp (a0 :: l ++ [b0]) f x = Ok z /\ between_rows (a0 :: l ++ [b0]) f x z).
  { assert (NE : l ++ [b0] <> []) by (destruct l; discriminate). destruct (bracket_spec x (l ++ [b0]) a0 NE Rs) as (pre & a & b & post & E & S & L & P1 & P2).
    assert (E1 : interp (a0 :: l ++ [b0]) f x = Ok (line (w_repi a) (f a) (w_repi b) (f b) x)).
    { unfold interp. destruct (l ++ [b0]) as [|c r] eqn:EL; [congruence|]. rewrite E. rewrite <- EL, last_app. assert (X1 : rltb x (w_repi a0) = false) by (apply rltb_no; lra). assert (X2 : rltb (w_repi b0) x = false) by (apply rltb_no; lra). rewrite X1, X2. reflexivity. }
    exists (line (w_repi a) (f a) (w_repi b) (f b) x). split; [exact E1|]. exists pre, a, b, post. split; [exact S|]. split.
    - split; [destruct P1 as [->|P1]; [|lra]; cbn [app] in S; injection S as <- _; lra|]. destruct P2 as [->|P2]; [|exact P2]. change (a0 :: l ++ [b0]) with ((a0 :: l) ++ [b0]) in S. replace (pre ++ [a; b]) with ((pre ++ [a]) ++ [b]) in S by (rewrite <- app_assoc; reflexivity). apply app_inj_tail in S. destruct S as [_ <-]. lra.
    - unfold line. field. lra. }
  destruct G as (z & E & Z). split; [intro X; rewrite E in X; injection X as <-; exact Z|]. intro X. rewrite E. f_equal. eapply between_fun; eassumption.
Qed.
Print Assumptions C93_line.
Lemma interp_outside a l b f x : rising (a :: l ++ [b]) -> x < w_repi a \/ w_repi b < x -> interp (a :: l ++ [b]) f x = Err ValueError.
Proof.
  intros Rs H. assert (NE : l ++ [b] <> []) by (destruct l; discriminate). destruct (bracket_spec x (l ++ [b]) a NE Rs) as (pre & c & d & post & E & _). unfold interp. destruct (l ++ [b]) as [|e r] eqn:EL; [congruence|]. rewrite E, <- EL, last_app.
  assert (X : (rltb x (w_repi a) || rltb (w_repi b) x)%bool = true). { apply orb_true_iff. destruct H as [H|H]; [left|right]; apply rltb_iff; exact H. } rewrite X. reflexivity.
Qed.
(** An answer lies between the least and the greatest of the table. *)
Theorem C93_within : forall table f x y lo hi, rising table -> between_rows table f x y -> (forall r, In r table -> lo <= f r <= hi) -> lo <= y <= hi.
Proof.
  intros table f x y lo hi Rs (pre & a & b & post & -> & H & E) B. assert (Ba := B a ltac:(apply in_app_iff; right; left; reflexivity)). assert (Bb := B b ltac:(apply in_app_iff; right; right; left; reflexivity)).
  assert (L : w_repi a < w_repi b). { clear - Rs. remember (pre ++ a :: b :: post) as t eqn:T. revert pre T. induction Rs as [c|c d l L R' IH]; intros pre T; [destruct pre as [|? [|? ?]]; discriminate|]. destruct pre as [|z pre]; [injection T as -> -> _; exact L|]. cbn [app] in T. injection T as _ T. exact (IH pre T). }
  assert (E' : y * (w_repi b - w_repi a) = f a * (w_repi b - x) + f b * (x - w_repi a)) by lra. split; nra.
Qed.
Print Assumptions C93_within.

(** Distances to a point rupture. *)
Lemma away_geo lon0 lat0 d0 lon lat dep r : away lon0 lat0 d0 (lon, lat, dep) r <-> r = geo_distance lon0 lat0 d0 lon lat dep.
Proof.
  destruct (C42_depth lon0 lat0 d0 lon lat dep) as (P & Q & _). destruct (dist_angle lon0 lat0 lon lat) as (t & A & E). rewrite E in Q. split.
  - intros (t' & A' & P' & Q'). rewrite (angle_det _ _ _ _ A' A) in Q'. assert (Z : r * r = geo_distance lon0 lat0 d0 lon lat dep * geo_distance lon0 lat0 d0 lon lat dep) by (rewrite Q; nra). set (g := geo_distance lon0 lat0 d0 lon lat dep) in *. clearbody g. nra.
  - intros ->. exists t. split; [exact A|]. split; [exact P|]. nra.
Qed.
Lemma epicentral_repi o s r : epicentral o s r <-> r = Rmax (compute_repi o s) near_zero.
Proof.
  destruct o as [[lon0 lat0] dep0], s as [[lon lat] dep]. unfold epicentral, compute_repi, near_zero. replace (1 / 10000) with (/ 10000) by lra. split.
  - intros (d & A & H). apply away_geo in A. subst d. destruct H as [[H ->]|[H ->]]; [rewrite Rmax_right by exact H|rewrite Rmax_left by exact H]; reflexivity.
  - intros ->. exists (geo_distance lon0 lat0 0 lon lat dep). split; [apply away_geo; reflexivity|]. destruct (Rle_dec (geo_distance lon0 lat0 0 lon lat dep) (/ 10000)) as [H|H]; [left; rewrite Rmax_right by exact H|right; rewrite Rmax_left by lra]; split; lra.
Qed.
Lemma repis_spec o : forall sites rs, Forall2 (epicentral o) sites rs <-> rs = repis o sites.
Proof.
  induction sites as [|s sites IH]; intros rs; [split; [intro F; inversion F; reflexivity|intros ->; constructor]|]. cbn [repis map]. split.
  - intro F. inversion F as [|s' r' l l' H F']; subst. apply epicentral_repi in H. apply IH in F'. subst. reflexivity.
  - intros ->. constructor; [apply epicentral_repi; reflexivity|]. apply IH. reflexivity.
Qed.
Lemma fold_min : forall l x, least (fold_left Rmin l x) (x :: l).
Proof.
  induction l as [|y l IH]; intros x; cbn [fold_left]; [split; [left; reflexivity|intros z [<-|[]]; lra]|]. destruct (IH (Rmin x y)) as [I L]. split.
  - destruct I as [I|I]; [rewrite <- I; unfold Rmin at 1; destruct (Rle_dec x y); [left; reflexivity|right; left; reflexivity]|right; right; exact I].
  - intros z [<-|[<-|Z]]; [apply Rle_trans with (Rmin x y); [apply L; left; reflexivity|apply Rmin_l]|apply Rle_trans with (Rmin x y); [apply L; left; reflexivity|apply Rmin_r]|apply L; right; exact Z].
Qed.
Lemma fold_max : forall l x, greatest (fold_left Rmax l x) (x :: l).
Proof.
  induction l as [|y l IH]; intros x; cbn [fold_left]; [split; [left; reflexivity|intros z [<-|[]]; lra]|]. destruct (IH (Rmax x y)) as [I L]. split.
  - destruct I as [I|I]; [rewrite <- I; unfold Rmax at 1; destruct (Rle_dec x y); [right; left; reflexivity|left; reflexivity]|right; right; exact I].
  - intros z [<-|[<-|Z]]; [apply Rle_trans with (Rmax x y); [apply Rmax_l|apply L; left; reflexivity]|apply Rle_trans with (Rmax x y); [apply Rmax_r|apply L; left; reflexivity]|apply L; right; exact Z].
Qed.
Lemma list_min_spec l x : least x l <-> list_min l = Ok x.
Proof.
  destruct l as [|a l]; [split; [intros [[] _]|discriminate]|]. cbn [list_min]. destruct (fold_min l a) as [I L]. split.
  - intros [I' L']. f_equal. apply Rle_antisym; [apply L; exact I'|apply L'; exact I].
  - intro E. injection E as <-. split; assumption.
Qed.
Lemma list_max_spec l x : greatest x l <-> list_max l = Ok x.
Proof.
  destruct l as [|a l]; [split; [intros [[] _]|discriminate]|]. cbn [list_max]. destruct (fold_max l a) as [I L]. split.
  - intros [I' L']. f_equal. apply Rle_antisym; [apply L'; exact I|apply L; exact I'].
  - intro E. injection E as <-. split; assumption.
Qed.
Lemma map_interp table f lo hi : rising table -> reaches table lo hi -> forall rs, (forall r, In r rs -> lo <= r <= hi) -> forall ys, map_res (interp table f) rs = Ok ys <-> Forall2 (between_rows table f) rs ys.
Proof.
  intros Rs Re. induction rs as [|r rs IH]; intros B ys; cbn [map_res].
  - split; [intro E; injection E as <-; constructor|intro F; inversion F; reflexivity].
  - assert (L := C93_line table f lo hi r). specialize (IH (fun r' X => B r' (or_intror X))). split.
    + destruct (interp table f r) as [y|] eqn:E; [|discriminate]. cbn [bind]. destruct (map_res (interp table f) rs) as [ys'|] eqn:E'; [|discriminate]. cbn [bind]. intro X. injection X as <-. constructor; [apply L; auto; apply B; left; reflexivity|]. apply IH. reflexivity.
    + intro F. inversion F as [|a y l ys' H F']; subst. apply L in H; [|exact Rs|exact Re|apply B; left; reflexivity]. rewrite H. cbn [bind]. apply IH in F'. rewrite F'. reflexivity.
Qed.
Lemma interp_some table f lo hi x : rising table -> reaches table lo hi -> lo <= x <= hi -> exists y, interp table f x = Ok y.
Proof.
  intros Rs (a & l & b & -> & A & B) H. unfold interp. assert (NE : l ++ [b] <> []) by (destruct l; discriminate). destruct (bracket_spec x (l ++ [b]) a NE Rs) as (pre & c & d & post & E & _). destruct (l ++ [b]) as [|e r] eqn:EL; [congruence|]. rewrite E, <- EL, last_app.
  assert (X1 : rltb x (w_repi a) = false) by (apply rltb_no; lra). assert (X2 : rltb (w_repi b) x = false) by (apply rltb_no; lra). rewrite X1, X2. eexists. reflexivity.
Qed.
Lemma map_some table f lo hi : rising table -> reaches table lo hi -> forall rs, (forall r, In r rs -> lo <= r <= hi) -> exists ys, map_res (interp table f) rs = Ok ys.
Proof.
  intros Rs Re. induction rs as [|r rs IH]; intro B; [exists []; reflexivity|]. cbn [map_res]. destruct (interp_some table f lo hi r Rs Re (B r (or_introl eq_refl))) as (y & ->). destruct (IH (fun r' X => B r' (or_intror X))) as (ys & ->). exists (y :: ys). reflexivity.
Qed.
Lemma real_angles_eq p : real_angles p = in_radians p.
Proof. unfold real_angles, in_radians, deg. f_equal; field. Qed.
(** When the table reaches all sites, distances and variances are read from
    it, at the epicentral distances. *)
Theorem C93_distance : forall adjustment o at_o sites rs lo hi p mag dep table,
  distinct o -> adjusted_by o p -> In (str_of "mag", mag) o -> In (str_of "depth", dep) o -> Forall2 (epicentral at_o) sites rs -> least lo rs -> greatest hi rs ->
  adjustment mag dep (real_angles p) (lo - / 100000) (hi + / 10) = Ok table -> rising table -> reaches table lo hi ->
  (exists d v, point_rjb adjustment o at_o sites = Ok (d, v)) /\ (exists d v, point_rrup adjustment o at_o sites = Ok (d, v)) /\
  (forall d v, point_rjb adjustment o at_o sites = Ok (d, v) <-> Forall2 (between_rows table w_rjb) rs d /\ Forall2 (between_rows table w_rjb_var) rs v) /\
  (forall d v, point_rrup adjustment o at_o sites = Ok (d, v) <-> Forall2 (between_rows table w_rrup) rs d /\ Forall2 (between_rows table w_rrup_var) rs v).
Proof.
  intros adjustment o at_o sites rs lo hi p mag dep table D A M Dp F Lo Hi T Rs Re. apply (C93_coefficients o p D) in A. apply (dget_in _ _ _ D) in M, Dp. apply repis_spec in F. subst rs.
  assert (B : forall r, In r (repis at_o sites) -> lo <= r <= hi) by (intros r X; split; [apply Lo; exact X|apply Hi; exact X]). apply list_min_spec in Lo. apply list_max_spec in Hi.
  replace (lo - / 100000) with (lo - 1 / 100000) in T by lra. replace (hi + / 10) with (hi + 1 / 10) in T by lra. rewrite real_angles_eq in T.
  assert (E1 : point_rjb adjustment o at_o sites = bind (map_res (interp table w_rjb) (repis at_o sites)) (fun a => bind (map_res (interp table w_rjb_var) (repis at_o sites)) (fun b => Ok (a, b)))).
  { unfold point_rjb, compute_rdist, attr. rewrite A, M, Dp. cbn [bind]. cbv zeta. rewrite Lo, Hi. cbn [bind]. rewrite T. reflexivity. }
  assert (E2 : point_rrup adjustment o at_o sites = bind (map_res (interp table w_rrup) (repis at_o sites)) (fun a => bind (map_res (interp table w_rrup_var) (repis at_o sites)) (fun b => Ok (a, b)))).
  { unfold point_rrup, compute_rdist, attr. rewrite A, M, Dp. cbn [bind]. cbv zeta. rewrite Lo, Hi. cbn [bind]. rewrite T. reflexivity. }
  rewrite E1, E2. clear E1 E2.
  assert (G : forall f g, (exists d v, bind (map_res (interp table f) (repis at_o sites)) (fun a => bind (map_res (interp table g) (repis at_o sites)) (fun b => Ok (a, b))) = Ok (d, v)) /\
    forall d v, bind (map_res (interp table f) (repis at_o sites)) (fun a => bind (map_res (interp table g) (repis at_o sites)) (fun b => Ok (a, b))) = Ok (d, v) <-> Forall2 (between_rows table f) (repis at_o sites) d /\ Forall2 (between_rows table g) (repis at_o sites) v).
  { intros f g. assert (If := map_interp table f lo hi Rs Re _ B). assert (Ig := map_interp table g lo hi Rs Re _ B). destruct (map_some table f lo hi Rs Re _ B) as (ys & Y). destruct (map_some table g lo hi Rs Re _ B) as (zs & Z). rewrite Y, Z in *. cbn [bind]. split; [exists ys, zs; reflexivity|]. intros d v. rewrite <- If, <- Ig. split; [intro X; injection X as -> ->; split; reflexivity|intros [X X']; injection X as ->; injection X' as ->; reflexivity]. }
  destruct (G w_rjb w_rjb_var) as [G1 G2]. destruct (G w_rrup w_rrup_var) as [G3 G4]. exact (conj G1 (conj G3 (conj G2 G4))).
Qed.
Print Assumptions C93_distance.
(** No sites, an unknown kind of distance, or a table that stops short of a
    site: ValueError. *)
Theorem C93_refused : forall adjustment o at_o p mag dep, distinct o -> adjusted_by o p -> In (str_of "mag", mag) o -> In (str_of "depth", dep) o ->
  (forall kind, compute_rdist adjustment o at_o kind [] = Err ValueError) /\
  forall sites rs lo hi a l b, Forall2 (epicentral at_o) sites rs -> least lo rs -> greatest hi rs -> adjustment mag dep (real_angles p) (lo - / 100000) (hi + / 10) = Ok (a :: l ++ [b]) -> rising (a :: l ++ [b]) ->
    (forall kind, kind <> str_of "Rjb" -> kind <> str_of "Rrup" -> compute_rdist adjustment o at_o kind sites = Err ValueError) /\
    (lo < w_repi a \/ w_repi b < hi -> point_rjb adjustment o at_o sites = Err ValueError /\ point_rrup adjustment o at_o sites = Err ValueError).
Proof.
  intros adjustment o at_o p mag dep D A M Dp. apply (C93_coefficients o p D) in A. apply (dget_in _ _ _ D) in M, Dp. split.
  - intro kind. unfold compute_rdist, attr. rewrite A, M, Dp. reflexivity.
  - intros sites rs lo hi a l b F Lo Hi T Rs. apply repis_spec in F. subst rs. assert (Il := proj1 Lo). assert (Ih := proj1 Hi). apply list_min_spec in Lo. apply list_max_spec in Hi.
    replace (lo - / 100000) with (lo - 1 / 100000) in T by lra. replace (hi + / 10) with (hi + 1 / 10) in T by lra. rewrite real_angles_eq in T. split.
    + intros kind K1 K2. unfold compute_rdist, attr. rewrite A, M, Dp. cbn [bind]. cbv zeta. rewrite Lo, Hi. cbn [bind]. rewrite T. cbn [bind].
      destruct (str_eqb kind (str_of "Rjb")) eqn:X; [apply str_eqb_eq in X; contradiction|]. destruct (str_eqb kind (str_of "Rrup")) eqn:X'; [apply str_eqb_eq in X'; contradiction|]. reflexivity.
    + intro H. assert (G : forall f rs, (exists x, In x rs /\ (x < w_repi a \/ w_repi b < x)) -> map_res (interp (a :: l ++ [b]) f) rs = Err ValueError).
      { intros f. induction rs as [|r rs IH]; intros (x & I & X); [destruct I|]. cbn [map_res]. destruct (Rlt_dec r (w_repi a)) as [N|N]; [rewrite (interp_outside a l b f r Rs (or_introl N)); reflexivity|]. destruct (Rlt_dec (w_repi b) r) as [N'|N']; [rewrite (interp_outside a l b f r Rs (or_intror N')); reflexivity|].
        destruct (interp_some (a :: l ++ [b]) f (w_repi a) (w_repi b) r Rs) as (y & ->); [exists a, l, b; repeat split; lra|lra|]. cbn [bind]. rewrite IH; [reflexivity|]. destruct I as [->|I]; [lra|exists x; auto]. }
      assert (W : exists x, In x (repis at_o sites) /\ (x < w_repi a \/ w_repi b < x)) by (destruct H; [exists lo|exists hi]; auto).
      unfold point_rjb, point_rrup, compute_rdist, attr. rewrite A, M, Dp. cbn [bind]. cbv zeta. rewrite Lo, Hi. cbn [bind]. rewrite T. cbn [bind]. split; [change (str_eqb (str_of "Rjb") (str_of "Rjb")) with true; cbv iota; rewrite (G w_rjb _ W); reflexivity|change (str_eqb (str_of "Rrup") (str_of "Rjb")) with false; change (str_eqb (str_of "Rrup") (str_of "Rrup")) with true; cbv iota; rewrite (G w_rrup _ W); reflexivity].
Qed.
Print Assumptions C93_refused.
Definition ex_rows : list row := [mkrow 0 0 4 1 2; mkrow 20 10 8 3 2; mkrow 40 30 9 3 2].
Definition ex_point : dict value := [(str_of "mag", VFloat (Fin 7)); (str_of "depth", VFloat (Fin 10)); (str_of "mech", VStr (str_of "SS")); (str_of "_tectonic_region", VStr (str_of "Active Shallow Crust"))].
Lemma ex_point_distinct : distinct ex_point.
Proof. repeat constructor; cbn [In map fst]; intro H; repeat destruct H as [H|H]; try discriminate H; exact H. Qed.
(** A place ten kilometres above the origin. *)
Example C93_ex : point_rjb (fun _ _ _ _ _ => Ok ex_rows) ex_point (120, -30, 10) [(120, -30, 10)] = Ok ([5], [2]).
Proof.
  assert (Ep : epicentral (120, -30, 10) (120, -30, 10) 10).
  { exists 10. split; [|right; split; [lra|reflexivity]]. exists 0. split; [split; [pose proof PI_RGT_0; lra|]; rewrite cos_0; symmetry; apply place_unit|]. split; [lra|ring]. }
  refine (proj2 (proj1 (proj2 (proj2 (C93_distance _ ex_point (120, -30, 10) [(120, -30, 10)] [10] 10 10 (mkparams HB08 MechSS 75 90 1.7) (VFloat (Fin 7)) (VFloat (Fin 10)) ex_rows ex_point_distinct _ _ _ _ _ _ _ _ _))) _ _) _).
  - refine (in_region _ "Active Shallow Crust" "SS" _ _ _ active_ss); [right; right; right; left; reflexivity|left; right; right; left; reflexivity].
  - left. reflexivity.
  - right. left. reflexivity.
  - constructor; [exact Ep|constructor].
  - split; [left; reflexivity|intros y [<-|[]]; lra].
  - split; [left; reflexivity|intros y [<-|[]]; lra].
  - reflexivity.
  - repeat constructor; cbn [w_repi]; lra.
  - exists (mkrow 0 0 4 1 2), [mkrow 20 10 8 3 2], (mkrow 40 30 9 3 2). split; [reflexivity|]. cbn [w_repi]. lra.
  - split; (constructor; [|constructor]); exists [], (mkrow 0 0 4 1 2), (mkrow 20 10 8 3 2), [mkrow 40 30 9 3 2]; (split; [reflexivity|]); cbn [w_repi w_rjb w_rjb_var]; split; lra.
Qed.
Example C93_ex_unbound : ps2ff_params [(str_of "mech", VStr (str_of "XX")); (str_of "_tectonic_region", VStr (str_of "Stable Shallow Crust"))] = Err Unbound.
Proof. reflexivity. Qed.

(** ** C94 *)
Lemma attr_in o k v : distinct o -> (attr k o = Ok v <-> In (k, v) o).
Proof. intro D. unfold attr. split; [destruct (dget k o) as [w|] eqn:E; [|discriminate]; intro X; injection X as <-; apply dget_sound; exact E|]. intro I. apply (dget_in _ _ _ D) in I. rewrite I. reflexivity. Qed.
Lemma rake_val o v : distinct o -> (match dget (str_of "rake") o with
        | Some r => Ok r
        | None =>
            match dget (str_of "mech") o with
            | Some (VStr m) => match rake_of m with Some (Some r) => Ok (VFloat (Fin r)) | Some None => Ok VNone | None => Err KeyError end
            | Some _ => Err KeyError
            | None => Ok VNone
            end
        end = Ok v <-> rake_says o v).
Proof.
  intro D. destruct (dget (str_of "rake") o) as [r|] eqn:E.
  - split; [intro X; injection X as <-; apply own_rake, dget_sound; exact E|]. intro S. assert (H : has o (str_of "rake")) by (exists r; apply dget_sound; exact E).
    destruct S as [v I| | | | |]; try contradiction. apply (dget_in _ _ _ D) in I. congruence.
  - apply dget_none in E. assert (E' : forall w, ~ In (str_of "rake", w) o) by (intros w W; apply E; exists w; exact W). destruct (dget (str_of "mech") o) as [m|] eqn:M.
    + assert (Hm : has o (str_of "mech")) by (exists m; apply dget_sound; exact M).
      assert (U : forall w, In (str_of "mech", w) o -> w = m) by (intros w W; apply (dget_in _ _ _ D) in W; congruence). apply dget_sound in M. split.
      * destruct m as [s| | | |]; try discriminate. unfold rake_of. destruct (str_eqb s (str_of "SS")) eqn:Q1; [apply str_eqb_eq in Q1; subst s; intro X; injection X as <-; apply strike_slip; assumption|].
        destruct (str_eqb s (str_of "NM")) eqn:Q2; [apply str_eqb_eq in Q2; subst s; intro X; injection X as <-; apply normal; assumption|].
        destruct (str_eqb s (str_of "RS")) eqn:Q3; [apply str_eqb_eq in Q3; subst s; intro X; injection X as <-; apply reverse; assumption|].
        destruct (str_eqb s (str_of "ALL")) eqn:Q4; [apply str_eqb_eq in Q4; subst s; intro X; injection X as <-; apply any_kind; assumption|]. discriminate.
      * intro S. destruct S as [v I|_ I|_ I|_ I|_ I|_ I]; [elim (E' _ I)| | | | |contradiction]; apply U in I; subst m; reflexivity.
    + apply dget_none in M. assert (M' : forall w, ~ In (str_of "mech", w) o) by (intros w W; apply M; exists w; exact W). split; [intro X; injection X as <-; apply unsaid; assumption|]. intro S. destruct S as [v I|_ I|_ I|_ I|_ I|_ I]; try reflexivity; first [elim (E' _ I)|elim (M' _ I)].
Qed.
(** A context holds the origin's magnitude and place, the rupture's angles and
    sizes, and the rake. *)
Theorem C94_context : forall o strike dip ztor width c, distinct o ->
  (rupture_context o strike dip ztor width = Ok c <->
   In (str_of "mag", c_mag c) o /\ In (str_of "lat", c_lat c) o /\ In (str_of "lon", c_lon c) o /\ In (str_of "depth", c_depth c) o /\
   strike = Ok (c_strike c) /\ dip = Ok (c_dip c) /\ ztor = Ok (c_ztor c) /\ width = Ok (c_width c) /\ rake_says o (c_rake c)).
Proof.
  intros o strike dip ztor width c D. unfold rupture_context. split.
  - destruct (attr (str_of "mag") o) as [mag|] eqn:E1; [|discriminate]. destruct strike as [st|], dip as [di|], ztor as [zt|], width as [wi|]; try discriminate. cbn [bind].
    match goal with |- bind ?x _ = _ -> _ => destruct x as [rk|] eqn:E2; [|discriminate] end. cbn [bind]. destruct (attr (str_of "lat") o) as [la|] eqn:E3; [|discriminate]. destruct (attr (str_of "lon") o) as [lo|] eqn:E4; [|discriminate]. destruct (attr (str_of "depth") o) as [de|] eqn:E5; [|discriminate]. cbn [bind].
    intro X. injection X as <-. cbn [c_mag c_lat c_lon c_depth c_strike c_dip c_ztor c_width c_rake]. apply (attr_in _ _ _ D) in E1, E3, E4, E5. apply (rake_val _ _ D) in E2. repeat split; assumption.
  - intros (M & La & Lo & De & -> & -> & -> & -> & Rk). apply (attr_in _ _ _ D) in M, La, Lo, De. apply (rake_val _ _ D) in Rk. rewrite M. cbn [bind]. rewrite Rk. cbn [bind]. rewrite La, Lo, De. destruct c. reflexivity.
Qed.
Print Assumptions C94_context.
(** An origin always gives one, and its rake is a number: that of the event, or
    the mechanism's, which is 0 where the mechanism is ALL. *)
Theorem C94_origin : forall fparse ev o strike dip ztor width, distinct ev -> snd (new_origin fparse ev) = Ok o ->
  exists c m r, rupture_context o (Ok strike) (Ok dip) (Ok ztor) (Ok width) = Ok c /\ mechanism ev m /\ mech_rake m r /\
    exists x, c_rake c = VFloat x /\ ((exists w, In (str_of "rake", w) ev /\ number fparse w x) \/ (~ has ev "rake"%string /\ x = Fin r)).
Proof.
  intros fparse ev o strike dip ztor width D E. destruct (C55_attributes fparse ev o D E) as (Do & m & r & Me & R & I & Rk & _ & Oth). assert (V : valid fparse ev) by (apply (C55_accepts fparse ev D); exists o; exact E). destruct V as (C & _ & _ & _ & _ & AR).
  assert (G : exists x, (exists w, In (str_of "rake", w) ev /\ number fparse w x) \/ (~ has ev "rake"%string /\ x = Fin r)).
  { destruct (dget (str_of "rake") ev) as [w|] eqn:W; [apply dget_sound in W; destruct (AR w W) as (x & X); exists x; left; exists w; auto|apply dget_none in W; exists (Fin r); right; auto]. }
  destruct G as (x & G). assert (Ix : In (str_of "rake", VFloat x) o) by (apply Rk; exists x; auto).
  assert (Get : forall k : string, is_required k -> str_of k <> str_of "mech" -> str_of k <> str_of "type" -> str_of k <> str_of "rake" -> exists v, In (str_of k, v) o).
  { intros k K N1 N2 N3. destruct (C k K) as (v & X). exists v. apply Oth; assumption. }
  destruct (Get "mag"%string) as (ma & Ma); [unfold is_required; tauto|discriminate|discriminate|discriminate|]. destruct (Get "lat"%string) as (la & La); [unfold is_required; tauto|discriminate|discriminate|discriminate|].
  destruct (Get "lon"%string) as (lo & Lo); [unfold is_required; tauto|discriminate|discriminate|discriminate|]. destruct (Get "depth"%string) as (de & De); [unfold is_required; tauto|discriminate|discriminate|discriminate|].
  exists (mkcontext ma strike dip ztor width (VFloat x) la lo de), m, r. split; [apply (C94_context _ _ _ _ _ _ Do); cbn [c_mag c_lat c_lon c_depth c_strike c_dip c_ztor c_width c_rake]; repeat split; try assumption; apply own_rake; exact Ix|]. split; [exact Me|]. split; [exact R|]. exists x. split; [reflexivity|exact G].
Qed.
Print Assumptions C94_origin.
(** Without a rake, an unknown mechanism is a KeyError. *)
Theorem C94_key : forall o m strike dip ztor width, distinct o -> ~ has o (str_of "rake") -> In (str_of "mech", VStr m) o -> ~ known m -> has o (str_of "mag") -> rupture_context o (Ok strike) (Ok dip) (Ok ztor) (Ok width) = Err KeyError.
Proof.
  intros o m strike dip ztor width D N M K (v & V). apply (attr_in _ _ _ D) in V. unfold rupture_context. rewrite V. cbn [bind]. apply (dget_in _ _ _ D) in M. rewrite M. destruct (dget (str_of "rake") o) as [w|] eqn:E; [elim N; exists w; apply dget_sound; exact E|].
  assert (Z : rake_of m = None). { unfold rake_of. destruct (str_eqb m (str_of "SS")) eqn:Q1; [apply str_eqb_eq in Q1; subst m; elim K; eexists; constructor|]. destruct (str_eqb m (str_of "NM")) eqn:Q2; [apply str_eqb_eq in Q2; subst m; elim K; eexists; constructor|].
    destruct (str_eqb m (str_of "RS")) eqn:Q3; [apply str_eqb_eq in Q3; subst m; elim K; eexists; constructor|]. destruct (str_eqb m (str_of "ALL")) eqn:Q4; [apply str_eqb_eq in Q4; subst m; elim K; eexists; constructor|]. reflexivity. } rewrite Z. reflexivity.
Qed.
Print Assumptions C94_key.
(** Hypocentral distance is measured from the hypocentre, epicentral distance
    from the place at depth zero above it; sites keep their depths. *)
Theorem C94_away : forall lon0 lat0 dep0 s r, (compute_rhyp (lon0, lat0, dep0) s = r <-> away lon0 lat0 dep0 s r) /\ (compute_repi (lon0, lat0, dep0) s = r <-> away lon0 lat0 0 s r).
Proof. intros lon0 lat0 dep0 [[lon lat] dep] r. rewrite !away_geo. split; split; intro H; symmetry; exact H. Qed.
Print Assumptions C94_away.
Theorem C94_surface : forall lon0 lat0 dep0 lon lat, let e := compute_repi (lon0, lat0, dep0) (lon, lat, 0) in let h := compute_rhyp (lon0, lat0, dep0) (lon, lat, 0) in e <= h /\ h ^ 2 = e ^ 2 + dep0 ^ 2 /\ Rabs dep0 <= h.
Proof.
  intros lon0 lat0 dep0 lon lat e h. destruct (proj1 (proj2 (C94_away lon0 lat0 dep0 (lon, lat, 0) e)) eq_refl) as (t & A & Pe & Qe). destruct (proj1 (proj1 (C94_away lon0 lat0 dep0 (lon, lat, 0) h)) eq_refl) as (t' & A' & Ph & Qh). rewrite (angle_det _ _ _ _ A' A) in Qh. clearbody e h.
  assert (Z : h ^ 2 = e ^ 2 + dep0 ^ 2) by (rewrite Qe, Qh; ring). split; [nra|]. split; [exact Z|]. unfold Rabs. destruct (Rcase_abs dep0); nra.
Qed.
Print Assumptions C94_surface.
(** In general neither need be the smaller one. *)
Theorem C94_order : forall lon0 lat0 dep0 lon lat dep, compute_repi (lon0, lat0, dep0) (lon, lat, dep) <= compute_rhyp (lon0, lat0, dep0) (lon, lat, dep) <-> Rabs dep <= Rabs (dep - dep0).
Proof.
  intros lon0 lat0 dep0 lon lat dep. destruct (proj1 (proj2 (C94_away lon0 lat0 dep0 (lon, lat, dep) _)) eq_refl) as (t & A & Pe & Qe). destruct (proj1 (proj1 (C94_away lon0 lat0 dep0 (lon, lat, dep) _)) eq_refl) as (t' & A' & Ph & Qh). rewrite (angle_det _ _ _ _ A' A) in Qh.
  set (e := compute_repi _ _) in *. set (h := compute_rhyp _ _) in *. clearbody e h. split.
  - intro L. apply Rsqr_le_abs_0. unfold Rsqr. nra.
  - intro L. apply Rsqr_le_abs_1 in L. unfold Rsqr in L. nra.
Qed.
Print Assumptions C94_order.
Theorem C94_closer_refuted : exists o s, compute_rhyp o s < compute_repi o s.
Proof.
  exists (120, -30, 10), (120, -30, 10). apply Rnot_le_lt. intro L. apply C94_order in L. replace (10 - 10) with 0 in L by ring. rewrite Rabs_R0, Rabs_pos_eq in L by lra. lra.
Qed.
Print Assumptions C94_closer_refuted.
Definition ex_attrs : dict value := [(str_of "mag", VFloat (Fin 7)); (str_of "lat", VFloat (Fin 1)); (str_of "lon", VFloat (Fin 2)); (str_of "depth", VFloat (Fin 10)); (str_of "mech", VStr (str_of "RS"))].
(** The context of a point rupture. *)
Example C94_ex : rupture_context ex_attrs (Ok (Some point_strike)) (Ok (Some point_dip)) (Ok (Some point_ztor)) (Ok (Some point_width)) =
  Ok (mkcontext (VFloat (Fin 7)) (Some 0) (Some 90) (Some 0) (Some 0) (VFloat (Fin 90)) (VFloat (Fin 1)) (VFloat (Fin 2)) (VFloat (Fin 10))).
Proof. reflexivity. Qed.
(** A point rupture has the five GC2 measures, all zero. *)
Theorem C93_gc2 : forall (V : Type) (zeros_like : V -> V) lon k v, In (k, v) (point_gc2 zeros_like lon) <-> gc2_measure k /\ v = zeros_like lon.
Proof.
  intros V zeros_like lon k v. unfold gc2_measure, is_one_of, point_gc2. rewrite in_map_iff. cbn [In]. split.
  - intros (x & E & H). injection E as <- <-. split; [exists x; split; [intuition|reflexivity]|reflexivity].
  - intros [(x & H & ->) ->]. exists x. split; [reflexivity|intuition].
Qed.
Print Assumptions C93_gc2.
