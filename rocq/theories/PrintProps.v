(** Property C137: the texts of a point. *)
From Coq Require Import ZArith Reals String Ascii Bool List Lia Lra.
From Flocq Require Import Core.
From Verif Require Import PyBase VecModel GeoModel GeoSpec RuptModel PolyModel WriteModel PolySpec TextSpec WriteSpec TextProofs WriteProofs LonProps PrintModel.
Import ListNotations.
Open Scope R_scope.

(** ** Vocabulary *)
(** [s] is a numeral with [k] decimals, with a minus sign for negative numbers only, nearest to [x]. *)
Definition printed (k : nat) (x : R) (s : str) : Prop :=
  exists w f, all_digits w /\ w <> [] /\ all_digits f /\ length f = k /\
  let v := IZR (digits_value w) + IZR (digits_value f) / 10 ^ k in
  (0 <= x -> s = w ++ str_of "." ++ f /\ Rabs (x - v) <= / 2 / 10 ^ k) /\
  (x < 0 -> s = str_of "-" ++ w ++ str_of "." ++ f /\ Rabs (x + v) <= / 2 / 10 ^ k).

(** ** Lemmas *)
Lemma fixed6_printed x : printed 6 x (fixed6 x).
Proof.
  unfold fixed6. set (n := ZnearestE (Rabs x * 1000000)). assert (Hn : (0 <= n)%Z). { apply nearest_nonneg. pose proof (Rabs_pos x). lra. }
  assert (Hw : (0 <= n / 1000000)%Z) by (apply Z.div_pos; lia). destruct (str_of_Z_nonneg _ Hw) as (W1 & W2 & W3).
  assert (Hr : (0 <= n mod 1000000 < 1000000)%Z) by (apply Z.mod_pos_bound; lia). remember (n mod 1000000)%Z as r eqn:Er.
  assert (D1 : (0 <= r / 100000 < 10)%Z) by (split; [apply Z.div_pos; lia|apply Z.div_lt_upper_bound; lia]).
  assert (D2 : (0 <= r / 10000 mod 10 < 10)%Z) by (apply Z.mod_pos_bound; lia). assert (D3 : (0 <= r / 1000 mod 10 < 10)%Z) by (apply Z.mod_pos_bound; lia). assert (D4 : (0 <= r / 100 mod 10 < 10)%Z) by (apply Z.mod_pos_bound; lia). assert (D5 : (0 <= r / 10 mod 10 < 10)%Z) by (apply Z.mod_pos_bound; lia). assert (D6 : (0 <= r mod 10 < 10)%Z) by (apply Z.mod_pos_bound; lia).
  set (f := [digit_char (r / 100000); digit_char (r / 10000 mod 10); digit_char (r / 1000 mod 10); digit_char (r / 100 mod 10); digit_char (r / 10 mod 10); digit_char (r mod 10)]).
  assert (E : digits_value f = r).
  { unfold f, digits_value. cbn [fold_left]. rewrite (proj2 (digit_char_ok _ D1)), (proj2 (digit_char_ok _ D2)), (proj2 (digit_char_ok _ D3)), (proj2 (digit_char_ok _ D4)), (proj2 (digit_char_ok _ D5)), (proj2 (digit_char_ok _ D6)).
    pose proof (Z.div_mod r 10 ltac:(lia)) as A1. pose proof (Z.div_mod (r / 10) 10 ltac:(lia)) as A2. pose proof (Z.div_mod (r / 100) 10 ltac:(lia)) as A3. pose proof (Z.div_mod (r / 1000) 10 ltac:(lia)) as A4. pose proof (Z.div_mod (r / 10000) 10 ltac:(lia)) as A5. rewrite Z.div_div in A2, A3, A4, A5 by lia.
    change (10 * 10)%Z with 100%Z in A2. change (100 * 10)%Z with 1000%Z in A3. change (1000 * 10)%Z with 10000%Z in A4. change (10000 * 10)%Z with 100000%Z in A5. lia. }
  exists (str_of_Z (n / 1000000)), f. split; [exact W1|]. split; [exact W2|]. split; [unfold f; repeat (constructor; [apply digit_char_ok; assumption|]); constructor|]. split; [reflexivity|]. cbv zeta. rewrite E, W3.
  assert (V : IZR (n / 1000000) + IZR r / 10 ^ 6 = IZR n / 1000000). { assert (N : n = (1000000 * (n / 1000000) + r)%Z) by (rewrite Er; apply Z.div_mod; lia). rewrite N at 2. rewrite plus_IZR, mult_IZR. field. }
  rewrite V. destruct (nearest_places (Rabs x * 1000000)) as [A _]. fold n in A.
  assert (K : Rabs (Rabs x - IZR n / 1000000) <= / 2 / 10 ^ 6). { replace (Rabs x - IZR n / 1000000) with ((Rabs x * 1000000 - IZR n) * / 1000000) by field. rewrite Rabs_mult, (Rabs_right (/ 1000000)) by lra. lra. }
  split; intro X; destruct (Rlt_dec x 0) as [L|L]; try lra; (split; [reflexivity|]).
  - rewrite (Rabs_right x) in K by lra. exact K.
  - rewrite (Rabs_left x) in K by lra. replace (x + IZR n / 1000000) with (- (- x - IZR n / 1000000)) by ring. rewrite Rabs_Ropp. exact K.
Qed.
Lemma fixed4_printed x : printed 4 x (fixed4 x).
Proof.
  unfold fixed4. set (n := ZnearestE (Rabs x * 10000)). assert (Hn : (0 <= n)%Z). { apply nearest_nonneg. pose proof (Rabs_pos x). lra. }
  assert (Hw : (0 <= n / 10000)%Z) by (apply Z.div_pos; lia). destruct (str_of_Z_nonneg _ Hw) as (W1 & W2 & W3).
  assert (Hr : (0 <= n mod 10000 < 10000)%Z) by (apply Z.mod_pos_bound; lia). remember (n mod 10000)%Z as r eqn:Er.
  assert (D1 : (0 <= r / 1000 < 10)%Z) by (split; [apply Z.div_pos; lia|apply Z.div_lt_upper_bound; lia]).
  assert (D2 : (0 <= r / 100 mod 10 < 10)%Z) by (apply Z.mod_pos_bound; lia). assert (D3 : (0 <= r / 10 mod 10 < 10)%Z) by (apply Z.mod_pos_bound; lia). assert (D4 : (0 <= r mod 10 < 10)%Z) by (apply Z.mod_pos_bound; lia).
  set (f := [digit_char (r / 1000); digit_char (r / 100 mod 10); digit_char (r / 10 mod 10); digit_char (r mod 10)]).
  assert (E : digits_value f = r).
  { unfold f, digits_value. cbn [fold_left]. rewrite (proj2 (digit_char_ok _ D1)), (proj2 (digit_char_ok _ D2)), (proj2 (digit_char_ok _ D3)), (proj2 (digit_char_ok _ D4)).
    pose proof (Z.div_mod r 10 ltac:(lia)) as A1. pose proof (Z.div_mod (r / 10) 10 ltac:(lia)) as A2. pose proof (Z.div_mod (r / 100) 10 ltac:(lia)) as A3. rewrite Z.div_div in A2, A3 by lia. change (10 * 10)%Z with 100%Z in A2. change (100 * 10)%Z with 1000%Z in A3. lia. }
  exists (str_of_Z (n / 10000)), f. split; [exact W1|]. split; [exact W2|]. split; [unfold f; repeat (constructor; [apply digit_char_ok; assumption|]); constructor|]. split; [reflexivity|]. cbv zeta. rewrite E, W3.
  assert (V : IZR (n / 10000) + IZR r / 10 ^ 4 = IZR n / 10000). { assert (N : n = (10000 * (n / 10000) + r)%Z) by (rewrite Er; apply Z.div_mod; lia). rewrite N at 2. rewrite plus_IZR, mult_IZR. field. }
  rewrite V. destruct (nearest_places (Rabs x * 10000)) as [A _]. fold n in A.
  assert (K : Rabs (Rabs x - IZR n / 10000) <= / 2 / 10 ^ 4). { replace (Rabs x - IZR n / 10000) with ((Rabs x * 10000 - IZR n) * / 10000) by field. rewrite Rabs_mult, (Rabs_right (/ 10000)) by lra. lra. }
  split; intro X; destruct (Rlt_dec x 0) as [L|L]; try lra; (split; [reflexivity|]).
  - rewrite (Rabs_right x) in K by lra. exact K.
  - rewrite (Rabs_left x) in K by lra. replace (x + IZR n / 10000) with (- (- x - IZR n / 10000)) by ring. rewrite Rabs_Ropp. exact K.
Qed.
Lemma split_at (c : ascii) a : forall r a' r', ~ In c a -> ~ In c a' -> a ++ c :: r = a' ++ c :: r' -> a = a' /\ r = r'.
Proof.
  induction a as [|x a IH]; intros r [|y a'] r' N N' E; cbn [app] in E.
  - injection E as ->. auto.
  - injection E as E _. exfalso. apply N'. left. auto.
  - injection E as E _. exfalso. apply N. left. auto.
  - injection E as -> E. destruct (IH r a' r') as [-> ->]; [intro X; apply N; right; exact X|intro X; apply N'; right; exact X|exact E|]. auto.
Qed.
Lemma digits_no c l : is_digit c = false -> all_digits l -> ~ In c l.
Proof. intros D A I. unfold all_digits in A. rewrite Forall_forall in A. specialize (A _ I). congruence. Qed.
(** A numeral tells the number up to half a unit of its last place. *)
Lemma printed_close k x y s : printed k x s -> printed k y s -> Rabs (x - y) <= 1 / 10 ^ k.
Proof.
  intros (w & f & W & W0 & F & L & P & N) (w' & f' & W' & W0' & F' & L' & P' & N').
  assert (D : forall s1 s2 : str, w ++ str_of "." ++ s1 = w' ++ str_of "." ++ s2 -> w = w' /\ s1 = s2) by (intros s1 s2 E; apply (split_at "."%char) in E; [exact E|apply digits_no; [reflexivity|exact W]|apply digits_no; [reflexivity|exact W']]).
  assert (M : forall (a b : str), w ++ a = str_of "-" ++ b -> False). { intros a b E. destruct w as [|c w]; [congruence|]. cbn [str_of list_ascii_of_string app] in E. injection E as -> _. inversion W as [|? ? Q]; discriminate Q. }
  assert (M' : forall (a b : str), w' ++ a = str_of "-" ++ b -> False). { intros a b E. destruct w' as [|c w']; [congruence|]. cbn [str_of list_ascii_of_string app] in E. injection E as -> _. inversion W' as [|? ? Q]; discriminate Q. }
  assert (T : 0 < 10 ^ k) by (apply pow_lt; lra). assert (HH : 1 / 10 ^ k = / 2 / 10 ^ k + / 2 / 10 ^ k) by (field; lra). set (h := / 2 / 10 ^ k) in *.
  destruct (Rlt_dec x 0) as [X|X]; destruct (Rlt_dec y 0) as [Y|Y].
  - destruct (N X) as [E1 B1]. destruct (N' Y) as [E2 B2]. rewrite E1 in E2. apply app_inv_head in E2. destruct (D _ _ E2) as [<- <-]. set (v := IZR (digits_value w) + IZR (digits_value f) / 10 ^ k) in *. rewrite HH. replace (x - y) with ((x + v) - (y + v)) by ring. eapply Rle_trans; [apply Rabs_triang|]. rewrite Rabs_Ropp. lra.
  - destruct (N X) as [E1 _]. destruct (P' ltac:(lra)) as [E2 _]. exfalso. apply (M' (str_of "." ++ f') (w ++ str_of "." ++ f)). congruence.
  - destruct (N' Y) as [E1 _]. destruct (P ltac:(lra)) as [E2 _]. exfalso. apply (M (str_of "." ++ f) (w' ++ str_of "." ++ f')). congruence.
  - destruct (P ltac:(lra)) as [E1 B1]. destruct (P' ltac:(lra)) as [E2 B2]. rewrite E1 in E2. destruct (D _ _ E2) as [<- <-]. set (v := IZR (digits_value w) + IZR (digits_value f) / 10 ^ k) in *. rewrite HH. replace (x - y) with ((x - v) - (y - v)) by ring. eapply Rle_trans; [apply Rabs_triang|]. rewrite Rabs_Ropp. lra.
Qed.
Lemma printed_no c k x s : is_digit c = false -> c <> "-"%char -> c <> "."%char -> printed k x s -> ~ In c s.
Proof.
  intros D M P (w & f & W & _ & F & _ & A & B). assert (K : ~ In c (w ++ str_of "." ++ f)). { rewrite !in_app_iff. intros [I|[[I|[]]|I]]; [exact (digits_no _ _ D W I)|congruence|exact (digits_no _ _ D F I)]. }
  destruct (Rlt_dec x 0) as [X|X]; [destruct (B X) as [-> _]|destruct (A ltac:(lra)) as [-> _]; exact K]. cbn [str_of list_ascii_of_string app In]. intros [I|I]; [congruence|exact (K I)].
Qed.
(** ** Distances of close points *)
Lemma sin_small x e : 0 <= e <= 1 -> Rabs x <= e -> sin x ^ 2 <= e ^ 2.
Proof.
  intros E X. assert (K : forall y, 0 <= y <= 1 -> 0 <= sin y <= y). { intros y Y. pose proof PI2_1. pose proof PI_RGT_0. split; [apply sin_ge_0; lra|]. destruct (Req_dec y 0) as [->|N]; [rewrite sin_0; lra|]. apply Rlt_le, sin_lt_x. lra. }
  destruct (Rle_dec 0 x) as [P|P].
  - rewrite Rabs_right in X by lra. specialize (K x ltac:(lra)). nra.
  - rewrite Rabs_left in X by lra. specialize (K (- x) ltac:(lra)). rewrite sin_neg in K. nra.
Qed.
Lemma asin_small s e : 0 <= e <= 1 / 4 -> 0 <= s <= e -> asin s <= 2 * e.
Proof.
  intros E S. pose proof PI2_1 as P1. pose proof PI_RGT_0. destruct (Rle_dec (asin s) (2 * e)) as [H0|H0]; [exact H0|]. exfalso. assert (A : 2 * e < asin s) by lra. pose proof (asin_bound s) as B. assert (Q : sin (2 * e) < sin (asin s)) by (apply sin_increasing_1; lra). rewrite sin_asin in Q by lra.
  destruct (Req_dec e 0) as [->|N]; [rewrite Rmult_0_r, sin_0 in Q; lra|]. destruct (MVT_cor2 sin cos 0 (2 * e)) as (c & Ec & C); [lra|intros; apply derivable_pt_lim_sin|]. rewrite sin_0 in Ec.
  assert (Hc : cos (PI / 3) < cos c) by (apply cos_decreasing_1; lra). rewrite cos_PI3 in Hc. nra.
Qed.
Lemma close_distance lon1 lat1 lon2 lat2 e : 0 <= e <= 1 -> Rabs (lon1 - lon2) <= e -> Rabs (lat1 - lat2) <= e -> 0 <= geodetic_distance lon1 lat1 lon2 lat2 <= 25484 * (e * (PI / 180)).
Proof.
  intros E Lo La. unfold geodetic_distance, EARTH_RADIUS, radians. set (q := PI / 180). assert (Pq : 0 < q <= 4 / 180). { unfold q. pose proof PI_RGT_0. pose proof PI_4. lra. } set (g := e * q). assert (G : 0 <= g <= 1 / 4) by (unfold g; nra).
  assert (H1 : Rabs ((lat1 * q - lat2 * q) / 2) <= g / 2). { replace ((lat1 * q - lat2 * q) / 2) with ((lat1 - lat2) * (q / 2)) by field. rewrite Rabs_mult, (Rabs_right (q / 2)) by lra. unfold g. nra. }
  assert (H2 : Rabs ((lon1 * q - lon2 * q) / 2) <= g / 2). { replace ((lon1 * q - lon2 * q) / 2) with ((lon1 - lon2) * (q / 2)) by field. rewrite Rabs_mult, (Rabs_right (q / 2)) by lra. unfold g. nra. }
  apply (sin_small _ (g / 2)) in H1; [|lra]. apply (sin_small _ (g / 2)) in H2; [|lra]. set (s1 := sin ((lat1 * q - lat2 * q) / 2) ^ 2) in *. set (s2 := sin ((lon1 * q - lon2 * q) / 2) ^ 2) in *.
  assert (S2 : 0 <= s2) by (unfold s2; apply pow2_ge_0). assert (C : cos (lat1 * q) * cos (lat2 * q) <= 1). { pose proof (COS_bound (lat1 * q)). pose proof (COS_bound (lat2 * q)). nra. }
  assert (S : s1 + cos (lat1 * q) * cos (lat2 * q) * s2 <= g * g) by nra. assert (Sq : 0 <= sqrt (s1 + cos (lat1 * q) * cos (lat2 * q) * s2) <= g). { split; [apply sqrt_pos|]. rewrite <- (sqrt_square g) by lra. apply sqrt_le_1_alt. exact S. }
  pose proof (asin_small _ g G Sq) as Au. assert (Al : 0 <= asin (sqrt (s1 + cos (lat1 * q) * cos (lat2 * q) * s2))). { destruct (Rle_dec 0 (asin (sqrt (s1 + cos (lat1 * q) * cos (lat2 * q) * s2)))) as [H0|H0]; [exact H0|exfalso]. pose proof (asin_bound (sqrt (s1 + cos (lat1 * q) * cos (lat2 * q) * s2))). assert (Q : sin (asin (sqrt (s1 + cos (lat1 * q) * cos (lat2 * q) * s2))) < sin 0) by (apply sin_increasing_1; lra). rewrite sin_asin, sin_0 in Q by lra. lra. }
  lra.
Qed.

(** ** Theorems *)
(** What a point prints, and repr is the same. *)
Theorem C137_text : forall lon lat dep, exists a b c, printed 6 lat a /\ printed 6 lon b /\ printed 4 dep c /\
  point_str (lon, lat, dep) = str_of "<Latitude=" ++ a ++ str_of ", Longitude=" ++ b ++ str_of ", Depth=" ++ c ++ str_of ">" /\
  point_repr (lon, lat, dep) = point_str (lon, lat, dep).
Proof. intros lon lat dep. exists (fixed6 lat), (fixed6 lon), (fixed4 dep). split; [apply fixed6_printed|]. split; [apply fixed6_printed|]. split; [apply fixed4_printed|]. split; reflexivity. Qed.
Print Assumptions C137_text.
(** A numeral with [k] decimals belongs to numbers that differ by one unit of its last place at most. *)
Theorem C137_numeral : forall k x y s, printed k x s -> printed k y s -> Rabs (x - y) <= 1 / 10 ^ k.
Proof. exact printed_close. Qed.
Print Assumptions C137_numeral.
(** Points that print alike are close, and the same to == and !=. *)
Theorem C137_alike : forall lon lat dep lon' lat' dep', point_str (lon, lat, dep) = point_str (lon', lat', dep') ->
  Rabs (lon - lon') <= / 10 ^ 6 /\ Rabs (lat - lat') <= / 10 ^ 6 /\ Rabs (dep - dep') <= / 10 ^ 4 /\
  point_eq (lon, lat, dep) (Some (lon', lat', dep')) = true /\ point_ne (lon, lat, dep) (Some (lon', lat', dep')) = false.
Proof.
  intros lon lat dep lon' lat' dep' E. unfold point_str in E. apply app_inv_head in E. change (str_of ", Longitude=") with (","%char :: str_of " Longitude=") in E. change (str_of ", Depth=") with (","%char :: str_of " Depth=") in E. change (str_of ">") with [">"%char] in E. cbn [app] in E.
  apply (split_at ","%char) in E; [|apply (printed_no _ 6 lat); [reflexivity|discriminate|discriminate|apply fixed6_printed]|apply (printed_no _ 6 lat'); [reflexivity|discriminate|discriminate|apply fixed6_printed]]. destruct E as [E1 E]. apply app_inv_head in E.
  apply (split_at ","%char) in E; [|apply (printed_no _ 6 lon); [reflexivity|discriminate|discriminate|apply fixed6_printed]|apply (printed_no _ 6 lon'); [reflexivity|discriminate|discriminate|apply fixed6_printed]]. destruct E as [E2 E]. apply app_inv_head in E. apply app_inj_tail in E. destruct E as [E3 _].
  assert (A1 : Rabs (lat - lat') <= 1 / 10 ^ 6) by (apply (printed_close 6 lat lat' (fixed6 lat)); [|rewrite E1]; apply fixed6_printed).
  assert (A2 : Rabs (lon - lon') <= 1 / 10 ^ 6) by (apply (printed_close 6 lon lon' (fixed6 lon)); [|rewrite E2]; apply fixed6_printed).
  assert (A3 : Rabs (dep - dep') <= 1 / 10 ^ 4) by (apply (printed_close 4 dep dep' (fixed4 dep)); [|rewrite E3]; apply fixed4_printed).
  assert (Q : point_eq (lon, lat, dep) (Some (lon', lat', dep')) = true).
  { unfold point_eq, geo_distance. cbv zeta. destruct (close_distance lon lat lon' lat' (1 / 10 ^ 6)) as [L U]; [lra|exact A2|exact A1|]. pose proof PI_4 as P4. assert (U' : geodetic_distance lon lat lon' lat' <= 6 / 10 ^ 4) by lra. apply Rabs_le_inv in A3. set (h := geodetic_distance lon lat lon' lat') in *. clearbody h.
    assert (S : sqrt (h ^ 2 + (dep - dep') ^ 2) <= 0.001). { rewrite <- (sqrt_square 0.001) by lra. apply sqrt_le_1_alt. assert (h * h <= (6 / 10 ^ 4) * (6 / 10 ^ 4)) by nra. assert ((dep - dep') * (dep - dep') <= (1 / 10 ^ 4) * (1 / 10 ^ 4)) by nra. nra. }
    rewrite Rabs_right by (apply Rle_ge, sqrt_pos). unfold rleb. destruct (Rle_dec _ _); [reflexivity|contradiction]. }
  split; [lra|]. split; [lra|]. split; [lra|]. split; [exact Q|]. unfold point_ne. rewrite Q. reflexivity.
Qed.
Print Assumptions C137_alike.
(** != is the opposite of ==; nothing equals None. *)
Theorem C137_ne : forall a b, (point_ne a b = true <-> point_eq a b = false) /\ point_ne a None = true.
Proof. intros a b. unfold point_ne. split; [|reflexivity]. destruct (point_eq a b); split; intro H; try reflexivity; discriminate H. Qed.
Print Assumptions C137_ne.
(** The well-known text is the longitude, a blank and the latitude; it tells the place, never the depth. *)
Theorem C137_wkt : forall repr, (forall x, ~ In " "%char (repr x)) -> (forall x y, repr x = repr y -> x = y) ->
  forall lon lat dep lon' lat' dep', wkt2d repr (lon, lat, dep) = wkt2d repr (lon', lat', dep') <-> lon = lon' /\ lat = lat'.
Proof.
  intros repr B I lon lat dep lon' lat' dep'. unfold wkt2d. split; [|intros [-> ->]; reflexivity]. intro E. apply app_inv_head in E. change (str_of " ") with [" "%char] in E. cbn [app] in E. apply split_at in E; [|apply B|apply B]. destruct E as [E1 E]. apply app_inv_tail in E. split; apply I; assumption.
Qed.
Print Assumptions C137_wkt.
Theorem C137_wkt_text : forall repr lon lat dep, wkt2d repr (lon, lat, dep) = str_of "POINT(" ++ repr lon ++ str_of " " ++ repr lat ++ str_of ")".
Proof. reflexivity. Qed.
Print Assumptions C137_wkt_text.
(** Points may be equal and print differently. *)
Theorem C137_equal_refuted : exists a b, point_eq a (Some b) = true /\ point_str a <> point_str b.
Proof.
  exists (0, 0, 0), (0, 0, 1 / 2000). split.
  - unfold point_eq. rewrite same_place_dist, Rabs_Rabsolu. unfold rleb. destruct (Rle_dec _ _) as [H|H]; [reflexivity|exfalso; apply H]. rewrite Rabs_left1; lra.
  - intro E. destruct (C137_alike _ _ _ _ _ _ E) as (_ & _ & D & _). rewrite Rabs_left1 in D by lra. lra.
Qed.
Print Assumptions C137_equal_refuted.

(** ** Examples *)
Example C137_ex_printed : printed 4 (5 / 3) (str_of "1.6667").
Proof.
  exists (str_of "1"), (str_of "6667"). split; [repeat constructor|]. split; [discriminate|]. split; [repeat constructor|]. split; [reflexivity|]. cbv zeta. change (digits_value (str_of "1")) with 1%Z. change (digits_value (str_of "6667")) with 6667%Z. split; [|lra]. intros _. split; [reflexivity|]. apply Rabs_le. lra.
Qed.
Example C137_ex : exists a b, a <> b /\ point_str (0, 0, a) = point_str (0, 0, b).
Proof.
  exists 0, (/ 100000). split; [lra|]. unfold point_str. do 5 f_equal. unfold fixed4. destruct (Rlt_dec 0 0); [lra|]. destruct (Rlt_dec (/ 100000) 0); [lra|].
  assert (E1 : ZnearestE (Rabs 0 * 10000) = 0%Z) by (apply Znearest_imp; rewrite Rabs_R0; replace (0 * 10000 - 0) with 0 by ring; rewrite Rabs_R0; lra).
  assert (E2 : ZnearestE (Rabs (/ 100000) * 10000) = 0%Z) by (apply Znearest_imp; rewrite (Rabs_right (/ 100000)) by lra; apply Rabs_lt; lra). rewrite E1, E2. reflexivity.
Qed.
