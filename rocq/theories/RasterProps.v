(** C120: the raster cell in binary64. *)
From Coq Require Import ZArith Reals String Ascii Bool List Lia Lra.
From Flocq Require Import Core.
From Verif Require Import PyBase PyStr FloatBase FloatEval ZoneModel ZoneSpec ZoneProofs RasterModel RasterSpec.
Import ListNotations.
Open Scope R_scope.

(** In exact arithmetic this is the lookup of C13. *)
Theorem C120_exact : forall c lat lon m, get_timezone_code_rd (fun x => x) c lat lon m = get_timezone_code c lat lon m.
Proof. reflexivity. Qed.
Print Assumptions C120_exact.

Lemma quotient_error d s : 0 <= d <= 720 -> 0 < s <= 360 -> Rabs (rnd (rnd d / s) * s - d) <= bpow radix2 (-42) /\ 0 <= rnd (rnd d / s).
Proof.
  intros Hd Hs. assert (B10 : bpow radix2 10 = 1024) by (cbn; lra).
  assert (E1 : Rabs (rnd d - d) <= bpow radix2 (10 - 53)) by (apply rnd_abs_err; [lia|rewrite Rabs_pos_eq; lra]).
  assert (D0 : 0 <= rnd d <= 720). { split; [rewrite <- rnd_0; apply rnd_le; lra|]. apply Rle_trans with (rnd 720); [apply rnd_le; lra|]. rewrite (rnd_int 720) by lia. lra. }
  set (d' := rnd d) in *. set (q := d' / s). assert (Q0 : 0 <= q) by (unfold q; apply Rmult_le_pos; [lra|left; apply Rinv_0_lt_compat; lra]). assert (Qs : q * s = d') by (unfold q; field; lra).
  split; [|rewrite <- rnd_0; apply rnd_le; exact Q0].
  assert (E2 : Rabs (rnd q - q) <= bpow radix2 (-53) * q + bpow radix2 (-1053)).
  { destruct (Rle_lt_dec (bpow radix2 (-1022)) q) as [L|L].
    - pose proof (rnd_rel_err q) as H. rewrite (Rabs_pos_eq q Q0) in H. specialize (H L). pose proof (bpow_gt_0 radix2 (-1053)). lra.
    - pose proof (rnd_abs_err q (-1000) ltac:(lia)) as H. rewrite (Rabs_pos_eq q Q0) in H. replace (-1000 - 53)%Z with (-1053)%Z in H by lia. pose proof (Rmult_le_pos _ _ (bpow_ge_0 radix2 (-53)) Q0).
      assert (q <= bpow radix2 (-1000)) by (apply Rle_trans with (bpow radix2 (-1022)); [lra|apply bpow_le; lia]). specialize (H H1). lra. }
  assert (B : bpow radix2 (-1053) * 360 <= bpow radix2 (-53)). { apply Rle_trans with (bpow radix2 (-1053) * bpow radix2 10); [apply Rmult_le_compat_l; [apply bpow_ge_0|lra]|]. rewrite <- bpow_plus. apply bpow_le. lia. }
  assert (C : bpow radix2 (-53) * 1024 = bpow radix2 (-43)) by (rewrite <- B10, <- bpow_plus; reflexivity). assert (C' : bpow radix2 (-43) + bpow radix2 (-43) = bpow radix2 (-42)) by (change (bpow radix2 (-42)) with (bpow radix2 (1 + -43)); rewrite bpow_plus; cbn [bpow]; change (Z.pow_pos radix2 1) with 2%Z; ring).
  replace (rnd q * s - d) with ((rnd q - q) * s + (d' - d)) by (rewrite Rmult_minus_distr_r, Qs; ring). eapply Rle_trans; [apply Rabs_triang|]. rewrite Rabs_mult, (Rabs_pos_eq s) by lra.
  replace (10 - 53)%Z with (-43)%Z in E1 by lia.
  assert (E3 : Rabs (rnd q - q) * s <= (bpow radix2 (-53) * q + bpow radix2 (-1053)) * s) by (apply Rmult_le_compat_r; lra).
  replace ((bpow radix2 (-53) * q + bpow radix2 (-1053)) * s) with (bpow radix2 (-53) * d' + bpow radix2 (-1053) * s) in E3 by (rewrite <- Qs; ring).
  assert (E4 : bpow radix2 (-53) * d' <= bpow radix2 (-53) * 720) by (apply Rmult_le_compat_l; [apply bpow_ge_0|lra]). assert (E5 : bpow radix2 (-1053) * s <= bpow radix2 (-1053) * 360) by (apply Rmult_le_compat_l; [apply bpow_ge_0|lra]). pose proof (bpow_ge_0 radix2 (-53)). lra.
Qed.
Lemma one_coordinate m r n s d : rounding m = Some r -> (1 <= n)%Z -> 0 <= d <= 720 -> 0 < s <= 360 ->
  let k0 := r (rnd (rnd d / s)) in let k := if (n <=? k0)%Z then (n - 1)%Z else k0 in (0 <= k < n)%Z /\ read_by m (bpow radix2 (-42)) n s d k.
Proof.
  intros Hr Hn Hd Hs k0 k. destruct (quotient_error d s Hd Hs) as [E Q]. set (q := rnd (rnd d / s)) in *. apply Rabs_le_inv in E. set (eps := bpow radix2 (-42)) in *.
  assert (K0 : (0 <= k0)%Z). { unfold k0. destruct (rounding_cases _ _ Hr) as [->|[->| ->]]; [apply nearest_ge; exact Q|apply Zfloor_lub; exact Q|]. apply le_IZR. apply Rle_trans with q; [exact Q|apply Zceil_ub]. }
  assert (KK : (0 <= k < n)%Z) by (unfold k; destruct (n <=? k0)%Z eqn:T; lia). split; [exact KK|].
  assert (Kle : IZR k <= IZR k0) by (apply IZR_le; unfold k; destruct (n <=? k0)%Z eqn:T; lia). assert (Keq : (k = n - 1)%Z \/ k = k0) by (unfold k; destruct (n <=? k0)%Z eqn:T; auto).
  assert (Up : forall a, IZR k0 - a <= q -> (IZR k - a) * s - eps <= d). { intros a H. assert ((IZR k - a) * s <= q * s) by (apply Rmult_le_compat_r; lra). lra. }
  assert (Ups : forall a, IZR k0 - a < q -> (IZR k - a) * s - eps < d). { intros a H. assert ((IZR k - a) * s < q * s) by (apply Rmult_lt_compat_r; lra). lra. }
  assert (Dn : forall a, q <= IZR k0 + a -> (k = n - 1)%Z \/ d <= (IZR k + a) * s + eps). { intros a H. destruct Keq as [->|Eq]; [left; reflexivity|right; rewrite Eq]. assert (q * s <= (IZR k0 + a) * s) by (apply Rmult_le_compat_r; lra). lra. }
  assert (Dns : forall a, q < IZR k0 + a -> (k = n - 1)%Z \/ d < (IZR k + a) * s + eps). { intros a H. destruct Keq as [->|Eq]; [left; reflexivity|right; rewrite Eq]. assert (q * s < (IZR k0 + a) * s) by (apply Rmult_lt_compat_r; lra). lra. }
  split; [|split]; intros ->; cbn in Hr; injection Hr as <-.
  - split; [rewrite <- (Rminus_0_r (IZR k)); apply Up; rewrite Rminus_0_r; apply Zfloor_lb|apply Dns; apply Zfloor_ub].
  - split; [apply Ups; unfold k0; pose proof (Zceil_lb q); lra|]. rewrite <- (Rplus_0_r (IZR k)). apply Dn. rewrite Rplus_0_r. apply Zceil_ub.
  - pose proof (nearest_half q) as H. apply Rabs_le_inv in H. fold k0 in H. split; [apply Up; lra|apply Dn; lra].
Qed.

(** C120.  The lookup in binary64 reads a cell inside the raster; it is the cell of the place but
    for 2^-42 degrees.  A place outside is looked up at the nearest place of the extent. *)
Theorem C120_cell : forall c lat lon m, good_raster c -> angles c -> In m (map str_of ["round"; "floor"; "ceil"]%string) ->
  exists row col v lat' lon', (0 <= row < rows c)%Z /\ (0 <= col < cols c)%Z /\ cell c row col = Some v /\
    get_timezone_code_rd rnd c lat lon m = first_key v (timezones c) /\
    nearest_in (min_lat c) (max_lat c) lat lat' /\ nearest_in (min_lon c) (max_lon c) lon lon' /\
    read_by m (bpow radix2 (-42)) (rows c) (resy c) (max_lat c - lat') row /\ read_by m (bpow radix2 (-42)) (cols c) (resx c) (lon' - min_lon c) col.
Proof.
  intros c lat lon m Hg Ha Hm. assert (Hr : exists r, rounding m = Some r) by (destruct Hm as [<-|[<-|[<-|[]]]]; eexists; reflexivity). destruct Hr as (r & Hr).
  destruct Ha as ((_ & A1) & (_ & A2) & (_ & A3) & (_ & A4) & (_ & A5) & (_ & A6) & A7). pose proof Hg as (G1 & G2 & G3 & G4 & G5 & _).
  set (lon' := clamp (min_lon c) (max_lon c) lon). set (lat' := clamp (min_lat c) (max_lat c) lat).
  assert (N : forall lo hi x, lo <= hi -> nearest_in lo hi x (clamp lo hi x)). { intros lo hi x H. split; [apply clamp_range; exact H|]. unfold clamp. destruct (Rlt_bool_spec hi x), (Rlt_bool_spec x lo); repeat split; intros; lra. }
  pose proof (N _ _ lon A7) as Nx. pose proof (N _ _ lat G5) as Ny. fold lon' in Nx. fold lat' in Ny.
  destruct (one_coordinate m r (cols c) (resx c) (lon' - min_lon c) Hr G2) as [Kc Rc]; [destruct Nx; lra|lra|]. destruct (one_coordinate m r (rows c) (resy c) (max_lat c - lat') Hr G1) as [Kr Rr]; [destruct Ny; lra|lra|]. cbv zeta in *.
  assert (Ec : cell_index_rd rnd r c lat lon = (let row := r (rnd (rnd (max_lat c - lat') / resy c)) in let col := r (rnd (rnd (lon' - min_lon c) / resx c)) in (if (rows c <=? row)%Z then (rows c - 1)%Z else row, if (cols c <=? col)%Z then (cols c - 1)%Z else col))).
  { unfold cell_index_rd. fold lon' lat'. destruct (Rlt_bool_spec (max_lon c) (min_lon c)); [lra|]. cbn [andb]. reflexivity. }
  cbv zeta in Ec. destruct (read_cell c _ _ Hg Kr Kc) as (v & Ev & Er). exists (if (rows c <=? r (rnd (rnd (max_lat c - lat') / resy c)))%Z then (rows c - 1)%Z else r (rnd (rnd (max_lat c - lat') / resy c))), (if (cols c <=? r (rnd (rnd (lon' - min_lon c) / resx c)))%Z then (cols c - 1)%Z else r (rnd (rnd (lon' - min_lon c) / resx c))), v, lat', lon'.
  split; [exact Kr|]. split; [exact Kc|]. split; [exact Ev|]. split; [unfold get_timezone_code_rd; rewrite Hr, Ec; exact Er|]. auto.
Qed.
Print Assumptions C120_cell.
(** The cell read need not contain the place: 25 times the double next to 0.02 is more than 0.5. *)
Definition fine : raster_cfg :=
  {| rows := 1; cols := 100; resx := IZR 5764607523034235 * bpow radix2 (-58); resy := IZR 5764607523034235 * bpow radix2 (-58);
     min_lon := -180; max_lon := -178; min_lat := 0; max_lat := 0;
     raster := [map Z.of_nat (seq 0 100)]; timezones := [(str_of "A", 24%Z); (str_of "B", 25%Z)] |}.
Lemma res_value : resx fine = 5764607523034235 / 288230376151711744.
Proof. unfold fine. cbn [resx]. change (bpow radix2 (-58)) with (/ 288230376151711744). reflexivity. Qed.
Lemma index_25 : rnd (rnd (-(359)/2 - -180) / resx fine) = 25.
Proof.
  replace (- (359) / 2 - -180) with (IZR 1 / 2) by lra. rewrite (rnd_id (IZR 1 / 2)) by (apply double_half; lia). rewrite res_value.
  assert (L : rnd (IZR (25 * 2 ^ 49 - 1) * bpow radix2 (-49)) = 25). { rewrite (rnd_eval _ (-49) 1 (25 * 2 ^ 48)); [|lia|split; [vm_compute; discriminate|reflexivity]|lia|right; split; reflexivity]. change (-49 + 1)%Z with (-48)%Z. change (bpow radix2 (-48)) with (/ 281474976710656). change (25 * 2 ^ 48)%Z with 7036874417766400%Z. lra. }
  apply Rle_antisym.
  - apply Rle_trans with (rnd 25); [apply rnd_le; lra|]. rewrite (rnd_int 25) by lia. lra.
  - rewrite <- L at 1. apply rnd_le. change (bpow radix2 (-49)) with (/ 562949953421312). change (25 * 2 ^ 49 - 1)%Z with 14073748835532799%Z. lra.
Qed.
Theorem C120_cell_refuted : exists c lat lon, good_raster c /\ angles c /\ is_double lon /\ min_lon c <= lon < max_lon c /\
  (forall i j, (0 <= i < 100)%Z -> cell c 0 i = Some j <-> j = i) /\ get_timezone_code_rd rnd c lat lon (str_of "floor") = Ok (str_of "B") /\ first_named c 25 (str_of "B") /\ lon < min_lon c + 25 * resx c /\
  get_timezone_code c lat lon (str_of "floor") = Ok (str_of "A").
Proof.
  exists fine, 0, (- (359) / 2). assert (Dr : angle (resx fine)). { split; [unfold fine; cbn [resx]; apply double_F2R; lia|rewrite res_value; lra]. } assert (Di : forall k, (-360 <= k <= 360)%Z -> angle (IZR k)). { intros k H. split; [apply double_int; lia|]. split; [apply (IZR_le (-360) k); lia|apply (IZR_le k 360); lia]. }
  assert (G : good_raster fine). { repeat split; try (cbn; lia); try (change (resy fine) with (resx fine)); try (rewrite res_value; lra); try (cbn [min_lat max_lat fine]; lra). constructor; [reflexivity|constructor]. }
  split; [exact G|]. split; [split; [apply (Di (-180)%Z); lia|split; [apply (Di (-178)%Z); lia|split; [apply (Di 0%Z); lia|split; [apply (Di 0%Z); lia|split; [exact Dr|split; [exact Dr|cbn [min_lon max_lon fine]; lra]]]]]]|].
  split; [replace (- (359) / 2) with (IZR (-359) / 2) by lra; apply double_half; lia|]. split; [cbn [min_lon max_lon fine]; lra|]. split.
  { intros i j H. unfold cell. cbn [fine raster]. change (Z.to_nat 0) with 0%nat. cbn [nth_error]. rewrite nth_error_map. assert (S : nth_error (seq 0 100) (Z.to_nat i) = Some (Z.to_nat i)). { rewrite (nth_error_nth' (seq 0 100) 0%nat) by (rewrite seq_length; lia). rewrite seq_nth by lia. reflexivity. } rewrite S. cbn [option_map]. rewrite Z2Nat.id by lia. split; intro E; [injection E as <-|subst]; reflexivity. }
  assert (Cl : clamp (min_lon fine) (max_lon fine) (- (359) / 2) = - (359) / 2) by (apply clamp_id; cbn [min_lon max_lon fine]; lra). assert (Cl' : clamp (min_lat fine) (max_lat fine) 0 = 0) by (apply clamp_id; cbn [min_lat max_lat fine]; lra).
  assert (Ro : rounding (str_of "floor") = Some Zfloor) by reflexivity.
  split; [|split; [|split]].
  - unfold get_timezone_code_rd. rewrite Ro. unfold cell_index_rd. rewrite Cl, Cl'. destruct (Rlt_bool_spec (max_lon fine) (min_lon fine)) as [H|H]; [cbn [min_lon max_lon fine] in H; lra|]. cbn [andb]. change (min_lon fine) with (-180). rewrite index_25.
    change (max_lat fine) with 0. replace (0 - 0) with 0 by ring. rewrite rnd_0. replace (0 / resy fine) with 0 by (unfold Rdiv; ring). rewrite rnd_0. rewrite (Zfloor_IZR 0), (Zfloor_IZR 25). reflexivity.
  - exists [(str_of "A", 24%Z)], []. split; [reflexivity|]. intros k' v' [E|[]]. injection E as _ <-. lia.
  - change (min_lon fine) with (-180). rewrite res_value. lra.
  - unfold get_timezone_code. rewrite Ro. unfold cell_index. rewrite Cl, Cl'. destruct (Rlt_bool_spec (max_lon fine) (min_lon fine)) as [H|H]; [cbn [min_lon max_lon fine] in H; lra|]. cbn [andb]. change (min_lon fine) with (-180). change (max_lat fine) with 0.
    replace (0 - 0) with 0 by ring. replace (0 / resy fine) with 0 by (unfold Rdiv; ring). rewrite (Zfloor_IZR 0). rewrite (Zfloor_imp 24); [reflexivity|]. rewrite res_value. change (24 + 1)%Z with 25%Z. lra.
Qed.
Print Assumptions C120_cell_refuted.

(** A raster across the 180th meridian (the west edge has the larger longitude): a place east of
    the east edge, also one inside the raster, is looked up at the east edge, which stands one
    rounded turn further east; any other place at the west edge. *)
Theorem C120_dateline : forall c lat lon m, good_raster c -> angle (min_lon c) -> angle (max_lon c) -> angle (min_lat c) -> angle (max_lat c) -> angle (resx c) -> angle (resy c) ->
  max_lon c < min_lon c <= max_lon c + 360 -> In m (map str_of ["round"; "floor"; "ceil"]%string) ->
  exists row col v lat', (0 <= row < rows c)%Z /\ (0 <= col < cols c)%Z /\ cell c row col = Some v /\
    get_timezone_code_rd rnd c lat lon m = first_key v (timezones c) /\
    nearest_in (min_lat c) (max_lat c) lat lat' /\ read_by m (bpow radix2 (-42)) (rows c) (resy c) (max_lat c - lat') row /\
    (lon <= max_lon c -> col = 0%Z) /\ (max_lon c < lon -> read_by m (bpow radix2 (-42)) (cols c) (resx c) (rnd (max_lon c + 360) - min_lon c) col).
Proof.
  intros c lat lon m Hg (D1 & A1) (_ & A2) (_ & A3) (_ & A4) (_ & A5) (_ & A6) A7 Hm. assert (Hr : exists r, rounding m = Some r) by (destruct Hm as [<-|[<-|[<-|[]]]]; eexists; reflexivity). destruct Hr as (r & Hr).
  pose proof Hg as (G1 & G2 & G3 & G4 & G5 & _). set (lat' := clamp (min_lat c) (max_lat c) lat).
  assert (Ny : nearest_in (min_lat c) (max_lat c) lat lat'). { split; [apply clamp_range; exact G5|]. unfold lat', clamp. destruct (Rlt_bool_spec (max_lat c) lat), (Rlt_bool_spec lat (min_lat c)); repeat split; intros; lra. }
  set (east := rnd (max_lon c + 360)). assert (E : min_lon c <= east <= 720). { split; [rewrite <- (rnd_id (min_lon c)) by exact D1; apply rnd_le; lra|]. apply Rle_trans with (rnd 720); [apply rnd_le; lra|]. rewrite (rnd_int 720) by lia. lra. }
  assert (Er : east <= max_lon c + 361). { pose proof (rnd_abs_err (max_lon c + 360) 10 ltac:(lia)) as H. change (bpow radix2 10) with 1024 in H. assert (H0 : Rabs (max_lon c + 360) <= 1024) by (apply Rabs_le; lra). specialize (H H0). apply Rabs_le_inv in H. assert (B : bpow radix2 (10 - 53) <= bpow radix2 0) by (apply bpow_le; lia). change (bpow radix2 0) with 1 in B. fold east in H. lra. }
  set (lon' := if Rlt_bool (max_lon c) lon then east else min_lon c).
  assert (Dx : 0 <= lon' - min_lon c <= 720) by (unfold lon'; destruct (Rlt_bool (max_lon c) lon); lra).
  destruct (one_coordinate m r (cols c) (resx c) (lon' - min_lon c) Hr G2 Dx) as [Kc Rc]; [lra|]. destruct (one_coordinate m r (rows c) (resy c) (max_lat c - lat') Hr G1) as [Kr Rr]; [destruct Ny; lra|lra|]. cbv zeta in *.
  assert (Ec : cell_index_rd rnd r c lat lon = (let row := r (rnd (rnd (max_lat c - lat') / resy c)) in let col := r (rnd (rnd (lon' - min_lon c) / resx c)) in (if (rows c <=? row)%Z then (rows c - 1)%Z else row, if (cols c <=? col)%Z then (cols c - 1)%Z else col))).
  { unfold cell_index_rd. fold lat'. unfold lon', clamp. destruct (Rlt_bool_spec (max_lon c) lon).
    - destruct (Rlt_bool_spec (max_lon c) (min_lon c)); [|lra]. reflexivity.
    - destruct (Rlt_bool_spec lon (min_lon c)); [|lra]. destruct (Rlt_bool_spec (min_lon c) (min_lon c)); [lra|]. rewrite andb_false_r. reflexivity. }
  cbv zeta in Ec. destruct (read_cell c _ _ Hg Kr Kc) as (v & Ev & Er'). eexists _, _, v, lat'. split; [exact Kr|]. split; [exact Kc|]. split; [exact Ev|]. split; [unfold get_timezone_code_rd; rewrite Hr, Ec; exact Er'|]. split; [exact Ny|]. split; [exact Rr|]. split.
  - intro H. unfold lon'. destruct (Rlt_bool_spec (max_lon c) lon); [lra|]. replace (min_lon c - min_lon c) with 0 by ring. rewrite rnd_0. replace (0 / resx c) with 0 by (unfold Rdiv; ring). rewrite rnd_0.
    assert (Z : r 0 = 0%Z) by (destruct (rounding_cases _ _ Hr) as [->|[->| ->]]; [apply (Zrnd_IZR ZnearestE 0)|apply (Zfloor_IZR 0)|apply (Zceil_IZR 0)]). rewrite Z. destruct (cols c <=? 0)%Z eqn:T; [lia|reflexivity].
  - intro H. unfold lon' in *. destruct (Rlt_bool_spec (max_lon c) lon); [exact Rc|lra].
Qed.
Print Assumptions C120_dateline.
