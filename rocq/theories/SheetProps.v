(** C132: the columns of a table of cities. *)
From Coq Require Import ZArith String Ascii Bool List Lia Permutation Sorted.
From Verif Require Import PyBase PyStr SheetModel.
Import ListNotations.

(** All columns are equally long and have different names. *)
Definition even_table {A} (n : nat) (d : sheet A) : Prop := NoDup (map fst d) /\ Forall (fun kv => length (snd kv) = n) d.
Definition has {A} (d : sheet A) (k : string) (v : list A) : Prop := In (str_of k, v) d.
Section Sheets.
Context {A : Type}.
Implicit Types d : sheet A.

Lemma existsb_in k l : existsb (str_eqb k) l = true <-> In k l.
Proof. rewrite existsb_exists. split; [intros (x & I & E); destruct (str_eqb_spec k x); [subst; exact I|discriminate]|]. intro I. exists k. split; [exact I|]. destruct (str_eqb_spec k k); [reflexivity|contradiction]. Qed.
Lemma column_in k d : In k (map fst d) -> exists v, column k d = Some v.
Proof. induction d as [|[k' v'] d IH]; cbn [map fst In column]; [tauto|]. intros H. destruct (str_eqb_spec k k'); [eauto|]. apply IH. destruct H; [congruence|assumption]. Qed.
Lemma column_some k v d : NoDup (map fst d) -> column k d = Some v <-> In (k, v) d.
Proof.
  induction d as [|[k' v'] d IH]; intro N; cbn [column In]; [split; [discriminate|tauto]|]. inversion N as [|? ? N1 N2]; subst. destruct (str_eqb_spec k k') as [->|D].
  - split; [intro H; injection H as ->; left; reflexivity|]. intros [H|H]; [congruence|]. exfalso. apply N1. change k' with (fst (k', v)). apply in_map, H.
  - rewrite IH by assumption. split; [tauto|]. intros [H|H]; [congruence|exact H].
Qed.
(** A table is refused exactly if one of the three columns is missing; it is kept as it is. *)
Theorem C132_required : forall d,
  ((exists d', new_cities d = Ok d') <-> forall k, In k ["name"; "lat"; "lon"]%string -> In (str_of k) (map fst d)) /\
  (forall d', new_cities d = Ok d' -> d' = d) /\ (forall e, new_cities d = Err e -> e = KeyError).
Proof.
  intro d. unfold new_cities, columns, REQFIELDS. cbn [filter].
  destruct (existsb (str_eqb (str_of "name")) (map fst d)) eqn:E1, (existsb (str_eqb (str_of "lat")) (map fst d)) eqn:E2, (existsb (str_eqb (str_of "lon")) (map fst d)) eqn:E3; cbn [length Nat.ltb Nat.leb];
    (split; [|split; [intros d' H; congruence|intros e H; congruence]]); split; try (intros [d' H]; congruence); try (eexists; reflexivity);
    intros H; try (intros _ _; idtac).
  - intros k I. cbn [In] in I. destruct I as [<-|[<-|[<-|[]]]]; apply existsb_in; assumption.
  - specialize (H "lon"%string). apply existsb_in in H; [congruence|cbn; auto].
  - specialize (H "lat"%string). apply existsb_in in H; [congruence|cbn; auto].
  - specialize (H "lat"%string). apply existsb_in in H; [congruence|cbn; auto].
  - specialize (H "name"%string). apply existsb_in in H; [congruence|cbn; auto].
  - specialize (H "name"%string). apply existsb_in in H; [congruence|cbn; auto].
  - specialize (H "name"%string). apply existsb_in in H; [congruence|cbn; auto].
  - specialize (H "name"%string). apply existsb_in in H; [congruence|cbn; auto].
Qed.
(** getCities gives the three columns. *)
Theorem C132_cities : forall n d, even_table n d -> new_cities d = Ok d -> exists lat lon names, get_cities d = Ok (lat, lon, names) /\ has d "lat" lat /\ has d "lon" lon /\ has d "name" names /\ length lat = n /\ length lon = n /\ length names = n.
Proof.
  intros n d [N F] C. pose proof (proj1 (proj1 (C132_required d)) (ex_intro _ _ C)) as R. unfold get_cities.
  destruct (column_in _ d (R "lat"%string ltac:(cbn; auto))) as (a & Ea). destruct (column_in _ d (R "lon"%string ltac:(cbn; auto))) as (b & Eb). destruct (column_in _ d (R "name"%string ltac:(cbn; auto))) as (c & Ec).
  rewrite Ea, Eb, Ec. apply column_some in Ea, Eb, Ec; try exact N. rewrite Forall_forall in F. exists a, b, c. unfold has. pose proof (F _ Ea). pose proof (F _ Eb). pose proof (F _ Ec). repeat split; assumption.
Qed.
Lemma put_columns k v d : map fst (put_column k v d) = if existsb (str_eqb k) (map fst d) then map fst d else map fst d ++ [k].
Proof. induction d as [|[k' v'] d IH]; [reflexivity|]. cbn [put_column map fst existsb]. destruct (str_eqb_spec k k') as [->|D]; [reflexivity|]. cbn [map fst orb]. rewrite IH. destruct (existsb _ _); reflexivity. Qed.
Lemma put_get k v d k' : column k' (put_column k v d) = if str_eqb k' k then Some v else column k' d.
Proof.
  induction d as [|[k0 v0] d IH]; cbn [put_column column]; [destruct (str_eqb_spec k' k); reflexivity|]. destruct (str_eqb_spec k k0) as [->|D]; cbn [column].
  - destruct (str_eqb_spec k' k0); reflexivity.
  - rewrite IH. destruct (str_eqb_spec k' k0) as [->|D']; [|reflexivity]. destruct (str_eqb_spec k0 k); [congruence|reflexivity].
Qed.
Lemma put_even n k v d : even_table n d -> length v = n -> even_table n (put_column k v d).
Proof.
  intros [N F] L. split.
  - rewrite put_columns. destruct (existsb _ _) eqn:E; [exact N|]. clear F. assert (X : ~ In k (map fst d)) by (rewrite <- existsb_in; congruence). revert N X. generalize (map fst d). induction l as [|x l IH]; intros N X; [constructor; [tauto|constructor]|]. inversion N; subst. cbn [app]. constructor; [rewrite in_app_iff; intros [I|[<-|[]]]; [tauto|apply X; left; reflexivity]|]. apply IH; [assumption|]. intro I. apply X. right. exact I.
  - clear N. induction F as [|[k' v'] d H F IH]; cbn [put_column]; [repeat constructor; exact L|]. destruct (str_eqb k k'); constructor; cbn [snd] in *; auto.
Qed.
Lemma put_same k v d : column k d = Some v -> put_column k v d = d.
Proof. induction d as [|[k' v'] d IH]; cbn [column put_column]; [discriminate|]. destruct (str_eqb_spec k k') as [->|D]; intro H; [injection H as ->; reflexivity|]. rewrite (IH H). reflexivity. Qed.
Lemma rows_even n d : even_table n d -> d <> [] -> rows d = n.
Proof. intros [_ F] N. destruct d as [|[k v] d]; [contradiction|]. inversion F; subst. reflexivity. Qed.
(** project adds the columns x and y on the right, or replaces them, and changes nothing else;
    doing it again changes nothing. *)
Theorem C132_project : forall n d mbasemap lat lon x y, even_table n d -> has d "lat" lat -> has d "lon" lon -> mbasemap lon lat = Ok (x, y) -> length x = n -> length y = n ->
  exists d', project mbasemap d = Ok d' /\ even_table n d' /\ has d' "x" x /\ has d' "y" y /\
    (forall k v, k <> str_of "x" -> k <> str_of "y" -> In (k, v) d' <-> In (k, v) d) /\
    (exists added, map fst d' = map fst d ++ added /\ incl added [str_of "x"; str_of "y"]) /\ project mbasemap d' = Ok d'.
Proof.
  intros n d mb lat lon x y E La Lo M Lx Ly. pose proof (rows_even _ _ E ltac:(intros ->; destruct La)) as R. pose proof E as [N F]. unfold has in *.
  apply column_some in La, Lo; try exact N. pose proof (put_even _ (str_of "x") _ _ E Lx) as E1. pose proof (put_even _ (str_of "y") _ _ E1 Ly) as E2. set (d1 := put_column (str_of "x") x d) in *. set (d2 := put_column (str_of "y") y d1) in *.
  assert (R1 : rows d1 = n). { apply rows_even; [exact E1|]. intro Z. apply (f_equal (column (str_of "lat"))) in Z. unfold d1 in Z. rewrite put_get in Z. change (str_eqb (str_of "lat") (str_of "x")) with false in Z. cbv iota in Z. rewrite La in Z. discriminate. }
  assert (R2 : rows d2 = n). { apply rows_even; [exact E2|]. intro Z. apply (f_equal (column (str_of "y"))) in Z. unfold d2 in Z. rewrite put_get in Z. change (str_eqb (str_of "y") (str_of "y")) with true in Z. discriminate. }
  assert (P : project mb d = Ok d2). { unfold project. rewrite Lo, La, M. cbn [bind fst snd]. unfold assign. rewrite R, Lx, Nat.eqb_refl. cbn [bind]. fold d1. rewrite R1, Ly, Nat.eqb_refl. reflexivity. }
  assert (G : forall k, column k d2 = if str_eqb k (str_of "y") then Some y else if str_eqb k (str_of "x") then Some x else column k d) by (intro k; unfold d2, d1; rewrite !put_get; reflexivity).
  exists d2. split; [exact P|]. split; [exact E2|]. split; [apply column_some; [apply E2|]; rewrite G; reflexivity|]. split; [apply column_some; [apply E2|]; rewrite G; reflexivity|]. split; [|split].
  - intros k v Kx Ky. rewrite <- (column_some k v d2 (proj1 E2)), <- (column_some k v d N), G. destruct (str_eqb_spec k (str_of "y")); [contradiction|]. destruct (str_eqb_spec k (str_of "x")); [contradiction|reflexivity].
  - unfold d2, d1. rewrite put_columns, put_columns. destruct (existsb (str_eqb (str_of "x")) (map fst d)); (destruct (existsb (str_eqb (str_of "y")) _)).
    + exists []. rewrite app_nil_r. split; [reflexivity|]. intros ? [].
    + exists [str_of "y"]. split; [reflexivity|]. intros ? [<-|[]]. right. left. reflexivity.
    + exists [str_of "x"]. split; [reflexivity|]. intros ? [<-|[]]. left. reflexivity.
    + exists [str_of "x"; str_of "y"]. rewrite <- app_assoc. split; [reflexivity|]. apply incl_refl.
  - unfold project. rewrite !G. change (str_eqb (str_of "lon") (str_of "y")) with false. change (str_eqb (str_of "lon") (str_of "x")) with false. change (str_eqb (str_of "lat") (str_of "y")) with false. change (str_eqb (str_of "lat") (str_of "x")) with false. cbv iota. rewrite Lo, La, M. cbn [bind fst snd]. unfold assign. rewrite R2, Lx, Nat.eqb_refl. cbn [bind].
    rewrite (put_same (str_of "x") x d2) by (rewrite G; reflexivity). rewrite R2, Ly, Nat.eqb_refl. rewrite (put_same (str_of "y") y d2) by (rewrite G; reflexivity). reflexivity.
Qed.
(** Arrays of another length are refused. *)
Theorem C132_project_sizes : forall n d mbasemap lat lon x y, even_table n d -> has d "lat" lat -> has d "lon" lon -> mbasemap lon lat = Ok (x, y) -> length x <> n \/ length y <> n -> project mbasemap d = Err ValueError.
Proof.
  intros n d mb lat lon x y E La Lo M S. pose proof (rows_even _ _ E ltac:(intros ->; destruct La)) as R. pose proof E as [N F]. unfold has in *. apply column_some in La, Lo; try exact N. unfold project. rewrite Lo, La, M. cbn [bind fst snd]. unfold assign. rewrite R.
  destruct (Nat.eqb_spec (length x) n) as [Lx|Lx]; [|reflexivity]. cbn [bind]. pose proof (put_even _ (str_of "x") _ _ E Lx) as E1. rewrite (rows_even n); [|exact E1|intro Z; apply (f_equal (column (str_of "x"))) in Z; rewrite put_get in Z; discriminate Z].
  destruct (Nat.eqb_spec (length y) n); [destruct S; contradiction|reflexivity].
Qed.
(** Choosing rows keeps the columns, and goes with projecting point by point. *)
Lemma masked_map (f : A -> A) mask v : masked mask (map f v) = map f (masked mask v).
Proof. unfold masked. revert v. induction mask as [|b mask IH]; intros [|a v]; try reflexivity. cbn [map combine filter fst]. destruct b; cbn [map snd]; rewrite IH; reflexivity. Qed.
Lemma masked_length mask (v w : list A) : length v = length w -> length (masked mask v) = length (masked mask w).
Proof. unfold masked. revert v w. induction mask as [|b mask IH]; intros [|a v] [|c w] H; try discriminate; try reflexivity. cbn [combine filter fst length] in *. destruct b; cbn [map length]; [f_equal|]; apply IH; lia. Qed.
Theorem C132_limit : forall n d mask, even_table n d -> new_cities d = Ok d -> exists d', limit mask d = Ok d' /\ get_columns d' = get_columns d /\
  (forall k v, In (k, v) d' <-> exists w, In (k, w) d /\ v = masked mask w) /\ exists m, even_table m d'.
Proof.
  intros n d mask [N F] C. set (d' := map (fun kv => (fst kv, masked mask (snd kv))) d). assert (K : map fst d' = map fst d) by (unfold d'; rewrite map_map; reflexivity). exists d'. split.
  - unfold limit. fold d'. pose proof (proj1 (proj1 (C132_required d)) (ex_intro _ _ C)) as R. rewrite <- K in R. destruct (proj2 (proj1 (C132_required d')) R) as (d2 & E). rewrite E. f_equal. exact (proj1 (proj2 (C132_required d')) _ E).
  - split; [exact K|]. split.
    + intros k v. unfold d'. rewrite in_map_iff. split; [intros ([k' w] & E & I); injection E as <- <-; exists w; auto|]. intros (w & I & ->). exists (k, w). auto.
    + exists (match d with [] => O | (_, v) :: _ => length (masked mask v) end). split; [rewrite K; exact N|]. unfold d'. rewrite Forall_map, Forall_forall. intros [k v] I. cbn [fst snd]. destruct d as [|[k0 v0] d]; [destruct I|]. apply masked_length. rewrite Forall_forall in F. transitivity n; [exact (F _ I)|symmetry; exact (F _ (or_introl eq_refl))].
Qed.
(** Sorting never works. *)
Theorem C132_sort_refuted : forall sort_values wanted ascending d, sort_by_columns sort_values wanted ascending d = Err TypeError.
Proof. reflexivity. Qed.
(** MapCities: the same tables are accepted; the names of the fonts sorted; labels cannot be chosen. *)
Lemma leb_refl_total a b : str_leb a b = true \/ str_leb b a = true.
Proof. revert b. induction a as [|x a IH]; intros [|y b]; [left; reflexivity..|right; reflexivity|]. cbn [str_leb]. destruct (Nat.ltb_spec (nat_of_ascii x) (nat_of_ascii y)); [left; reflexivity|]. destruct (Nat.ltb_spec (nat_of_ascii y) (nat_of_ascii x)); [right; reflexivity|]. apply IH. Qed.
Lemma insert_perm x l : Permutation (x :: l) (insert x l).
Proof. induction l as [|y l IH]; cbn [insert]; [reflexivity|]. destruct (str_leb x y); [reflexivity|]. rewrite perm_swap. constructor. exact IH. Qed.
Lemma insert_sorted x l : Sorted (fun a b => str_leb a b = true) l -> Sorted (fun a b => str_leb a b = true) (insert x l).
Proof.
  induction l as [|y l IH]; intro S; cbn [insert]; [repeat constructor|]. destruct (str_leb x y) eqn:E; [constructor; [exact S|constructor; exact E]|]. inversion S as [|? ? S' H]; subst. constructor; [apply IH, S'|]. assert (Y : str_leb y x = true) by (destruct (leb_refl_total y x); congruence).
  destruct l as [|z l]; cbn [insert]; [constructor; exact Y|]. inversion H; subst. destruct (str_leb x z); constructor; assumption.
Qed.
(** The order of texts: the first differing character decides. *)
Definition before (a b : str) : Prop := (exists t, b = a ++ t) \/ exists p x y s t, a = p ++ x :: s /\ b = p ++ y :: t /\ (nat_of_ascii x < nat_of_ascii y)%nat.
Lemma leb_before a b : str_leb a b = true <-> before a b.
Proof.
  revert b. induction a as [|x a IH]; intros b.
  - split; [intros _; left; exists b; reflexivity|reflexivity].
  - destruct b as [|y b]; cbn [str_leb].
    + split; [discriminate|]. intros [(t & E)|([|p0 p] & x' & y' & s & t & E & F & _)]; discriminate.
    + destruct (Nat.ltb_spec (nat_of_ascii x) (nat_of_ascii y)) as [L|L]; [split; [intros _; right; exists [], x, y, a, b; auto|reflexivity]|]. destruct (Nat.ltb_spec (nat_of_ascii y) (nat_of_ascii x)) as [L'|L'].
      * split; [discriminate|]. intros [(t & E)|([|p0 p] & x' & y' & s & t & E & F & G)]; [injection E as -> _; lia|injection E as -> _; injection F as -> _; lia|injection E as -> _; injection F as -> _; lia].
      * assert (x = y) as <-. { rewrite <- (ascii_nat_embedding x), <- (ascii_nat_embedding y). f_equal. lia. } rewrite IH. split; (intros [(t & E)|(p & x' & y' & s & t & E & F & G)]).
        -- left. exists t. subst. reflexivity.
        -- right. exists (x :: p), x', y', s, t. subst. auto.
        -- left. injection E as E. exists t. exact E.
        -- right. destruct p as [|p0 p]; [injection E as -> _; injection F as -> _; lia|]. injection E as -> E. injection F as F. exists p, x', y', s, t. auto.
Qed.
Theorem C132_fonts : forall fonts d, new_cities d = Ok d -> exists l, new_map_cities fonts d = Ok (d, l) /\ Permutation fonts l /\ (forall i a b, nth_error l i = Some a -> nth_error l (S i) = Some b -> before a b).
Proof.
  intros fonts d C. exists (sort fonts). unfold new_map_cities. rewrite C. split; [reflexivity|]. split.
  - unfold sort. induction fonts as [|f fonts IH]; [reflexivity|]. cbn [fold_right]. rewrite <- insert_perm. constructor. exact IH.
  - assert (S : Sorted (fun a b => str_leb a b = true) (sort fonts)) by (unfold sort; induction fonts as [|f fonts IH]; cbn [fold_right]; [constructor|apply insert_sorted, IH]).
    revert S. generalize (sort fonts). induction l as [|x l IH]; intros S i a b; [destruct i; discriminate|]. inversion S as [|? ? S' H]; subst. destruct i as [|i]; cbn [nth_error]; [|apply IH, S']. intros E F. injection E as <-. destruct l as [|z l]; [discriminate|]. injection F as <-. inversion H; subst. apply leb_before. assumption.
Qed.
Theorem C132_map_cities : forall fonts d, (forall e, new_cities d = Err e -> new_map_cities fonts d = Err e) /\ limit_by_map_collision d = Err NotImplementedErr.
Proof. intros fonts d. split; [|reflexivity]. intros e E. unfold new_map_cities. rewrite E. reflexivity. Qed.
End Sheets.
Print Assumptions C132_required.
Print Assumptions C132_cities.
Print Assumptions C132_project.
Print Assumptions C132_project_sizes.
Print Assumptions C132_limit.
Print Assumptions C132_sort_refuted.
Print Assumptions C132_fonts.
Print Assumptions C132_map_cities.
Definition ex_sheet : sheet nat := [(str_of "name", [1; 2]); (str_of "lon", [10; 20]); (str_of "y", [0; 0]); (str_of "lat", [30; 40])]%nat.
Example C132_example : even_table 2 ex_sheet /\ new_cities ex_sheet = Ok ex_sheet /\
  project (fun a b => Ok (map S a, map S b)) ex_sheet = Ok [(str_of "name", [1; 2]); (str_of "lon", [10; 20]); (str_of "y", [31; 41]); (str_of "lat", [30; 40]); (str_of "x", [11; 21])]%nat /\
  new_cities (tl ex_sheet) = Err KeyError.
Proof. split; [split; [|repeat constructor]|split; [|split]]; try (vm_compute; reflexivity). cbn [ex_sheet map fst]. repeat (constructor; [cbn [In]; intros H; repeat (destruct H as [H|H]; [discriminate|]); contradiction|]). constructor. Qed.
