(** Consequences of the refinement for HDFContainer; JSON values. *)
From Coq Require Import ZArith String Ascii Bool List Lia.
From Verif Require Import PyBase HdfModel HdfSpec HdfProofs.
Import ListNotations.
Open Scope Z_scope.

(** ** JSON *)
Fixpoint pyval_ind2 (P : pyval -> Prop)
  (Hn : P VNone) (Hb : forall b, P (VBool b)) (Hi : forall z, P (VInt z)) (Hf : forall z, P (VFloat z)) (Hs : forall s, P (VStr s))
  (Hl : forall l, Forall P l -> P (VList l)) (Ht : forall l, Forall P l -> P (VTuple l))
  (Hd : forall l, Forall (fun kv => P (snd kv)) l -> P (VDict l)) (Ho : P VOther) (v : pyval) : P v :=
  match v with
  | VNone => Hn | VBool b => Hb b | VInt z => Hi z | VFloat z => Hf z | VStr s => Hs s
  | VList l => Hl l ((fix go l : Forall P l := match l with [] => Forall_nil _ | x :: r => Forall_cons x (pyval_ind2 P Hn Hb Hi Hf Hs Hl Ht Hd Ho x) (go r) end) l)
  | VTuple l => Ht l ((fix go l : Forall P l := match l with [] => Forall_nil _ | x :: r => Forall_cons x (pyval_ind2 P Hn Hb Hi Hf Hs Hl Ht Hd Ho x) (go r) end) l)
  | VDict l => Hd l ((fix go l : Forall (fun kv => P (snd kv)) l := match l with [] => Forall_nil _ | x :: r => Forall_cons x (pyval_ind2 P Hn Hb Hi Hf Hs Hl Ht Hd Ho (snd x)) (go r) end) l)
  | VOther => Ho
  end.

Lemma existsb_In : forall x l, existsb (str_eqb x) l = true <-> In x l.
Proof.
  intros x l. rewrite existsb_exists. split.
  - intros (y & Hy & E). apply str_eqb_eq in E. subst. assumption.
  - intro H. exists x. split; [assumption|apply str_eqb_refl].
Qed.
Lemma distinct_NoDup : forall l, distinct l = true <-> NoDup l.
Proof.
  induction l as [|x l IH]; cbn [distinct]; [split; [constructor|reflexivity]|].
  rewrite andb_true_iff, negb_true_iff, IH. split.
  - intros [H1 H2]. constructor; [|assumption]. intro H. apply existsb_In in H. congruence.
  - intro H. inversion H; subst. split; [|assumption]. destruct (existsb (str_eqb x) l) eqn:E; [|reflexivity].
    apply existsb_In in E. contradiction.
Qed.

Lemma dict_put_new : forall {A} k (v : A) l, ~ In k (map fst l) -> dict_put k v l = l ++ [(k, v)].
Proof.
  induction l as [|[k' v'] l IH]; intro H; [reflexivity|]. cbn [dict_put app]. simpl in H.
  destruct (str_eqb_spec k k') as [->|Hne]; [tauto|]. rewrite IH by tauto. reflexivity.
Qed.
Lemma fold_put_new : forall {A} (d acc : list (str * A)), NoDup (map fst (acc ++ d)) ->
  fold_left (fun acc kv => dict_put (fst kv) (snd kv) acc) d acc = acc ++ d.
Proof.
  induction d as [|[k v] d IH]; intros acc H; cbn [fold_left]; [rewrite app_nil_r; reflexivity|].
  cbn [fst snd]. rewrite dict_put_new.
  - rewrite IH; rewrite <- app_assoc; [reflexivity|assumption].
  - intro Hk. rewrite map_app in H. cbn [map fst] in H. apply NoDup_remove_2 in H. apply H. apply in_or_app. auto.
Qed.

Lemma dict_put_keys : forall {A} k (v : A) l x, In x (map fst (dict_put k v l)) <-> x = k \/ In x (map fst l).
Proof.
  induction l as [|[k' v'] l IH]; intro x; cbn [dict_put map fst In]; [intuition|].
  destruct (str_eqb_spec k k') as [->|Hne]; cbn [map fst In]; [intuition|]. rewrite IH. intuition.
Qed.
Lemma dict_put_nodup : forall {A} k (v : A) l, NoDup (map fst l) -> NoDup (map fst (dict_put k v l)).
Proof.
  induction l as [|[k' v'] l IH]; intro H; cbn [dict_put map fst]; [constructor; [intros []|constructor]|].
  inversion H; subst. destruct (str_eqb_spec k k') as [->|Hne]; cbn [map fst]; constructor; auto.
  rewrite dict_put_keys. intros [E|E]; congruence.
Qed.
Lemma fold_put_nodup : forall {A} (d acc : list (str * A)), NoDup (map fst acc) ->
  NoDup (map fst (fold_left (fun acc kv => dict_put (fst kv) (snd kv) acc) d acc)).
Proof. induction d as [|[k v] d IH]; intros acc H; cbn [fold_left]; [assumption|]. apply IH. apply dict_put_nodup. assumption. Qed.
Lemma dict_put_all : forall {A} (P : A -> Prop) k v l, P v -> Forall (fun kv => P (snd kv)) l -> Forall (fun kv => P (snd kv)) (@dict_put A k v l).
Proof.
  intros A P k v. induction l as [|[k' v'] l IH]; intros Hv H; cbn [dict_put]; [repeat constructor; assumption|].
  inversion H; subst. destruct (str_eqb k k'); constructor; auto.
Qed.
Lemma fold_put_all : forall {A} (P : A -> Prop) (d acc : list (str * A)), Forall (fun kv => P (snd kv)) d -> Forall (fun kv => P (snd kv)) acc ->
  Forall (fun kv => P (snd kv)) (fold_left (fun acc kv => dict_put (fst kv) (snd kv) acc) d acc).
Proof.
  induction d as [|[k v] d IH]; intros acc Hd H; cbn [fold_left]; [assumption|]. inversion Hd; subst. apply IH; [assumption|].
  apply dict_put_all; assumption.
Qed.

Lemma plain_norm : forall v, json_plain v = true -> json_norm v = Some v.
Proof.
  induction v as [|b|z|z|s|l IH|l IH|l IH|] using pyval_ind2; intro H; try reflexivity; try discriminate.
  - cbn [json_norm]. cbn [json_plain] in H.
    assert (E : fold_right (fun x r => match json_norm x, r with Some y, Some ys => Some (y :: ys) | _, _ => None end) (Some []) l = Some l).
    { induction IH as [|x l Hx Hl IHl]; [reflexivity|]. cbn [forallb] in H. apply andb_true_iff in H as [H1 H2].
      cbn [fold_right]. rewrite (Hx H1), (IHl H2). reflexivity. }
    rewrite E. reflexivity.
  - cbn [json_norm]. cbn [json_plain] in H. apply andb_true_iff in H as [H1 H2].
    set (unk := fun kv : pykey * pyval => (match fst kv with KStr s => s | _ => [] end, snd kv)).
    assert (E : fold_right (fun kx r => match kx with (k, x) =>
             match json_key k, json_norm x, r with
             | Some s, Some y, Some ys => Some ((s, y) :: ys) | _, _, _ => None end end) (Some []) l = Some (map unk l)).
    { clear H2. induction IH as [|[k x] l Hx Hl IHl]; [reflexivity|]. cbn [forallb] in H1. apply andb_true_iff in H1 as [H1 H2].
      destruct k; try discriminate. cbn [fold_right json_key snd map] in *. rewrite (Hx H1), (IHl H2). reflexivity. }
    rewrite E. cbn [option_map]. rewrite fold_put_new.
    + cbn [app]. f_equal. f_equal. rewrite map_map. rewrite forallb_forall in H1.
      rewrite <- (map_id l) at 2. apply map_ext_in. intros [k x] Hin. specialize (H1 _ Hin). destruct k; try discriminate. reflexivity.
    + cbn [app]. rewrite map_map. apply distinct_NoDup in H2. exact H2.
Qed.

Lemma norm_plain : forall v j, json_norm v = Some j -> json_plain j = true.
Proof.
  assert (Hlist : forall l, Forall (fun v => forall j, json_norm v = Some j -> json_plain j = true) l -> forall j,
    option_map VList (fold_right (fun x r => match json_norm x, r with Some y, Some ys => Some (y :: ys) | _, _ => None end) (Some []) l) = Some j ->
    json_plain j = true).
  { intros l IH j H.
    assert (E : forall ys, fold_right (fun x r => match json_norm x, r with Some y, Some ys => Some (y :: ys) | _, _ => None end) (Some []) l = Some ys ->
       forallb json_plain ys = true).
    { clear H. induction IH as [|x l Hx Hl IHl]; intros ys E; cbn [fold_right] in E; [injection E as <-; reflexivity|].
      destruct (json_norm x) as [y|]; [|discriminate]. destruct (fold_right _ _ l) as [ys'|]; [|discriminate].
      injection E as <-. cbn [forallb]. rewrite (Hx y eq_refl), (IHl ys' eq_refl). reflexivity. }
    destruct (fold_right _ _ l) as [ys|]; [|discriminate]. injection H as <-. cbn [json_plain]. apply E. reflexivity. }
  induction v as [|b|z|z|s|l IH|l IH|l IH|] using pyval_ind2; intros j H; try (injection H as <-; reflexivity); try discriminate.
  - apply (Hlist l IH). exact H.
  - apply (Hlist l IH). exact H.
  - cbn [json_norm] in H.
    assert (E : forall ys, fold_right (fun kx r => match kx with (k, x) =>
             match json_key k, json_norm x, r with
             | Some s, Some y, Some ys => Some ((s, y) :: ys) | _, _, _ => None end end) (Some []) l = Some ys ->
       Forall (fun kv => json_plain (snd kv) = true) ys).
    { clear H. induction IH as [|[k x] l Hx Hl IHl]; intros ys E; cbn [fold_right] in E; [injection E as <-; constructor|].
      destruct (json_key k) as [s|]; [|discriminate]. cbn [snd] in Hx. destruct (json_norm x) as [y|]; [|discriminate].
      destruct (fold_right _ _ l) as [ys'|]; [|discriminate]. injection E as <-. constructor; [apply Hx; reflexivity|apply IHl; reflexivity]. }
    destruct (fold_right _ _ l) as [ys|]; [|discriminate]. cbn [option_map] in H. injection H as <-.
    cbn [json_plain]. apply andb_true_iff. split.
    + rewrite forallb_forall. intros kv Hin. apply in_map_iff in Hin as ([s y] & <- & Hin). cbn [fst snd].
      assert (HF : Forall (fun kv => json_plain (snd kv) = true) (fold_left (fun acc kv => dict_put (fst kv) (snd kv) acc) ys [])).
      { apply (fold_put_all (fun x => json_plain x = true)); [apply E; reflexivity|constructor]. }
      rewrite Forall_forall in HF. apply (HF _ Hin).
    + apply distinct_NoDup. rewrite map_map. cbn [fst]. apply fold_put_nodup. constructor.
Qed.

Lemma dict_put_In : forall {A} k (v : A) l s j, NoDup (map fst l) ->
  (In (s, j) (dict_put k v l) <-> (s = k /\ j = v) \/ (s <> k /\ In (s, j) l)).
Proof.
  induction l as [|[k' v'] l IH]; intros s j N; cbn [dict_put In].
  - split; [intros [E|[]]; injection E as <- <-; auto|]. intros [[-> ->]|[_ []]]. auto.
  - inversion N as [|x xs Hx Hxs]; subst. cbn [fst] in Hx. destruct (str_eqb_spec k k') as [->|Hne]; cbn [In].
    + split.
      * intros [E|E]; [injection E as <- <-; auto|]. right. split; [|auto]. intros ->. apply Hx. apply in_map_iff. exists (k', j). auto.
      * intros [[-> ->]|[Hs [E|E]]]; auto. injection E as <- <-. congruence.
    + rewrite IH by assumption. split.
      * intros [E|[E|[H1 H2]]]; auto. injection E as <- <-. right. split; [congruence|auto].
      * intros [E|[H1 [H2|H2]]]; auto.
Qed.

Lemma fold_put_In : forall {A} (d acc : list (str * A)) s j, NoDup (map fst acc) ->
  (In (s, j) (fold_left (fun acc kv => dict_put (fst kv) (snd kv) acc) d acc) <->
   last_of s d j \/ (In (s, j) acc /\ ~ In s (map fst d))).
Proof.
  intros A d. induction d as [|[k v] d IH]; intros acc s j N; cbn [fold_left].
  - split; [auto|]. intros [(a & b & E & _)|[H _]]; [destruct a; discriminate|assumption].
  - cbn [fst snd]. rewrite IH by (apply dict_put_nodup; assumption). rewrite dict_put_In by assumption. cbn [map fst In]. split.
    + intros [(a & b & E & Hb)|[[[-> ->]|[H1 H2]] H3]].
      * left. exists ((k, v) :: a), b. rewrite E. auto.
      * left. exists [], d. auto.
      * right. split; [assumption|]. intros [E|E]; [congruence|contradiction].
    + intros [(a & b & E & Hb)|[H1 H2]].
      * destruct a as [|x a]; cbn [app] in E; injection E as E1 E2.
        -- subst. right. auto.
        -- left. exists a, b. auto.
      * right. split; [right; split; [intros ->; apply H2; auto|assumption]|]. intro H. apply H2. auto.
Qed.

Lemma json_key_text : forall k, match json_key k with Some s => key_text k s | None => k = KBad end.
Proof. intros [| |[]| |]; cbn; constructor. Qed.

Lemma norm_rel : forall v, if json_able v then exists j, json_norm v = Some j /\ json_rel v j else json_norm v = None.
Proof.
  assert (Hlist : forall l, Forall (fun v => if json_able v then exists j, json_norm v = Some j /\ json_rel v j else json_norm v = None) l ->
    if forallb json_able l then exists l', fold_right (fun x r => match json_norm x, r with Some y, Some ys => Some (y :: ys) | _, _ => None end) (Some []) l = Some l'
       /\ Forall2 json_rel l l'
    else fold_right (fun x r => match json_norm x, r with Some y, Some ys => Some (y :: ys) | _, _ => None end) (Some []) l = None).
  { induction 1 as [|x l Hx Hl IHl]; [exists []; auto|]. cbn [forallb fold_right].
    destruct (json_able x); cbn [andb].
    - destruct Hx as (j & -> & Hj). destruct (forallb json_able l).
      + destruct IHl as (l' & -> & Hl'). exists (j :: l'). auto.
      + rewrite IHl. reflexivity.
    - rewrite Hx. reflexivity. }
  induction v as [|b|z|z|s|l IH|l IH|l IH|] using pyval_ind2; cbn [json_able]; try (eexists; split; [reflexivity|constructor]).
  - specialize (Hlist l IH). destruct (forallb json_able l).
    + destruct Hlist as (l' & E & H). exists (VList l'). cbn [json_norm]. rewrite E. split; [reflexivity|constructor; assumption].
    + cbn [json_norm]. rewrite Hlist. reflexivity.
  - specialize (Hlist l IH). destruct (forallb json_able l).
    + destruct Hlist as (l' & E & H). exists (VList l'). cbn [json_norm]. rewrite E. split; [reflexivity|constructor; assumption].
    + cbn [json_norm]. rewrite Hlist. reflexivity.
  - assert (Hd : if forallb (fun kv => match kv with (KBad, _) => false | (_, x) => json_able x end) l
      then exists mid, fold_right (fun kx r => match kx with (k, x) =>
             match json_key k, json_norm x, r with
             | Some s, Some y, Some ys => Some ((s, y) :: ys) | _, _, _ => None end end) (Some []) l = Some mid /\
           Forall2 (fun kx sy => key_text (fst kx) (fst sy) /\ json_rel (snd kx) (snd sy)) l mid
      else fold_right (fun kx r => match kx with (k, x) =>
             match json_key k, json_norm x, r with
             | Some s, Some y, Some ys => Some ((s, y) :: ys) | _, _, _ => None end end) (Some []) l = None).
    { induction IH as [|[k x] l Hx Hl IHl]; [exists []; auto|]. cbn [forallb fold_right snd] in *.
      pose proof (json_key_text k) as Hk. destruct (json_key k) as [s|]; [|subst k; reflexivity].
      assert (Hne : match k with KBad => false | _ => json_able x end = json_able x) by (inversion Hk; reflexivity).
      rewrite Hne. destruct (json_able x); cbn [andb].
      - destruct Hx as (j & -> & Hj). destruct (forallb _ l).
        + destruct IHl as (mid & -> & Hm). exists ((s, j) :: mid). split; [reflexivity|]. constructor; [split; assumption|assumption].
        + rewrite IHl. reflexivity.
      - rewrite Hx. reflexivity. }
    cbn [json_norm]. destruct (forallb _ l).
    + destruct Hd as (mid & -> & Hm). cbn [option_map]. eexists. split; [reflexivity|]. econstructor; [eassumption| |].
      * apply fold_put_nodup. constructor.
      * intros s j. rewrite fold_put_In by constructor. split; [intros [H|[[] _]]; assumption|auto].
    + rewrite Hd. reflexivity.
  - reflexivity.
Qed.

Lemma json_form : forall v, if json_able v then exists j, enc_json v = Ok (PJson j) /\ json_rel v j else enc_json v = Err TypeError.
Proof.
  intro v. pose proof (norm_rel v) as H. unfold enc_json. destruct (json_able v).
  - destruct H as (j & -> & Hj). exists j. auto.
  - rewrite H. reflexivity.
Qed.

Lemma json_values : forall v, (json_plain v = true -> enc_json v = Ok (PJson v)) /\
  (forall p, enc_json v = Ok p -> exists j, p = PJson j /\ json_plain j = true).
Proof.
  intro v. unfold enc_json. split.
  - intro H. rewrite plain_norm by assumption. reflexivity.
  - intros p H. destruct (json_norm v) as [j|] eqn:E; [|discriminate]. injection H as <-. exists j. split; [reflexivity|]. eapply norm_plain. eassumption.
Qed.

(** ** Setting and dropping *)
Lemma update_same : forall k n e m, amap (update k n e m) k n = e.
Proof. intros. cbn. rewrite str_eqb_refl. destruct k; reflexivity. Qed.

Lemma gets_of_rel : forall t t' m m', Rel t m -> Rel t' m' -> (forall k n, amap m' k n = amap m k n) ->
  (forall k, used m' k = used m k) -> same_gets t t'.
Proof.
  intros t t' m m' R R' Ha Hu k n Hn. rewrite (failed_get_same t m), (failed_get_same t' m') by assumption.
  rewrite Ha, Hu. reflexivity.
Qed.

Lemma get_some_amap : forall t m k n v a, Rel t m -> good_name n -> fst (step (Get k n) t) = Ok (RVal v a) -> amap m k n = Some (v, a).
Proof.
  intros t m k n v a R Hn H. rewrite (failed_get_same t m) in H by assumption. destruct (amap m k n) as [[v' a']|]; [|discriminate]. congruence.
Qed.

Lemma used_of_some : forall t m k n x, Rel t m -> amap m k n = Some x -> used m k = true.
Proof.
  intros t m k n [v a] R H. pose proof (rel_map _ _ R k n) as Hm. rewrite H in Hm.
  change [gname k; n] with ([gname k] ++ n :: []) in Hm. apply view_below in Hm. rewrite (rel_used _ _ R) in Hm.
  destruct (used m k); [reflexivity|discriminate].
Qed.

Lemma agree_err : forall r e, agree r (Err e) -> r = Err e.
Proof. intros [o|e'] e H; simpl in H; [destruct o; contradiction|congruence]. Qed.
Lemma agree_unit : forall r, agree r (Ok AUnit) -> r = Ok RUnit.
Proof. intros [[]|] H; simpl in H; try contradiction. reflexivity. Qed.

Lemma kind_eqb_refl : forall k, kind_eqb k k = true. Proof. intros []; reflexivity. Qed.

Lemma aset_shape : forall o k n m, sets k n o = true ->
  exists enc meta, astep o m = aset k n enc meta m /\ good_op o = good_name n /\
    content o = match enc with Ok p => (let (w, c) := meta_written meta [] in if c then Ok (p, w) else Err TypeError) | Err e => Err e end.
Proof.
  intros o k n m H. unfold sets in H. apply andb_true_iff in H as [Hk Hn].
  destruct o; cbn [sets_kind op_name] in *; try discriminate; (match type of Hk with kind_eqb k ?k' = true => destruct (kind_eqb_spec k k') as [->|]; try discriminate end);
    apply str_eqb_eq in Hn; subst; cbn [astep content good_op op_name]; unfold good_op; cbn [op_name].
  - exists (enc_json v), []. split; [reflexivity|]. split; [reflexivity|]. destruct (enc_json v); reflexivity.
  - exists (enc_json v), []. split; [reflexivity|]. split; [reflexivity|]. destruct (enc_json v); reflexivity.
  - exists (enc_text s), []. split; [reflexivity|]. split; [reflexivity|]. destruct (enc_text s); reflexivity.
  - exists (enc_arr a compression), meta. split; [reflexivity|]. split; [reflexivity|]. destruct (enc_arr a compression); reflexivity.
  - exists (Ok (PFrame f)), []. split; [reflexivity|]. split; [reflexivity|]. reflexivity.
Qed.

Lemma reached_set : forall t o, reached t -> good_op o -> reached (snd (step o t)).
Proof.
  intros t o (ops & G & ->) Go. exists (ops ++ [o]). split; [apply Forall_app; split; [assumption|constructor; [assumption|constructor]]|].
  assert (E : forall l t0, snd (run step (l ++ [o]) t0) = snd (step o (snd (run step l t0)))).
  { induction l as [|x l IH]; intro t0; cbn [app run].
    - cbn [snd]. destruct (step o t0). reflexivity.
    - destruct (step x t0) as [r t1]. specialize (IH t1). destruct (run step (l ++ [o]) t1), (run step l t1). exact IH. }
  symmetry. apply E.
Qed.

(** A second set raises and no stored value changes. *)
Lemma second_set : forall t k n o v a, reached t -> good_name n -> sets k n o = true ->
  fst (step (Get k n) t) = Ok (RVal v a) ->
  (exists e, fst (step o t) = Err e /\ (forall c, content o = Ok c -> e = ValueError)) /\ same_gets t (snd (step o t)).
Proof.
  intros t k n o v a Hr Hn Ho Hget. destruct (reached_rel t Hr) as (m & R).
  pose proof (get_some_amap _ _ _ _ _ _ R Hn Hget) as Hm. pose proof (used_of_some _ _ _ _ _ R Hm) as Hu.
  destruct (aset_shape o k n m Ho) as (enc & meta & Ea & Hg & Hc).
  destruct (step_refines o t m R) as (r & t' & E & A & R'); [rewrite Hg; assumption|].
  rewrite E. cbn [fst snd]. rewrite Ea in A, R'. unfold aset in A, R'. rewrite Hm in A, R'.
  assert (R2 : Rel t' (touch k m)) by (destruct enc; exact R').
  split.
  - destruct enc as [p|e]; cbn [fst] in A.
    + apply agree_err in A. exists ValueError. split; [assumption|]. reflexivity.
    + apply agree_err in A. exists e. split; [assumption|]. rewrite Hc. discriminate.
  - eapply gets_of_rel; [exact R|exact R2|reflexivity|]. intro k'. cbn [used touch].
    destruct (kind_eqb_spec k k') as [<-|]; [rewrite Hu; reflexivity|reflexivity].
Qed.

Lemma used_history : forall ops m k, used (snd (arun ops m)) k = existsb (sets_kind k) ops || used m k.
Proof.
  induction ops as [|o ops IH]; intros m k; [reflexivity|]. cbn [arun existsb].
  destruct (astep o m) as [r m'] eqn:E. specialize (IH m' k). destruct (arun ops m') as [rs m'']. cbn [snd] in *. rewrite IH.
  assert (Hu : used m' k = sets_kind k o || used m k).
  { assert (Hset : forall k' n enc meta, astep o m = aset k' n enc meta m -> sets_kind k o = kind_eqb k k' -> used m' k = sets_kind k o || used m k).
    { intros k' n enc meta Ea Hs. rewrite Hs. rewrite E in Ea. unfold aset in Ea.
      assert (Hkk : kind_eqb k' k = kind_eqb k k') by (destruct k, k'; reflexivity).
      destruct enc as [p|e]; [|injection Ea as _ ->; cbn [used touch]; rewrite Hkk; reflexivity].
      destruct (amap m k' n); [injection Ea as _ ->; cbn [used touch]; rewrite Hkk; reflexivity|].
      destruct (meta_written meta []). injection Ea as _ ->. cbn [used touch update]. rewrite Hkk. reflexivity. }
    destruct o; try (eapply Hset; reflexivity); cbn [sets_kind orb]; cbn [astep] in E.
    - destruct (amap m k0 n) as [[v a]|]; injection E as _ <-; reflexivity.
    - destruct (amap m k0 n); injection E as _ <-; reflexivity.
    - injection E as _ <-. reflexivity. }
  rewrite Hu. destruct (sets_kind k o), (existsb (sets_kind k) ops), (used m k); reflexivity.
Qed.

(** Getting or dropping a missing name. *)
Lemma missing : forall ops k n, Forall good_op ops -> good_name n ->
  let t := snd (run step ops empty) in
  let e := if existsb (sets_kind k) ops then LookupError else KeyError in
  (forall v a, fst (step (Get k n) t) <> Ok (RVal v a)) ->
  fst (step (Get k n) t) = Err e /\ step (Drop k n) t = (Err e, t).
Proof.
  intros ops k n G Hn t e H.
  destruct (run_refines ops empty no_maps rel_empty G) as [_ R]. fold t in R.
  set (m := snd (arun ops no_maps)) in *.
  assert (Hu : used m k = existsb (sets_kind k) ops) by (unfold m; rewrite used_history; cbn [used no_maps]; apply orb_false_r).
  rewrite (failed_get_same t m) by assumption.
  destruct (amap m k n) as [[v a]|] eqn:Em; [exfalso; apply (H v a); rewrite (failed_get_same t m), Em by assumption; reflexivity|].
  assert (He : (if used m k then LookupError else KeyError) = e) by (rewrite Hu; reflexivity).
  split; [rewrite He; reflexivity|].
  pose proof (rel_used _ _ R k) as Hvk. cbn [step]. unfold hc_drop.
  destruct (used m k).
  - unfold bnd. change [gname k] with ([] ++ [gname k]) in Hvk. rewrite (h_get_some t [] (gname k) EGroup) by (try apply gname_good; assumption).
    change ([] ++ [gname k]) with [gname k]. rewrite h_in_spec by assumption. change ([gname k] ++ [n]) with [gname k; n].
    rewrite (rel_map _ _ R), Em. cbn. rewrite <- He. reflexivity.
  - unfold bnd. change [gname k] with ([] ++ [gname k]) in Hvk. rewrite h_get_none by (try apply gname_good; assumption). rewrite <- He. reflexivity.
Qed.

(** After a drop the name is free and everything else is as before; setting it again works. *)
Lemma drop_then_set : forall t k n, reached t -> good_name n -> fst (step (Drop k n) t) = Ok RUnit ->
  let t1 := snd (step (Drop k n) t) in
  (exists v a, fst (step (Get k n) t) = Ok (RVal v a)) /\
  fst (step (Get k n) t1) = Err LookupError /\
  (forall k' n', good_name n' -> (k', n') <> (k, n) -> fst (step (Get k' n') t1) = fst (step (Get k' n') t)) /\
  (forall o v a, sets k n o = true -> content o = Ok (v, a) ->
     fst (step o t1) = Ok RUnit /\ fst (step (Get k n) (snd (step o t1))) = Ok (RVal v a)).
Proof.
  intros t k n Hr Hn H t1. destruct (reached_rel t Hr) as (m & R).
  destruct (step_refines (Drop k n) t m R Hn) as (r & t' & E & A & R'). unfold t1. rewrite E in *. cbn [fst snd] in *. subst r.
  cbn [astep] in A, R'. destruct (amap m k n) as [[v a]|] eqn:Em; cbn [fst snd] in *.
  2:{ apply agree_err in A. discriminate. }
  pose proof (used_of_some _ _ _ _ _ R Em) as Hu.
  split; [exists v, a; rewrite (failed_get_same t m), Em by assumption; reflexivity|].
  split; [rewrite (failed_get_same t' (update k n None m)) by assumption; rewrite update_same; cbn [used update]; rewrite Hu; reflexivity|].
  split.
  - intros k' n' Hn' Hne. rewrite (failed_get_same t' (update k n None m)), (failed_get_same t m) by assumption. cbn [amap used update].
    destruct (kind_eqb_spec k k') as [<-|]; [|reflexivity]. destruct (str_eqb_spec n n') as [<-|]; [congruence|reflexivity].
  - intros o v' a' Ho Hc. destruct (aset_shape o k n (update k n None m) Ho) as (enc & meta & Ea & Hg & Hc').
    rewrite Hc in Hc'. destruct (step_refines o t' _ R') as (r2 & t2 & E2 & A2 & R2); [rewrite Hg; assumption|].
    rewrite E2. cbn [fst snd]. rewrite Ea in A2, R2. unfold aset in A2, R2. rewrite update_same in A2, R2.
    destruct enc as [p|e]; [|discriminate]. destruct (meta_written meta []) as [w c]. destruct c; [|discriminate].
    injection Hc' as <- <-. cbn [fst snd] in *. apply agree_unit in A2. split; [assumption|].
    rewrite (failed_get_same t2 _ k n R2 Hn), update_same. reflexivity.
Qed.
