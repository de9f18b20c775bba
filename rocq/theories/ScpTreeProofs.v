(** Proofs about recursive scp. *)
From Coq Require Import ZArith String Ascii Bool List Lia.
From Verif Require Import PyBase PyStr FsModel FsSpec FsProofs PathProofs ScpModel ScpSpec ScpProofs.
Import ListNotations.

Definition plain (n : str) : Prop := n <> [] /\ ~ In sl n /\ ~ In nl n.
(** A base path: not empty, no slash at the end. *)
Definition base_ok (b : str) : Prop := exists a c, b = a ++ [c] /\ c <> sl.
Lemma base_ends : forall b, base_ok b -> b <> [] /\ ends_sl b = false.
Proof.
  intros b (a & c & -> & Hc). split; [destruct a; discriminate|]. destruct (ends_sl (a ++ [c])) eqn:E; [|reflexivity].
  apply ends_sl_snoc in E as (r & E). apply app_inj_tail in E as [_ E]. congruence.
Qed.
Lemma base_grow : forall b n, base_ok b -> plain n -> base_ok (b ++ sl :: n).
Proof.
  intros b n _ (N & S & _). destruct (snoc_cases n N) as (r & x & ->). exists (b ++ sl :: r), x. split; [rewrite <- app_assoc; reflexivity|].
  intro E. subst x. apply S. apply in_app_iff. right. left. reflexivity.
Qed.
Lemma base_join : forall b n, base_ok b -> plain n -> os_join b n = b ++ sl :: n.
Proof.
  intros b n Hb (N & S & _). rewrite os_join_dir by (apply plain_starts; assumption). unfold dirpart. destruct (base_ends b Hb) as [B1 B2]. rewrite B2.
  destruct b; [congruence|]. cbn [List.length Nat.eqb]. rewrite <- ?app_assoc. reflexivity.
Qed.
Fixpoint sub (q : path) : str := match q with [] => [] | n :: q' => (sl :: n) ++ sub q' end.
Lemma sub_app : forall p q, sub (p ++ q) = sub p ++ sub q.
Proof. induction p as [|n p IH]; intro q; [reflexivity|]. cbn [app sub]. rewrite IH. rewrite app_comm_cons, app_assoc. reflexivity. Qed.
Lemma sub_ok : forall q b, base_ok b -> Forall plain q -> base_ok (b ++ sub q).
Proof.
  induction q as [|n q IH]; intros b Hb F; [cbn; rewrite app_nil_r; assumption|]. inversion F; subst. cbn [sub].
  replace (b ++ (sl :: n) ++ sub q) with ((b ++ sl :: n) ++ sub q) by (rewrite <- app_assoc; reflexivity). apply IH; [apply base_grow|]; assumption.
Qed.

Lemma split_dir : forall a z, base_ok a -> ~ In sl z -> os_split (a ++ sl :: z) = (a, z).
Proof.
  intros a z (a' & c & Ea & Hc) Hz. unfold os_split. replace (a ++ sl :: z) with ((a ++ [sl]) ++ z) by (rewrite <- app_assoc; reflexivity).
  destruct (tail_head (a ++ [sl]) z Hz) as [T H]; [right; apply ends_sl_snoc; eexists; reflexivity|]. rewrite T, H, !rev_involutive.
  assert (F : forallb (Ascii.eqb sl) (a ++ [sl]) = false).
  { rewrite forallb_app, Ea, forallb_app. cbn [forallb]. destruct (Ascii.eqb_spec sl c); [congruence|]. rewrite !Bool.andb_false_r. reflexivity. }
  rewrite F. f_equal. unfold rstrip_sl. rewrite rev_app_distr. cbn [rev app]. rewrite lstrip_sl_cons. rewrite Ea, rev_app_distr. cbn [rev app lstrip_sl].
  destruct (Ascii.eqb_spec c sl); [congruence|]. cbn [rev]. rewrite rev_involutive. reflexivity.
Qed.
Lemma rstrip_base : forall a, base_ok a -> rstrip_sl a = a.
Proof.
  intros a (a' & c & -> & Hc). unfold rstrip_sl. rewrite rev_app_distr. cbn [rev app lstrip_sl]. destruct (Ascii.eqb_spec c sl); [congruence|]. cbn [rev]. rewrite rev_involutive. reflexivity.
Qed.

Lemma common_app : forall a x y, common_prefix (a ++ x) (a ++ y) = a ++ common_prefix x y.
Proof. induction a as [|c a IH]; intros x y; [reflexivity|]. cbn [app common_prefix]. rewrite Ascii.eqb_refl, IH. reflexivity. Qed.
Lemma common_names : forall m n x y, ~ In sl m -> ~ In sl n -> m <> n -> ~ In sl (common_prefix (m ++ sl :: x) (n ++ sl :: y)).
Proof.
  induction m as [|c m IH]; intros n x y Hm Hn Hne.
  - destruct n as [|d n]; [congruence|]. cbn [app common_prefix]. destruct (Ascii.eqb_spec sl d) as [<-|]; [exfalso; apply Hn; left; reflexivity|intros []].
  - destruct n as [|d n]; cbn [app common_prefix].
    + destruct (Ascii.eqb_spec c sl) as [->|]; [exfalso; apply Hm; left; reflexivity|intros []].
    + destruct (Ascii.eqb_spec c d) as [<-|]; [|intros []]. intros [C|C]; [apply Hm; left; assumption|].
      revert C. apply IH; [intro; apply Hm; right; assumption|intro; apply Hn; right; assumption|congruence].
Qed.

Section Base.
Variable base : str.
Hypothesis Hbase : base_ok base.
Definition S_ (q : path) : str := base ++ sub q.

Lemma S_snoc : forall q n, S_ (q ++ [n]) = S_ q ++ sl :: n.
Proof. intros q n. unfold S_. rewrite sub_app. cbn [sub]. rewrite app_nil_r, app_assoc. reflexivity. Qed.
Lemma S_inj_len : forall q r, Forall plain r -> S_ (q ++ r) = S_ q -> r = [].
Proof.
  intros q r F E. unfold S_ in E. rewrite sub_app, app_assoc in E. rewrite <- (app_nil_r (base ++ sub q)) in E at 2. apply app_inv_head in E.
  destruct r; [reflexivity|discriminate].
Qed.

(** Popping from below. *)
Lemma pops : forall r q fuel, Forall plain q -> Forall plain r -> (List.length r <= fuel)%nat -> pop_until fuel (S_ (q ++ r)) (S_ q) = Some (repeat Pop (List.length r)).
Proof.
  intros r q. induction r as [|m r IH] using rev_ind; intros fuel Fq Fr L.
  - rewrite app_nil_r. destruct fuel; cbn [pop_until]; rewrite str_eqb_refl; reflexivity.
  - rewrite app_length in L. cbn [List.length] in L. destruct fuel as [|fuel]; [lia|]. cbn [pop_until].
    destruct (str_eqb_spec (S_ (q ++ r ++ [m])) (S_ q)) as [E|_]; [apply S_inj_len in E; [destruct r; discriminate|assumption]|].
    apply Forall_app in Fr as [Fr Fm]. inversion Fm as [|? ? Pm _]; subst.
    rewrite (app_assoc q r [m]), S_snoc, split_dir; [|apply sub_ok; [assumption|apply Forall_app; auto]|apply Pm].
    cbn [fst]. rewrite IH by (try assumption; lia). rewrite app_length. cbn [List.length]. rewrite Nat.add_1_r. reflexivity.
Qed.

(** The step from one directory of the walk to the next. *)
Definition after (last q : path) (n : str) : Prop := exists r, last = q ++ r /\ hd_error r <> Some n.
Lemma chdir_step : forall q r n fuel, Forall plain q -> Forall plain r -> plain n -> hd_error r <> Some n -> (List.length r <= fuel)%nat ->
  chdir fuel (S_ (q ++ r)) (S_ (q ++ [n])) = Some (repeat Pop (List.length r) ++ [Push n]).
Proof.
  intros q r n fuel Fq Fr Pn Hr L. unfold chdir.
  assert (Bq : base_ok (S_ q)) by (apply sub_ok; assumption).
  assert (C : exists z, ~ In sl z /\ common_prefix (S_ (q ++ r) ++ [sl]) (S_ (q ++ [n]) ++ [sl]) = S_ q ++ sl :: z).
  { rewrite S_snoc. unfold S_ at 1. rewrite sub_app, app_assoc. fold (S_ q). rewrite <- !app_assoc, common_app. destruct r as [|m r].
    - exists []. split; [intros []|]. cbn [sub app common_prefix]. rewrite Ascii.eqb_refl. reflexivity.
    - cbn [sub app common_prefix]. rewrite Ascii.eqb_refl. eexists. split; [|reflexivity]. inversion Fr as [|? ? Pm _]; subst.
      assert (Hmn : m <> n) by (intro; subst; apply Hr; reflexivity). clear Hr Fr L. destruct Pn as (N1 & N2 & N3), Pm as (M1 & M2 & M3). destruct r as [|m' r]; cbn [sub app].
      + rewrite app_nil_r. apply common_names; assumption.
      + rewrite <- !app_assoc. cbn [app]. apply common_names; assumption. }
  destruct C as (z & Hz & Ec). rewrite Ec, split_dir by assumption. cbn [fst].
  rewrite rstrip_base by (apply sub_ok; [assumption|apply Forall_app; auto]). rewrite pops by assumption. f_equal. f_equal. f_equal. f_equal.
  rewrite S_snoc, split_dir by (first [assumption | apply Pn]). cbn [snd]. apply replace1_none. apply Pn.
Qed.
Lemma chdir_root : forall fuel, chdir fuel base base = Some [Push (py_replace (snd (os_split base)) [nl] (str_of "\^J"))].
Proof.
  intro fuel. unfold chdir. replace (common_prefix (base ++ [sl]) (base ++ [sl])) with (base ++ sl :: []).
  - rewrite split_dir by (first [assumption | intros []]). cbn [fst]. rewrite rstrip_base by assumption. destruct fuel; cbn [pop_until]; rewrite str_eqb_refl; reflexivity.
  - rewrite common_app. reflexivity.
Qed.

(** ** The walk in relative paths *)
Fixpoint wd (t : fsn) : list (path * list (str * str)) :=
  match t with
  | File _ => []
  | Dir es =>
      ([], flat_map (fun kn => match kn with (n, File c) => [(n, c)] | _ => [] end) es) ::
      flat_map (fun kn => match kn with (n, c) => map (fun x => (n :: fst x, snd x)) (wd c) end) es
  end.
Fixpoint names_ok (t : fsn) : Prop :=
  match t with
  | File _ => True
  | Dir es => Forall plain (map fst es) /\ fold_right (fun kn P => names_ok (snd kn) /\ P) True es
  end.
Lemma walk_wd : forall t b, base_ok b -> names_ok t -> walk_dirs b t = map (fun x => (b ++ sub (fst x), snd x)) (wd t).
Proof.
  induction t as [c|es IH] using fsn_ind2; intros b Hb Hn; [reflexivity|]. cbn [walk_dirs wd map fst sub]. rewrite app_nil_r. f_equal.
  destruct Hn as [Hn1 Hn2]. induction IH as [|[n c] es Hc Hes IHl]; [reflexivity|]. cbn [flat_map map fst snd fold_right] in *.
  inversion Hn1 as [|? ? Pn Hn1']; subst. destruct Hn2 as [Hn2 Hn3]. rewrite map_app. f_equal; [|auto].
  rewrite base_join by assumption. rewrite Hc; [|apply base_grow; assumption|assumption]. rewrite map_map. apply map_ext. intros [q fs]. cbn [fst snd].
  f_equal. cbn [sub]. rewrite <- app_assoc. reflexivity.
Qed.
Lemma wd_plain : forall t, names_ok t -> Forall (fun x => Forall plain (fst x) /\ Forall (fun f => plain (fst f)) (snd x)) (wd t).
Proof.
  induction t as [c|es IH] using fsn_ind2; intro Hn; [constructor|]. destruct Hn as [Hn1 Hn2]. cbn [wd]. constructor.
  - cbn [fst snd]. split; [constructor|]. clear IH Hn2. induction es as [|[n [c|e]] es IHl]; cbn [flat_map map fst] in *; [constructor| |]; inversion Hn1; subst.
    + constructor; auto.
    + auto.
  - induction IH as [|[n c] es Hc Hes IHl]; cbn [flat_map]; [constructor|]. cbn [map fst snd fold_right] in *. inversion Hn1; subst. destruct Hn2.
    apply Forall_app. split; [|auto]. specialize (Hc ltac:(assumption)). clear - Hc H1. induction Hc as [|x l [A B] F IH]; cbn [map]; constructor; [|assumption].
    cbn [fst snd]. split; [constructor; assumption|assumption].
Qed.

(** Depth-first order. *)
Fixpoint dfok (last : path) (l : list path) : Prop :=
  match l with [] => True | p :: l' => (exists q n, p = q ++ [n] /\ after last q n) /\ dfok p l' end.
Fixpoint final (last : path) (l : list path) : path := match l with [] => last | p :: l' => final p l' end.
Lemma dfok_app : forall l1 l2 last, dfok last (l1 ++ l2) <-> dfok last l1 /\ dfok (final last l1) l2.
Proof. induction l1 as [|p l1 IH]; intros l2 last; cbn [app dfok final]; [tauto|]. rewrite IH. tauto. Qed.
Lemma final_app : forall l1 l2 last, final last (l1 ++ l2) = final (final last l1) l2.
Proof. induction l1; intros; cbn; auto. Qed.
Lemma wd_paths : forall es, map fst (flat_map (fun kn : str * fsn => match kn with (n, c) => map (fun x => (n :: fst x, snd x)) (wd c) end) es) =
  flat_map (fun kn => map (cons (fst kn)) (map fst (wd (snd kn)))) es.
Proof.
  induction es as [|[n c] es IH]; [reflexivity|]. cbn [flat_map fst snd]. rewrite map_app, IH, !map_map. reflexivity.
Qed.
Lemma dfok_shift : forall l n last, dfok last l -> dfok (n :: last) (map (cons n) l).
Proof.
  induction l as [|p l IH]; intros n last H; [exact I|]. cbn [map dfok] in *. destruct H as [(q & m & -> & r & -> & Hr) H]. split; [|apply IH; assumption].
  exists (n :: q), m. split; [reflexivity|]. exists r. split; [reflexivity|assumption].
Qed.
Lemma final_shift : forall l n last, final (n :: last) (map (cons n) l) = n :: final last l.
Proof. induction l as [|p l IH]; intros; [reflexivity|]. cbn [map final]. apply IH. Qed.
Lemma wd_dfok : forall t, wf t -> match map fst (wd t) with [] => True | p :: l => p = [] /\ dfok [] l end.
Proof.
  induction t as [c|es IH] using fsn_ind2; intro W; [exact I|]. cbn [wd map fst]. split; [reflexivity|]. rewrite wd_paths.
  destruct W as (N & _ & W).
  assert (G : forall last, match last with [] => True | m :: _ => ~ In m (map fst es) end ->
    dfok last (flat_map (fun kn => map (cons (fst kn)) (map fst (wd (snd kn)))) es)); [|apply (G []); exact I].
  induction IH as [|[n c] es Hc Hes IHl]; intros last Hl; [exact I|]. cbn [flat_map fst snd fold_right map] in *. inversion N as [|? ? Nn N']; subst. destruct W as [Wc W].
  specialize (Hc Wc). destruct (map fst (wd c)) as [|p l] eqn:E.
  - cbn [map app]. apply IHl; [assumption|assumption|]. destruct last as [|m last]; [exact I|]. intro. apply Hl. right. assumption.
  - destruct Hc as [-> Hd]. cbn [map]. apply dfok_app. split.
    + cbn [dfok]. split; [|apply dfok_shift; assumption]. exists [], n. split; [reflexivity|]. exists last. split; [reflexivity|]. destruct last as [|m last]; [discriminate|].
      cbn [hd_error]. intro E'. injection E' as ->. apply Hl. left. reflexivity.
    + cbn [final]. rewrite final_shift. apply IHl; [assumption|assumption|assumption].
Qed.

(** ** The messages *)
Definition keep (l : list (path * list (str * str))) := map (fun x => (S_ (fst x), snd x)) l.
Lemma receive_app : forall ms ms' here, receive here (ms ++ ms') =
  match receive here ms with
  | None => None
  | Some (d, f, e) => match receive e ms' with Some (d', f', e') => Some (d ++ d', f ++ f', e') | None => None end
  end.
Proof.
  induction ms as [|m ms IH]; intros ms' here; cbn [app receive]; [destruct (receive here ms') as [[[? ?] ?]|]; reflexivity|].
  destruct m as [n| |n c].
  - rewrite IH. destruct (receive (here ++ [n]) ms) as [[[d f] e]|]; [|reflexivity]. destruct (receive e ms') as [[[d' f'] e']|]; reflexivity.
  - destruct here; [reflexivity|]. apply IH.
  - rewrite IH. destruct (receive here ms) as [[[d f] e]|]; [|reflexivity]. destruct (receive e ms') as [[[d' f'] e']|]; reflexivity.
Qed.
Lemma receive_pops : forall r q, receive (q ++ r) (repeat Pop (List.length r)) = Some ([], [], q).
Proof.
  intros r q. induction r as [|m r IH] using rev_ind; [rewrite app_nil_r; reflexivity|]. rewrite app_length. cbn [List.length]. rewrite Nat.add_1_r. cbn [repeat receive].
  destruct (q ++ r ++ [m]) as [|z zs] eqn:E; [destruct q; [destruct r|]; discriminate|]. rewrite <- E. rewrite app_assoc, removelast_snoc. exact IH.
Qed.
Lemma receive_files : forall fs here, Forall (fun f => plain (fst f)) fs ->
  receive here (map (fun f => SendFile (py_replace (fst f) [nl] (str_of "\^J")) (snd f)) fs) = Some ([], map (fun f => (here ++ [fst f], snd f)) fs, here).
Proof.
  induction fs as [|[n c] fs IH]; intros here F; [reflexivity|]. inversion F as [|? ? Pn F']; subst. cbn [map receive fst snd]. rewrite IH by assumption.
  rewrite replace1_none by (apply Pn). reflexivity.
Qed.
Lemma pushed_app : forall a b, pushed (a ++ b) = (pushed a + pushed b)%Z.
Proof. induction a as [|m a IH]; intro b; [reflexivity|]. unfold pushed in *. cbn [app fold_right]. rewrite IH. destruct m; lia. Qed.
Lemma pushed_pops : forall n, pushed (repeat Pop n) = (- Z.of_nat n)%Z.
Proof. induction n as [|n IH]; [reflexivity|]. unfold pushed in *. cbn [repeat fold_right]. rewrite IH. lia. Qed.
Lemma pushed_files : forall (fs : list (str * str)), pushed (map (fun f => SendFile (py_replace (fst f) [nl] (str_of "\^J")) (snd f)) fs) = 0%Z.
Proof. induction fs as [|f fs IH]; [reflexivity|]. unfold pushed in *. cbn [map fold_right]. exact IH. Qed.

Lemma send_dirs_ok : forall l last fuel b, dfok last (map fst l) -> Forall plain last ->
  Forall (fun x => Forall plain (fst x) /\ Forall (fun f => plain (fst f)) (snd x)) l ->
  (List.length last <= fuel)%nat -> Forall (fun x => (List.length (fst x) <= fuel)%nat) l ->
  exists ms, send_dirs fuel (S_ last) (keep l) = Some ms /\
    receive (b :: last) ms = Some (map (fun x => b :: fst x) l, flat_map (fun x => map (fun f => (b :: fst x ++ [fst f], snd f)) (snd x)) l, b :: final last (map fst l)) /\
    pushed ms = (Z.of_nat (List.length (final last (map fst l))) - Z.of_nat (List.length last))%Z.
Proof.
  induction l as [|[p fs] l IH]; intros last fuel b D Fl F Ll Lf.
  - exists []. split; [reflexivity|]. split; [reflexivity|]. cbn. lia.
  - cbn [map fst dfok] in D. destruct D as [(q & n & -> & r & -> & Hr) D]. inversion F as [|? ? [Fp Ff] F']; subst. inversion Lf as [|? ? Lp Lf']; subst. cbn [fst snd] in *.
    apply Forall_app in Fl as [Fq Fr]. apply Forall_app in Fp as [_ Fn]. inversion Fn as [|? ? Pn _]; subst. rewrite app_length in Ll.
    destruct (IH (q ++ [n]) fuel b D) as (ms & E1 & E2 & E3); [apply Forall_app; auto|assumption|assumption|assumption|].
    cbn [keep map fst snd send_dirs]. rewrite chdir_step by (try assumption; lia). fold (keep l). rewrite E1. eexists. split; [reflexivity|].
    rewrite <- app_assoc. split.
    + rewrite receive_app. change (b :: q ++ r) with ((b :: q) ++ r). rewrite receive_pops. cbn [app receive]. rewrite receive_app.
      change (b :: q ++ [n]) with ((b :: q) ++ [n]). rewrite receive_files by assumption. cbn [app]. change (b :: q ++ [n]) with (b :: (q ++ [n])). rewrite E2.
      cbn [app map flat_map fst snd final]. reflexivity.
    + rewrite !pushed_app, pushed_pops, pushed_files, E3. cbn [map fst final]. change (pushed [Push n]) with 1%Z. rewrite !app_length. cbn [List.length]. lia.
Qed.

Lemma send_recursive_ok : forall t b, match t with Dir _ => True | File _ => False end -> wf t -> names_ok t ->
  py_replace (snd (os_split base)) [nl] (str_of "\^J") = b ->
  exists fuel0, forall fuel, (fuel0 <= fuel)%nat -> exists ms, send_recursive fuel base t = Some ms /\
    receive [] ms = Some (map (fun x => b :: fst x) (wd t), flat_map (fun x => map (fun f => (b :: fst x ++ [fst f], snd f)) (snd x)) (wd t), []).
Proof.
  intros t b Ht W Hn Eb. pose proof (wd_dfok t W) as D. pose proof (wd_plain t Hn) as P. pose proof (walk_wd t base Hbase Hn) as Wk.
  destruct t as [c|es]; [contradiction|]. set (l := wd (Dir es)) in *.
  assert (exists fs l', l = ([], fs) :: l') as (fs & l' & El) by (eexists _, _; reflexivity). rewrite El in *.
  cbn [map fst] in D. destruct D as [_ D]. inversion P as [|? ? [_ Pf] P']; subst x l0.
  exists (list_max (map (fun x => List.length (fst x)) l')). intros fuel Lf. unfold send_recursive. rewrite Wk. cbn [map fst snd sub]. rewrite app_nil_r.
  destruct (send_dirs_ok l' [] fuel b D (Forall_nil _) P' ltac:(cbn; lia)) as (ms & E1 & E2 & E3).
  { pose proof (proj1 (list_max_le _ _) Lf) as M. clear - M. induction l'; constructor; inversion M; auto. }
  cbn [send_dirs]. rewrite chdir_root, Eb. unfold S_ in E1 at 1. cbn [sub] in E1. rewrite app_nil_r in E1.
  change (map (fun x : path * list (str * str) => (base ++ sub (fst x), snd x)) l') with (keep l'). rewrite E1. eexists. split; [reflexivity|].
  assert (Ep : pushed ([Push b] ++ map (fun f => SendFile (py_replace (fst f) [nl] (str_of "\^J")) (snd f)) fs ++ ms) = Z.of_nat (List.length (b :: final [] (map fst l')))).
  { rewrite !pushed_app, pushed_files, E3. cbn [List.length]. change (pushed [Push b]) with 1%Z. cbn [List.length]. rewrite Nat2Z.inj_succ; unfold Z.succ; cbn [Z.of_nat]; rewrite Z.sub_0_r, Z.add_0_l, Z.add_comm; reflexivity. }
  rewrite Ep, Nat2Z.id. rewrite receive_app. cbn [app receive]. rewrite receive_app, receive_files by assumption. rewrite E2.
  pose proof (receive_pops (b :: final [] (map fst l')) []) as Rp. cbn [app] in Rp.
  match goal with |- context [receive ?h (repeat ?x ?n)] => replace (receive h (repeat x n)) with (Some ([] : list path, [] : list (path * str), [] : path)) by (symmetry; exact Rp) end. cbn [map fst flat_map app]. rewrite !app_nil_r.
  f_equal.
Qed.
End Base.

(** ** What the walk contains *)
Lemma wd_dirs : forall t, wf t -> (forall rel, In rel (map fst (wd t)) <-> at_ t rel = Some EDir) /\ NoDup (map fst (wd t)).
Proof.
  induction t as [c|es IH] using fsn_ind2; intro W.
  - split; [|constructor]. intro rel. split; [intros []|]. unfold at_. destruct rel; discriminate.
  - destruct W as (N & _ & W). cbn [wd map fst]. rewrite wd_paths.
    assert (B : forall rel, In rel (flat_map (fun kn => map (cons (fst kn)) (map fst (wd (snd kn)))) es) <->
       exists n c r, rel = n :: r /\ In (n, c) es /\ In r (map fst (wd c))).
    { intro rel. rewrite in_flat_map. split.
      - intros ([n c] & H & Hr). apply in_map_iff in Hr as (r & <- & Hr). exists n, c, r. auto.
      - intros (n & c & r & -> & H & Hr). exists (n, c). split; [assumption|]. apply in_map. assumption. }
    assert (Hw : forall n c, In (n, c) es -> wf c /\ aget n es = Some c).
    { intros n c H. pose proof (aget_nodup n c es N H) as E. split; [eapply wf_aget; eassumption|assumption]. }
    rewrite Forall_forall in IH. split.
    + intro rel. cbn [In]. rewrite B. split.
      * intros [<-|(n & c & r & -> & H & Hr)]; [reflexivity|]. rewrite at_dir. destruct (Hw n c H) as [Wc ->]. apply (proj1 (IH (n, c) H Wc)). assumption.
      * intro E. destruct rel as [|n r]; [left; reflexivity|right]. rewrite at_dir in E. destruct (aget n es) as [c|] eqn:Ec; [|discriminate].
        pose proof (aget_In n c es Ec) as H. exists n, c, r. split; [reflexivity|]. split; [assumption|]. apply (proj1 (IH (n, c) H (proj1 (Hw n c H)))). assumption.
    + constructor; [intro H; apply B in H as (n & c & r & E & _); discriminate|].
      clear B. assert (Hw' : forall kn, In kn es -> NoDup (map fst (wd (snd kn)))) by (intros [n c] H; apply IH; [assumption|apply (Hw n c H)]).
      clear IH Hw W. induction es as [|[n c] es IHl]; [constructor|]. cbn [flat_map fst snd map] in *. inversion N as [|? ? Nn N']; subst.
      assert (Nd : forall (l1 l2 : list path), NoDup l1 -> NoDup l2 -> (forall x, In x l1 -> ~ In x l2) -> NoDup (l1 ++ l2)).
      { clear. induction l1 as [|x l1 IH1]; intros l2 H1 H2 H; [assumption|]. inversion H1; subst. cbn [app]. constructor.
        - rewrite in_app_iff. intros [C|C]; [contradiction|]. apply (H x); [left; reflexivity|assumption].
        - apply IH1; auto. intros y Hy. apply H. right. assumption. }
      apply Nd; [apply FinFun.Injective_map_NoDup; [intros a b E; congruence|apply (Hw' (n, c)); left; reflexivity]|apply IHl; [assumption|intros; apply Hw'; right; assumption]|].
      intros x Hx Hx'. apply in_map_iff in Hx as (r & <- & _). apply in_flat_map in Hx' as ([n' c'] & H' & Hx'). apply in_map_iff in Hx' as (r' & E & _).
      cbn [fst] in E. injection E as -> _. apply Nn. apply in_map_iff. exists (n, c'). split; [reflexivity|assumption].
Qed.
Definition wfiles (t : fsn) : list (path * str) := flat_map (fun x => map (fun f => (fst x ++ [fst f], snd f)) (snd x)) (wd t).
Lemma wd_in : forall t, wf t -> forall q fs, In (q, fs) (wd t) -> exists es, find t q = Some (Dir es) /\ fs = flat_map (fun kn => match kn with (n, File c) => [(n, c)] | _ => [] end) es.
Proof.
  induction t as [c|es IH] using fsn_ind2; intros W q fs H; [destruct H|]. cbn [wd] in H. destruct H as [H|H].
  - injection H as <- <-. exists es. split; reflexivity.
  - apply in_flat_map in H as ([n c] & Hin & H). apply in_map_iff in H as ([q' fs'] & E & H). injection E as <- <-. cbn [fst snd] in *.
    destruct W as (N & _ & W). pose proof (aget_nodup n c es N Hin) as Ea. rewrite Forall_forall in IH.
    destruct (IH (n, c) Hin (wf_aget _ _ _ W Ea) q' fs' H) as (es' & E1 & E2). exists es'. cbn [find]. rewrite Ea. auto.
Qed.
Lemma wfiles_spec : forall t, wf t -> (forall p c, In (p, c) (wfiles t) <-> p <> [] /\ at_ t p = Some (EFile c)) /\ NoDup (map fst (wfiles t)).
Proof.
  intros t W. unfold wfiles. destruct (wd_dirs t W) as [D N]. split.
  - intros p c. rewrite in_flat_map. split.
    + intros ([q fs] & H & Hf). apply in_map_iff in Hf as ([n c'] & E & Hf). cbn [fst snd] in *. injection E as <- <-. split; [destruct q; discriminate|].
      destruct (wd_in t W q fs H) as (es & Ef & ->). apply in_flat_map in Hf as ([n' [c''|e]] & Hin & Hf); [|destruct Hf]. destruct Hf as [Hf|[]]. injection Hf as <- <-.
      pose proof (wf_find _ _ _ W Ef) as (Ne & _). unfold at_. rewrite find_app, Ef. cbn [find]. rewrite (aget_nodup n' (File c'') es Ne Hin). reflexivity.
    + intros [Hp E]. destruct (snoc_cases p Hp) as (q & n & ->). unfold at_ in E. rewrite find_app in E. destruct (find t q) as [[c0|es]|] eqn:Ef; try discriminate.
      cbn [find] in E. destruct (aget n es) as [[c1|e1]|] eqn:Ea; try discriminate. injection E as ->.
      assert (Hd : In q (map fst (wd t))) by (apply D; unfold at_; rewrite Ef; reflexivity). apply in_map_iff in Hd as ([q' fs] & <- & Hd). cbn [fst] in *.
      exists (q', fs). split; [assumption|]. apply in_map_iff. exists (n, c). split; [reflexivity|]. cbn [snd]. destruct (wd_in t W q' fs Hd) as (es' & Ef' & ->).
      rewrite Ef in Ef'. injection Ef' as <-. apply in_flat_map. exists (n, File c). split; [apply aget_In; assumption|left; reflexivity].
  - pose proof (wd_in t W) as I. revert N I. generalize (wd t). induction l as [|[q fs] l IH]; intros N I; [constructor|]. cbn [flat_map fst snd map] in *. inversion N as [|? ? Nq N']; subst.
    rewrite map_app, map_map. cbn [fst].
    assert (Nd : forall (l1 l2 : list path), NoDup l1 -> NoDup l2 -> (forall x, In x l1 -> ~ In x l2) -> NoDup (l1 ++ l2)).
    { clear. induction l1 as [|x l1 IH1]; intros l2 H1 H2 H; [assumption|]. inversion H1; subst. cbn [app]. constructor.
      - rewrite in_app_iff. intros [C|C]; [contradiction|]. apply (H x); [left; reflexivity|assumption].
      - apply IH1; auto. intros y Hy. apply H. right. assumption. }
    apply Nd.
    + destruct (I q fs (or_introl eq_refl)) as (es & Ef & ->). pose proof (wf_find _ _ _ W Ef) as (Ne & _). clear - Ne.
      induction es as [|[n [c|e]] es IHe]; cbn [flat_map app map fst] in *; [constructor| |]; inversion Ne as [|? ? Nn Ne']; subst; [|auto].
      constructor; [|auto]. intro H. apply in_map_iff in H as ([n' c'] & E & H). cbn [fst] in E. apply app_inj_tail in E as [_ ->].
      apply in_flat_map in H as ([n'' [c''|e'']] & Hin & H); [|destruct H]. destruct H as [H|[]]. injection H as -> ->. apply Nn. apply in_map_iff. exists (n, File c'). auto.
    + apply IH; [assumption|intros; apply I; right; assumption].
    + intros x Hx Hx'. apply in_map_iff in Hx as (f & <- & _). apply in_map_iff in Hx' as ([p' c'] & E & Hx'). apply in_flat_map in Hx' as ([q' fs'] & Hq & Hx').
      apply in_map_iff in Hx' as (f' & E' & _). cbn [fst snd] in *. injection E' as <- _. apply app_inj_tail in E as [-> _]. apply Nq. apply in_map_iff. exists (q, fs'). auto.
Qed.

(** ** Whole requests *)
Lemma named_base : forall base b, named base b -> base_ok base /\ snd (os_split base) = b.
Proof.
  intros base b (N & S & _ & H). destruct (snoc_cases b N) as (r & x & Eb).
  assert (Hx : x <> sl) by (intro; subst; apply S; apply in_app_iff; right; left; reflexivity). split.
  - destruct H as [->|(d & ->)]; [exists r, x; auto|]. exists (d ++ sl :: r), x. split; [|assumption]. rewrite Eb, <- app_assoc. reflexivity.
  - unfold os_split. destruct H as [->|(d & ->)].
    + destruct (tail_head [] b S (or_introl eq_refl)) as [T _]. cbn [app] in T. rewrite T. cbn [snd]. apply rev_involutive.
    + replace (d ++ sl :: b) with ((d ++ [sl]) ++ b) by (rewrite <- app_assoc; reflexivity).
      destruct (tail_head (d ++ [sl]) b S) as [T _]; [right; apply ends_sl_snoc; eexists; reflexivity|]. rewrite T. cbn [snd]. apply rev_involutive.
Qed.
Lemma names_of : forall t, wf t -> no_newlines t -> names_ok t.
Proof.
  induction t as [c|es IH] using fsn_ind2; intros W H; [exact I|]. destruct W as (N & F & W). cbn [names_ok]. split.
  - apply Forall_forall. intros n Hn. rewrite Forall_forall in F. destruct (F n Hn) as (F1 & _ & _ & F2). split; [assumption|]. split; [assumption|].
    apply in_map_iff in Hn as ([n' c] & <- & Hin). specialize (H [n'] c). cbn [find] in H. rewrite (aget_nodup n' c es N Hin) in H.
    specialize (H eq_refl). inversion H; subst. assumption.
  - assert (G : forall kn, In kn es -> names_ok (snd kn)).
    { intros [n c] Hin. rewrite Forall_forall in IH. apply (IH (n, c) Hin); [eapply wf_aget; [exact W|]; eapply aget_nodup; eassumption|].
      intros rel e E. specialize (H (n :: rel) e). cbn [find] in H. rewrite (aget_nodup n c es N Hin) in H. specialize (H E). inversion H; assumption. }
    clear - G. induction es as [|kn es IHe]; [exact I|]. cbn [fold_right]. split; [apply G; left; reflexivity|]. apply IHe. intros. apply G. right. assumption.
Qed.
Lemma whole_sent : forall es b, wf (Dir es) -> whole_tree b (Dir es) (map (fun x => b :: fst x) (wd (Dir es)))
  (flat_map (fun x => map (fun f => (b :: fst x ++ [fst f], snd f)) (snd x)) (wd (Dir es))).
Proof.
  intros es b W. destruct (wd_dirs _ W) as [D ND]. destruct (wfiles_spec _ W) as [Fi NF].
  match goal with |- whole_tree _ _ _ ?F => assert (E : F = map (fun pc => (b :: fst pc, snd pc)) (wfiles (Dir es))) end.
  { unfold wfiles. generalize (wd (Dir es)). intro l. induction l as [|[q fs] l IH]; [reflexivity|]. cbn [flat_map]. rewrite map_app, <- IH, map_map. reflexivity. }
  rewrite E. clear E.
  assert (inj : FinFun.Injective (cons b)) by (intros x y H; congruence).
  split; [|split; [|split]].
  - rewrite <- (map_map fst (cons b)). apply FinFun.Injective_map_NoDup; assumption.
  - intro p. rewrite <- (map_map fst (cons b)), in_map_iff. split.
    + intros (rel & <- & H). exists rel. split; [reflexivity|]. apply D in H. unfold at_ in H. destruct (find (Dir es) rel) as [[c|e]|]; try discriminate. split; discriminate.
    + intros (rel & -> & H1 & H2). exists rel. split; [reflexivity|]. apply D. unfold at_. destruct (find (Dir es) rel) as [[c|e]|]; [exfalso; apply (H2 c); reflexivity|reflexivity|congruence].
  - rewrite map_map. cbn [fst]. rewrite <- (map_map fst (cons b)). apply FinFun.Injective_map_NoDup; assumption.
  - intros p c. rewrite in_map_iff. split.
    + intros ([q c'] & H & Hin). cbn [fst snd] in H. injection H as <- <-. apply Fi in Hin as [_ Hin]. exists q. split; [reflexivity|]. unfold at_ in Hin.
      destruct (find (Dir es) q) as [[c|e]|]; try discriminate. injection Hin as ->. reflexivity.
    + intros (rel & -> & H). exists (rel, c). split; [reflexivity|]. apply Fi. split; [intro; subst; discriminate|]. unfold at_. rewrite H. reflexivity.
Qed.
Lemma put_ok : forall items, Forall (fun it => (exists b, named (fst it) b) /\ wf (snd it) /\ no_newlines (snd it)) items ->
  exists fuel0, forall fuel, (fuel0 <= fuel)%nat -> exists ms parts, put_messages fuel items = Some ms /\
    Forall2 (fun it part => forall b, named (fst it) b -> whole_tree b (snd it) (fst part) (snd part)) items parts /\
    receive [] ms = Some (flat_map fst parts, flat_map snd parts, []).
Proof.
  induction items as [|[base t] items IH]; intro F; [exists 0%nat; intros fuel _; exists [], []; split; [reflexivity|split; [constructor|reflexivity]]|].
  inversion F as [|? ? ((b & Nb) & W & Hn) F']; subst. cbn [fst snd] in *. destruct (IH F') as (f1 & H1). destruct (named_base base b Nb) as [Bo Sb].
  assert (U : forall b', named base b' -> b' = b) by (intros b' H'; apply named_base in H' as [_ H']; congruence).
  destruct t as [c|es].
  - exists f1. intros fuel L. destruct (H1 fuel L) as (ms & parts & E1 & E2 & E3). cbn [put_messages]. rewrite E1, Sb.
    rewrite replace1_none by (apply Nb). eexists _, (([], [([b], c)]) :: parts). split; [reflexivity|]. split.
    + constructor; [|assumption]. intros b' Hb'. rewrite (U b' Hb'). cbn [fst snd]. split; [constructor|]. split; [|split; [constructor; [intros []|constructor]|]].
      * intro p. split; [intros []|]. intros (rel & _ & A & B). destruct rel as [|x rel]; [exfalso; apply (B c); reflexivity|apply A; reflexivity].
      * intros p c'. split.
        -- intros [H|[]]. injection H as <- <-. exists []. split; reflexivity.
        -- intros (rel & -> & H). destruct rel as [|x rel]; [|discriminate]. injection H as ->. left. reflexivity.
    + cbn [app receive]. rewrite E3. reflexivity.
  - destruct (send_recursive_ok base Bo (Dir es) b I W (names_of _ W Hn)) as (f2 & H2); [rewrite Sb; apply replace1_none; apply Nb|].
    exists (Nat.max f1 f2). intros fuel L. destruct (H1 fuel ltac:(lia)) as (ms & parts & E1 & E2 & E3). destruct (H2 fuel ltac:(lia)) as (ms2 & E4 & E5).
    cbn [put_messages]. rewrite E4, E1. eexists _, ((_, _) :: parts). split; [reflexivity|]. split.
    + constructor; [|exact E2]. intros b' Hb'. rewrite (U b' Hb'). cbn [fst snd]. apply whole_sent. assumption.
    + rewrite receive_app, E5, E3. reflexivity.
Qed.
(** The root directory. *)
Lemma root_stuck : forall fuel cur, (cur = [] \/ cur = [sl]) -> pop_until fuel [] [sl; sl] = None.
Proof. intros fuel cur _. induction fuel as [|fuel IH]; [reflexivity|]. cbn [pop_until]. change (str_eqb [] [sl; sl]) with false. cbv iota. change (fst (os_split [])) with (@nil ascii). rewrite IH. reflexivity. Qed.

(** A decision procedure for the examples. *)
Definition fname_okb (s : str) : bool :=
  (negb (str_eqb s []) && negb (str_eqb s (str_of ".")) && negb (str_eqb s (str_of "..")) && negb (existsb (Ascii.eqb sl) s))%bool.
Fixpoint nodupb (l : list str) : bool := match l with [] => true | x :: l' => (negb (existsb (str_eqb x) l') && nodupb l')%bool end.
Fixpoint wfb (t : fsn) : bool :=
  match t with
  | File _ => true
  | Dir es => (nodupb (map fst es) && forallb fname_okb (map fst es) && fold_right (fun kn b => (wfb (snd kn) && b)%bool) true es)%bool
  end.
Lemma fname_okb_ok : forall s, fname_okb s = true -> fname_ok s.
Proof.
  intros s H. unfold fname_okb in H. apply andb_true_iff in H as [H H4]. apply andb_true_iff in H as [H H3]. apply andb_true_iff in H as [H1 H2].
  apply negb_true_iff in H1, H2, H3, H4. split; [|split; [|split]].
  - intros ->. rewrite str_eqb_refl in H1. discriminate.
  - intros ->. rewrite str_eqb_refl in H2. discriminate.
  - intros ->. rewrite str_eqb_refl in H3. discriminate.
  - intro Hi. assert (E : existsb (Ascii.eqb sl) s = true) by (apply existsb_exists; exists sl; split; [assumption|apply Ascii.eqb_refl]). congruence.
Qed.
Lemma nodupb_ok : forall l, nodupb l = true -> NoDup l.
Proof.
  induction l as [|x l IH]; intro H; [constructor|]. cbn [nodupb] in H. apply andb_true_iff in H as [H1 H2]. apply negb_true_iff in H1. constructor; [|auto].
  intro Hi. assert (E : existsb (str_eqb x) l = true) by (apply existsb_exists; exists x; split; [assumption|apply str_eqb_refl]). congruence.
Qed.
Lemma wfb_ok : forall t, wfb t = true -> wf t.
Proof.
  induction t as [c|es IH] using fsn_ind2; intro H; [exact I|]. cbn [wfb] in H. apply andb_true_iff in H as [H H3]. apply andb_true_iff in H as [H1 H2].
  cbn [wf]. split; [apply nodupb_ok; assumption|]. split; [apply Forall_forall; intros s Hs; apply fname_okb_ok; rewrite forallb_forall in H2; auto|].
  clear H1 H2. induction IH as [|kn es Hk Hes IHl]; [exact I|]. cbn [fold_right] in *. apply andb_true_iff in H3 as [A B]. split; auto.
Qed.
