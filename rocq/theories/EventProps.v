(** Event files (C68). *)
From Coq Require Import ZArith Reals String Ascii Bool List Lia Lra.
From Verif Require Import PyBase PolySpec OriginModel OriginSpec OriginProofs OriginProps SourceProps.
Import ListNotations.
Open Scope R_scope.
Local Arguments str_of _ : simpl never.

Section Props.
Variable fparse : str -> option num.
Variable timeparse : str -> str -> option nat.
Notation event_says := (event_says fparse timeparse).
Notation readable := (readable fparse timeparse).
Notation read_event := (read_event fparse timeparse).
Notation time_of := (time_of timeparse).
Notation event_time := (event_time timeparse).
Notation refused := (refused fparse timeparse).
Notation number_right := (number_right fparse).

Lemma item_cases {A} k (x : dict A) : (exists s, ditem k x = Ok s /\ dget k x = Some s) \/ (ditem k x = Err KeyError /\ ~ has x k).
Proof. unfold ditem. destruct (dget k x) eqn:E; [left; eauto|right]. split; [reflexivity|]. apply dget_none. exact E. Qed.
Lemma time_of_fun s t t' : time_of s t -> time_of s t' -> t = t'.
Proof. intros [? A|? A B] [? A'|? A' B']; congruence. Qed.
Lemma dated_iff (x : dict str) : forallb (fun k => dhas k x) (map str_of ["year"; "month"; "day"; "hour"; "minute"; "second"]%string) = true <-> dated x.
Proof. rewrite forallb_forall. unfold dated. split; intros H k I; apply dhas_iff, H; exact I. Qed.
Lemma time_cases x : distinct x -> (exists s t, event_time x = Ok t /\ In (str_of "time", s) x /\ time_of s t) \/ (exists e, event_time x = Err e /\ time_wrong timeparse x e).
Proof.
  intro D. unfold OriginModel.event_time. destruct (dget (str_of "time") x) as [s|] eqn:G.
  - pose proof G as I. apply (dget_in _ _ _ D) in I. destruct (timeparse TIMEFMT s) as [t|] eqn:A; [left; exists s, t; repeat split; [exact I|apply t_fraction; exact A]|].
    destruct (timeparse ALT_TIMEFMT s) as [t|] eqn:B; [left; exists s, t; repeat split; [exact I|apply t_whole; assumption]|].
    right. exists ValueError. split; [reflexivity|]. apply (tw_bad _ _ s I). intros t [? A'|? A' B']; unfold TIMEFMT, ALT_TIMEFMT in *; congruence.
  - apply dget_none in G. right. destruct (forallb _ _) eqn:F.
    + exists AttributeError. split; [reflexivity|]. apply tw_dated; [exact G|apply dated_iff; exact F].
    + exists ValueError. split; [reflexivity|]. apply tw_none; [exact G|]. rewrite <- dated_iff. congruence.
Qed.
Lemma number_cases k x : distinct x -> (exists s y, dget k x = Some s /\ fparse s = Some y /\ bind (ditem k x) (text_float fparse) = Ok (VFloat y)) \/ (exists e, bind (ditem k x) (text_float fparse) = Err e /\ number_wrong fparse x k e).
Proof.
  intro D. destruct (item_cases k x) as [(s & E & G)|[E N]]; rewrite E; cbn [bind].
  - unfold text_float. destruct (fparse s) as [y|] eqn:F; [left; eauto|]. right. exists ValueError. split; [reflexivity|]. apply (nw_bad _ _ _ s); [apply dget_sound; exact G|exact F].
  - right. exists KeyError. split; [reflexivity|]. apply nw_missing. exact N.
Qed.
Lemma bind_two {A B C} (r : res A) (f : A -> res B) (g : B -> res C) : bind r (fun a => bind (f a) g) = bind (bind r f) g.
Proof. destruct r; reflexivity. Qed.

(** What is read, as a list. *)
Definition the_event (path : bool) (x : dict str) id netid time lat lon depth mag loc : dict value :=
  [(str_of "id", VStr id); (str_of "network", VStr (match dget (str_of "network") x with Some s => s | None => [] end)); (str_of "netid", VStr netid)] ++
  match dget (str_of "productcode") x with Some s => [(str_of "productcode", VStr s)] | None => if path then [(str_of "productcode", VStr id)] else [] end ++
  [(str_of "time", VObj time); (str_of "lat", VFloat lat); (str_of "lon", VFloat lon); (str_of "depth", VFloat depth); (str_of "mag", VFloat mag); (str_of "locstring", VStr loc)] ++
  opt_item (str_of "mech") x ++ opt_item (str_of "type") x ++ opt_item (str_of "reference") x.
Lemma read_cases path x : distinct x ->
  (exists id netid st time slat lat slon lon sdep depth smag mag loc, read_event path x = Ok (the_event path x id netid time lat lon depth mag loc) /\
     dget (str_of "id") x = Some id /\ dget (str_of "netid") x = Some netid /\ In (str_of "time", st) x /\ time_of st time /\
     dget (str_of "lat") x = Some slat /\ fparse slat = Some lat /\ dget (str_of "lon") x = Some slon /\ fparse slon = Some lon /\
     dget (str_of "depth") x = Some sdep /\ fparse sdep = Some depth /\ dget (str_of "mag") x = Some smag /\ fparse smag = Some mag /\ dget (str_of "locstring") x = Some loc) \/
  (exists e, read_event path x = Err e /\ refused x e /\ ~ readable x).
Proof.
  intro D. unfold OriginModel.read_event.
  destruct (item_cases (str_of "id") x) as [(id & E & Gid)|[E N]]; rewrite E; cbn [bind].
  2: { right. exists KeyError. split; [reflexivity|]. split; [apply r_id; left; exact N|]. intros (H & _). contradiction. }
  destruct (item_cases (str_of "netid") x) as [(netid & E2 & Gn)|[E2 N]]; rewrite E2; cbn [bind].
  2: { right. exists KeyError. split; [reflexivity|]. split; [apply r_id; right; exact N|]. intros (_ & H & _). contradiction. }
  assert (Hid : has x (str_of "id")) by (exists id; apply dget_sound; exact Gid). assert (Hn : has x (str_of "netid")) by (exists netid; apply dget_sound; exact Gn).
  destruct (time_cases x D) as [(st & t & Et & It & Tt)|(e & Et & Tw)]; rewrite Et; cbn [bind].
  2: { right. exists e. split; [reflexivity|]. split; [apply r_time; assumption|]. intros (_ & _ & _ & _ & s & t & I & T). destruct Tw as [s' I' N|N _|N _]; [|apply N; exists s; exact I..]. rewrite (in_unique _ _ _ _ D I I') in T. apply (N _ T). }
  rewrite !bind_two.
  assert (NW : forall k e, number_wrong fparse x k e -> ~ number_right x k).
  { intros k e [N|s I F] (s' & y & I' & F'); [apply N; exists s'; exact I'|]. rewrite (in_unique _ _ _ _ D I I') in F. congruence. }
  assert (NR : forall k, is_number_key k -> ~ number_right x k -> ~ readable x) by (intros k K N (_ & _ & _ & H & _); apply N; destruct (H k K) as (s & y & I & F); exists s, y; auto).
  assert (RR : forall k s y, dget k x = Some s -> fparse s = Some y -> number_right x k) by (intros k s y G F; exists s, y; split; [apply dget_sound; exact G|exact F]).
  destruct (number_cases (str_of "lat") x D) as [(slat & lat & G1 & F1 & B1)|(e & B1 & W)]; rewrite B1; cbn [bind].
  2: { right. exists e. split; [reflexivity|]. split; [|apply (NR (str_of "lat")); [unfold is_number_key; tauto|apply (NW _ _ W)]]. apply (r_number _ _ _ [] (str_of "lat") (map str_of ["lon"; "depth"; "mag"]%string) e st t); try assumption; [reflexivity|constructor]. }
  rewrite bind_two. destruct (number_cases (str_of "lon") x D) as [(slon & lon & G2 & F2 & B2)|(e & B2 & W)]; rewrite B2; cbn [bind].
  2: { right. exists e. split; [reflexivity|]. split; [|apply (NR (str_of "lon")); [unfold is_number_key; tauto|apply (NW _ _ W)]]. apply (r_number _ _ _ [str_of "lat"] (str_of "lon") (map str_of ["depth"; "mag"]%string) e st t); try assumption; [reflexivity|]. repeat constructor; eauto. }
  rewrite bind_two. destruct (number_cases (str_of "depth") x D) as [(sdep & dep & G3 & F3 & B3)|(e & B3 & W)]; rewrite B3; cbn [bind].
  2: { right. exists e. split; [reflexivity|]. split; [|apply (NR (str_of "depth")); [unfold is_number_key; tauto|apply (NW _ _ W)]]. apply (r_number _ _ _ [str_of "lat"; str_of "lon"] (str_of "depth") (map str_of ["mag"]%string) e st t); try assumption; [reflexivity|]. repeat constructor; eauto. }
  rewrite bind_two. destruct (number_cases (str_of "mag") x D) as [(smag & mag & G4 & F4 & B4)|(e & B4 & W)]; rewrite B4; cbn [bind].
  2: { right. exists e. split; [reflexivity|]. split; [|apply (NR (str_of "mag")); [unfold is_number_key; tauto|apply (NW _ _ W)]]. apply (r_number _ _ _ [str_of "lat"; str_of "lon"; str_of "depth"] (str_of "mag") [] e st t); try assumption; [reflexivity|]. repeat constructor; eauto. }
  destruct (item_cases (str_of "locstring") x) as [(loc & E3 & Gl)|[E3 N]]; rewrite E3; cbn [bind].
  2: { right. exists KeyError. split; [reflexivity|]. split; [|intros (_ & _ & H & _); contradiction]. apply (r_place _ _ _ st t); try assumption. repeat constructor; eauto. }
  left. exists id, netid, st, t, slat, lat, slon, lon, sdep, dep, smag, mag, loc. split; [reflexivity|]. repeat split; assumption.
Qed.
Lemma opt_in k x j (v : value) : distinct x -> (In (j, v) (opt_item k x) <-> j = k /\ exists s, v = VStr s /\ In (k, s) x).
Proof.
  intro D. unfold opt_item. destruct (dget k x) as [s|] eqn:G.
  - cbn. split.
    + intros [H|[]]. injection H as <- <-. split; [reflexivity|]. exists s. split; [reflexivity|apply dget_sound; exact G].
    + intros [-> (s' & -> & I)]. left. apply (dget_in _ _ _ D) in I. congruence.
  - cbn. split; [intros []|]. intros [-> (s & _ & I)]. apply dget_none in G. apply G. exists s. exact I.
Qed.

(** Which files are read, and what is read. *)
Theorem C68_reads path x : distinct x ->
  ((exists ev, read_event path x = Ok ev) <-> readable x) /\ forall ev, read_event path x = Ok ev -> distinct ev /\ forall k v, In (k, v) ev <-> event_says path x k v.
Proof.
  intro D. destruct (read_cases path x D) as [(id & netid & st & t & slat & lat & slon & lon & sdep & dep & smag & mag & loc & E & Gid & Gn & It & Tt & G1 & F1 & G2 & F2 & G3 & F3 & G4 & F4 & Gl)|(e & E & R & N)].
  2: { rewrite E. split; [|discriminate]. split; [intros [ev H]; discriminate|contradiction]. }
  rewrite E. pose proof (fun k s => proj1 (dget_in k x s D)) as GI. split.
  - split; [intros _|eauto]. unfold OriginSpec.readable, has. repeat split; eauto 6. intros k [->|[->|[->| ->]]]; eauto.
  - intros ev [= <-]. split.
    + unfold distinct, the_event, opt_item. rewrite !map_app. destruct (dget (str_of "productcode") x), path, (dget (str_of "mech") x), (dget (str_of "type") x), (dget (str_of "reference") x); cbn [map app fst];
      repeat (apply NoDup_cons; [cbn [In]; intro H; repeat destruct H as [H|H]; try discriminate; exact H|]); apply NoDup_nil.
    + intros k v. unfold the_event. rewrite !in_app_iff, !(opt_in _ _ _ _ D).
      assert (PC : In (k, v) (match dget (str_of "productcode") x with Some s => [(str_of "productcode", VStr s)] | None => if path then [(str_of "productcode", VStr id)] else [] end) <->
        k = str_of "productcode" /\ ((exists s, v = VStr s /\ In (str_of "productcode", s) x) \/ (~ has x (str_of "productcode") /\ path = true /\ v = VStr id))).
      { destruct (dget (str_of "productcode") x) as [s|] eqn:G.
        - pose proof (dget_sound _ _ _ G) as I. cbn. split.
          + intros [H|[]]. injection H as <- <-. split; [reflexivity|]. left. eauto.
          + intros [-> [(s' & -> & I')|[N _]]]; [left; rewrite (in_unique _ _ _ _ D I I'); reflexivity|]. exfalso. apply N. exists s. exact I.
        - apply dget_none in G. destruct path; cbn.
          + split; [intros [H|[]]; injection H as <- <-; auto|]. intros [-> [(s' & -> & I')|[_ [_ ->]]]]; [exfalso; apply G; exists s'; exact I'|auto].
          + split; [intros []|]. intros [_ [(s' & -> & I')|[_ [H _]]]]; [apply G; exists s'; exact I'|discriminate]. }
      rewrite PC. clear PC. cbn [In]. split.
      * intros [[H|[H|[H|[]]]]|[[-> [(s & -> & I)|(N & -> & ->)]]|[[H|[H|[H|[H|[H|[H|[]]]]]]]|[[-> (s & -> & I)]|[[-> (s & -> & I)]|[-> (s & -> & I)]]]]]];
          try (injection H as <- <-); try (eapply e_number; [unfold is_number_key; tauto|apply GI; eassumption|assumption]); try (apply e_text; [unfold is_text_key; tauto|auto]).
        -- destruct (dget (str_of "network") x) eqn:G; [apply e_network, GI; exact G|]. apply dget_none in G. apply e_no_network. exact G.
        -- apply e_product. exact I.
        -- apply e_no_product; auto.
        -- apply (e_time _ _ _ _ st); assumption.
      * intros [k' s K I|k' s y K I F|s t' I T|s I|N|s I|s N P I].
        -- pose proof I as G. apply (dget_in _ _ _ D) in G. destruct K as [->|[->|[->|[->|[->| ->]]]]].
           ++ left. left. congruence.
           ++ left. right. right. left. congruence.
           ++ right. right. left. right. right. right. right. right. left. congruence.
           ++ right. right. right. left. eauto.
           ++ right. right. right. right. left. eauto.
           ++ right. right. right. right. right. eauto.
        -- pose proof I as G. apply (dget_in _ _ _ D) in G. right. right. left. destruct K as [->|[->|[->| ->]]].
           ++ right. left. congruence.
           ++ right. right. left. congruence.
           ++ right. right. right. left. congruence.
           ++ right. right. right. right. left. congruence.
        -- right. right. left. left. rewrite (in_unique _ _ _ _ D I It) in T. rewrite (time_of_fun _ _ _ T Tt). reflexivity.
        -- left. right. left. apply (dget_in _ _ _ D) in I. rewrite I. reflexivity.
        -- left. right. left. apply dget_none in N. rewrite N. reflexivity.
        -- right. left. eauto.
        -- right. left. split; [reflexivity|]. right. split; [exact N|]. split; [exact P|]. apply (dget_in _ _ _ D) in I. congruence.
Qed.
Print Assumptions C68_reads.
Theorem C68_refused path x e : distinct x -> read_event path x = Err e -> refused x e.
Proof.
  intros D H. destruct (read_cases path x D) as [(id & netid & st & t & slat & lat & slon & lon & sdep & dep & smag & mag & loc & E & _)|(e' & E & R & _)]; congruence.
Qed.
Print Assumptions C68_refused.

(** ** Writing *)
Variable timeshow : str -> nat -> str.
Variable fixed : nat -> num -> str.
Notation write_event := (write_event timeshow fixed).
Notation written := (written timeshow fixed).
Definition text_of (v : value) : option str := match v with VStr s => Some s | _ => None end.
Lemma text_cases k ev : distinct ev -> (exists s, text_item k ev = Ok s /\ In (k, VStr s) ev) \/ (exists e, text_item k ev = Err e /\ ~ text_at ev k).
Proof.
  intro D. unfold text_item. destruct (item_cases k ev) as [(v & E & G)|[E N]]; rewrite E; cbn [bind].
  - apply (dget_in _ _ _ D) in G. destruct v as [|s| | |]; [right|left; eauto|right..]; eexists; (split; [reflexivity|]); intros [s I]; pose proof (in_unique _ _ _ _ D G I); discriminate.
  - right. eexists. split; [reflexivity|]. intros [s I]. apply N. eexists. exact I.
Qed.
Lemma num_cases n k ev : distinct ev -> (exists v y, number_item fixed n k ev = Ok (fixed n y) /\ In (k, v) ev /\ (v = VFloat y \/ exists z, v = VInt z /\ y = Fin (IZR z))) \/
  (exists e, number_item fixed n k ev = Err e /\ ~ ((exists y, In (k, VFloat y) ev) \/ (exists z, In (k, VInt z) ev))).
Proof.
  intro D. unfold number_item. destruct (item_cases k ev) as [(v & E & G)|[E N]]; rewrite E; cbn [bind].
  - apply (dget_in _ _ _ D) in G. destruct v as [|s|z|y|j]; [right|right|left; exists (VInt z), (Fin (IZR z)); split; [reflexivity|split; [exact G|right; exists z; auto]]|left; exists (VFloat y), y; split; [reflexivity|split; [exact G|auto]]|right];
      eexists; (split; [reflexivity|]); intros [[y I]|[z I]]; pose proof (in_unique _ _ _ _ D G I); discriminate.
  - right. eexists. split; [reflexivity|]. intros [[y I]|[z I]]; apply N; eexists; exact I.
Qed.
Lemma opt_cases k ev : distinct ev -> (exists l, text_opt k ev = Ok l /\ (forall j s, In (j, s) l <-> j = k /\ In (k, VStr s) ev) /\ (l = [] \/ exists s, l = [(k, s)]) /\ (has ev k -> text_at ev k)) \/
  (exists e, text_opt k ev = Err e /\ has ev k /\ ~ text_at ev k).
Proof.
  intro D. unfold text_opt. destruct (dget k ev) as [v|] eqn:G.
  - apply (dget_in _ _ _ D) in G. destruct v as [|s| | |]; [right|left|right..]; try (eexists; split; [reflexivity|]; split; [eexists; exact G|]; intros [s I]; pose proof (in_unique _ _ _ _ D G I); discriminate).
    exists [(k, s)]. split; [reflexivity|]. split; [|split; [eauto|intros _; eexists; exact G]]. intros j s'. cbn. split; [intros [H|[]]; injection H as <- <-; auto|]. intros [-> I]. left. pose proof (in_unique _ _ _ _ D G I). congruence.
  - apply dget_none in G. left. exists []. split; [reflexivity|]. split; [|split; [auto|contradiction]]. intros j s. split; [intros []|]. intros [_ I]. apply G. eexists. exact I.
Qed.
Definition good_type (ev : dict value) : Prop := has ev "event_type"%string -> In (str_of "event_type", VStr "ACTUAL"%string) ev \/ In (str_of "event_type", VStr "SCENARIO"%string) ev.
Lemma type_cases ev : distinct ev -> (exists s, event_type ev = Ok [(str_of "event_type", s)] /\ (In (str_of "event_type", VStr s) ev \/ (~ has ev "event_type"%string /\ s = str_of "ACTUAL")) /\ good_type ev) \/
  (exists e, event_type ev = Err e /\ ~ good_type ev).
Proof.
  intro D. unfold event_type, good_type. destruct (dget (str_of "event_type") ev) as [v|] eqn:G.
  - apply (dget_in _ _ _ D) in G. assert (H : has ev "event_type"%string) by (eexists; exact G).
    destruct v as [|s| | |]; [right|idtac|right..]; try (eexists; split; [reflexivity|]; intro K; destruct (K H) as [I|I]; pose proof (in_unique _ _ _ _ D G I); discriminate).
    destruct (str_eqb s (str_of "ACTUAL")) eqn:A; [apply seqb in A; subst; left; eexists; split; [reflexivity|]; auto|].
    destruct (str_eqb s (str_of "SCENARIO")) eqn:B; [apply seqb in B; subst; left; eexists; split; [reflexivity|]; auto|]. cbn [orb].
    right. eexists. split; [reflexivity|]. apply seqb_f in A, B. intro K. destruct (K H) as [I|I]; pose proof (in_unique _ _ _ _ D G I); congruence.
  - apply dget_none in G. left. eexists. split; [reflexivity|]. split; [auto|contradiction].
Qed.
Lemma date_cases ev : distinct ev -> (exists t, bind (ditem (str_of "time") ev) (fun t => match t with VObj t => Ok (timeshow ALT_TIMEFMT t) | _ => Err AttributeError end) = Ok (timeshow ALT_TIMEFMT t) /\ In (str_of "time", VObj t) ev) \/
  (exists e, bind (ditem (str_of "time") ev) (fun t => match t with VObj t => Ok (timeshow ALT_TIMEFMT t) | _ => Err AttributeError end) = Err e /\ ~ exists t, In (str_of "time", VObj t) ev).
Proof.
  intro D. destruct (item_cases (str_of "time") ev) as [(v & E & G)|[E N]]; rewrite E; cbn [bind].
  - apply (dget_in _ _ _ D) in G. destruct v as [|s|z|y|j]; [right|right|right|right|left; eauto]; eexists; (split; [reflexivity|]); intros [t I]; pose proof (in_unique _ _ _ _ D G I); discriminate.
  - right. eexists. split; [reflexivity|]. intros [t I]. apply N. eexists. exact I.
Qed.

(** Which events are written, and what is written. *)
Theorem C68_writes ev : distinct ev -> ((exists x, write_event ev = Ok x) <-> writable ev) /\ forall x, write_event ev = Ok x -> distinct x /\ forall k s, In (k, s) x <-> written ev k s.
Proof.
  intro D. unfold OriginModel.write_event, OriginSpec.writable.
  destruct (text_cases (str_of "id") ev D) as [(id & E & I1)|(e & E' & N)]; [rewrite E; clear E|rewrite E']; cbn [bind]; [|split; [split; [intros [x H]; discriminate|tauto]|discriminate]].
  destruct (text_cases (str_of "netid") ev D) as [(netid & E & I2)|(e & E' & N)]; [rewrite E; clear E|rewrite E']; cbn [bind]; [|split; [split; [intros [x H]; discriminate|tauto]|discriminate]].
  destruct (text_cases (str_of "network") ev D) as [(network & E & I3)|(e & E' & N)]; [rewrite E; clear E|rewrite E']; cbn [bind]; [|split; [split; [intros [x H]; discriminate|tauto]|discriminate]].
  assert (NK : forall k, is_number_key k -> ~ ((exists y, In (k, VFloat y) ev) \/ (exists z, In (k, VInt z) ev)) -> ~ forall k, is_number_key k -> (exists y, In (k, VFloat y) ev) \/ (exists z, In (k, VInt z) ev)) by (intros k K N H; apply N, H, K).
  destruct (num_cases 4 (str_of "lat") ev D) as [(v1 & y1 & E & J1 & K1)|(e & E' & N)]; [rewrite E; clear E|rewrite E'; apply NK in N; [|unfold is_number_key; tauto]]; cbn [bind]; [|split; [split; [intros [x H]; discriminate|tauto]|discriminate]].
  destruct (num_cases 4 (str_of "lon") ev D) as [(v2 & y2 & E & J2 & K2)|(e & E' & N)]; [rewrite E; clear E|rewrite E'; apply NK in N; [|unfold is_number_key; tauto]]; cbn [bind]; [|split; [split; [intros [x H]; discriminate|tauto]|discriminate]].
  destruct (num_cases 1 (str_of "depth") ev D) as [(v3 & y3 & E & J3 & K3)|(e & E' & N)]; [rewrite E; clear E|rewrite E'; apply NK in N; [|unfold is_number_key; tauto]]; cbn [bind]; [|split; [split; [intros [x H]; discriminate|tauto]|discriminate]].
  destruct (num_cases 1 (str_of "mag") ev D) as [(v4 & y4 & E & J4 & K4)|(e & E' & N)]; [rewrite E; clear E|rewrite E'; apply NK in N; [|unfold is_number_key; tauto]]; cbn [bind]; [|split; [split; [intros [x H]; discriminate|tauto]|discriminate]].
  rewrite bind_two. destruct (date_cases ev D) as [(t & E & It)|(e & E' & N)]; [rewrite E; clear E|rewrite E']; cbn [bind]; [|split; [split; [intros [x H]; discriminate|tauto]|discriminate]].
  destruct (text_cases (str_of "locstring") ev D) as [(loc & E & I4)|(e & E' & N)]; [rewrite E; clear E|rewrite E']; cbn [bind]; [|split; [split; [intros [x H]; discriminate|tauto]|discriminate]].
  assert (OK : forall k, k = str_of "mech" \/ k = str_of "reference" \/ k = str_of "productcode" -> has ev k -> ~ text_at ev k -> ~ forall k : str, k = str_of "mech" \/ k = str_of "reference" \/ k = str_of "productcode" -> has ev k -> text_at ev k) by (intros k K Hk N H; apply N, H; assumption).
  destruct (opt_cases (str_of "mech") ev D) as [(l1 & E & L1 & S1 & T1)|(e & E' & Hh & N)]; [rewrite E; clear E|rewrite E'; apply (OK (str_of "mech") ltac:(tauto) Hh) in N]; cbn [bind]; [|split; [split; [intros [x H]; discriminate|tauto]|discriminate]].
  destruct (opt_cases (str_of "reference") ev D) as [(l2 & E & L2 & S2 & T2)|(e & E' & Hh & N)]; [rewrite E; clear E|rewrite E'; apply (OK (str_of "reference") ltac:(tauto) Hh) in N]; cbn [bind]; [|split; [split; [intros [x H]; discriminate|tauto]|discriminate]].
  destruct (opt_cases (str_of "productcode") ev D) as [(l3 & E & L3 & S3 & T3)|(e & E' & Hh & N)]; [rewrite E; clear E|rewrite E'; apply (OK (str_of "productcode") ltac:(tauto) Hh) in N]; cbn [bind]; [|split; [split; [intros [x H]; discriminate|tauto]|discriminate]].
  destruct (type_cases ev D) as [(ty & E & Ty & Gt)|(e & E' & N)]; [rewrite E; clear E|rewrite E'; unfold good_type in N]; cbn [bind]; [|split; [split; [intros [x H]; discriminate|tauto]|discriminate]].
  match goal with |- context [Ok (?a ++ ?b)] => set (LL := a ++ b) end.
  split.
  - split; [intros _|eauto]. unfold text_at. repeat (split; [solve [eauto]|]). split; [|split; [eauto|split]].
    + intros k [->|[->|[->| ->]]]; [destruct K1 as [->|(z & -> & _)]|destruct K2 as [->|(z & -> & _)]|destruct K3 as [->|(z & -> & _)]|destruct K4 as [->|(z & -> & _)]]; eauto.
    + intros k [->|[->| ->]]; assumption.
    + exact Gt.
  - intros x [= <-]. unfold LL. split.
    + unfold distinct. destruct S1 as [->|[s1 ->]], S2 as [->|[s2 ->]], S3 as [->|[s3 ->]]; cbn [map app fst];
      repeat (apply NoDup_cons; [cbn [In]; intro H; repeat destruct H as [H|H]; try discriminate; exact H|]); apply NoDup_nil.
    + assert (U : forall k s v w, In (k, v) ev -> In (k, w) ev -> v = VStr s -> w = VStr s) by (intros k s v w A B ->; symmetry; apply (in_unique _ _ _ _ D A B)).
      assert (Nn : forall k v y v' y', In (k, v) ev -> (v = VFloat y \/ exists z, v = VInt z /\ y = Fin (IZR z)) -> In (k, v') ev -> (v' = VFloat y' \/ exists z, v' = VInt z /\ y' = Fin (IZR z)) -> y = y').
      { intros k v y v' y' A B A' B'. pose proof (in_unique _ _ _ _ D A A'). subst v'. destruct B as [->|(z & -> & ->)], B' as [B'|(z' & B' & ->)]; congruence. }
      intros k s. rewrite !in_app_iff, L1, L2, L3. cbn [In]. split.
      * intros [[H|[H|[H|[H|[H|[H|[H|[H|[H|[]]]]]]]]]]|[[-> I]|[[-> I]|[[-> I]|[H|[]]]]]]; try (injection H as <- <-);
          try (apply w_text; [clear; unfold is_text_key; tauto|discriminate|assumption]).
        -- apply (w_number _ _ _ _ 4 v1); [left; split; reflexivity|exact J1|exact K1].
        -- apply (w_number _ _ _ _ 4 v2); [right; left; split; reflexivity|exact J2|exact K2].
        -- apply (w_number _ _ _ _ 1 v3); [right; right; left; split; reflexivity|exact J3|exact K3].
        -- apply (w_number _ _ _ _ 1 v4); [right; right; right; split; reflexivity|exact J4|exact K4].
        -- apply w_time. exact It.
        -- destruct Ty as [I|[N ->]]; [apply w_type; exact I|apply w_actual; exact N].
      * intros [k' s' K N I|k' n v y K I V|t' I|s' I|N].
        -- destruct K as [[->|[->|[->|[->|[->| ->]]]]]|[->| ->]]; try contradiction.
           ++ left. left. pose proof (in_unique _ _ _ _ D I I1). congruence.
           ++ left. right. left. pose proof (in_unique _ _ _ _ D I I2). congruence.
           ++ left. do 8 right. left. pose proof (in_unique _ _ _ _ D I I4). congruence.
           ++ right. left. auto.
           ++ right. right. left. auto.
           ++ left. do 2 right. left. pose proof (in_unique _ _ _ _ D I I3). congruence.
           ++ right. right. right. left. auto.
        -- left. destruct K as [[-> ->]|[[-> ->]|[[-> ->]|[-> ->]]]].
           ++ do 3 right. left. rewrite (Nn _ _ _ _ _ I V J1 K1). reflexivity.
           ++ do 4 right. left. rewrite (Nn _ _ _ _ _ I V J2 K2). reflexivity.
           ++ do 5 right. left. rewrite (Nn _ _ _ _ _ I V J3 K3). reflexivity.
           ++ do 6 right. left. rewrite (Nn _ _ _ _ _ I V J4 K4). reflexivity.
        -- left. do 7 right. left. pose proof (in_unique _ _ _ _ D I It) as Et. injection Et as ->. reflexivity.
        -- do 4 right. left. destruct Ty as [I'|[N _]]; [pose proof (in_unique _ _ _ _ D I I'); congruence|]. exfalso. apply N. eexists. exact I.
        -- do 4 right. left. destruct Ty as [I'|[_ ->]]; [|reflexivity]. exfalso. apply N. eexists. exact I'.
Qed.
Print Assumptions C68_writes.

(** Writing an event and reading it back. *)
Theorem C68_round_trip ev x : distinct ev -> write_event ev = Ok x ->
  (forall n y, exists y', fparse (fixed n y) = Some y') ->
  (forall t, timeparse "%Y-%m-%dT%H:%M:%S.%fZ"%string (timeshow "%Y-%m-%dT%H:%M:%SZ"%string t) = None) ->
  (forall t, exists t', timeparse "%Y-%m-%dT%H:%M:%SZ"%string (timeshow "%Y-%m-%dT%H:%M:%SZ"%string t) = Some t') ->
  exists ev', read_event true x = Ok ev' /\ distinct ev' /\
    (forall k s, is_text_key k \/ k = "network"%string -> k <> str_of "type" -> (In (k, VStr s) ev' <-> In (k, VStr s) ev)) /\
    (forall (k : str) y, (k = "lat"%string \/ k = "lon"%string) -> In (k, VFloat y) ev -> exists y', In (k, VFloat y') ev' /\ fparse (fixed 4 y) = Some y') /\
    (forall (k : str) y, (k = "depth"%string \/ k = "mag"%string) -> In (k, VFloat y) ev -> exists y', In (k, VFloat y') ev' /\ fparse (fixed 1 y) = Some y') /\
    (forall t, In (str_of "time", VObj t) ev -> exists t', In (str_of "time", VObj t') ev' /\ timeparse "%Y-%m-%dT%H:%M:%SZ"%string (timeshow "%Y-%m-%dT%H:%M:%SZ"%string t) = Some t') /\
    (forall s, In (str_of "productcode", VStr s) ev' <-> In (str_of "productcode", VStr s) ev \/ (~ has ev "productcode"%string /\ In (str_of "id", VStr s) ev)) /\
    ~ has ev' "type"%string /\ ~ has ev' "event_type"%string.
Proof.
  intros D W Pf Pt Pa. destruct (C68_writes ev D) as [Wr Wx]. assert (Wb : writable ev) by (apply Wr; eauto). destruct (Wx x W) as [Dx X]. clear Wr Wx.
  destruct Wb as ([id Iid] & [netid In1] & [network In2] & [loc Il] & Nu & [t It] & Op & Ty).
  assert (Tx : In (str_of "time", timeshow (str_of "%Y-%m-%dT%H:%M:%SZ") t) x) by (apply X, w_time; exact It).
  assert (Rb : readable x).
  { unfold OriginSpec.readable, has. split; [exists id; apply X, w_text; [unfold is_text_key; tauto|discriminate|exact Iid]|].
    split; [exists netid; apply X, w_text; [unfold is_text_key; tauto|discriminate|exact In1]|].
    split; [exists loc; apply X, w_text; [unfold is_text_key; tauto|discriminate|exact Il]|]. split.
    - intros k K. assert (Hk : exists n v y, (k = "lat"%string /\ n = 4 \/ k = "lon"%string /\ n = 4 \/ k = "depth"%string /\ n = 1 \/ k = "mag"%string /\ n = 1)%nat /\ In (k, v) ev /\ (v = VFloat y \/ exists z, v = VInt z /\ y = Fin (IZR z))).
      { destruct (Nu k K) as [[y I]|[z I]]; destruct K as [->|[->|[->| ->]]]; [exists 4%nat|exists 4%nat|exists 1%nat|exists 1%nat|exists 4%nat|exists 4%nat|exists 1%nat|exists 1%nat]; eexists; eexists; (split; [tauto|split; [exact I|eauto]]). }
      destruct Hk as (n & v & y & Hn & I & V). destruct (Pf n y) as [y' F]. exists (fixed n y), y'. split; [|exact F]. apply X. eapply w_number; eassumption.
    - destruct (Pa t) as [t' A]. eexists. exists t'. split; [exact Tx|]. apply t_whole; [apply Pt|exact A]. }
  destruct (C68_reads true x Dx) as [Rr Re]. destruct (proj2 Rr Rb) as [ev' E]. destruct (Re ev' E) as [D' V]. exists ev'. split; [exact E|]. split; [exact D'|].
  assert (Xt : forall k s, is_text_key k \/ k = "network"%string \/ k = "productcode"%string -> k <> str_of "type" -> (In (k, s) x <-> In (k, VStr s) ev)).
  { intros k s K N. rewrite X. split; [|intro I; apply w_text; tauto]. intro H. destruct H as [k s K' N' I|k n v y K' I _|t' I|s I|N']; try exact I; exfalso.
    - revert K. clear - K'. intro K. unfold is_text_key in K. destruct K' as [[-> _]|[[-> _]|[[-> _]|[-> _]]]]; repeat destruct K as [K|K]; discriminate.
    - unfold is_text_key in K. repeat destruct K as [K|K]; discriminate.
    - unfold is_text_key in K. repeat destruct K as [K|K]; discriminate. }
  assert (Hx : forall k, is_text_key k \/ k = "network"%string \/ k = "productcode"%string -> k <> str_of "type" -> (forall v, In (k, v) ev -> exists s, v = VStr s) -> (has x k <-> has ev k)).
  { intros k K N S. split; [intros [s I]; exists (VStr s); apply Xt; assumption|]. intros [v I]. destruct (S v I) as [s ->]. exists s. apply Xt; assumption. }
  assert (NT : ~ has x "type"%string).
  { intros [s I]. apply X in I. inversion I; subst; try discriminate; [contradiction|]. match goal with K : _ \/ _ |- _ => repeat destruct K as [K|K]; destruct K; discriminate end. }
  split; [|split; [|split; [|split; [|split; [|split]]]]].
  - intros k s K N. rewrite V. rewrite <- (Xt k s) by tauto. split.
    + intro H. inversion H; subst; try assumption; try (exfalso; unfold is_text_key in K; repeat destruct K as [K|K]; discriminate).
      exfalso. match goal with Q : ~ has x _ |- _ => apply Q end. exists network. apply Xt; [tauto|discriminate|exact In2].
    + intro I. destruct K as [K| ->]; [apply e_text; assumption|apply e_network; exact I].
  - intros k y K I. destruct (Pf 4%nat y) as [y' F]. exists y'. split; [|exact F]. apply V. apply (e_number _ _ _ _ _ (fixed 4 y)); [unfold is_number_key; tauto| |exact F]. apply X. apply (w_number _ _ _ _ _ (VFloat y)); [tauto|exact I|auto].
  - intros k y K I. destruct (Pf 1%nat y) as [y' F]. exists y'. split; [|exact F]. apply V. apply (e_number _ _ _ _ _ (fixed 1 y)); [unfold is_number_key; tauto| |exact F]. apply X. apply (w_number _ _ _ _ _ (VFloat y)); [tauto|exact I|auto].
  - intros t' I. destruct (Pa t') as [u A]. exists u. split; [|exact A]. apply V. eapply e_time; [apply X, w_time; exact I|apply t_whole; [apply Pt|exact A]].
  - intro s. assert (Hp : has x (str_of "productcode") <-> has ev (str_of "productcode")).
    { apply Hx; [tauto|discriminate|]. intros v I. destruct (Op (str_of "productcode")) as [s' I']; [tauto|eexists; exact I|]. exists s'. apply (in_unique _ _ _ _ D I I'). }
    rewrite V. split.
    + intro H. inversion H; subst; try (exfalso; match goal with K : is_text_key _ |- _ => unfold is_text_key in K; repeat destruct K as [K|K]; discriminate end).
      * left. apply Xt; [tauto|discriminate|assumption].
      * right. split; [rewrite <- Hp; assumption|]. apply Xt; [unfold is_text_key; tauto|discriminate|assumption].
    + intros [I|[N I]]; [apply e_product; apply Xt; [tauto|discriminate|exact I]|]. apply e_no_product; [rewrite Hp; exact N|reflexivity|]. apply Xt; [unfold is_text_key; tauto|discriminate|exact I].
  - intros [v I]. apply V in I. inversion I; subst; try discriminate; [apply NT; eexists; eassumption|]. match goal with K : is_number_key _ |- _ => unfold is_number_key in K; repeat destruct K as [K|K]; discriminate end.
  - intros [v I]. apply V in I. inversion I; subst; try discriminate; match goal with K : _ |- _ => unfold is_number_key, is_text_key in K; repeat destruct K as [K|K]; discriminate end.
Qed.
Print Assumptions C68_round_trip.

Variable iparse : str -> option Z.
(** Origins from files: the source file overrides the event file. *)
Lemma update_layered ev p ds : distinct p -> (forall k v, In (k, v) ev <-> layered ds k v) -> distinct ev -> forall k v, In (k, v) (dupdate ev p) <-> layered (p :: ds) k v.
Proof.
  intros Dp L D k v. rewrite <- (dget_in _ _ _ (dupdate_distinct p ev D)), (dupdate_get p Dp). destruct (dget k p) as [w|] eqn:G.
  - pose proof (dget_sound _ _ _ G) as I. split; [intros [= ->]; apply l_here; exact I|]. intro H. inversion H; subst; [f_equal; apply (in_unique _ _ _ _ Dp I); assumption|]. exfalso. match goal with N : ~ has p k |- _ => apply N end. exists w. exact I.
  - apply dget_none in G. rewrite (dget_in _ _ _ D), L. split; [intro H; apply l_later; assumption|]. intro H. inversion H; subst; [exfalso; apply G; exists v; assumption|assumption].
Qed.
Theorem C68_from_file x source o : distinct x ->
  (from_file fparse iparse timeparse x source false = Ok o <->
   exists ev p d, read_event true x = Ok ev /\ match source with None => p = [] | Some lines => read_source fparse iparse lines = Ok p end /\
     snd (new_origin fparse d) = Ok o /\ d = dupdate ev p) /\
  (forall ev p, read_event true x = Ok ev -> match source with None => p = [] | Some lines => read_source fparse iparse lines = Ok p end ->
     distinct (dupdate ev p) /\ forall k v, In (k, v) (dupdate ev p) <-> layered [p; ev] k v).
Proof.
  intros D. split.
  - unfold from_file. destruct (read_event true x) as [ev|e] eqn:R; cbn [bind].
    2: { split; [discriminate|]. intros (ev & p & d & H & _). discriminate. }
    destruct source as [lines|].
    + destruct (read_source fparse iparse lines) as [p|e] eqn:S; cbn [bind].
      * split.
        -- intro H. exists ev, p. eexists. split; [reflexivity|]. split; [reflexivity|]. split; [exact H|reflexivity].
        -- intros (ev' & p' & d & [= <-] & [= <-] & H & ->). exact H.
      * split; [discriminate|]. intros (ev' & p' & d & _ & H & _). discriminate.
    + cbn [bind]. split.
      * intro H. exists ev, []. eexists. split; [reflexivity|]. split; [reflexivity|]. split; [exact H|reflexivity].
      * intros (ev' & p' & d & [= <-] & -> & H & ->). exact H.
  - intros ev p R S. destruct (proj2 (C68_reads true x D) ev R) as [De _].
    assert (Dp : distinct p) by (destruct source as [lines|]; [apply (C57_values _ _ _ _ S)|subst; constructor]).
    split; [apply dupdate_distinct; exact De|]. apply update_layered; [exact Dp| |exact De].
    intros k v. split; [apply l_here|]. intro H. inversion H; subst; [assumption|]. match goal with Q : layered [] _ _ |- _ => inversion Q end.
Qed.
Print Assumptions C68_from_file.
(** With a moment file there is never an origin. *)
Theorem C68_moment_refuted x source o : from_file fparse iparse timeparse x source true <> Ok o.
Proof.
  unfold from_file. destruct (read_event true x); [|discriminate]. cbn [bind]. destruct source as [lines|]; [|discriminate]. destruct (read_source fparse iparse lines); discriminate.
Qed.
Print Assumptions C68_moment_refuted.
End Props.

(** A file with a whole-second time, without network. *)
Definition ex_num (s : str) : option num := if str_eqb s (str_of "1.5") then Some (Fin 1.5) else None.
Definition ex_time (fmt s : str) : option nat := if str_eqb fmt (str_of "%Y-%m-%dT%H:%M:%SZ") then Some (length s) else None.
Definition ex_attrs (time : string) : dict str :=
  [(str_of "id", str_of "us1"); (str_of "netid", str_of "us"); (str_of "lat", str_of "1.5"); (str_of "lon", str_of "1.5"); (str_of "depth", str_of "1.5"); (str_of "mag", str_of "1.5");
   (str_of time, str_of "2000"); (str_of "locstring", []); (str_of "type", str_of "RS")].
Lemma ex_attrs_distinct : distinct (ex_attrs "time").
Proof. unfold distinct. cbn [ex_attrs map fst]. repeat (apply NoDup_cons; [cbn [In]; intro H; repeat destruct H as [H|H]; try discriminate; exact H|]). apply NoDup_nil. Qed.
Definition ex_read : dict value :=
  [(str_of "id", VStr (str_of "us1")); (str_of "network", VStr []); (str_of "netid", VStr (str_of "us")); (str_of "productcode", VStr (str_of "us1")); (str_of "time", VObj 4);
   (str_of "lat", VFloat (Fin 1.5)); (str_of "lon", VFloat (Fin 1.5)); (str_of "depth", VFloat (Fin 1.5)); (str_of "mag", VFloat (Fin 1.5)); (str_of "locstring", VStr []); (str_of "type", VStr (str_of "RS"))].
Example C68_ex_reads : readable ex_num ex_time (ex_attrs "time") /\ read_event ex_num ex_time true (ex_attrs "time") = Ok ex_read.
Proof.
  assert (E : read_event ex_num ex_time true (ex_attrs "time") = Ok ex_read) by reflexivity. split; [|exact E]. apply (C68_reads ex_num ex_time true _ ex_attrs_distinct). eauto.
Qed.
Example C68_ex_refused : read_event ex_num ex_time true (ex_attrs "when") = Err ValueError /\ refused ex_num ex_time [] KeyError.
Proof. split; [reflexivity|]. apply (C68_refused _ _ true); [constructor|reflexivity]. Qed.
(** The date in pieces, which old files have, cannot be read. *)
Theorem C68_old_refuted : forall fparse timeparse path x, distinct x -> ~ has x (str_of "time") -> forall ev, read_event fparse timeparse path x <> Ok ev.
Proof.
  intros fparse timeparse path x D N ev H. assert (R : readable fparse timeparse x) by (apply (C68_reads fparse timeparse path x D); eauto).
  destruct R as (_ & _ & _ & _ & s & t & I & _). apply N. exists s. exact I.
Qed.
Print Assumptions C68_old_refuted.
Example C68_ex_old : ~ has (ex_attrs "when") (str_of "time") /\ read_event ex_num ex_time true (ex_attrs "when" ++ map (fun k => (str_of k, [])) ["year"; "month"; "day"; "hour"; "minute"; "second"]%string) = Err AttributeError.
Proof. split; [apply dhas_f; reflexivity|reflexivity]. Qed.
Definition ex_show (_ : str) (_ : nat) : str := str_of "2000".
Definition ex_fixed (_ : nat) (_ : num) : str := str_of "1.5".
Definition ex_mech : dict value := dset (str_of "mech") (VStr (str_of "SS")) (ddel (str_of "productcode") ex_read).
Example C68_ex_writes : exists x, write_event ex_show ex_fixed ex_mech = Ok x /\ In (str_of "event_type", str_of "ACTUAL") x /\ In (str_of "mech", str_of "SS") x /\ ~ has x (str_of "type") /\
  exists ev, read_event ex_num ex_time true x = Ok ev /\ In (str_of "productcode", VStr (str_of "us1")) ev /\ In (str_of "mech", VStr (str_of "SS")) ev.
Proof.
  eexists. split; [reflexivity|]. split; [apply dget_sound; reflexivity|]. split; [apply dget_sound; reflexivity|]. split; [apply dhas_f; reflexivity|].
  eexists. split; [reflexivity|]. split; apply dget_sound; reflexivity.
Qed.
Example C68_ex_round_trip : (forall n y, exists y', ex_num (ex_fixed n y) = Some y') /\ (forall t, ex_time (str_of "%Y-%m-%dT%H:%M:%S.%fZ") (ex_show (str_of "%Y-%m-%dT%H:%M:%SZ") t) = None) /\
  (forall t, exists t', ex_time (str_of "%Y-%m-%dT%H:%M:%SZ") (ex_show (str_of "%Y-%m-%dT%H:%M:%SZ") t) = Some t').
Proof. split; [|split]; intros; [eexists; reflexivity|reflexivity|eexists; reflexivity]. Qed.
Example C68_ex_from_file : exists ev p, read_event ex_num ex_time true (ex_attrs "time") = Ok ev /\ read_source ex_num (fun _ => None) [str_of "mag = 1.5"; str_of "mech=NM"] = Ok p /\
  layered [p; ev] (str_of "mech") (VStr (str_of "NM")) /\ layered [p; ev] (str_of "type") (VStr (str_of "RS")).
Proof.
  eexists. eexists. split; [reflexivity|]. split; [reflexivity|]. split; [apply l_here; apply dget_sound; reflexivity|]. apply l_later; [apply dhas_f; reflexivity|]. apply l_here. apply dget_sound. reflexivity.
Qed.
Example C68_ex_moment : from_file ex_num (fun _ => None) ex_time (ex_attrs "time") None true = Err NameErr.
Proof. reflexivity. Qed.
