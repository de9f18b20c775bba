(** Properties C50 (polygons and rupture text files). *)
From Coq Require Import ZArith Reals String Ascii Bool List Lia Lra.
From Verif Require Import PyBase PyStr VecModel VecProofs GeoModel GeoTrig RuptModel PolyModel PolySpec PolyProofs.
Import ListNotations.
Open Scope nat_scope.

(** A polygon is accepted iff it goes along a top edge and back along an equally long, everywhere
    deeper bottom edge to its start (or is a single vertex); all others raise ValueError. *)
Theorem C50_check : forall p, (check_polygon p = Ok tt <-> well_ordered p) /\ (~ well_ordered p -> check_polygon p = Err ValueError).
Proof.
  intro p. split; [apply check_polygon_ok|]. intro W. destruct (check_polygon_cases p) as [E|E]; [exfalso; apply W, check_polygon_ok, E|exact E].
Qed.
Print Assumptions C50_check.
(** Rotation starts the same closed polygon one vertex later; it needs the polygon to be closed. *)
Theorem C50_rotate : forall p,
  (closed p -> exists p', rotate_polygon p = Ok p' /\ closed p' /\ (2 < length p -> started_at 1 p p') /\ (length p = 2 -> p' = p)) /\
  (2 <= length p -> ~ closed p -> rotate_polygon p = Err Generic).
Proof.
  intro p. split.
  - intro C. apply closed_close in C. destruct C as (c & N & ->). rewrite (close_length c N). assert (E0 : cyc 0 c = c) by (unfold cyc; cbn; apply app_nil_r). assert (L : 0 < length c) by (destruct c; [congruence|cbn; lia]).
    exists (close (cyc 1 c)). split; [rewrite <- E0 at 1; apply rotate_cyc; exact L|]. split; [apply closed_close; exists (cyc 1 c); split; [apply cyc_nonempty; exact N|reflexivity]|]. split.
    + intro H. apply started_cyc; [exact N|lia|reflexivity].
    + intro H. destruct c as [|a [|b c]]; cbn in H; try lia. reflexivity.
  - intros L C. unfold rotate_polygon. destruct p as [|a p']; [cbn in L; lia|]. destruct (rev (a :: p')) as [|z r] eqn:Er; [apply (f_equal (@length point)) in Er; rewrite rev_length in Er; discriminate|].
    destruct (point_eqb z a) eqn:Ez; [|reflexivity]. exfalso. apply C. apply point_eqb_iff in Ez. subst z. destruct p' as [|b p'] using rev_ind; [cbn in L; lia|]. clear IHp'. change (a :: p' ++ [b]) with ((a :: p') ++ [b]) in Er. rewrite rev_app_distr in Er. injection Er as -> _. exists a, p'. reflexivity.
Qed.
Print Assumptions C50_rotate.
(** A file all of whose groups can be started so as to be accepted is read, each group starting at
    the first such vertex; comments make the reference. *)
Theorem C50_text_repaired : forall fparse nf lines items gs polys, Forall2 (says fparse nf) lines items -> groups (vertices_of items) gs ->
  Forall2 (first_start well_ordered) gs polys -> text_to_json fparse nf lines = Ok (reference_of items, polys).
Proof.
  intros fparse nf lines items gs polys F G H. rewrite (text_finish _ _ _ _ _ F G). unfold finish. destruct (fix_all_spec gs) as [[X _]|(X & gs' & ok & -> & H1 & H2)].
  - exfalso. clear F G. induction H as [|g p gs ps Hs H IH]; [inversion X|]. inversion X as [? ? [O _]|? ? O]; subst; [|apply IH; exact O]. apply O. destruct Hs as (k & _ & (v & body & _ & _ & _ & _ & -> & _) & _). exists v, body. reflexivity.
  - cbn [bind]. destruct ok; [|exfalso; apply (not_hopeless _ _ H); apply H2; reflexivity]. rewrite (starts_fun _ _ _ (H1 eq_refl) H). destruct (check_all_spec polys) as [[_ ->]|[K _]]; [reflexivity|]. exfalso. apply K, (starts_ok _ _ H).
Qed.
Print Assumptions C50_text_repaired.
(** A file whose groups are all acceptable as they stand is read as it stands. *)
Theorem C50_text_asis : forall fparse nf lines items gs, Forall2 (says fparse nf) lines items -> groups (vertices_of items) gs ->
  Forall well_ordered gs -> text_to_json fparse nf lines = Ok (reference_of items, gs).
Proof.
  intros fparse nf lines items gs F G W. rewrite (text_finish _ _ _ _ _ F G). unfold finish. destruct (fix_all_spec gs) as [[X _]|(X & gs' & ok & -> & H1 & H2)].
  - exfalso. rewrite Forall_forall in W. apply Exists_exists in X. destruct X as (g & I & C & L). destruct (well_ordered_closed g (W g I)) as [[v ->]|K]; [apply L; unfold lone; cbn; lia|contradiction].
  - cbn [bind]. destruct ok.
    + assert (E : gs' = gs). { specialize (H1 eq_refl). clear - H1 W. induction H1 as [|g p gs ps Hs H IH]; [reflexivity|]. inversion W; subst. f_equal; [|apply IH; assumption]. assert (L : ~ lone g) by (destruct Hs as (k & K & _); unfold lone; lia). symmetry. apply (first_start_fun g); [apply well_ordered_first; assumption|exact Hs]. }
      rewrite E. destruct (check_all_spec gs) as [[_ ->]|[K _]]; [reflexivity|contradiction].
    + destruct (check_all_spec gs) as [[_ ->]|[K _]]; [reflexivity|contradiction].
Qed.
Print Assumptions C50_text_asis.
(** Whatever is returned was read from the file and is acceptable: either every group was started
    at its first acceptable vertex, or some group has no such vertex and all are left alone. *)
Theorem C50_text_sound : forall fparse nf lines reference polys, text_to_json fparse nf lines = Ok (reference, polys) ->
  exists items gs, Forall2 (says fparse nf) lines items /\ groups (vertices_of items) gs /\ reference = reference_of items /\ Forall well_ordered polys /\
  (Forall2 (first_start well_ordered) gs polys \/ (polys = gs /\ exists g, In g gs /\ forall p, ~ first_start well_ordered g p)).
Proof.
  intros fparse nf lines reference polys H. destruct (text_inv _ _ _ _ H) as [(items & gs & F & G & E)|(_ & e & E & _)]; [|discriminate]. exists items, gs. split; [exact F|]. split; [exact G|]. unfold finish in E.
  destruct (fix_all_spec gs) as [[_ X]|(X & gs' & ok & X' & H1 & H2)]; [rewrite X in E; discriminate|]. rewrite X' in E. cbn [bind] in E. set (ps := if ok then gs' else gs) in *.
  destruct (check_all_spec ps) as [[W K]|[_ K]]; rewrite K in E; [|discriminate]. cbn [bind] in E. assert (E1 : reference = reference_of items) by congruence. assert (E2 : polys = ps) by congruence. clear E. rewrite E2. split; [exact E1|]. split; [exact W|]. unfold ps in *. destruct ok.
  - left. apply H1. reflexivity.
  - right. split; [reflexivity|]. specialize (H2 eq_refl). apply Exists_exists in H2. exact H2.
Qed.
Print Assumptions C50_text_sound.
(** The failures: an unreadable line (either exception), an unclosed group (Exception), groups
    that cannot be repaired (ValueError). *)
Theorem C50_text_errors : forall fparse nf lines e, text_to_json fparse nf lines = Err e ->
  ((forall items, ~ Forall2 (says fparse nf) lines items) /\ (e = ValueError \/ e = Generic)) \/
  exists items gs, Forall2 (says fparse nf) lines items /\ groups (vertices_of items) gs /\
    ((exists g, In g gs /\ 2 <= length g /\ ~ closed g) /\ e = Generic \/
     (forall g, In g gs -> 2 <= length g -> closed g) /\ e = ValueError /\ ~ Forall well_ordered gs /\ exists g, In g gs /\ forall p, ~ first_start well_ordered g p).
Proof.
  intros fparse nf lines e H. destruct (text_inv _ _ _ _ H) as [(items & gs & F & G & E)|(N & e' & E & C)]; [|left; split; [exact N|injection E as <-; exact C]]. right. exists items, gs. split; [exact F|]. split; [exact G|]. unfold finish in E.
  destruct (fix_all_spec gs) as [[X X']|(X & gs' & ok & X' & H1 & H2)]; rewrite X' in E; cbn [bind] in E.
  - left. injection E as ->. split; [|reflexivity]. apply Exists_exists in X. destruct X as (g & I & C & L). exists g. split; [exact I|]. split; [unfold lone in L; lia|exact C].
  - right. split. { intros g I L. rewrite Forall_forall in X. destruct (closed_dec g) as [C|[[C K]|K]]; [exact C|unfold lone in K; lia|exfalso; apply (X g I); exact K]. }
    destruct ok.
    + exfalso. specialize (H1 eq_refl). destruct (check_all_spec gs') as [[_ K]|[K _]]; [rewrite K in E; discriminate|]. apply K, (starts_ok _ _ H1).
    + specialize (H2 eq_refl). apply Exists_exists in H2. destruct (check_all_spec gs) as [[_ K]|[K K']]; [rewrite K in E; discriminate|]. rewrite K' in E. cbn [bind] in E. injection E as ->. auto.
Qed.
Print Assumptions C50_text_errors.
(** One group of a single vertex stops the repair of all the others. *)
Theorem C50_lone_vertex : forall fparse nf lines items gs v, Forall2 (says fparse nf) lines items -> groups (vertices_of items) gs ->
  (forall g, In g gs -> 2 <= length g -> closed g) -> In [v] gs -> ~ Forall well_ordered gs -> text_to_json fparse nf lines = Err ValueError.
Proof.
  intros fparse nf lines items gs v F G C I W. rewrite (text_finish _ _ _ _ _ F G). unfold finish. destruct (fix_all_spec gs) as [[X _]|(X & gs' & ok & -> & H1 & H2)].
  - exfalso. apply Exists_exists in X. destruct X as (g & Ig & O & L). apply O, (C g Ig). unfold lone in L. lia.
  - cbn [bind]. destruct ok.
    + exfalso. specialize (H1 eq_refl). apply (not_hopeless _ _ H1). apply Exists_exists. exists [v]. split; [exact I|]. intros p (k & K & _). cbn in K. lia.
    + destruct (check_all_spec gs) as [[K _]|[_ ->]]; [contradiction|reflexivity].
Qed.
Print Assumptions C50_lone_vertex.
(** A comma followed by a blank is not understood, whatever the format: the comma stays in the
    number (no numeral contains a comma). *)
Theorem C50_comma_blank : forall fparse nf st line a b c, (forall s, In ","%char s -> fparse s = None) ->
  words line [a; b; c] -> (forall h t, trimmed line (h :: t) -> h <> "#"%char /\ h <> ">"%char) ->
  In ","%char a \/ In ","%char b \/ In ","%char c -> read_line fparse nf st line = Err ValueError.
Proof.
  intros fparse nf st line a b c N W T I. destruct st as [[reference polygons] polygon]. unfold read_line. destruct (strip line) as [|h t] eqn:Es.
  - exfalso. apply blanks_strip in Es. apply words_iff in W. assert (X : words line []) by (constructor; exact Es). apply words_iff in X. congruence.
  - destruct (T h t) as [T1 T2]; [apply trimmed_iff; exact Es|]. cbn [begins]. destruct (Ascii.eqb_spec h hash); [contradiction|]. destruct (Ascii.eqb_spec h gt); [contradiction|]. apply words_iff in W. unfold line_parts. rewrite W. cbn [bind].
    destruct I as [I|[I|I]]; rewrite (N _ I); destruct (fparse a), (fparse b); reflexivity.
Qed.
Print Assumptions C50_comma_blank.

(** A file in the bottom-first order, with a reader of one-digit numbers. *)
Definition digit (s : str) : option R := match s with [c] => if is_digit c then Some (IZR (Z.of_nat (nat_of_ascii c - 48))) else None | _ => None end.
Definition ex_lines : list str := map str_of ["# Ref"; "0 0 5"; "0 1 5"; " 0 1 1"; ""; "0 0 1"; "0 0 5"; ">"]%string.
Definition ex_items : list item := [IComment " Ref"%string; IVertex (0, 0, 5)%R; IVertex (0, 1, 5)%R; IVertex (0, 1, 1)%R; IBlank; IVertex (0, 0, 1)%R; IVertex (0, 0, 5)%R; ISeparator].
Definition ex_group : list point := [(0, 0, 5); (0, 1, 5); (0, 1, 1); (0, 0, 1); (0, 0, 5)]%R.
Definition ex_fixed : list point := [(0, 1, 1); (0, 0, 1); (0, 0, 5); (0, 1, 5); (0, 1, 1)]%R.
Example C50_ex_reads : Forall2 (says digit true) ex_lines ex_items /\ groups (vertices_of ex_items) [ex_group].
Proof.
  split.
  - assert (V : forall line h t a b c x y z, strip line = h :: t -> h <> "#"%char -> h <> ">"%char -> split_blanks line = [a; b; c] -> digit a = Some x -> digit b = Some y -> digit c = Some z -> says digit true line (IVertex (x, y, z))).
    { intros line h t a b c x y z S N1 N2 W A B C. apply (says_vertex digit true line h t a b c x y z); try assumption; [apply trimmed_iff; exact S|left; apply words_iff; exact W]. }
    repeat apply Forall2_cons; [| | | | | | | |constructor].
    2-4, 6-7: eapply V; [reflexivity|discriminate|discriminate|reflexivity|reflexivity|reflexivity|reflexivity].
    + apply (says_comment _ _ _ (str_of " Ref")). apply trimmed_iff. reflexivity.
    + constructor. constructor.
    + apply (says_separator _ _ _ []). apply trimmed_iff. reflexivity.
  - cbn. change [Some (0, 0, 5)%R; Some (0, 1, 5)%R; Some (0, 1, 1)%R; Some (0, 0, 1)%R; Some (0, 0, 5)%R; None] with (map Some ex_group ++ [None]). apply groups_run; [discriminate|right; eexists; reflexivity|apply groups_sep, groups_none].
Qed.
Lemma ex_not q : check_polygon q <> Ok tt -> ~ well_ordered q.
Proof. intros H W. apply H, check_polygon_ok, W. Qed.
Example C50_ex_repaired : Forall2 (first_start well_ordered) [ex_group] [ex_fixed].
Proof.
  constructor; [|constructor]. set (c := [(0, 0, 5); (0, 1, 5); (0, 1, 1); (0, 0, 1)]%R). assert (N : c <> []) by discriminate. change ex_group with (close c). exists 2. split; [cbn; lia|]. split; [apply started_cyc; [exact N|cbn; lia|reflexivity]|]. split.
  - right. exists [(0, 1, 1); (0, 0, 1)]%R, [(0, 1, 5); (0, 0, 5)]%R. split; [|repeat constructor; unfold shallower; cbn; lra]. exists (0, 1, 1)%R, [(0, 0, 1)%R]. repeat split.
  - intros j q Hj S. apply started_cyc in S; [|exact N|cbn; lia]. subst q. apply ex_not. assert (L : forall x y, (y <= x)%R -> rleb y x = true) by (intros x y H; apply rleb_iff; exact H).
    destruct j as [|[|j]]; [| |lia]; unfold check_polygon; cbn; rewrite !reqd_refl; cbn; unfold depth_of; cbn; rewrite L by lra; discriminate.
Qed.
Example C50_ex : text_to_json digit true ex_lines = Ok (str_of " Ref", [ex_fixed]).
Proof. apply (C50_text_repaired digit true ex_lines ex_items [ex_group]); [apply C50_ex_reads|apply C50_ex_reads|apply C50_ex_repaired]. Qed.
(** The same file with a group of one vertex is refused; commas followed by blanks are refused. *)
Example C50_ex_lone : text_to_json digit true (ex_lines ++ [str_of "0 0 1"]) = Err ValueError.
Proof.
  destruct C50_ex_reads as [F G]. apply (C50_lone_vertex digit true _ (ex_items ++ [IVertex (0, 0, 1)%R]) [ex_group; [(0, 0, 1)%R]] (0, 0, 1)%R).
  - apply Forall2_app; [exact F|]. constructor; [|constructor]. apply (says_vertex digit true _ "0"%char (str_of " 0 1") (str_of "0") (str_of "0") (str_of "1") 0 0 1); try reflexivity; [apply trimmed_iff; reflexivity|discriminate|discriminate|left; apply words_iff; reflexivity].
  - change (vertices_of (ex_items ++ [IVertex (0, 0, 1)%R])) with (map Some ex_group ++ None :: map Some [(0, 0, 1)%R] ++ []). apply groups_run; [discriminate|right; eexists; reflexivity|]. apply groups_sep, groups_run; [discriminate|auto|constructor].
  - intros g [<-|[<-|[]]] L; [|cbn in L; lia]. exists (0, 0, 5)%R, [(0, 1, 5); (0, 1, 1); (0, 0, 1)]%R. reflexivity.
  - right. left. reflexivity.
  - intro H. inversion H as [|? ? W _]; subst. revert W. apply ex_not. unfold check_polygon, ex_group. cbn. rewrite !reqd_refl. cbn. unfold depth_of. cbn. rewrite (proj2 (rleb_iff _ _)) by lra. discriminate.
Qed.
Example C50_ex_comma : read_line digit false ([], [], []) (str_of "0, 1, 5") = Err ValueError /\ read_line digit false ([], [], []) (str_of "0,1,5") = Ok ([], [], [(1, 0, 5)%R]).
Proof. split; reflexivity. Qed.
