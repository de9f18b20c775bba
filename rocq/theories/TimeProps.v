(** Property theorems C08-C11: elapsed times and historic dates. *)
From Coq Require Import ZArith String Ascii Bool List Lia.
From Verif Require Import PyBase ElapsedModel ElapsedSpec ElapsedProofs
     HistoricModel HistoricSpec HistoricProofs.
Import ListNotations.
Open Scope Z_scope.

(** C08.  The floating-point decomposition is the exact mixed-radix one. *)
Theorem C08_elapsed : forall t1 t2, 0 <= t1 -> t1 <= t2 -> t2 < datetime_span ->
  exists e, get_time_elapsed t1 t2 = Ok e /\
    604800 * weeks e + 86400 * days e + 3600 * hours e + 60 * minutes e + seconds e = (t2 - t1) / 1000000 /\
    0 <= weeks e /\ 0 <= days e < 7 /\ 0 <= hours e < 24 /\ 0 <= minutes e < 60 /\ 0 <= seconds e < 60.
Proof. exact elapsed_correct. Qed.
Print Assumptions C08_elapsed.

Example C08_ex : 0 <= 5 /\ 5 <= 694861000005 /\ 694861000005 < datetime_span /\
  (694861000005 - 5) / 1000000 = 604800 * 1 + 86400 * 1 + 3600 * 1 + 60 * 1 + 1.
Proof. repeat split; vm_compute; congruence. Qed.

Theorem C08_backwards : forall t1 t2, t2 < t1 -> get_time_elapsed t1 t2 = Err Generic.
Proof. exact elapsed_backwards. Qed.
Print Assumptions C08_backwards.

(** C09.  The text only depends on the whole seconds and names the largest
    unit and the next one. *)
Theorem C09_elapsed_string : forall t1 t2, 0 <= t1 -> t1 <= t2 -> t2 < datetime_span ->
  get_elapsed_string t1 t2 = Ok (elapsed_text ((t2 - t1) / 1000000)).
Proof. exact elapsed_string_correct. Qed.
Print Assumptions C09_elapsed_string.

Example C09_ex1 : elapsed_text 694861 = str_of "1 week, 1 day".
Proof. vm_compute. reflexivity. Qed.
Example C09_ex2 : elapsed_text 3599 = str_of "59 minutes, 59 seconds" /\ elapsed_text 1 = str_of "1 second"
  /\ elapsed_text 7200 = str_of "2 hours, 0 minutes".
Proof. vm_compute. auto. Qed.

(** C09.  getTimeStr: each unit is paired with the next smaller one, except
    'second', which is paired with 'year'; unknown units raise. *)
Theorem C09_time_str : forall b s,
  get_time_str b s (str_of "week") = Ok (phrase b "week" ++ str_of ", " ++ phrase s "day") /\
  get_time_str b s (str_of "day") = Ok (phrase b "day" ++ str_of ", " ++ phrase s "hour") /\
  get_time_str b s (str_of "hour") = Ok (phrase b "hour" ++ str_of ", " ++ phrase s "minute") /\
  get_time_str b s (str_of "minute") = Ok (phrase b "minute" ++ str_of ", " ++ phrase s "second") /\
  get_time_str b s (str_of "second") = Ok (phrase b "second" ++ str_of ", " ++ phrase s "year").
Proof. exact time_str_phrase. Qed.
Print Assumptions C09_time_str.

Theorem C09_time_str_unknown : forall b s u, ~ In u periods -> get_time_str b s u = Err Generic.
Proof. exact time_str_unknown. Qed.
Print Assumptions C09_time_str_unknown.

Example C09_ex3 : ~ In (str_of "fortnight") periods.
Proof. vm_compute. intuition congruence. Qed.

(** C10.  From 1900 on the ordinary formatting is used; *)
Theorem C10_modern : forall sup d f, 1900 <= year d -> historic_strftime sup d f = sup d f.
Proof. exact historic_modern. Qed.
Print Assumptions C10_modern.

(** ... before 1900 an existing date of an equivalent calendar year is
    formatted with the %Y directives replaced; *)
Theorem C10_equivalent_year : forall sup d f, valid_date d -> year d < 1900 -> year d mod 400 <> 300 ->
  ~ In (TDir (chr 99)) (tokenize f) -> ~ In (TDir (chr 120)) (tokenize f) ->
  exists d' f', historic_strftime sup d f = sup d' f' /\
    tokenize f' = flat_map (subst_year (str_of_Z (year d))) (tokenize f) /\
    1900 < year d' < 2300 /\ valid_date d' /\
    month d' = month d /\ day d' = day d /\ tod d' = tod d /\
    weekday d' = weekday d /\ day_of_year d' = day_of_year d /\
    (leap (year d') <-> leap (year d)) /\ year d' mod 100 = year d mod 100.
Proof. exact historic_equivalent_plain. Qed.
Print Assumptions C10_equivalent_year.

Definition d1752 : dt := {| year := 1752; month := 2; day := 29; tod := 0 |}.
Example C10_ex : valid_date d1752 /\ year d1752 < 1900 /\ year d1752 mod 400 <> 300 /\
  ~ In (TDir (chr 99)) (tokenize (str_of "%Y-%m-%d")) /\ ~ In (TDir (chr 120)) (tokenize (str_of "%Y-%m-%d")) /\
  weekday {| year := 2000; month := 1; day := 1; tod := 0 |} = 5.
Proof. vm_compute. repeat split; intuition congruence. Qed.

(** ... so a directive-wise strftime shows the original date, provided every
    directive other than %Y only depends on the position in the 400-year cycle; *)
Theorem C10_rendering : forall render dang d f,
  valid_date d -> year d < 1900 -> year d mod 400 <> 300 ->
  ~ In (TDir (chr 99)) (tokenize f) -> ~ In (TDir (chr 120)) (tokenize f) ->
  (forall c, In (TDir c) (tokenize f) -> c <> chr 89 -> cycle_directive render c) ->
  historic_strftime (strftime_sem render dang) d f =
  strftime_sem (fun c x => if Ascii.eqb c (chr 89) then str_of_Z (year x) else render c x) dang d f.
Proof. exact historic_sem_plain. Qed.
Print Assumptions C10_rendering.

Definition render0 (c : ascii) (d : dt) : str :=
  if Ascii.eqb c (chr 109) then str_of_Z (month d) else
  if Ascii.eqb c (chr 37) then [c] else
  if Ascii.eqb c (chr 117) then str_of_Z (weekday d + 1) else
  str_of_Z (year d).
Example C10_ex2 : cycle_directive render0 (chr 109) /\ cycle_directive render0 (chr 117) /\
  historic_strftime (strftime_sem render0 []) d1752 (str_of "%Y %m %u %%Y") = Ok (str_of "1752 2 2 %Y").
Proof.
  split; [|split].
  - intros a b H. unfold render0. cbn. rewrite H. reflexivity.
  - intros a b H1 H2 H3 H4. unfold render0. cbn. rewrite H4. reflexivity.
  - vm_compute. reflexivity.
Qed.

(** ... but a year-bearing directive such as %F shows the replacement year. *)
Theorem C10_other_year_directives_refuted : exists render d f,
  valid_date d /\ year d < 1900 /\
  (forall x, render (chr 70) x = str_of_Z (year x)) /\
  historic_strftime (strftime_sem render []) d f = Ok (str_of "2200") /\
  strftime_sem render [] d f = Ok (str_of "1800").
Proof.
  exists (fun _ x => str_of_Z (year x)), {| year := 1800; month := 1; day := 1; tod := 0 |}, (str_of "%F").
  vm_compute. repeat split; congruence.
Qed.
Print Assumptions C10_other_year_directives_refuted.

(** C10.  Exactly the years congruent to 300 modulo 400 fail the assertion. *)
Theorem C10_assertion : forall sup d f, year d < 1900 -> year d mod 400 = 300 ->
  historic_strftime sup d f = Err AssertionError.
Proof. exact historic_assert. Qed.
Print Assumptions C10_assertion.

Example C10_ex3 : 1500 mod 400 = 300 /\ 1100 mod 400 = 300 /\ 700 mod 400 = 300.
Proof. auto. Qed.

(** C10.  %c and %x raise NameError (the name [force] does not exist). *)
Theorem C10_locale_formats : forall sup d pre post x,
  valid_date d -> year d < 1900 -> year d mod 400 <> 300 -> no_pct pre -> x = chr 99 \/ x = chr 120 ->
  (forall d' f', exists r, sup d' f' = Ok r) ->
  historic_strftime sup d (pre ++ chr 37 :: x :: post) = Err NameErr.
Proof. exact historic_locale. Qed.
Print Assumptions C10_locale_formats.

(** ... unless an escaped one comes first: only the first match is examined. *)
Theorem C10_locale_detection_refuted : exists f, In (TDir (chr 99)) (tokenize f) /\ ispresent_in (chr 99) f = false.
Proof. exists (str_of "%%c %c"). vm_compute. intuition. Qed.
Print Assumptions C10_locale_detection_refuted.

(** C11.  On the level of tokens exactly the %Y directives become the year. *)
Theorem C11_replace_tokens : forall y f, no_pct y ->
  tokenize (replace_in f y) = flat_map (subst_year y) (tokenize f).
Proof. exact replace_in_tokens. Qed.
Print Assumptions C11_replace_tokens.

(** C11.  Formats without an active %Y are unchanged. *)
Theorem C11_unchanged : forall y f, no_pct y -> ~ In (TDir (chr 89)) (tokenize f) -> replace_in f y = f.
Proof. exact replace_in_unchanged. Qed.
Print Assumptions C11_unchanged.

Example C11_ex : replace_in (str_of "%%%Y %%Y %Y%") (str_of "1752") = str_of "%%1752 %%Y 1752%" /\ no_pct (str_of "1752").
Proof. split; [vm_compute; reflexivity|]. unfold no_pct. vm_compute. intuition discriminate. Qed.
