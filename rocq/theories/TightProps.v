(** More about C13 (time zones of a raster), C133 (getters of a map) and C134 (sending over scp). *)
From Coq Require Import ZArith Reals String Ascii Bool List Lia.
From Verif Require Import PyBase PyStr ZoneModel CityModel CollideModel LabelModel FsModel ScpModel GetModel PutModel PutSpec PutProps.
Import ListNotations.
Open Scope Z_scope.

(** ** C13 *)
(** A negative index counts from the end; beyond either end there is nothing. *)
Theorem C13_index : forall (A : Type) (l : list A) i,
  (0 <= i -> py_index l i = match nth_error l (Z.to_nat i) with Some x => Ok x | None => Err IndexError end) /\
  (i < 0 -> py_index l i = match nth_error (rev l) (Z.to_nat (- i - 1)) with Some x => Ok x | None => Err IndexError end).
Proof.
  intros A l i. unfold py_index. split; intro H.
  - destruct (Z.ltb_spec i 0); [lia|]. destruct (Z.leb_spec 0 i); [|lia]. destruct (Z.ltb_spec i (Z.of_nat (length l))); cbn [andb]; [reflexivity|].
    destruct (nth_error l (Z.to_nat i)) eqn:E; [|reflexivity]. assert (Z.to_nat i < length l)%nat by (apply nth_error_Some; congruence). lia.
  - destruct (Z.ltb_spec i 0); [|lia]. destruct (Z.leb_spec 0 (Z.of_nat (length l) + i)); cbn [andb].
    + destruct (Z.ltb_spec (Z.of_nat (length l) + i) (Z.of_nat (length l))); [|lia].
      assert (E : nth_error (rev l) (Z.to_nat (- i - 1)) = nth_error l (Z.to_nat (Z.of_nat (length l) + i))); [|rewrite E; reflexivity].
      destruct l as [|a l]; [cbn [length] in *; lia|]. set (m := a :: l) in *.
      rewrite (nth_error_nth' (rev m) a) by (rewrite rev_length; lia). rewrite rev_nth by lia. rewrite (nth_error_nth' m a) by lia. do 2 f_equal. lia.
    + destruct (nth_error (rev l) (Z.to_nat (- i - 1))) eqn:E; [|reflexivity]. assert (Z.to_nat (- i - 1) < length (rev l))%nat by (apply nth_error_Some; congruence). rewrite rev_length in *. lia.
Qed.
Print Assumptions C13_index.
(** The offset added is the zone's at the instant in UTC; the one taken away is that chosen for the local time. *)
Theorem C13_offsets : forall pytz c lat lon m code z, get_timezone_code c lat lon (str_of "floor") = Ok code -> pytz code = Some z ->
  forall t, to_localtime pytz c t lat lon m = Ok (t + offset_at z t) /\ to_utctime pytz c t lat lon m = Ok (t - localize z t).
Proof. intros pytz c lat lon m code z H K t. unfold to_localtime, to_utctime. rewrite H. cbn [bind]. rewrite K. split; reflexivity. Qed.
Print Assumptions C13_offsets.
Theorem C13_unknown_zone : forall pytz c lat lon m code, get_timezone_code c lat lon (str_of "floor") = Ok code -> pytz code = None ->
  forall t, to_localtime pytz c t lat lon m = Err KeyError /\ to_utctime pytz c t lat lon m = Err KeyError.
Proof. intros pytz c lat lon m code H K t. unfold to_localtime, to_utctime. rewrite H. cbn [bind]. rewrite K. split; reflexivity. Qed.
Print Assumptions C13_unknown_zone.
Example C13_index_ex : py_index [10; 20; 30] (-1) = Ok 30 /\ py_index [10; 20; 30] (-4) = Err IndexError. Proof. split; reflexivity. Qed.

(** ** C133 *)
(** What each getter gives. *)
Theorem C133_each : map getter ["figure"; "axes"; "proj"; "geoproj"; "getFigureClone"; "getFonts"]%string =
  map (fun s => Ok (str_of s)) ["_figure"; "_ax"; "_proj"; "_geoproj"; "_figure_clone"; "_fontlist"]%string.
Proof. vm_compute. reflexivity. Qed.
Print Assumptions C133_each.

(** ** C134 *)
Section Sending.
Variables (stat : str -> option stats) (read : str -> option str) (walk : str -> option (list (str * list str))) (buff : nat) (progress preserve : bool).
Lemma says_app a b : says (a ++ b) = says a ++ says b.
Proof. induction a as [|[] a IH]; cbn [app says]; try rewrite IH; reflexivity. Qed.
Lemma waits_app a b : waits (a ++ b) = (waits a + waits b)%nat.
Proof. induction a as [|[] a IH]; cbn [app waits]; try rewrite IH; reflexivity. Qed.
(** Whatever can be read of the file, the size announced is that of os.stat. *)
Theorem C134_announced : forall fuel p st content, stat p = Some st -> read p = Some content ->
  exists rest, says (acts stat read buff progress preserve fuel (SFile p)) = (if preserve then [time_line st] else []) ++ file_line st (wire_name p) :: rest.
Proof.
  intros fuel p st content S R. cbn [acts]. unfold send_one. rewrite S, R, !says_app. unfold times. eexists. destruct preserve; cbn [says send_time app]; unfold time_line, file_line; reflexivity.
Qed.
(** A directory that is gone when its turn comes stops the sending there. *)
Theorem C134_gone : forall fuel p more d, stat p = None ->
  perform (acts stat read buff progress preserve fuel (SDir p) ++ more) d = Some (Err IOErr, d).
Proof. intros fuel p more d S. cbn [acts]. unfold send_pushd. rewrite S. reflexivity. Qed.
(** Leaving a directory: one line, one answer. *)
Theorem C134_up : forall fuel, acts stat read buff progress preserve fuel SUp = [Say (str_of "E" ++ [chr 10]); Confirm].
Proof. reflexivity. Qed.
(** Entering a with block is no second chance for a used client and takes nothing from another. *)
Theorem C134_with : forall fuel files remote recursive ch answers,
  put stat read walk buff progress preserve fuel files remote recursive (enter ch) answers = put stat read walk buff progress preserve fuel files remote recursive ch answers.
Proof. intros. destruct ch; reflexivity. Qed.
End Sending.
Print Assumptions C134_announced.
Print Assumptions C134_gone.
Print Assumptions C134_up.
Print Assumptions C134_with.
Example C134_announced_ex : exists st content, stat_ex 5 (str_of "d/f") = Some st /\ read_ex "hello!!" (str_of "d/f") = Some content /\ st_size st <> length content.
Proof. do 2 eexists. split; [reflexivity|]. split; [reflexivity|]. vm_compute. discriminate. Qed.
