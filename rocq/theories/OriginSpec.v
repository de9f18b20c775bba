(** What an event, an origin, a source file and an event file are, independently of the
    model's helpers. *)
From Coq Require Import ZArith Reals String Ascii Bool List.
From Verif Require Import PyBase PolySpec OriginModel.
Import ListNotations.
Open Scope R_scope.

Definition distinct {A} (d : dict A) : Prop := NoDup (map fst d).
Definition has {A} (d : dict A) (k : str) : Prop := exists v, In (k, v) d.
(** Between two numbers; not-a-number is never outside. *)
Definition within (lo hi : R) (x : num) : Prop := match x with Fin x => lo <= x <= hi | NaN => True | _ => False end.

(** The mechanisms and their rakes. *)
Inductive mech_rake : str -> R -> Prop :=
| mr_ss : mech_rake "SS"%string 0
| mr_nm : mech_rake "NM"%string (-90)
| mr_rs : mech_rake "RS"%string 90
| mr_all : mech_rake "ALL"%string 0.
(** Mechanism, rake and dip of setMechanism. *)
Inductive mech_defaults : str -> R -> R -> Prop :=
| md_rs : mech_defaults "RS"%string 90 40
| md_nm : mech_defaults "NM"%string (-90) 50
| md_ss : mech_defaults "SS"%string 0 90
| md_all : mech_defaults "ALL"%string 45 90.
Definition known (m : str) : Prop := exists r, mech_rake m r.
(** What the value of mech or type says. *)
Inductive names : value -> str -> Prop :=
| names_known m : known m -> names (VStr m) m
| names_empty : names (VStr []) "ALL"%string.
(** The mechanism of an event: mech, or else type, or else ALL. *)
Inductive mechanism (ev : dict value) : str -> Prop :=
| by_mech v m : In (str_of "mech", v) ev -> names v m -> mechanism ev m
| by_type v m : ~ has ev "mech"%string -> In (str_of "type", v) ev -> names v m -> mechanism ev m
| by_default : ~ has ev "mech"%string -> ~ has ev "type"%string -> mechanism ev "ALL"%string.

Definition is_required (k : str) : Prop :=
  k = "id"%string \/ k = "netid"%string \/ k = "network"%string \/ k = "lat"%string \/ k = "lon"%string \/ k = "depth"%string \/ k = "locstring"%string \/ k = "mag"%string \/ k = "time"%string.
Definition complete (ev : dict value) : Prop := forall k, is_required k -> has ev k.
Definition good_id (v : value) : Prop := v = VNone \/ exists s, v = VStr s.
(** No number at all (as opposed to a text that is not one). *)
Definition no_number (v : value) : Prop := v = VNone \/ exists k, v = VObj k.

(** A turn by a multiple of 360 degrees into -180..180. *)
Inductive turned : num -> num -> Prop :=
| turn_in x : -180 <= x <= 180 -> turned (Fin x) (Fin x)
| turn_by x k : ~ (-180 <= x <= 180) -> -180 <= x + 360 * IZR k <= 180 -> (k = 1 \/ k = -1)%Z -> turned (Fin x) (Fin (x + 360 * IZR k))
| turn_nan : turned NaN NaN.

Section Spec.
Variable fparse : str -> option num.
Variable iparse : str -> option Z.
(** The number a value stands for. *)
Inductive number : value -> num -> Prop :=
| n_text s x : fparse s = Some x -> number (VStr s) x
| n_int z : number (VInt z) (Fin (IZR z))
| n_float x : number (VFloat x) x.
Definition in_range (lo hi : R) (v : value) : Prop := exists x, number v x /\ within lo hi x.
Definition all_at (ev : dict value) (k : str) (P : value -> Prop) : Prop := forall v, In (k, v) ev -> P v.
Definition valid (ev : dict value) : Prop :=
  complete ev /\ all_at ev "id"%string good_id /\ all_at ev "lat"%string (in_range (-90) 90) /\ all_at ev "lon"%string (in_range (-180) 180) /\
  (exists m, mechanism ev m) /\ all_at ev "rake"%string (fun v => exists x, number v x).
(** The error of a value that is not an acceptable number. *)
Inductive bad (P : value -> Prop) (v : value) : exn -> Prop :=
| bad_type : no_number v -> bad P v TypeError
| bad_value : ~ no_number v -> ~ P v -> bad P v ValueError.
Inductive fails (ev : dict value) : exn -> Prop :=
| fail_key : ~ complete ev -> fails ev KeyError
| fail_id v : complete ev -> In (str_of "id", v) ev -> ~ good_id v -> fails ev TypeError
| fail_lat v e : complete ev -> all_at ev "id"%string good_id -> In (str_of "lat", v) ev -> bad (in_range (-90) 90) v e -> fails ev e
| fail_lon v e : complete ev -> all_at ev "id"%string good_id -> all_at ev "lat"%string (in_range (-90) 90) ->
    In (str_of "lon", v) ev -> bad (in_range (-180) 180) v e -> fails ev e
| fail_mech : complete ev -> all_at ev "id"%string good_id -> all_at ev "lat"%string (in_range (-90) 90) -> all_at ev "lon"%string (in_range (-180) 180) ->
    (forall m, ~ mechanism ev m) -> fails ev ValueError
| fail_rake v m e : complete ev -> all_at ev "id"%string good_id -> all_at ev "lat"%string (in_range (-90) 90) -> all_at ev "lon"%string (in_range (-180) 180) ->
    mechanism ev m -> In (str_of "rake", v) ev -> bad (fun v => exists x, number v x) v e -> fails ev e.

(** A line of a source file. *)
Definition comment (line : str) : Prop := exists r, line = "#"%char :: r.
Inductive meaning (s : str) : value -> Prop :=
| m_int z : iparse s = Some z -> meaning s (VInt z)
| m_float x : iparse s = None -> fparse s = Some x -> meaning s (VFloat x)
| m_text : iparse s = None -> fparse s = None -> meaning s (VStr s).
Definition says (line : str) (k : str) (v : value) : Prop :=
  ~ comment line /\ exists a b rest t, parts "="%char line (a :: b :: rest) /\ trimmed a k /\ trimmed b t /\ meaning t v.
End Spec.
(** The elements of a list, each once, in the order of their first occurrence. *)
Inductive firsts {A} : list A -> list A -> Prop :=
| f_nil : firsts [] []
| f_new l x m : firsts l m -> ~ In x l -> firsts (l ++ [x]) (m ++ [x])
| f_old l x m : firsts l m -> In x l -> firsts (l ++ [x]) m.
(** The keys of the lines of a source file, in order. *)
Inductive keys_of (fparse : str -> option num) (iparse : str -> option Z) : list str -> list str -> Prop :=
| ko_nil : keys_of fparse iparse [] []
| ko_comment l lines ks : comment l -> keys_of fparse iparse lines ks -> keys_of fparse iparse (l :: lines) ks
| ko_line l k v lines ks : says fparse iparse l k v -> keys_of fparse iparse lines ks -> keys_of fparse iparse (l :: lines) (k :: ks).

(** ** Event files *)
Section Events.
Variable fparse : str -> option num.
Variable timeparse : str -> str -> option nat.
Variable timeshow : str -> nat -> str.
Variable fixed : nat -> num -> str.
Definition is_text_key (k : str) : Prop := k = "id"%string \/ k = "netid"%string \/ k = "locstring"%string \/ k = "mech"%string \/ k = "type"%string \/ k = "reference"%string.
Definition is_number_key (k : str) : Prop := k = "lat"%string \/ k = "lon"%string \/ k = "depth"%string \/ k = "mag"%string.
(** A time with or without a fraction of a second. *)
Inductive time_of (s : str) : nat -> Prop :=
| t_fraction t : timeparse "%Y-%m-%dT%H:%M:%S.%fZ"%string s = Some t -> time_of s t
| t_whole t : timeparse "%Y-%m-%dT%H:%M:%S.%fZ"%string s = None -> timeparse "%Y-%m-%dT%H:%M:%SZ"%string s = Some t -> time_of s t.
(** What the attributes of an event file say. *)
Inductive event_says (from_path : bool) (x : dict str) : str -> value -> Prop :=
| e_text k s : is_text_key k -> In (k, s) x -> event_says from_path x k (VStr s)
| e_number k s y : is_number_key k -> In (k, s) x -> fparse s = Some y -> event_says from_path x k (VFloat y)
| e_time s t : In (str_of "time", s) x -> time_of s t -> event_says from_path x "time"%string (VObj t)
| e_network s : In (str_of "network", s) x -> event_says from_path x "network"%string (VStr s)
| e_no_network : ~ has x "network"%string -> event_says from_path x "network"%string (VStr [])
| e_product s : In (str_of "productcode", s) x -> event_says from_path x "productcode"%string (VStr s)
| e_no_product s : ~ has x "productcode"%string -> from_path = true -> In (str_of "id", s) x -> event_says from_path x "productcode"%string (VStr s).
Definition readable (x : dict str) : Prop :=
  has x "id"%string /\ has x "netid"%string /\ has x "locstring"%string /\
  (forall k, is_number_key k -> exists s y, In (k, s) x /\ fparse s = Some y) /\ exists s t, In (str_of "time", s) x /\ time_of s t.
(** What is written of an event. *)
Inductive written (ev : dict value) : str -> str -> Prop :=
| w_text (k s : str) : is_text_key k \/ k = "network"%string \/ k = "productcode"%string -> k <> str_of "type" -> In (k, VStr s) ev -> written ev k s
| w_number (k : str) (n : nat) (v : value) (y : num) : (k = "lat"%string /\ n = 4 \/ k = "lon"%string /\ n = 4 \/ k = "depth"%string /\ n = 1 \/ k = "mag"%string /\ n = 1)%nat ->
    In (k, v) ev -> v = VFloat y \/ (exists z, v = VInt z /\ y = Fin (IZR z)) -> written ev k (fixed n y)
| w_time t : In (str_of "time", VObj t) ev -> written ev "time"%string (timeshow "%Y-%m-%dT%H:%M:%SZ"%string t)
| w_type s : In (str_of "event_type", VStr s) ev -> written ev "event_type"%string s
| w_actual : ~ has ev "event_type"%string -> written ev "event_type"%string "ACTUAL"%string.
Definition text_at (ev : dict value) (k : str) : Prop := exists s, In (k, VStr s) ev.
Definition writable (ev : dict value) : Prop :=
  text_at ev "id"%string /\ text_at ev "netid"%string /\ text_at ev "network"%string /\ text_at ev "locstring"%string /\
  (forall k, is_number_key k -> (exists y, In (k, VFloat y) ev) \/ (exists z, In (k, VInt z) ev)) /\ (exists t, In (str_of "time", VObj t) ev) /\
  (forall k : str, k = str_of "mech" \/ k = str_of "reference" \/ k = str_of "productcode" -> has ev k -> text_at ev k) /\
  (has ev "event_type"%string -> In (str_of "event_type", VStr "ACTUAL"%string) ev \/ In (str_of "event_type", VStr "SCENARIO"%string) ev).
End Events.
(** Why an event file is refused: the first thing wrong, in the order of reading. *)
Section Refused.
Variable fparse : str -> option num.
Variable timeparse : str -> str -> option nat.
Definition dated (x : dict str) : Prop := forall k, In k (map str_of ["year"; "month"; "day"; "hour"; "minute"; "second"]%string) -> has x k.
Inductive time_wrong (x : dict str) : exn -> Prop :=
| tw_bad s : In (str_of "time", s) x -> (forall t, ~ time_of timeparse s t) -> time_wrong x ValueError
| tw_none : ~ has x "time"%string -> ~ dated x -> time_wrong x ValueError
| tw_dated : ~ has x "time"%string -> dated x -> time_wrong x AttributeError.
Inductive number_wrong (x : dict str) (k : str) : exn -> Prop :=
| nw_missing : ~ has x k -> number_wrong x k KeyError
| nw_bad s : In (k, s) x -> fparse s = None -> number_wrong x k ValueError.
Definition number_right (x : dict str) (k : str) : Prop := exists s y, In (k, s) x /\ fparse s = Some y.
Inductive refused (x : dict str) : exn -> Prop :=
| r_id : ~ has x "id"%string \/ ~ has x "netid"%string -> refused x KeyError
| r_time e : has x "id"%string -> has x "netid"%string -> time_wrong x e -> refused x e
| r_number before k after e s t : has x "id"%string -> has x "netid"%string -> In (str_of "time", s) x -> time_of timeparse s t ->
    map str_of ["lat"; "lon"; "depth"; "mag"]%string = before ++ k :: after -> Forall (number_right x) before -> number_wrong x k e -> refused x e
| r_place s t : has x "id"%string -> has x "netid"%string -> In (str_of "time", s) x -> time_of timeparse s t ->
    Forall (number_right x) (map str_of ["lat"; "lon"; "depth"; "mag"]%string) -> ~ has x "locstring"%string -> refused x KeyError.
End Refused.
(** The first of several dictionaries that has a key decides. *)
Inductive layered : list (dict value) -> str -> value -> Prop :=
| l_here d ds k v : In (k, v) d -> layered (d :: ds) k v
| l_later d ds k v : ~ has d k -> layered ds k v -> layered (d :: ds) k v.
