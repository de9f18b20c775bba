(** Model of /repo/impactutils/rupture/origin.py.  Given: [fparse] and [iparse] (float
    and int of a text), [timeparse] (HistoricTime.strptime with a format), [timeshow]
    (strftime) and [fixed] (formatting with a number of decimals).  A dictionary is
    the list of its items in the order of insertion; XML attributes are a dictionary of
    texts. *)
From Coq Require Import ZArith Reals String Ascii Bool List.
From Verif Require Import PyBase PyStr GeoModel PolyModel.
Import ListNotations.
Open Scope R_scope.

(** A float. *)
Inductive num := Fin (x : R) | PosInf | NegInf | NaN.
(** x < k and k < x for a number k *)
Definition num_below (x : num) (k : R) : bool := match x with Fin x => rltb x k | NegInf => true | _ => false end.
Definition num_above (x : num) (k : R) : bool := match x with Fin x => rltb k x | PosInf => true | _ => false end.
(** Values of an event: [VObj] is any other hashable object, for instance a time. *)
Inductive value := VNone | VStr (s : str) | VInt (z : Z) | VFloat (x : num) | VObj (k : nat).

Definition dict A := list (str * A).
Fixpoint dget {A} (k : str) (d : dict A) : option A := match d with [] => None | (k', v) :: d' => if str_eqb k k' then Some v else dget k d' end.
Definition dhas {A} (k : str) (d : dict A) : bool := match dget k d with Some _ => true | None => false end.
(** d[k] = v *)
Fixpoint dset {A} (k : str) (v : A) (d : dict A) : dict A :=
  match d with [] => [(k, v)] | (k', v') :: d' => if str_eqb k k' then (k', v) :: d' else (k', v') :: dset k v d' end.
(** del d[k] *)
Definition ddel {A} (k : str) (d : dict A) : dict A := filter (fun kv => negb (str_eqb k (fst kv))) d.
(** d.update(e) *)
Definition dupdate {A} (d e : dict A) : dict A := fold_left (fun d kv => dset (fst kv) (snd kv) d) e d.

(** constants.py:23-24  ORIGIN_REQUIRED_KEYS *)
Definition required : list str := map str_of ["id"; "netid"; "network"; "lat"; "lon"; "depth"; "locstring"; "mag"; "time"]%string.
(** constants.py:13-15  RAKEDICT, DEFAULT_MECH *)
Definition rake_of (m : str) : option (option R) :=
  if str_eqb m (str_of "SS") then Some (Some 0) else if str_eqb m (str_of "NM") then Some (Some (-90))
  else if str_eqb m (str_of "RS") then Some (Some 90) else if str_eqb m (str_of "ALL") then Some None else None.

Section Origin.
Variable fparse : str -> option num.
Variable iparse : str -> option Z.
Variable timeparse : str -> str -> option nat.
Variable timeshow : str -> nat -> str.
Variable fixed : nat -> num -> str.
(** float(v) *)
Definition py_float (v : value) : res num :=
  match v with
  | VStr s => match fparse s with Some x => Ok x | None => Err ValueError end
  | VInt z => Ok (Fin (IZR z))
  | VFloat x => Ok x
  | _ => Err TypeError
  end.
(** d[k] *)
Definition ditem {A} (k : str) (d : dict A) : res A := match dget k d with Some v => Ok v | None => Err KeyError end.

(** origin.py:100-104: the attributes *)
Fixpoint copy_attrs (ev : dict value) : res (dict value) :=
  match ev with
  | [] => Ok []
  | (k, v) :: ev' =>
      if str_eqb k (str_of "rake") then bind (py_float v) (fun x => bind (copy_attrs ev') (fun a => Ok ((k, VFloat x) :: a)))
      else bind (copy_attrs ev') (fun a => Ok ((k, v) :: a))
  end.
(** origin.py:97-113 *)
Definition attributes (ev : dict value) : res (dict value) :=
  bind (copy_attrs ev) (fun a =>
  if dhas (str_of "rake") a then Ok a
  else match dget (str_of "mech") a with
       | Some (VStr m) => match rake_of m with
                          | Some (Some r) => Ok (dset (str_of "rake") (VFloat (Fin r)) a)
                          | Some None => Ok (dset (str_of "rake") (VFloat (Fin 0)) a)
                          | None => Err KeyError
                          end
       | _ => Err KeyError
       end).
(** origin.py:75-82 *)
Definition check_place (ev : dict value) : res unit :=
  bind (ditem (str_of "lat") ev) (fun lat => bind (py_float lat) (fun lat =>
  if num_above lat 90 || num_below lat (-90) then Err ValueError
  else bind (ditem (str_of "lon") ev) (fun lon => bind (py_float lon) (fun lon =>
  if num_above lon 180 || num_below lon (-180) then Err ValueError else Ok tt)))).
(** origin.py:84-86 *)
Definition rename_type (ev : dict value) : dict value :=
  match dget (str_of "type") ev with
  | Some t => if dhas (str_of "mech") ev then ev else ddel (str_of "type") (dset (str_of "mech") t ev)
  | None => ev
  end.
(** origin.py:41-113  Origin.__init__: the dictionary afterwards and the attributes *)
Definition new_origin (ev : dict value) : dict value * res (dict value) :=
  if negb (forallb (fun k => dhas k ev) required) then (ev, Err KeyError)
  else if match dget (str_of "id") ev with Some (VStr _) => false | Some VNone => false | _ => true end then (ev, Err TypeError)
  else match check_place ev with
  | Err e => (ev, Err e)
  | Ok _ =>
      let ev := rename_type ev in
      match dget (str_of "mech") ev with
      | None => let ev := dset (str_of "mech") (VStr (str_of "ALL")) ev in (ev, attributes ev)
      | Some m =>
          let ev := match m with VStr [] => dset (str_of "mech") (VStr (str_of "ALL")) ev | _ => ev end in
          match dget (str_of "mech") ev with
          | Some (VStr m) => match rake_of m with Some _ => (ev, attributes ev) | None => (ev, Err ValueError) end
          | _ => (ev, Err ValueError)
          end
      end
  end.

(** origin.py:169-172 *)
Definition mech_table (m : str) : option (R * R) :=
  if str_eqb m (str_of "RS") then Some (90, 40) else if str_eqb m (str_of "NM") then Some (-90, 50)
  else if str_eqb m (str_of "SS") then Some (0, 90) else if str_eqb m (str_of "ALL") then Some (45, 90) else None.
Variable rd : R -> R.
Definition num_add (x : num) (k : R) : num := match x with Fin x => Fin (rd (x + k)) | _ => x end.
(** origin.py:145-201  setMechanism *)
Definition set_mechanism (o : dict value) (mech : option str) (rake dip : option num) : dict value * res unit :=
  match match mech with Some m => mech_table m | None => None end with
  | None => (o, Err ValueError)
  | Some (rake0, dip0) =>
      match match dip with
            | Some d => if num_below d 0 || num_above d 90 then Err ValueError else Ok d
            | None => Ok (Fin dip0)
            end with
      | Err e => (o, Err e)
      | Ok dip =>
          match match rake with
                | Some r =>
                    let r := if num_below r (-180) then num_add r 360 else r in
                    let r := if num_above r 180 then num_add r (-360) else r in
                    if num_below r (-180) || num_above r 180 then Err ValueError else Ok r
                | None => Ok (Fin rake0)
                end with
          | Err e => (o, Err e)
          | Ok rake => (dset (str_of "mech") (match mech with Some m => VStr m | None => VNone end) (dset (str_of "rake") (VFloat rake) (dset (str_of "dip") (VFloat dip) o)), Ok tt)
          end
      end
  end.

(** origin.py:425-440: one line of a source file *)
Definition equals : ascii := chr 61.
Definition source_value (s : str) : value :=
  match iparse s with Some z => VInt z | None => match fparse s with Some x => VFloat x | None => VStr s end end.
Definition source_line (params : dict value) (line : str) : res (dict value) :=
  match line with
  | c :: _ => if Ascii.eqb c hash then Ok params
              else match split_at equals line with
                   | k :: v :: _ => Ok (dset (strip k) (source_value (strip v)) params)
                   | _ => Err IndexError
                   end
  | [] => Err IndexError
  end.
(** origin.py:409-442  read_source, from its lines *)
Fixpoint source_lines (params : dict value) (lines : list str) : res (dict value) :=
  match lines with [] => Ok params | l :: lines' => bind (source_line params l) (fun p => source_lines p lines') end.
Definition read_source (lines : list str) : res (dict value) := source_lines [] lines.

(** constants.py:26-27  TIMEFMT, ALT_TIMEFMT *)
Definition TIMEFMT : str := str_of "%Y-%m-%dT%H:%M:%S.%fZ".
Definition ALT_TIMEFMT : str := str_of "%Y-%m-%dT%H:%M:%SZ".
(** origin.py:358-385: the time.  HistoricTime has no [datetime]. *)
Definition event_time (x : dict str) : res nat :=
  match dget (str_of "time") x with
  | Some t => match timeparse TIMEFMT t with
              | Some r => Ok r
              | None => match timeparse ALT_TIMEFMT t with Some r => Ok r | None => Err ValueError end
              end
  | None => if forallb (fun k => dhas k x) (map str_of ["year"; "month"; "day"; "hour"; "minute"; "second"]%string) then Err AttributeError else Err ValueError
  end.
Definition text_float (s : str) : res value := match fparse s with Some x => Ok (VFloat x) | None => Err ValueError end.
Definition opt_item (k : str) (x : dict str) : dict value := match dget k x with Some s => [(k, VStr s)] | None => [] end.
(** origin.py:297-406  read_event_file, from the attributes of the earthquake element *)
Definition read_event (is_path : bool) (x : dict str) : res (dict value) :=
  bind (ditem (str_of "id") x) (fun id =>
  let network := match dget (str_of "network") x with Some s => s | None => [] end in
  bind (ditem (str_of "netid") x) (fun netid =>
  let product := match dget (str_of "productcode") x with
                 | Some s => [(str_of "productcode", VStr s)]
                 | None => if is_path then [(str_of "productcode", VStr id)] else []
                 end in
  bind (event_time x) (fun time =>
  bind (ditem (str_of "lat") x) (fun s => bind (text_float s) (fun lat =>
  bind (ditem (str_of "lon") x) (fun s => bind (text_float s) (fun lon =>
  bind (ditem (str_of "depth") x) (fun s => bind (text_float s) (fun depth =>
  bind (ditem (str_of "mag") x) (fun s => bind (text_float s) (fun mag =>
  bind (ditem (str_of "locstring") x) (fun loc =>
  Ok ([(str_of "id", VStr id); (str_of "network", VStr network); (str_of "netid", VStr netid)] ++ product ++
      [(str_of "time", VObj time); (str_of "lat", lat); (str_of "lon", lon); (str_of "depth", depth); (str_of "mag", mag); (str_of "locstring", VStr loc)] ++
      opt_item (str_of "mech") x ++ opt_item (str_of "type") x ++ opt_item (str_of "reference") x))))))))))))).
(** origin.py:115-138  fromFile; [moment]: a moment file is given (its reader,
    read_moment_quakeml, is not defined anywhere) *)
Definition from_file (x : dict str) (source : option (list str)) (moment : bool) : res (dict value) :=
  bind (read_event true x) (fun ev =>
  bind (match source with None => Ok ev | Some lines => bind (read_source lines) (fun p => Ok (dupdate ev p)) end) (fun ev =>
  if moment then Err NameErr else snd (new_origin ev))).

(** The fields of an event to be written. *)
Definition text_item (k : str) (ev : dict value) : res str := bind (ditem k ev) (fun v => match v with VStr s => Ok s | _ => Err TypeError end).
Definition number_item (n : nat) (k : str) (ev : dict value) : res str :=
  bind (ditem k ev) (fun v => match v with VFloat x => Ok (fixed n x) | VInt z => Ok (fixed n (Fin (IZR z))) | VStr _ => Err ValueError | _ => Err TypeError end).
Definition text_opt (k : str) (ev : dict value) : res (dict str) :=
  match dget k ev with None => Ok [] | Some (VStr s) => Ok [(k, s)] | Some _ => Err TypeError end.
Definition event_type (ev : dict value) : res (dict str) :=
  match dget (str_of "event_type") ev with
  | None => Ok [(str_of "event_type", str_of "ACTUAL")]
  | Some (VStr s) => if str_eqb s (str_of "ACTUAL") || str_eqb s (str_of "SCENARIO") then Ok [(str_of "event_type", s)] else Err AttributeError
  | Some _ => Err AttributeError
  end.
(** origin.py:204-257  write_event_file: the attributes of the element; an error is
    returned as a text and nothing is written *)
Definition write_event (ev : dict value) : res (dict str) :=
  bind (text_item (str_of "id") ev) (fun id => bind (text_item (str_of "netid") ev) (fun netid => bind (text_item (str_of "network") ev) (fun network =>
  bind (number_item 4 (str_of "lat") ev) (fun lat => bind (number_item 4 (str_of "lon") ev) (fun lon =>
  bind (number_item 1 (str_of "depth") ev) (fun depth => bind (number_item 1 (str_of "mag") ev) (fun mag =>
  bind (ditem (str_of "time") ev) (fun t => bind (match t with VObj t => Ok (timeshow ALT_TIMEFMT t) | _ => Err AttributeError end) (fun time =>
  bind (text_item (str_of "locstring") ev) (fun loc =>
  bind (text_opt (str_of "mech") ev) (fun mech => bind (text_opt (str_of "reference") ev) (fun reference => bind (text_opt (str_of "productcode") ev) (fun product =>
  bind (event_type ev) (fun etype =>
  Ok ([(str_of "id", id); (str_of "netid", netid); (str_of "network", network); (str_of "lat", lat); (str_of "lon", lon); (str_of "depth", depth); (str_of "mag", mag);
       (str_of "time", time); (str_of "locstring", loc)] ++ mech ++ reference ++ product ++ etype))))))))))))))).
End Origin.
