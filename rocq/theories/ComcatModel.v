(** Model of impactutils/comcat/query.py.

    Not modelled: the warning about the deprecated class, timeouts (they are failures of
    the request), the text of messages.  str() of a coordinate is an argument. *)
From Coq Require Import ZArith Reals String Ascii Bool List.
From Flocq Require Import Core.
From Verif Require Import PyBase PyStr OriginModel PolyModel JsonModel.
Import ListNotations.

(** query.py:9-12 *)
Definition URL_TEMPLATE : str := str_of "https://earthquake.usgs.gov/earthquakes/feed/v1.0/detail/[EVENTID].geojson".
Definition REGIONS_URL : str := str_of "http://earthquake.usgs.gov/ws/geoserve/regions.json?latitude=[LAT]&longitude=[LON]".
Definition PLACES_URL : str := str_of "http://earthquake.usgs.gov/ws/geoserve/places.json?" ++
  str_of "latitude=[LAT]&longitude=[LON]&maxradiuskm=[RADIUS]&minpopulation=[POP]&type=geonames".

(** What a request meets: a page (None if it is not UTF-8), an HTTP error with its
    code, or another failure.  [server k url]: the answer to the k-th request. *)
Inductive response := Page (text : option str) | HttpError (code : Z) | Failure (e : exn).
Section Net.
  Variable server : nat -> str -> response.
  Variable loads : str -> option json.    (* json.loads; None: JSONDecodeError *)
  (** query.py:18-34  _get_url_data: the requests made and the data.  The module does
      not import time, so that line 27 raises a NameError, which line 32 turns into an
      Exception; any other HTTP error falls through to the end: None. *)
  Definition get_url_data (k : nat) (url : str) : list str * res (option str) :=
    match server k url with
    | Page (Some data) => ([url], Ok (Some data))
    | Page None => ([url], Err UnicodeErr)
    | HttpError code => if (code =? 503)%Z then ([url], Err Generic) else ([url], Ok None)
    | Failure e => ([url], Err e)
    end.
  (** json.loads(data); of None it raises a TypeError *)
  Definition json_of (data : option str) : res json :=
    match data with
    | Some s => match loads s with Some d => Ok d | None => Err ValueError end
    | None => Err TypeError
    end.
  (** query.py:117-120  _getJSONContent *)
  Definition get_json_content (k : nat) (url : str) : list str * res json :=
    let (reqs, r) := get_url_data k url in (reqs, bind r json_of).
  (** query.py:57-64  the two URLs; [lat], [lon], [radius], [pop]: the texts of the numbers *)
  Definition regions_url (lat lon : str) : str := py_replace (py_replace REGIONS_URL (str_of "[LAT]") lat) (str_of "[LON]") lon.
  Definition places_url (lat lon radius pop : str) : str :=
    py_replace (py_replace (py_replace (py_replace PLACES_URL (str_of "[LAT]") lat) (str_of "[LON]") lon) (str_of "[RADIUS]") radius) (str_of "[POP]") pop.
  (** query.py:42-66  GeoServe.__init__: places and regions *)
  Definition geoserve (k : nat) (lat lon radius pop : str) : list str * res (json * json) :=
    let (r1, p) := get_json_content k (places_url lat lon radius pop) in
    match p with
    | Err e => (r1, Err e)
    | Ok p => let (r2, g) := get_json_content (k + List.length r1) (regions_url lat lon) in
              (r1 ++ r2, bind g (fun g => Ok (p, g)))
    end.
  (** query.py:124-135  ComCatInfo.__init__ *)
  Definition comcat_info (k : nat) (eventid : str) : list str * res json :=
    let (reqs, r) := get_json_content k (py_replace URL_TEMPLATE (str_of "[EVENTID]") eventid) in
    (reqs, match r with Ok d => Ok d | Err _ => Err Generic end).
  (** query.py:227-252  getShakeGrid; the last component is what has been written to
      local_file.  open(local_file, 'w') empties the file before f.write(data). *)
  Definition grid_url (d : json) : res json :=
    bind (jpath [str_of "properties"; str_of "products"; str_of "shakemap"] d) (fun l =>
    bind (jindex 0 l) (jpath [str_of "contents"; str_of "download/grid.xml"; str_of "url"])).
  Inductive grid := GNone | GUrl (u : json) | GFile (name : str).
  Definition get_shake_grid (k : nat) (d : json) (can_open : bool) (local_file : option str) : list str * grid * option str :=
    match grid_url d with
    | Err _ => ([], GNone, None)
    | Ok u =>
      match local_file with
      | None => ([], GUrl u, None)
      | Some name =>
        match u with
        | JStr url =>
            let (reqs, r) := get_url_data k url in
            match r with
            | Err _ => (reqs, GNone, None)
            | Ok data => if can_open then match data with
                                          | Some text => (reqs, GFile name, Some text)
                                          | None => (reqs, GNone, Some [])      (* f.write(None) *)
                                          end
                         else (reqs, GNone, None)
            end
        | _ => ([], GNone, None)                                        (* urlopen of something else *)
        end
      end
    end.
End Net.

(** query.py:87  getPlaces *)
Definition get_places (placedict : json) : res json := jpath [str_of "geonames"; str_of "features"] placedict.
(** query.py:96-97  getRegions; .get does not remove, and a list has no .get *)
Definition get_regions (regdict : json) : res json := match regdict with JObj _ => Ok regdict | _ => Err AttributeError end.
(** query.py:108-116  getAuthoritative *)
Definition get_authoritative (regdict : json) : res (json * json) :=
  bind (jpath [str_of "authoritative"; str_of "features"] regdict) (fun l =>
  bind (jlen l) (fun n =>
  if Nat.eqb n 0 then Ok (JStr (str_of "US"), JStr (str_of "NA"))
  else bind (jindex 0 l) (fun f => bind (jpath [str_of "properties"; str_of "network"] f) (fun net =>
       bind (jpath [str_of "properties"; str_of "type"] f) (fun ty => Ok (net, ty)))))).

(** s.strip(',') *)
Definition is_comma (c : ascii) : bool := Ascii.eqb c comma.
Definition strip_commas (s : str) : str := rev (snd (span is_comma (rev (snd (span is_comma s))))).
(** d.strip(',').split(',') *)
Definition listed (d : json) : res (list str) := match d with JStr s => Ok (split_at comma (strip_commas s)) | _ => Err AttributeError end.
(** l.remove(x) *)
Fixpoint remove_first (x : json) (l : list str) : res (list str) :=
  match l with
  | [] => Err ValueError
  | a :: r => if jeq x a then Ok r else bind (remove_first x r) (fun r' => Ok (a :: r'))
  end.
(** query.py:137-147  getAssociatedIds *)
Definition associated_ids (d : json) : res (json * list str) :=
  bind (jpath [str_of "properties"; str_of "ids"] d) (fun v => bind (listed v) (fun allids =>
  bind (jkey (str_of "id") d) (fun authid => bind (remove_first authid allids) (fun rest => Ok (authid, rest))))).
(** query.py:164-174  the length of the match and allsources[slengths.index(max(slengths))] *)
Definition match_length (eid source : str) : nat := if starts_with source eid then List.length source else 0.
Fixpoint index_nat (n : nat) (l : list nat) : nat := match l with a :: r => if Nat.eqb a n then 0 else S (index_nat n r) | [] => 0 end.
Definition pick_source (allsources : list str) (eid : str) : res str :=
  let slengths := map (match_length eid) allsources in
  match slengths with
  | [] => Err ValueError
  | n :: l => match nth_error allsources (index_nat (fold_left Nat.max l n) slengths) with Some s => Ok s | None => Err IndexError end
  end.
Fixpoint pick_sources (allsources ids : list str) : res (list str) :=
  match ids with
  | [] => Ok []
  | i :: r => bind (pick_source allsources i) (fun s => bind (pick_sources allsources r) (fun l => Ok (s :: l)))
  end.
(** query.py:149-179  getAssociatedSources *)
Definition associated_sources (d : json) : res (str * list str) :=
  bind (jpath [str_of "properties"; str_of "sources"] d) (fun v => bind (listed v) (fun allsources =>
  bind (associated_ids d) (fun '(authid, allids) =>
  match authid with
  | JStr a => bind (pick_sources allsources (a :: allids)) (fun newsources =>
              match newsources with
              | [] => Err IndexError
              | s :: _ => bind (remove_first (JStr s) newsources) (fun rest => Ok (s, rest))
              end)
  | _ => Err AttributeError
  end))).

(** query.py:181-208  getEventParams; [rd]: rounding of a quotient; utcfromtimestamp
    takes seconds since 1970, which is how the time is represented here.  A float or
    another kind of time is not modelled. *)
Record params := { m_time : Z; m_lat : json; m_lon : json; m_depth : json; m_mag : json }.
Section Params.
  Variable rd : R -> R.
  Definition seconds (itime : Z) : Z := Ztrunc (rd (IZR itime / 1000)).
  Definition EPOCH_MIN : Z := -62135596800.      (* 0001-01-01T00:00:00 *)
  Definition EPOCH_MAX : Z := 253402300799.      (* 9999-12-31T23:59:59 *)
  Definition event_params (d : json) : res params :=
    bind (jpath [str_of "geometry"; str_of "coordinates"] d) (fun c =>
    match c with
    | JArr [lon; lat; depth] =>
        bind (jpath [str_of "properties"; str_of "time"] d) (fun t =>
        match t with
        | JInt itime => if (EPOCH_MIN <=? seconds itime)%Z && (seconds itime <=? EPOCH_MAX)%Z then
              bind (jpath [str_of "properties"; str_of "mag"] d) (fun mag =>
              Ok {| m_time := seconds itime; m_lat := lat; m_lon := lon; m_depth := depth; m_mag := mag |})
            else Err ValueError
        | JFloat _ | JBool _ => Err NotModelled
        | _ => Err TypeError
        end)
    | JArr _ => Err ValueError
    | JStr _ | JObj _ => Err NotModelled            (* unpacks characters or keys *)
    | _ => Err TypeError
    end).
End Params.
(** query.py:210-225, 254-261  getLocation, getTsunami, getURL *)
Definition get_location (d : json) : res json := jpath [str_of "properties"; str_of "place"] d.
Definition get_tsunami (d : json) : res json := jpath [str_of "properties"; str_of "tsunami"] d.
Definition get_url (d : json) : res json := jpath [str_of "properties"; str_of "url"] d.
