(** Model of rupture/factory.py (validate_json, rupture_from_dict_and_origin,
    rupture_from_dict, get_rupture) and of the dictionaries the ruptures keep.

    Simplifications: vertices have exactly three finite numbers; values in metadata are
    None, texts, numbers and times; a time is a HistoricTime; logging is left out. *)
From Coq Require Import ZArith Reals String Ascii Bool List.
From Verif Require Import PyBase VecModel RuptModel OriginModel PolyModel JsonModel.
Import ListNotations.
Open Scope R_scope.

(** Polygons as they are in a document. *)
Definition number_of (v : json) : option R := match v with JInt z => Some (IZR z) | JFloat (Fin x) => Some x | _ => None end.
Definition vertex_of (v : json) : option point :=
  match v with
  | JArr [a; b; c] => match number_of a, number_of b, number_of c with Some x, Some y, Some z => Some (x, y, z) | _, _, _ => None end
  | _ => None
  end.
Fixpoint all_of {A} (f : json -> option A) (l : list json) : option (list A) :=
  match l with
  | [] => Some []
  | v :: r => match f v, all_of f r with Some a, Some l' => Some (a :: l') | _, _ => None end
  end.
Definition polygon_of (v : json) : option (list point) := match v with JArr l => all_of vertex_of l | _ => None end.
(** A list of polygons; len() of a number, a truth value or None is a TypeError. *)
Definition polygons_of (v : json) : res (list (list point)) :=
  match v with
  | JArr l => match all_of polygon_of l with Some ps => Ok ps | None => Err NotModelled end
  | JStr _ | JObj _ => Err NotModelled
  | _ => Err TypeError
  end.

(** factory.py:400-439  validate_json *)
Definition validate_json (d : json) : res unit :=
  bind (jkey (str_of "type") d) (fun t =>
  if negb (jeq t (str_of "FeatureCollection")) then Err Generic else
  bind (jkey (str_of "features") d) (fun fs => bind (jlen fs) (fun n =>
  if negb (Nat.eqb n 1) then Err Generic else
  bind (jkey (str_of "metadata") d) (fun m => bind (jhas_key (str_of "reference") m) (fun h =>
  if negb h then Err Generic else
  bind (jindex 0 fs) (fun f =>
  bind (jkey (str_of "type") f) (fun ft =>
  if negb (jeq ft (str_of "Feature")) then Err Generic else
  bind (jkey (str_of "geometry") f) (fun geom =>
  bind (jkey (str_of "type") geom) (fun gt =>
  if negb (jeq gt (str_of "MultiPolygon")) && negb (jeq gt (str_of "Point")) then Err Generic else
  bind (jhas_key (str_of "coordinates") geom) (fun hc =>
  if negb hc then Err Generic else
  bind (jkey (str_of "coordinates") geom) (fun c => bind (jindex 0 c) (fun polygons =>
  if jeq gt (str_of "MultiPolygon") then bind (polygons_of polygons) check_all else Ok tt)))))))))))).

(** d['features'][0]['geometry'] and its coordinates *)
Definition geometry (d : json) : res json := bind (jkey (str_of "features") d) (fun fs => bind (jindex 0 fs) (jkey (str_of "geometry"))).
Definition geometry_type (d : json) : res json := bind (geometry d) (jkey (str_of "type")).
Definition doc_polygons (d : json) : res (list (list point)) :=
  bind (geometry d) (fun g => bind (jkey (str_of "coordinates") g) (fun c => bind (jindex 0 c) polygons_of)).
(** factory.py:442-491  is_quadrupture_class, from a document *)
Definition quad_class (d : json) : res bool :=
  bind (geometry_type d) (fun t => if jeq t (str_of "Point") then Ok false else bind (doc_polygons d) is_quadrupture_class).

Section Factory.
Variable fparse : str -> option num.            (* float() of a text *)
Variable timeparse : str -> str -> option nat.  (* HistoricTime.strptime; None: ValueError *)
Variable timeshow : str -> nat -> str.          (* strftime *)
Variable strike_dip : edges -> res unit.        (* EdgeRupture._computeStrikeDip *)

(** An attribute of an origin as it is put into the metadata (quad_rupture.py:64-70,
    edge_rupture.py:82-88, point_rupture.py:56-62). *)
Definition to_json (v : value) : json :=
  match v with VNone => JNull | VStr s => JStr s | VInt z => JInt z | VFloat x => JFloat x | VObj t => JStr (timeshow TIMEFMT t) end.
Definition origin_json (o : dict value) : dict json := map (fun kv => (fst kv, to_json (snd kv))) o.
(** d['metadata'], changed *)
Fixpoint change (k : str) (f : json -> json) (d : dict json) : dict json :=
  match d with [] => [] | (k', v) :: d' => if str_eqb k k' then (k', f v) :: d' else (k', v) :: change k f d' end.
Definition set_metadata (m : dict json) (d : json) : json := match d with JObj o => JObj (change (str_of "metadata") (fun _ => JObj m) o) | _ => d end.
Definition metadata (d : json) : res (dict json) := bind (jkey (str_of "metadata") d) (fun m => match m with JObj m => Ok m | _ => Err TypeError end).

Inductive shape := SPoint | SQuad (quads : list quad) (groups : list nat) | SEdge (e : edges) (dx : json).
Record rupture := { r_shape : shape; r_json : json; r_reference : json; r_origin : dict value }.
(** point_rupture.py:26-66  PointRupture *)
Definition point_rupture (o : dict value) (reference : str) : res rupture :=
  bind (ditem (str_of "lon") o) (fun lon => bind (ditem (str_of "lat") o) (fun lat => bind (ditem (str_of "depth") o) (fun dep =>
  let d := JObj [(str_of "type", JStr (str_of "FeatureCollection")); (str_of "metadata", JObj [(str_of "reference", JStr reference)]);
                 (str_of "features", JArr [JObj [(str_of "type", JStr (str_of "Feature")); (str_of "properties", JObj [(str_of "rupture type", JStr (str_of "rupture extent"))]);
                    (str_of "geometry", JObj [(str_of "type", JStr (str_of "Point")); (str_of "coordinates", JArr [to_json lon; to_json lat; to_json dep])])]])] in
  Ok {| r_shape := SPoint; r_json := set_metadata (dupdate [(str_of "reference", JStr reference)] (origin_json o)) d; r_reference := JStr reference; r_origin := o |}))).
(** quad_rupture.py:38-79  QuadRupture: the reference is read after the metadata have
    been overwritten *)
Definition quad_rupture (d : json) (o : dict value) : res rupture :=
  bind (doc_polygons d) (fun polys => bind (metadata d) (fun m =>
  let m := dupdate m (origin_json o) in
  bind (ditem (str_of "reference") m) (fun ref =>
  bind (set_quadrilaterals polys) (fun q =>
  Ok {| r_shape := SQuad (fst q) (snd q); r_json := set_metadata m d; r_reference := ref; r_origin := o |})))).
(** edge_rupture.py:29-105  EdgeRupture: the reference is read before *)
Definition edge_rupture (d : json) (o : dict value) (dx : json) : res rupture :=
  bind (doc_polygons d) (fun polys => bind (metadata d) (fun m =>
  bind (ditem (str_of "reference") m) (fun ref =>
  let m := dset (str_of "mesh_dx") dx (dupdate m (origin_json o)) in
  bind (strike_dip (edge_init polys)) (fun _ =>
  Ok {| r_shape := SEdge (edge_init polys) dx; r_json := set_metadata m d; r_reference := ref; r_origin := o |})))).
(** factory.py:93-137  rupture_from_dict_and_origin *)
Definition from_dict_and_origin (d : json) (o : dict value) (dx : json) : res rupture :=
  bind (validate_json d) (fun _ => bind (quad_class d) (fun q =>
  if q then quad_rupture d o
  else bind (geometry_type d) (fun t => if jeq t (str_of "Point") then point_rupture o (str_of "Origin") else edge_rupture d o dx))).

(** A value of the metadata as an attribute. *)
Definition to_value (v : json) : option value :=
  match v with JNull => Some VNone | JStr s => Some (VStr s) | JInt z => Some (VInt z) | JFloat x => Some (VFloat x) | _ => None end.
Fixpoint to_values (m : dict json) : res (dict value) :=
  match m with
  | [] => Ok []
  | (k, v) :: m' => match to_value v with None => Err NotModelled | Some x => bind (to_values m') (fun r => Ok ((k, x) :: r)) end
  end.
(** factory.py:140-183  rupture_from_dict *)
Definition from_dict (d : json) : res rupture :=
  bind (validate_json d) (fun _ => bind (metadata d) (fun m =>
  bind (ditem (str_of "time") m) (fun t =>
  match t with
  | JStr s =>
      bind (match timeparse TIMEFMT s with Some r => Ok r | None => match timeparse ALT_TIMEFMT s with Some r => Ok r | None => Err ValueError end end) (fun time =>
      bind (to_values m) (fun mv =>
      let (mv', a) := new_origin fparse (dset (str_of "time") (VObj time) mv) in
      bind a (fun o =>
      let d := set_metadata (origin_json mv') d in
      bind (geometry_type d) (fun gt =>
      if jeq gt (str_of "MultiPolygon") then
        match dget (str_of "mesh_dx") (origin_json mv') with
        | Some dx => edge_rupture d o dx
        | None => quad_rupture d o
        end
      else if jeq gt (str_of "Point") then point_rupture o (str_of "Origin") else Err Unbound))))
  | _ => Err TypeError
  end))).

(** The document of a rupture file in text form (factory.py:384-398) *)
Definition point_json (p : point) : json := let '(x, y, z) := p in JArr [JFloat (Fin x); JFloat (Fin y); JFloat (Fin z)].
Definition text_doc (reference : str) (polygons : list (list point)) : json :=
  JObj [(str_of "type", JStr (str_of "FeatureCollection")); (str_of "metadata", JObj [(str_of "reference", JStr reference)]);
        (str_of "features", JArr [JObj [(str_of "type", JStr (str_of "Feature")); (str_of "properties", JObj [(str_of "rupture type", JStr (str_of "rupture extent"))]);
           (str_of "geometry", JObj [(str_of "type", JStr (str_of "MultiPolygon")); (str_of "coordinates", JArr [JArr (map (fun p => JArr (map point_json p)) polygons)])])]])].
(** f.readlines() with universal newlines *)
Fixpoint lines_from (cur : str) (s : str) : list str :=     (* cur: the line being read, reversed *)
  match s with
  | [] => match cur with [] => [] | _ => [rev cur] end
  | c :: s' =>
      if Ascii.eqb c (chr 10) then rev (chr 10 :: cur) :: lines_from [] s'
      else if Ascii.eqb c (chr 13) then match s' with
             | c' :: s'' => if Ascii.eqb c' (chr 10) then rev (chr 10 :: cur) :: lines_from [] s'' else rev (chr 10 :: cur) :: lines_from [] s'
             | [] => [rev (chr 10 :: cur)]
             end
      else lines_from (c :: cur) s'
  end.
(** The file argument: a path (None: it cannot be opened), or an object with its text. *)
Inductive source := Path (content : option str) | Object (text : str).
Variable loads : str -> option json.            (* json.loads; None: JSONDecodeError *)
Definition file_text (s : source) : option str := match s with Path c => c | Object t => Some t end.
(** factory.py:55-64; str() of an object is not JSON (it is "<_io.StringIO object ...>") *)
Definition read_json (s : source) : res json :=
  match s with
  | Path None => Err FileNotFoundError
  | Path (Some t) => match loads t with Some d => Ok d | None => Err ValueError end
  | Object _ => Err ValueError
  end.
Definition is_value_error (e : exn) : bool := match e with ValueError | UnicodeErr => true | _ => false end.
Definition rparse (s : str) : option R := match fparse s with Some (Fin x) => Some x | _ => None end.
(** factory.py:22-90  get_rupture; [origin]: None if it is not an Origin *)
Definition get_rupture (origin : option (dict value)) (file : option source) (dx : json) (new_format : bool) : res rupture :=
  match origin with
  | None => Err TypeError
  | Some o =>
    match file with
    | None => point_rupture o (str_of "Origin")
    | Some s =>
      match bind (read_json s) (fun d => from_dict_and_origin d o dx) with
      | Ok r => Ok r
      | Err _ =>
          match match file_text s with
                | None => Err FileNotFoundError
                | Some t => bind (text_to_json rparse new_format (lines_from [] t)) (fun rp => from_dict_and_origin (text_doc (fst rp) (snd rp)) o dx)
                end with
          | Ok r => Ok r
          | Err e => if is_value_error e then Err ValueError else Err IOErr
          end
      end
    end
  end.
End Factory.
