(** What a rupture document says. *)
From Coq Require Import ZArith Reals String List.
From Verif Require Import PyBase OriginModel OriginSpec JsonModel PolySpec ComcatSpec.
Import ListNotations.
Open Scope R_scope.

Inductive json_number : json -> R -> Prop :=
| jn_int z : json_number (JInt z) (IZR z)
| jn_float x : json_number (JFloat (Fin x)) x.
Inductive json_vertex : json -> vertex -> Prop :=
| jv a b c x y z : json_number a x -> json_number b y -> json_number c z -> json_vertex (JArr [a; b; c]) (x, y, z).
Inductive json_polygon : json -> list vertex -> Prop := jp l p : Forall2 json_vertex l p -> json_polygon (JArr l) p.
Inductive json_polygons : json -> list (list vertex) -> Prop := jps l ps : Forall2 json_polygon l ps -> json_polygons (JArr l) ps.

(** [feature d m g]: a collection of one feature with metadata [m], which have a
    reference, and geometry [g]. *)
Definition feature (d : json) (m : dict json) (g : json) : Prop :=
  at_path d [str_of "type"] (JStr (str_of "FeatureCollection")) /\ at_path d [str_of "metadata"] (JObj m) /\ has m (str_of "reference") /\
  exists f, at_path d [str_of "features"] (JArr [f]) /\ at_path f [str_of "type"] (JStr (str_of "Feature")) /\ at_path f [str_of "geometry"] g.
(** Coordinates that are not empty. *)
Definition some_coordinates (c : json) : Prop := (exists x l, c = JArr (x :: l)) \/ exists a s, c = JStr (a :: s).
Definition point_doc (d : json) : Prop :=
  exists m g c, feature d m g /\ at_path g [str_of "type"] (JStr (str_of "Point")) /\ at_path g [str_of "coordinates"] c /\ some_coordinates c.
Definition polygon_doc (d : json) (ps : list (list vertex)) : Prop :=
  exists m g p l, feature d m g /\ at_path g [str_of "type"] (JStr (str_of "MultiPolygon")) /\ at_path g [str_of "coordinates"] (JArr (p :: l)) /\ json_polygons p ps.
(** A plain value of the metadata, and the attribute it stands for. *)
Inductive plain : json -> value -> Prop :=
| plain_none : plain JNull VNone
| plain_text s : plain (JStr s) (VStr s)
| plain_int z : plain (JInt z) (VInt z)
| plain_float x : plain (JFloat x) (VFloat x).
(** The first place of a key in a dictionary decides. *)
Definition entry {A} (d : dict A) (k : str) (v : A) : Prop := exists before after, d = before ++ (k, v) :: after /\ ~ In k (map fst before).
(** The lines of a text; a line ends with a line feed, a carriage return or both. *)
Definition no_end (l : str) : Prop := Forall (fun c => c <> chr 10 /\ c <> chr 13) l.
Inductive lines_of : str -> list str -> Prop :=
| lines_none : lines_of [] []
| lines_last l : l <> [] -> no_end l -> lines_of l [l]
| lines_more l e rest ls : no_end l -> (e = [chr 10] \/ e = [chr 13; chr 10] \/ e = [chr 13] /\ (forall r, rest <> chr 10 :: r)) ->
    lines_of rest ls -> lines_of (l ++ e ++ rest) ((l ++ [chr 10]) :: ls).
(** A document of which one part is not right, all before it being right. *)
Definition missing (d : json) (k : str) : Prop := exists o, d = JObj o /\ ~ has o k.
Inductive wrong (d : json) : exn -> Prop :=
| w_no_type : missing d "type"%string -> wrong d KeyError
| w_type t : at_path d [str_of "type"] t -> t <> JStr (str_of "FeatureCollection") -> wrong d Generic
| w_no_features : at_path d [str_of "type"] (JStr (str_of "FeatureCollection")) -> missing d "features"%string -> wrong d KeyError
| w_features l : at_path d [str_of "type"] (JStr (str_of "FeatureCollection")) -> at_path d [str_of "features"] (JArr l) -> length l <> 1%nat -> wrong d Generic
| w_no_metadata f : at_path d [str_of "type"] (JStr (str_of "FeatureCollection")) -> at_path d [str_of "features"] (JArr [f]) -> missing d "metadata"%string -> wrong d KeyError
| w_reference f m : at_path d [str_of "type"] (JStr (str_of "FeatureCollection")) -> at_path d [str_of "features"] (JArr [f]) ->
    at_path d [str_of "metadata"] m -> missing m "reference"%string -> wrong d Generic
| w_feature f m t : at_path d [str_of "type"] (JStr (str_of "FeatureCollection")) -> at_path d [str_of "features"] (JArr [f]) ->
    at_path d [str_of "metadata"] (JObj m) -> has m "reference"%string -> at_path f [str_of "type"] t -> t <> JStr (str_of "Feature") -> wrong d Generic
| w_geometry m g t : feature d m g -> at_path g [str_of "type"] t -> t <> JStr (str_of "Point") -> t <> JStr (str_of "MultiPolygon") -> wrong d Generic
| w_no_coordinates m g t : feature d m g -> at_path g [str_of "type"] t -> t = JStr (str_of "Point") \/ t = JStr (str_of "MultiPolygon") ->
    missing g "coordinates"%string -> wrong d Generic
| w_empty m g t : feature d m g -> at_path g [str_of "type"] t -> t = JStr (str_of "Point") \/ t = JStr (str_of "MultiPolygon") ->
    at_path g [str_of "coordinates"] (JArr []) -> wrong d IndexError
| w_polygons ps : polygon_doc d ps -> ~ Forall well_ordered ps -> wrong d ValueError.
(** How an attribute of an origin is written. *)
Inductive shown (timeshow : str -> nat -> str) : value -> json -> Prop :=
| shown_plain v j : plain j v -> shown timeshow v j
| shown_time t : shown timeshow (VObj t) (JStr (timeshow "%Y-%m-%dT%H:%M:%S.%fZ"%string t)).
