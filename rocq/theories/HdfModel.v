(** Model of the HDF containers, /repo/impactutils/io/container.py and
    /repo/impactutils/io/smcontainers.py.

    An h5py file is a tree of groups and datasets.  h5py itself (naming rules,
    error classes) is modelled by the primitives [h_*] below; its on-disk format
    is not.  The order of [keys()] is creation order here, alphabetical in h5py;
    no property depends on it. *)
From Coq Require Import ZArith String Ascii Bool List.
From Verif Require Import PyBase.
Import ListNotations.
Open Scope Z_scope.

(** ** Stored values *)

(** Python values as far as [json.dumps] distinguishes them.  [VFloat] is an
    opaque float; [VOther] is everything json rejects (bytes, datetime,
    np.ndarray, np.int64, np.bool_, Timestamp).  Float keys are left out. *)
Inductive pykey := KStr (s : str) | KInt (z : Z) | KBool (b : bool) | KNone | KBad.
Inductive pyval :=
| VNone | VBool (b : bool) | VInt (z : Z) | VFloat (f : Z) | VStr (s : str)
| VList (l : list pyval) | VTuple (l : list pyval)
| VDict (l : list (pykey * pyval)) | VOther.

(** The JSON text of a key (json.dumps with default arguments). *)
Definition json_key (k : pykey) : option str :=
  match k with
  | KStr s => Some s
  | KInt z => Some (str_of_Z z)
  | KBool true => Some (str_of "true")
  | KBool false => Some (str_of "false")
  | KNone => Some (str_of "null")
  | KBad => None
  end.

(** Insertion in a Python dict: a repeated key keeps its place, the value is
    replaced (json.loads on repeated names). *)
Fixpoint dict_put {A} (k : str) (v : A) (l : list (str * A)) : list (str * A) :=
  match l with
  | [] => [(k, v)]
  | (k', v') :: l' => if str_eqb k k' then (k', v) :: l' else (k', v') :: dict_put k v l'
  end.

(** [json.loads(json.dumps(v))]; None is the TypeError of json.dumps. *)
Fixpoint json_norm (v : pyval) : option pyval :=
  match v with
  | VList l | VTuple l =>
      option_map VList
        (fold_right (fun x r => match json_norm x, r with Some y, Some ys => Some (y :: ys) | _, _ => None end) (Some []) l)
  | VDict l =>
      option_map (fun d => VDict (map (fun kv => (KStr (fst kv), snd kv)) d))
        (option_map (fun d => fold_left (fun acc kv => dict_put (fst kv) (snd kv) acc) d [])
          (fold_right (fun kx r => match kx with (k, x) =>
             match json_key k, json_norm x, r with
             | Some s, Some y, Some ys => Some ((s, y) :: ys) | _, _, _ => None end end) (Some []) l))
  | VOther => None
  | _ => Some v
  end.

(** A numpy array: shape, contents, and whether h5py can store its type. *)
Record arr := { shape : list Z; cells : list Z; storable : bool }.

(** Metadata values: storable as an HDF attribute or not (e.g. None). *)
Inductive attrval := AVal (z : Z) | ABad.

Inductive payload := PJson (v : pyval) | PText (s : str) | PArr (a : arr) | PFrame (f : Z).
Definition attrs := list (str * Z).

Inductive node := Data (p : payload) (a : attrs) | Group (cs : list (str * node)).

(** ** Trees *)
Fixpoint child {A} (s : str) (cs : list (str * A)) : option A :=
  match cs with
  | [] => None
  | (k, n) :: cs' => if str_eqb s k then Some n else child s cs'
  end.
Definition put_child {A} := @dict_put A.
Definition del_child {A} (s : str) (cs : list (str * A)) : list (str * A) :=
  filter (fun kn => negb (str_eqb s (fst kn))) cs.

Fixpoint lookup (n : node) (p : list str) : option node :=
  match p with
  | [] => Some n
  | s :: p' =>
      match n with
      | Data _ _ => None
      | Group cs => match child s cs with Some c => lookup c p' | None => None end
      end
  end.

(** New object at a path, intermediate groups created as needed. *)
Fixpoint nest (p : list str) (leaf : node) : node :=
  match p with [] => leaf | s :: p' => Group [(s, nest p' leaf)] end.
Fixpoint insert (n : node) (p : list str) (leaf : node) : option node :=
  match p with
  | [] => None
  | s :: p' =>
      match n with
      | Data _ _ => None
      | Group cs =>
          match child s cs with
          | Some c => option_map (fun c' => Group (put_child s c' cs)) (insert c p' leaf)
          | None => Some (Group (put_child s (nest p' leaf) cs))
          end
      end
  end.

Fixpoint delete (n : node) (p : list str) : option node :=
  match p with
  | [] => None
  | s :: p' =>
      match n with
      | Data _ _ => None
      | Group cs =>
          match child s cs with
          | None => None
          | Some c =>
              match p' with
              | [] => Some (Group (del_child s cs))
              | _ => option_map (fun c' => Group (put_child s c' cs)) (delete c p')
              end
          end
      end
  end.

Fixpoint set_attr (n : node) (p : list str) (k : str) (z : Z) : option node :=
  match p with
  | [] => match n with Data v a => Some (Data v (dict_put k z a)) | Group _ => None end
  | s :: p' =>
      match n with
      | Data _ _ => None
      | Group cs =>
          match child s cs with
          | Some c => option_map (fun c' => Group (put_child s c' cs)) (set_attr c p' k z)
          | None => None
          end
      end
  end.

(** ** Names: h5py splits on '/', a leading '/' starts at the root, empty and
    "." components are skipped. *)
Definition slash : ascii := chr 47.
Fixpoint split_slash (cur : str) (s : str) : list str :=
  match s with
  | [] => [rev cur]
  | c :: s' => if Ascii.eqb c slash then rev cur :: split_slash [] s' else split_slash (c :: cur) s'
  end.
Definition comps (s : str) : list str :=
  filter (fun x => negb (str_eqb x []) && negb (str_eqb x (str_of "."))) (split_slash [] s).
Definition at_path (base : list str) (name : str) : list str :=
  match name with
  | c :: _ => if Ascii.eqb c slash then comps name else base ++ comps name
  | [] => base
  end.

(** ** Computations on the file: result and file after, also on failure *)
Definition io (A : Type) := node -> res A * node.
Definition ret {A} (a : A) : io A := fun t => (Ok a, t).
Definition raise {A} (e : exn) : io A := fun t => (Err e, t).
Definition bnd {A B} (m : io A) (f : A -> io B) : io B :=
  fun t => match m t with (Ok a, t') => f a t' | (Err e, t') => (Err e, t') end.
Definition lift {A} (r : res A) : io A := fun t => (r, t).
Notation "x <- m ;; k" := (bnd m (fun x => k)) (at level 61, m at next level, right associativity).
Notation "m ;;; k" := (bnd m (fun _ => k)) (at level 61, right associativity).

(** h5py primitives; a group is designated by its path. *)
Definition h_in (base : list str) (name : str) : io bool :=
  fun t => (Ok (match lookup t (at_path base name) with Some _ => true | None => false end), t).
Definition h_get (base : list str) (name : str) : io (list str) :=
  fun t => match lookup t (at_path base name) with
           | Some _ => (Ok (at_path base name), t) | None => (Err KeyError, t) end.
Definition h_create (base : list str) (name : str) (leaf : node) : io (list str) :=
  fun t => match insert t (at_path base name) leaf with
           | Some t' => (Ok (at_path base name), t') | None => (Err ValueError, t) end.
Definition h_del (base : list str) (name : str) : io unit :=
  fun t => match delete t (at_path base name) with
           | Some t' => (Ok tt, t') | None => (Err KeyError, t) end.
(** [dset[()]] and [dset.attrs]; on a group this is a TypeError. *)
Definition h_read (p : list str) : io (payload * attrs) :=
  fun t => match lookup t p with
           | Some (Data v a) => (Ok (v, a), t)
           | Some (Group _) => (Err TypeError, t)
           | None => (Err KeyError, t)
           end.
Definition h_keys (p : list str) : io (list str) :=
  fun t => match lookup t p with
           | Some (Group cs) => (Ok (map fst cs), t)
           | Some (Data _ _) => (Err AttributeError, t)
           | None => (Err KeyError, t)
           end.
Definition h_attr (p : list str) (k : str) (v : attrval) : io unit :=
  fun t => match v with
           | ABad => (Err TypeError, t)
           | AVal z => match set_attr t p k z with Some t' => (Ok tt, t') | None => (Err KeyError, t) end
           end.
Fixpoint h_attrs (p : list str) (meta : list (str * attrval)) : io unit :=
  match meta with
  | [] => ret tt
  | (k, v) :: m => h_attr p k v ;;; h_attrs p m
  end.

(** ** container.py *)

(** container.py:29-33  GROUPS *)
Inductive kind := KDict | KList | KString | KArray | KFrame.
Definition gname (k : kind) : str :=
  match k with
  | KDict => str_of "dictionaries" | KList => str_of "lists" | KString => str_of "strings"
  | KArray => str_of "arrays" | KFrame => str_of "dataframes"
  end.

(** The bytes handed to create_dataset, or the exception raised before.
    Variable-length HDF strings cannot contain NUL (ValueError); unsupported
    array types and compressed scalars are TypeErrors. *)
Definition enc_json (v : pyval) : res payload :=
  match json_norm v with Some j => Ok (PJson j) | None => Err TypeError end.
Definition enc_text (s : str) : res payload :=
  if existsb (Ascii.eqb (chr 0)) s then Err ValueError else Ok (PText s).
Definition enc_arr (a : arr) (compression : bool) : res payload :=
  if negb (storable a) then Err TypeError
  else match shape a with
       | [] => if compression then Err TypeError else Ok (PArr a)
       | _ => Ok (PArr a)
       end.

(** container.py:127-131, 184-188, 262-266, 341-345, 418-422: the group of the kind, created on first use. *)
Definition ensure_group (g : str) : io (list str) :=
  b <- h_in [] g ;; if (b : bool) then h_get [] g else h_create [] g (Group []).

(** container.py:113-136 setDictionary, 171-193 setList, 331-350 setString, 405-431 setDataFrame
    (the time_columns attribute is part of the opaque frame). *)
Definition hc_set (k : kind) (name : str) (enc : res payload) : io unit :=
  g <- ensure_group (gname k) ;;
  p <- lift enc ;;
  h_create g name (Data p []) ;;; ret tt.

(** container.py:236-273 setArray *)
Definition hc_set_array (name : str) (a : arr) (meta : list (str * attrval)) (compression : bool) : io unit :=
  g <- ensure_group (gname KArray) ;;
  p <- lift (enc_arr a compression) ;;
  d <- h_create g name (Data p []) ;;
  h_attrs d meta.

(** Decoding the stored bytes for each kind; reading another kind's bytes (only
    possible through names with slashes) fails in a way left unspecified. *)
Definition decode (k : kind) (v : payload) : res payload :=
  match k, v with
  | KDict, PJson _ | KList, PJson _ | KString, PText _ | KFrame, PFrame _ => Ok v
  | KArray, _ => Ok v
  | _, _ => Err Generic
  end.

(** container.py:94-111, 195-211, 275-297, 352-368, 433-459  the five getters. *)
Definition hc_get (k : kind) (name : str) : io (payload * attrs) :=
  g <- h_get [] (gname k) ;;
  b <- h_in g name ;;
  if negb b then raise LookupError else
  d <- h_get g name ;;
  va <- h_read d ;;
  v <- lift (decode k (fst va)) ;;
  ret (v, match k with KArray => snd va | _ => [] end).

(** container.py:138-151, 225-234, 311-324, 382-395, 473-487  the five drops. *)
Definition hc_drop (k : kind) (name : str) : io unit :=
  g <- h_get [] (gname k) ;;
  b <- h_in g name ;;
  if negb b then raise LookupError else h_del g name.

(** container.py:153-163, 213-223, 299-309, 370-380, 461-471  the five listings. *)
Definition hc_names (k : kind) : io (list str) :=
  b <- h_in [] (gname k) ;;
  if negb b then ret [] else (g <- h_get [] (gname k) ;; h_keys g).

(** Calls of the public API and what they return. *)
Inductive op :=
| SetDict (n : str) (v : pyval) | SetList (n : str) (v : pyval) | SetString (n : str) (s : str)
| SetArray (n : str) (a : arr) (meta : list (str * attrval)) (compression : bool)
| SetFrame (n : str) (f : Z)
| Get (k : kind) (n : str) | Drop (k : kind) (n : str) | Names (k : kind).
Inductive obs := RUnit | RVal (v : payload) (a : attrs) | RNames (l : list str).

Definition step (o : op) : io obs :=
  match o with
  | SetDict n v => hc_set KDict n (enc_json v) ;;; ret RUnit
  | SetList n v => hc_set KList n (enc_json v) ;;; ret RUnit
  | SetString n s => hc_set KString n (enc_text s) ;;; ret RUnit
  | SetArray n a m c => hc_set_array n a m c ;;; ret RUnit
  | SetFrame n f => hc_set KFrame n (Ok (PFrame f)) ;;; ret RUnit
  | Get k n => va <- hc_get k n ;; ret (RVal (fst va) (snd va))
  | Drop k n => hc_drop k n ;;; ret RUnit
  | Names k => l <- hc_names k ;; ret (RNames l)
  end.

(** A history: the results of all calls, and the final file. *)
Fixpoint run {O R} (f : O -> io R) (ops : list O) (t : node) : list (res R) * node :=
  match ops with
  | [] => ([], t)
  | o :: os => let (r, t') := f o t in let (rs, t'') := run f os t' in (r :: rs, t'')
  end.

(** container.py:53-63  create: a new file *)
Definition empty : node := Group [].

(** ** smcontainers.py *)

(** A dataset where a group is expected: [in], [create_dataset] and so on then
    raise (AttributeError or TypeError according to its contents). *)
Definition need_group (p : list str) : io (list str) :=
  fun t => match lookup t p with Some (Group _) => (Ok p, t) | _ => (Err Generic, t) end.

(** smcontainers.py:62-72  _makeGroup, then the group is used. *)
Fixpoint make_groups (g : list str) (groups : list str) : io (list str) :=
  match groups with
  | [] => need_group g
  | gg :: r =>
      need_group g ;;;
      b <- h_in g gg ;;
      g' <- (if negb b then h_create g gg (Group []) else h_get g gg) ;;
      make_groups g' r
  end.
Definition make_group (base : str) (groups : list str) : io (list str) :=
  b <- h_in [] base ;;
  g <- (if negb b then h_create [] base (Group []) else h_get [] base) ;;
  make_groups g groups.

(** smcontainers.py:74-82  _getGroup, then the group is used. *)
Fixpoint walk_groups (g : list str) (groups : list str) : io (list str) :=
  match groups with
  | [] => need_group g
  | gg :: r =>
      need_group g ;;;
      b <- h_in g gg ;;
      if negb b then raise LookupError else (g' <- h_get g gg ;; walk_groups g' r)
  end.
Definition get_group (base : str) (groups : list str) : io (list str) :=
  b <- h_in [] base ;;
  if negb b then raise LookupError else (g <- h_get [] base ;; walk_groups g groups).

(** smcontainers.py:84-99  _getGroupPaths *)
Fixpoint group_paths (n : node) : list str :=
  match n with
  | Data _ _ => []
  | Group cs =>
      flat_map (fun kc => match kc with (kk, c) =>
        match group_paths c with
        | [] => [kk]
        | paths => map (fun path => kk ++ slash :: path) paths
        end end) cs
  end.

(** smcontainers.py:123-144 setDictionary, 269-287 setString *)
Definition hb_set (k : kind) (groups : list str) (name : str) (enc : res payload) : io unit :=
  g <- make_group (gname k) groups ;;
  p <- lift enc ;;
  h_create g name (Data p []) ;;; ret tt.

(** smcontainers.py:180-216 setArray *)
Definition hb_set_array (groups : list str) (name : str) (a : arr) (meta : list (str * attrval)) (compression : bool) : io unit :=
  g <- make_group (gname KArray) groups ;;
  b <- h_in g name ;;
  if (b : bool) then raise LookupError else
  p <- lift (enc_arr a compression) ;;
  d <- h_create g name (Data p []) ;;
  h_attrs d meta.

(** smcontainers.py:104-121 getDictionary, 218-240 getArray, 289-306 getString *)
Definition hb_get (k : kind) (groups : list str) (name : str) : io (payload * attrs) :=
  g <- get_group (gname k) groups ;;
  b <- h_in g name ;;
  if negb b then raise LookupError else
  d <- h_get g name ;;
  va <- h_read d ;;
  v <- lift (decode k (fst va)) ;;
  ret (v, match k with KArray => snd va | _ => [] end).

(** smcontainers.py:146-163 dropDictionary, 254-266 dropArray, 319-331 dropString:
    dropArray lets h5py's KeyError through. *)
Definition hb_drop (k : kind) (groups : list str) (name : str) : io unit :=
  g <- get_group (gname k) groups ;;
  match k with
  | KArray => h_del g name
  | _ => b <- h_in g name ;; if negb b then raise LookupError else h_del g name
  end.

(** smcontainers.py:165-174 getDictionaries, 242-252 getArrays, 308-317 getStrings *)
Definition hb_names (k : kind) : io (list str) :=
  fun t => match lookup t [gname k] with
           | None => (Ok [], t)
           | Some n => (Ok (group_paths n), t)
           end.

Inductive bop :=
| BSetDict (g : list str) (n : str) (v : pyval)
| BSetString (g : list str) (n : str) (s : str)
| BSetArray (g : list str) (n : str) (a : arr) (meta : list (str * attrval)) (compression : bool)
| BGet (k : kind) (g : list str) (n : str)
| BDrop (k : kind) (g : list str) (n : str)
| BNames (k : kind).

Definition bstep (o : bop) : io obs :=
  match o with
  | BSetDict g n v => hb_set KDict g n (enc_json v) ;;; ret RUnit
  | BSetString g n s => hb_set KString g n (enc_text s) ;;; ret RUnit
  | BSetArray g n a m c => hb_set_array g n a m c ;;; ret RUnit
  | BGet k g n => va <- hb_get k g n ;; ret (RVal (fst va) (snd va))
  | BDrop k g n => hb_drop k g n ;;; ret RUnit
  | BNames k => l <- hb_names k ;; ret (RNames l)
  end.

(** ** ShakeMapContainerBase *)
Definition in_names (s : str) (l : list str) : bool := existsb (str_eqb s) l.

(** smcontainers.py:339-348 setConfig, 428-437 setVersionHistory, 508-521 setMetadata: replace *)
Definition replace_dict (name : str) (v : pyval) : io unit :=
  l <- hb_names KDict ;;
  (if in_names name l then hb_drop KDict [] name else ret tt) ;;;
  hb_set KDict [] name (enc_json v).

(** smcontainers.py:350-361 getConfig, 383-397 getRuptureDict, 414-426 getStationDict,
    439-452 getVersionHistory, 523-531 getMetadata: [missing] is what happens when absent. *)
Definition fetch_dict (name : str) (missing : res pyval) : io pyval :=
  l <- hb_names KDict ;;
  if negb (in_names name l) then lift missing else
  va <- hb_get KDict [] name ;;
  match fst va with PJson v => ret v | _ => raise Generic end.

Definition is_dict (v : pyval) : bool := match v with VDict _ => true | _ => false end.

Definition set_config := replace_dict (str_of "config").
Definition get_config := fetch_dict (str_of "config") (Err AttributeError).

(** smcontainers.py:363-381  setRuptureDict: the old value is dropped before the type check. *)
Definition set_rupture (v : pyval) : io unit :=
  l <- hb_names KDict ;;
  (if in_names (str_of "rupture") l then hb_drop KDict [] (str_of "rupture") else ret tt) ;;;
  if negb (is_dict v) then raise TypeError else hb_set KDict [] (str_of "rupture") (enc_json v).
Definition get_rupture := fetch_dict (str_of "rupture") (Err AttributeError).

(** smcontainers.py:399-412  setStationDict: type check first. *)
Definition set_stations (v : pyval) : io unit :=
  if negb (is_dict v) then raise TypeError else replace_dict (str_of "stations_dict") v.
Definition get_stations := fetch_dict (str_of "stations_dict") (Err AttributeError).

Definition set_history := replace_dict (str_of "version_history").
Definition get_history := fetch_dict (str_of "version_history") (Ok (VDict [])).
Definition set_metadata := replace_dict (str_of "info.json").
Definition get_metadata := fetch_dict (str_of "info.json") (Err LookupError).

(** ** ShakeMapOutputContainer *)
Inductive dtype := Points | Grid.
Definition dtype_name (d : dtype) : str := match d with Points => str_of "points" | Grid => str_of "grid" end.
Definition dtype_eqb (a b : dtype) : bool := match a, b with Points, Points | Grid, Grid => true | _, _ => false end.
Definition ftype : str := str_of "file_data_type".

(** smcontainers.py:492-506  getDataType; the stored dictionary is {'type': ...}. *)
Definition type_of_dict (v : pyval) : res str :=
  match v with
  | VDict l => match child (str_of "type") (map (fun kv => (match fst kv with KStr s => s | _ => [] end, snd kv)) l) with
               | Some (VStr s) => Ok s
               | _ => Err KeyError
               end
  | _ => Err TypeError
  end.
Definition get_data_type : io (option str) :=
  l <- hb_names KDict ;;
  if in_names ftype l then
    (va <- hb_get KDict [] ftype ;;
     match fst va with PJson v => (s <- lift (type_of_dict v) ;; ret (Some s)) | _ => raise Generic end)
  else ret None.

(** smcontainers.py:470-490  setDataType *)
Definition set_data_type (datatype : str) : io unit :=
  if negb (str_eqb datatype (str_of "points")) && negb (str_eqb datatype (str_of "grid")) then raise TypeError
  else
    cur <- get_data_type ;;
    match cur with
    | Some c => if negb (str_eqb c datatype) then raise TypeError else ret tt
    | None => hb_set KDict [] ftype (enc_json (VDict [(KStr (str_of "type"), VStr datatype)]))
    end.

Definition is_type (d : option str) (s : string) : bool :=
  match d with Some x => str_eqb x (str_of s) | None => false end.

Definition imts : str := str_of "imts".

(** smcontainers.py:533-567  setIMTGrids; [compression] is not passed on. *)
Definition set_imt_grids (imt : str) (mean : arr) (mean_meta : list (str * attrval))
           (std : arr) (std_meta : list (str * attrval)) (component : str) (compression : bool) : io unit :=
  d <- get_data_type ;;
  if is_type d "points" then raise TypeError else
  set_data_type (str_of "grid") ;;;
  hb_set_array [imts; component; imt] (str_of "mean") mean mean_meta true ;;;
  hb_set_array [imts; component; imt] (str_of "std") std std_meta true.

(** smcontainers.py:569-608  getIMTGrids: mean, its metadata, std, its metadata *)
Definition get_imt_grids (imt component : str) : io (payload * attrs * (payload * attrs)) :=
  d <- get_data_type ;;
  if negb (is_type d "grid") then raise TypeError else
  m <- hb_get KArray [imts; component; imt] (str_of "mean") ;;
  s <- hb_get KArray [imts; component; imt] (str_of "std") ;;
  ret (m, s).

Fixpoint shape_eqb (a b : list Z) : bool :=
  match a, b with
  | [], [] => true
  | x :: a', y :: b' => (x =? y) && shape_eqb a' b'
  | _, _ => false
  end.

(** smcontainers.py:610-668  setIMTArrays *)
Definition set_imt_arrays (imt : str) (lons lats ids mean : arr) (mean_meta : list (str * attrval))
           (std : arr) (std_meta : list (str * attrval)) (component : str) (compression : bool) : io unit :=
  d <- get_data_type ;;
  if is_type d "grid" then raise TypeError else
  set_data_type (str_of "points") ;;;
  if negb (shape_eqb (shape lons) (shape lats)) || negb (shape_eqb (shape lons) (shape ids))
     || negb (shape_eqb (shape lons) (shape mean)) || negb (shape_eqb (shape lons) (shape std))
  then raise ValueError
  else
    let g := [imts; component; imt] in
    hb_set_array g (str_of "lons") lons [] compression ;;;
    hb_set_array g (str_of "lats") lats [] compression ;;;
    hb_set_array g (str_of "ids") ids [] compression ;;;
    hb_set_array g (str_of "mean") mean mean_meta compression ;;;
    hb_set_array g (str_of "std") std std_meta compression.

(** smcontainers.py:670-721  getIMTArrays: lons, lats, ids, mean+metadata, std+metadata *)
Definition get_imt_arrays (imt component : str)
  : io (payload * payload * payload * (payload * attrs) * (payload * attrs)) :=
  d <- get_data_type ;;
  if negb (is_type d "points") then raise TypeError else
  let g := [imts; component; imt] in
  lo <- hb_get KArray g (str_of "lons") ;;
  la <- hb_get KArray g (str_of "lats") ;;
  id <- hb_get KArray g (str_of "ids") ;;
  m <- hb_get KArray g (str_of "mean") ;;
  s <- hb_get KArray g (str_of "std") ;;
  ret (fst lo, fst la, fst id, m, s).

Definition imts_path : list str := [gname KArray; imts].
Definition has_imts : io bool :=
  fun t => (Ok (match lookup t imts_path with Some _ => true | None => false end), t).

(** smcontainers.py:745-767  getComponents(None) *)
Definition all_components : io (list str) :=
  b <- has_imts ;; if negb b then ret [] else h_keys imts_path.

(** smcontainers.py:723-743  getIMTs(component) *)
Definition get_imts (component : str) : io (list str) :=
  b <- has_imts ;; if negb b then ret [] else (g <- h_get imts_path component ;; h_keys g).

Fixpoint collect_imts (cs : list str) : io (list str) :=
  match cs with
  | [] => ret []
  | c :: cs' =>
      g <- h_get imts_path c ;;
      l <- h_keys g ;;
      r <- collect_imts cs' ;;
      ret (map (fun i => c ++ slash :: i) l ++ r)
  end.
(** smcontainers.py:723-739  getIMTs() *)
Definition get_all_imts : io (list str) :=
  b <- has_imts ;; if negb b then ret [] else (cs <- h_keys imts_path ;; collect_imts cs).

Fixpoint filter_components (imt : str) (cs : list str) : io (list str) :=
  match cs with
  | [] => ret []
  | c :: cs' =>
      g <- h_get imts_path c ;;
      b <- h_in g imt ;;
      r <- filter_components imt cs' ;;
      ret (if (b : bool) then c :: r else r)
  end.
(** smcontainers.py:745-767  getComponents(imt_name) *)
Definition get_components (imt : str) : io (list str) :=
  b <- has_imts ;; if negb b then ret [] else (cs <- all_components ;; filter_components imt cs).

Fixpoint drop_from (imt : str) (cs : list str) : io unit :=
  match cs with
  | [] => ret tt
  | c :: cs' => g <- h_get imts_path c ;; h_del g imt ;;; drop_from imt cs'
  end.
(** smcontainers.py:769-780  dropIMT *)
Definition drop_imt (imt : str) : io unit :=
  b <- has_imts ;; if negb b then raise LookupError else
  cs <- get_components imt ;; drop_from imt cs.

(** Calls of the ShakeMapOutputContainer API and what they return. *)
Inductive smop :=
| SmSetConfig (v : pyval) | SmGetConfig | SmSetRupture (v : pyval) | SmGetRupture
| SmSetStations (v : pyval) | SmGetStations | SmSetHistory (v : pyval) | SmGetHistory
| SmSetMetadata (v : pyval) | SmGetMetadata
| SmSetType (s : str) | SmGetType
| SmSetGrids (imt : str) (mean : arr) (mean_meta : list (str * attrval))
             (std : arr) (std_meta : list (str * attrval)) (component : str) (compression : bool)
| SmGetGrids (imt component : str)
| SmSetArrays (imt : str) (lons lats ids mean : arr) (mean_meta : list (str * attrval))
              (std : arr) (std_meta : list (str * attrval)) (component : str) (compression : bool)
| SmGetArrays (imt component : str)
| SmIMTs (component : str) | SmAllIMTs | SmComponents (imt : str) | SmAllComponents
| SmDropIMT (imt : str).
Inductive smobs :=
| SUnit | SVal (v : pyval) | SType (d : option str) | SNames (l : list str)
| SGrids (mean std : payload * attrs)
| SArrays (lons lats ids : payload) (mean std : payload * attrs).

Definition smstep (o : smop) : io smobs :=
  match o with
  | SmSetConfig v => set_config v ;;; ret SUnit
  | SmGetConfig => v <- get_config ;; ret (SVal v)
  | SmSetRupture v => set_rupture v ;;; ret SUnit
  | SmGetRupture => v <- get_rupture ;; ret (SVal v)
  | SmSetStations v => set_stations v ;;; ret SUnit
  | SmGetStations => v <- get_stations ;; ret (SVal v)
  | SmSetHistory v => set_history v ;;; ret SUnit
  | SmGetHistory => v <- get_history ;; ret (SVal v)
  | SmSetMetadata v => set_metadata v ;;; ret SUnit
  | SmGetMetadata => v <- get_metadata ;; ret (SVal v)
  | SmSetType s => set_data_type s ;;; ret SUnit
  | SmGetType => d <- get_data_type ;; ret (SType d)
  | SmSetGrids i m mm s sm c z => set_imt_grids i m mm s sm c z ;;; ret SUnit
  | SmGetGrids i c => x <- get_imt_grids i c ;; ret (SGrids (fst x) (snd x))
  | SmSetArrays i lo la id m mm s sm c z => set_imt_arrays i lo la id m mm s sm c z ;;; ret SUnit
  | SmGetArrays i c => x <- get_imt_arrays i c ;;
      (match x with (lo, la, id, m, s) => ret (SArrays lo la id m s) end)
  | SmIMTs c => l <- get_imts c ;; ret (SNames l)
  | SmAllIMTs => l <- get_all_imts ;; ret (SNames l)
  | SmComponents i => l <- get_components i ;; ret (SNames l)
  | SmAllComponents => l <- all_components ;; ret (SNames l)
  | SmDropIMT i => drop_imt i ;;; ret SUnit
  end.
