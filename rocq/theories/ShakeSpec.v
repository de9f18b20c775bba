(** Specification of the ShakeMap output container: five optional dictionaries,
    an optional data type, and datasets indexed by component, IMT and field. *)
From Coq Require Import ZArith String Ascii Bool List.
From Verif Require Import PyBase HdfModel HdfSpec.
Import ListNotations.
Open Scope Z_scope.

Inductive slot := Config | Rupture | Stations | History | Info.
Definition slot_eqb (a b : slot) : bool :=
  match a, b with
  | Config, Config | Rupture, Rupture | Stations, Stations | History, History | Info, Info => true
  | _, _ => false
  end.

Inductive field := FLons | FLats | FIds | FMean | FStd.
Definition field_eqb (a b : field) : bool :=
  match a, b with
  | FLons, FLons | FLats, FLats | FIds, FIds | FMean, FMean | FStd, FStd => true
  | _, _ => false
  end.

Record sm := {
  dict : slot -> option pyval;
  typ : option dtype;
  has_imt_data : bool;                 (* some IMT was ever written *)
  comp : str -> bool;                  (* component known *)
  known : str -> str -> bool;          (* component, IMT *)
  dset : str -> str -> field -> option (payload * attrs)
}.

Definition fresh : sm :=
  {| dict := fun _ => None; typ := None; has_imt_data := false; comp := fun _ => false;
     known := fun _ _ => false; dset := fun _ _ _ => None |}.

Definition with_dict (x : slot) (v : option pyval) (s : sm) : sm :=
  {| dict := fun y => if slot_eqb x y then v else dict s y; typ := typ s; has_imt_data := has_imt_data s;
     comp := comp s; known := known s; dset := dset s |}.
Definition with_type (d : dtype) (s : sm) : sm :=
  {| dict := dict s; typ := Some d; has_imt_data := has_imt_data s;
     comp := comp s; known := known s; dset := dset s |}.
Definition with_imt (c i : str) (s : sm) : sm :=
  {| dict := dict s; typ := typ s; has_imt_data := true;
     comp := fun c' => str_eqb c c' || comp s c';
     known := fun c' i' => (str_eqb c c' && str_eqb i i') || known s c' i'; dset := dset s |}.
Definition with_dset (c i : str) (f : field) (v : payload * attrs) (s : sm) : sm :=
  {| dict := dict s; typ := typ s; has_imt_data := has_imt_data s; comp := comp s; known := known s;
     dset := fun c' i' f' => if str_eqb c c' && str_eqb i i' && field_eqb f f' then Some v else dset s c' i' f' |}.
Definition without_imt (i : str) (s : sm) : sm :=
  {| dict := dict s; typ := typ s; has_imt_data := has_imt_data s; comp := comp s;
     known := fun c' i' => if str_eqb i i' then false else known s c' i';
     dset := fun c' i' f' => if str_eqb i i' then None else dset s c' i' f' |}.

(** Replace a dictionary: a value JSON cannot represent leaves the slot empty. *)
Definition replace (x : slot) (v : pyval) (s : sm) : res unit * sm :=
  match json_norm v with
  | Some j => (Ok tt, with_dict x (Some j) s)
  | None => (Err TypeError, with_dict x None s)
  end.
Definition fetch (x : slot) (missing : res pyval) (s : sm) : res pyval :=
  match dict s x with Some v => Ok v | None => missing end.

(** One dataset; refused if already there. *)
Definition put (c i : str) (f : field) (a : arr) (meta : list (str * attrval)) (compression : bool) (s : sm) : res unit * sm :=
  let s1 := with_imt c i s in
  match dset s c i f, enc_arr a compression with
  | Some _, _ => (Err LookupError, s1)
  | None, Err e => (Err e, s1)
  | None, Ok v =>
      let (written, complete) := meta_written meta [] in
      (if complete then Ok tt else Err TypeError, with_dset c i f (v, written) s1)
  end.

Definition andthen (r : res unit * sm) (k : sm -> res unit * sm) : res unit * sm :=
  match r with (Ok _, s) => k s | (Err e, s) => (Err e, s) end.

Definition read (c i : str) (f : field) (s : sm) : res (payload * attrs) :=
  match dset s c i f with Some v => Ok v | None => Err LookupError end.

Definition other_type (d : dtype) (s : sm) : bool :=
  match typ s with Some d' => negb (dtype_eqb d d') | None => false end.
Definition same_shape (a b : arr) : bool :=
  if list_eq_dec Z.eq_dec (shape a) (shape b) then true else false.

Inductive smres :=
| TUnit | TVal (v : pyval) | TType (d : option dtype) | TNames (f : str -> bool) | TPairs (f : str -> str -> bool)
| TGrids (mean std : payload * attrs)
| TArrays (lons lats ids : payload) (mean std : payload * attrs).

Definition unit_res (r : res unit * sm) : res smres * sm := (res_map (fun _ => TUnit) (fst r), snd r).

Definition smspec (o : smop) (s : sm) : res smres * sm :=
  match o with
  | SmSetConfig v => unit_res (replace Config v s)
  | SmGetConfig => (res_map TVal (fetch Config (Err AttributeError) s), s)
  | SmSetRupture v =>
      if is_dict v then unit_res (replace Rupture v s) else (Err TypeError, with_dict Rupture None s)
  | SmGetRupture => (res_map TVal (fetch Rupture (Err AttributeError) s), s)
  | SmSetStations v => if is_dict v then unit_res (replace Stations v s) else (Err TypeError, s)
  | SmGetStations => (res_map TVal (fetch Stations (Err AttributeError) s), s)
  | SmSetHistory v => unit_res (replace History v s)
  | SmGetHistory => (res_map TVal (fetch History (Ok (VDict [])) s), s)
  | SmSetMetadata v => unit_res (replace Info v s)
  | SmGetMetadata => (res_map TVal (fetch Info (Err LookupError) s), s)
  | SmSetType n =>
      if str_eqb n (dtype_name Points) then
        (if other_type Points s then (Err TypeError, s) else (Ok TUnit, with_type Points s))
      else if str_eqb n (dtype_name Grid) then
        (if other_type Grid s then (Err TypeError, s) else (Ok TUnit, with_type Grid s))
      else (Err TypeError, s)
  | SmGetType => (Ok (TType (typ s)), s)
  | SmSetGrids i m mm d dm c _ =>
      if other_type Grid s then (Err TypeError, s)
      else unit_res (andthen (put c i FMean m mm true (with_type Grid s)) (put c i FStd d dm true))
  | SmGetGrids i c =>
      match typ s with
      | Some Grid => (bind (read c i FMean s) (fun m => bind (read c i FStd s) (fun d => Ok (TGrids m d))), s)
      | _ => (Err TypeError, s)
      end
  | SmSetArrays i lo la id m mm d dm c z =>
      if other_type Points s then (Err TypeError, s)
      else if same_shape lo la && same_shape lo id && same_shape lo m && same_shape lo d then
        unit_res (andthen (andthen (andthen (andthen (put c i FLons lo [] z (with_type Points s))
          (put c i FLats la [] z)) (put c i FIds id [] z)) (put c i FMean m mm z)) (put c i FStd d dm z))
      else (Err ValueError, with_type Points s)
  | SmGetArrays i c =>
      match typ s with
      | Some Points =>
          (bind (read c i FLons s) (fun lo => bind (read c i FLats s) (fun la => bind (read c i FIds s) (fun id =>
           bind (read c i FMean s) (fun m => bind (read c i FStd s) (fun d =>
           Ok (TArrays (fst lo) (fst la) (fst id) m d)))))), s)
      | _ => (Err TypeError, s)
      end
  | SmIMTs c =>
      if negb (has_imt_data s) then (Ok (TNames (fun _ => false)), s)
      else if comp s c then (Ok (TNames (known s c)), s) else (Err KeyError, s)
  | SmAllIMTs => (Ok (TPairs (known s)), s)
  | SmComponents i => (Ok (TNames (fun c => known s c i)), s)
  | SmAllComponents => (Ok (TNames (comp s)), s)
  | SmDropIMT i => if has_imt_data s then (Ok TUnit, without_imt i s) else (Err LookupError, s)
  end.

Fixpoint smspec_run (ops : list smop) (s : sm) : list (res smres) * sm :=
  match ops with
  | [] => ([], s)
  | o :: os => let (r, s') := smspec o s in let (rs, s'') := smspec_run os s' in (r :: rs, s'')
  end.

(** Concrete and specified results agree; listings have no repetitions. *)
Definition smagree (r : res smobs) (a : res smres) : Prop :=
  match r, a with
  | Ok SUnit, Ok TUnit => True
  | Ok (SVal v), Ok (TVal v') => v = v'
  | Ok (SType d), Ok (TType d') => d = option_map dtype_name d'
  | Ok (SNames l), Ok (TNames f) => NoDup l /\ forall n, In n l <-> f n = true
  | Ok (SNames l), Ok (TPairs f) =>
      exists ps, l = map (fun p => fst p ++ slash :: snd p) ps /\ NoDup ps /\
        forall c i, In (c, i) ps <-> f c i = true
  | Ok (SGrids m d), Ok (TGrids m' d') => m = m' /\ d = d'
  | Ok (SArrays a b c m d), Ok (TArrays a' b' c' m' d') => a = a' /\ b = b' /\ c = c' /\ m = m' /\ d = d'
  | Err e, Err e' => e = e'
  | _, _ => False
  end.

(** Names of IMTs and components in a call are plain. *)
Definition smgood (o : smop) : Prop :=
  match o with
  | SmSetGrids i _ _ _ _ c _ | SmGetGrids i c | SmSetArrays i _ _ _ _ _ _ _ c _ | SmGetArrays i c =>
      good_name i /\ good_name c
  | SmIMTs c => good_name c
  | SmComponents i | SmDropIMT i => good_name i
  | _ => True
  end.

(** The set and get call of each dictionary, and what get does when it is absent. *)
Definition set_call (x : slot) (v : pyval) : smop :=
  match x with
  | Config => SmSetConfig v | Rupture => SmSetRupture v | Stations => SmSetStations v
  | History => SmSetHistory v | Info => SmSetMetadata v
  end.
Definition get_call (x : slot) : smop :=
  match x with
  | Config => SmGetConfig | Rupture => SmGetRupture | Stations => SmGetStations
  | History => SmGetHistory | Info => SmGetMetadata
  end.
Definition when_absent (x : slot) : res smobs :=
  match x with
  | History => Ok (SVal (VDict [])) | Info => Err LookupError | _ => Err AttributeError
  end.
Definition is_set_call (x : slot) (o : smop) : bool :=
  match x, o with
  | Config, SmSetConfig _ | Rupture, SmSetRupture _ | Stations, SmSetStations _
  | History, SmSetHistory _ | Info, SmSetMetadata _ => true
  | _, _ => false
  end.

(** Files reachable through the API with plain names. *)
Definition sreached (t : node) : Prop := exists ops, Forall smgood ops /\ t = snd (run smstep ops empty).

(** Calls that only read. *)
Definition is_read (o : smop) : bool :=
  match o with
  | SmGetConfig | SmGetRupture | SmGetStations | SmGetHistory | SmGetMetadata | SmGetType
  | SmGetGrids _ _ | SmGetArrays _ _ | SmIMTs _ | SmAllIMTs | SmComponents _ | SmAllComponents => true
  | _ => false
  end.

(** Writes of IMT data. *)
Definition is_write (o : smop) : bool :=
  match o with SmSetGrids _ _ _ _ _ _ _ | SmSetArrays _ _ _ _ _ _ _ _ _ _ => true | _ => false end.
(** In a history with its results: every such write succeeded. *)
Definition writes_succeed (ops : list smop) (rs : list (res smobs)) : Prop :=
  Forall2 (fun o r => is_write o = true -> r = Ok SUnit) ops rs.
