(** Specification vocabulary for the HDF containers. *)
From Coq Require Import ZArith String Ascii Bool List.
From Verif Require Import PyBase HdfModel.
Import ListNotations.
Open Scope Z_scope.

(** A file seen from outside: what is found at each absolute path. *)
Inductive entry := ELeaf (v : payload) (a : attrs) | EGroup.
Definition view (t : node) (p : list str) : option entry :=
  match lookup t p with
  | Some (Data v a) => Some (ELeaf v a)
  | Some (Group _) => Some EGroup
  | None => None
  end.

(** A plain name: not empty, not ".", no slash. *)
Definition good_name (s : str) : Prop := s <> [] /\ s <> str_of "." /\ ~ In slash s.

(** ** C16/C17: five independent finite maps *)
Record maps := { amap : kind -> str -> option (payload * attrs); used : kind -> bool }.

Definition kind_eqb (a b : kind) : bool :=
  match a, b with
  | KDict, KDict | KList, KList | KString, KString | KArray, KArray | KFrame, KFrame => true
  | _, _ => false
  end.

Definition no_maps : maps := {| amap := fun _ _ => None; used := fun _ => false |}.
Definition touch (k : kind) (m : maps) : maps :=
  {| amap := amap m; used := fun k' => kind_eqb k k' || used m k' |}.
Definition update (k : kind) (n : str) (e : option (payload * attrs)) (m : maps) : maps :=
  {| amap := fun k' n' => if kind_eqb k k' && str_eqb n n' then e else amap m k' n'; used := used m |}.

(** Metadata written before the first unstorable value, and whether all were written. *)
Fixpoint meta_written (meta : list (str * attrval)) (acc : attrs) : attrs * bool :=
  match meta with
  | [] => (acc, true)
  | (k, AVal z) :: m => meta_written m (dict_put k z acc)
  | (_, ABad) :: _ => (acc, false)
  end.

(** What each call does to the maps and returns. *)
Inductive aobs := AUnit | AVals (v : payload) (a : attrs) | ANames (f : str -> bool).

Definition aset (k : kind) (n : str) (enc : res payload) (meta : list (str * attrval)) (m : maps) : res aobs * maps :=
  match enc with
  | Err e => (Err e, touch k m)
  | Ok p =>
      match amap m k n with
      | Some _ => (Err ValueError, touch k m)
      | None =>
          let (written, complete) := meta_written meta [] in
          (if complete then Ok AUnit else Err TypeError, update k n (Some (p, written)) (touch k m))
      end
  end.

Definition astep (o : op) (m : maps) : res aobs * maps :=
  match o with
  | SetDict n v => aset KDict n (enc_json v) [] m
  | SetList n v => aset KList n (enc_json v) [] m
  | SetString n s => aset KString n (enc_text s) [] m
  | SetArray n a meta c => aset KArray n (enc_arr a c) meta m
  | SetFrame n f => aset KFrame n (Ok (PFrame f)) [] m
  | Get k n =>
      match amap m k n with
      | Some (v, a) => (Ok (AVals v a), m)
      | None => (Err (if used m k then LookupError else KeyError), m)
      end
  | Drop k n =>
      match amap m k n with
      | Some _ => (Ok AUnit, update k n None m)
      | None => (Err (if used m k then LookupError else KeyError), m)
      end
  | Names k => (Ok (ANames (fun n => match amap m k n with Some _ => true | None => false end)), m)
  end.

Fixpoint arun (ops : list op) (m : maps) : list (res aobs) * maps :=
  match ops with
  | [] => ([], m)
  | o :: os => let (r, m') := astep o m in let (rs, m'') := arun os m' in (r :: rs, m'')
  end.

(** Concrete and abstract results agree; a listing has every name exactly once. *)
Definition agree (r : res obs) (a : res aobs) : Prop :=
  match r, a with
  | Ok RUnit, Ok AUnit => True
  | Ok (RVal v m), Ok (AVals v' m') => v = v' /\ m = m'
  | Ok (RNames l), Ok (ANames f) => NoDup l /\ forall n, In n l <-> f n = true
  | Err e, Err e' => e = e'
  | _, _ => False
  end.

Definition op_name (o : op) : option str :=
  match o with
  | SetDict n _ | SetList n _ | SetString n _ | SetArray n _ _ _ | SetFrame n _ | Get _ n | Drop _ n => Some n
  | Names _ => None
  end.
Definition good_op (o : op) : Prop := match op_name o with Some n => good_name n | None => True end.

(** The call writes to (or deletes) the given entry. *)
Definition writes (k : kind) (n : str) (o : op) : bool :=
  match o with
  | SetDict n' _ => kind_eqb k KDict && str_eqb n n'
  | SetList n' _ => kind_eqb k KList && str_eqb n n'
  | SetString n' _ => kind_eqb k KString && str_eqb n n'
  | SetArray n' _ _ _ => kind_eqb k KArray && str_eqb n n'
  | SetFrame n' _ => kind_eqb k KFrame && str_eqb n n'
  | Drop k' n' => kind_eqb k k' && str_eqb n n'
  | Get _ _ | Names _ => false
  end.

(** ** C18: a map from paths to leaves and groups *)
Definition fs := list str -> option entry.

(** [q] begins with [p]. *)
Fixpoint strip (p q : list str) : option (list str) :=
  match p, q with
  | [], _ => Some q
  | x :: p', y :: q' => if str_eqb x y then strip p' q' else None
  | _, _ => None
  end.
Definition is_prefix (p q : list str) : bool := match strip p q with Some _ => true | None => false end.

(** All groups from the root down to [p] exist; nothing else changes. *)
Definition with_groups (p : list str) (E : fs) : fs := fun q => if is_prefix q p then Some EGroup else E q.
Definition with_leaf (p : list str) (v : payload) (a : attrs) (E : fs) : fs :=
  fun q => if is_prefix p q && is_prefix q p then Some (ELeaf v a) else E q.
Definition without (p : list str) (E : fs) : fs := fun q => if is_prefix p q then None else E q.

(** Some prefix of [p] is a dataset. *)
Fixpoint blocked (done p : list str) (E : fs) : bool :=
  match E done with
  | Some (ELeaf _ _) => true
  | _ => match p with [] => false | s :: p' => blocked (done ++ [s]) p' E end
  end.
(** Some prefix of [p] is missing (looked for from the root downwards, before any dataset). *)
Fixpoint group_status (done p : list str) (E : fs) : res unit :=
  match E done with
  | None => Err LookupError
  | Some (ELeaf _ _) => Err Generic
  | Some EGroup => match p with [] => Ok tt | s :: p' => group_status (done ++ [s]) p' E end
  end.

Inductive bobs := BUnit | BVal (v : payload) (a : attrs) | BPaths (f : list str -> bool).

Definition bset (dup : exn) (p : list str) (n : str) (enc : res payload) (meta : list (str * attrval)) (E : fs) : res bobs * fs :=
  if blocked [] p E then (Err Generic, E)
  else
    let E1 := with_groups p E in
    match enc, E1 (p ++ [n]) with
    | Ok v, None =>
        let (written, complete) := meta_written meta [] in
        (if complete then Ok BUnit else Err TypeError, with_leaf (p ++ [n]) v written E1)
    | Err e, None => (Err e, E1)
    | Ok _, Some _ => (Err dup, E1)
    | Err e, Some _ => (Err (match dup with LookupError => LookupError | _ => e end), E1)
    end.

Definition bspec (o : bop) (E : fs) : res bobs * fs :=
  match o with
  | BSetDict g n v => bset ValueError (gname KDict :: g) n (enc_json v) [] E
  | BSetString g n s => bset ValueError (gname KString :: g) n (enc_text s) [] E
  | BSetArray g n a meta c => bset LookupError (gname KArray :: g) n (enc_arr a c) meta E
  | BGet k g n =>
      match group_status [] (gname k :: g) E with
      | Err e => (Err e, E)
      | Ok _ => match E (gname k :: g ++ [n]) with
                | None => (Err LookupError, E)
                | Some EGroup => (Err TypeError, E)
                | Some (ELeaf v a) => (Ok (BVal v a), E)
                end
      end
  | BDrop k g n =>
      match group_status [] (gname k :: g) E with
      | Err e => (Err e, E)
      | Ok _ => match E (gname k :: g ++ [n]) with
                | None => (Err (match k with KArray => KeyError | _ => LookupError end), E)
                | Some _ => (Ok BUnit, without (gname k :: g ++ [n]) E)
                end
      end
  | BNames k => (Ok (BPaths (fun p =>
      match p, E (gname k :: p) with
      | [], _ => false
      | _, Some (ELeaf _ _) => true
      | _, _ => false
      end)), E)
  end.

Fixpoint brun (ops : list bop) (E : fs) : list (res bobs) * fs :=
  match ops with
  | [] => ([], E)
  | o :: os => let (r, E') := bspec o E in let (rs, E'') := brun os E' in (r :: rs, E'')
  end.

(** Joining path components with slashes. *)
Definition join_path (p : list str) : str := join [slash] p.

(** Listings: every stored leaf once; anything else listed is an empty group. *)
Definition bagree (r : res obs) (a : res bobs) (k : kind) (E : fs) : Prop :=
  match r, a with
  | Ok RUnit, Ok BUnit => True
  | Ok (RVal v m), Ok (BVal v' m') => v = v' /\ m = m'
  | Ok (RNames l), Ok (BPaths f) =>
      exists ps, l = map join_path ps /\ NoDup ps /\
        forall p, In p ps <->
          f p = true \/ (p <> [] /\ E (gname k :: p) = Some EGroup /\ forall s, E (gname k :: p ++ [s]) = None)
  | Err e, Err e' => e = e'
  | _, _ => False
  end.

(** ** Values JSON represents exactly: no tuples, no foreign objects, string keys, no key twice. *)
Fixpoint distinct (l : list str) : bool :=
  match l with [] => true | x :: l' => negb (existsb (str_eqb x) l') && distinct l' end.
Fixpoint json_plain (v : pyval) : bool :=
  match v with
  | VNone | VBool _ | VInt _ | VFloat _ | VStr _ => true
  | VList l => forallb json_plain l
  | VDict l =>
      forallb (fun kv => match kv with (KStr _, x) => json_plain x | _ => false end) l &&
      distinct (map (fun kv => match fst kv with KStr s => s | _ => [] end) l)
  | VTuple _ | VOther => false
  end.

(** The call is a set of kind [k] / under the name [n]. *)
Definition sets_kind (k : kind) (o : op) : bool :=
  match o with
  | SetDict _ _ => kind_eqb k KDict | SetList _ _ => kind_eqb k KList | SetString _ _ => kind_eqb k KString
  | SetArray _ _ _ _ => kind_eqb k KArray | SetFrame _ _ => kind_eqb k KFrame
  | _ => false
  end.
Definition sets (k : kind) (n : str) (o : op) : bool :=
  sets_kind k o && match op_name o with Some m => str_eqb n m | None => false end.

(** What the call would store, when the value can be stored at all. *)
Definition content (o : op) : res (payload * attrs) :=
  match o with
  | SetDict _ v | SetList _ v => res_map (fun p => (p, [])) (enc_json v)
  | SetString _ s => res_map (fun p => (p, [])) (enc_text s)
  | SetFrame _ f => Ok (PFrame f, [])
  | SetArray _ a meta c =>
      bind (enc_arr a c) (fun p => let (w, complete) := meta_written meta [] in if complete then Ok (p, w) else Err TypeError)
  | _ => Err NotModelled
  end.

(** Two files that answer every get of every kind alike. *)
Definition same_gets (t t' : node) : Prop :=
  forall k n, good_name n -> fst (step (Get k n) t') = fst (step (Get k n) t).

(** States reached by a history of calls. *)
Definition reached (t : node) : Prop := exists ops, Forall good_op ops /\ t = snd (run step ops empty).

(** A value successfully set is what every later get returns, until it is
    written again. *)
Definition set_op (k : kind) (n : str) (v : payload) (a : attrs) (o : op) : Prop :=
  match o with
  | SetDict n' x => k = KDict /\ n = n' /\ enc_json x = Ok v /\ a = []
  | SetList n' x => k = KList /\ n = n' /\ enc_json x = Ok v /\ a = []
  | SetString n' s => k = KString /\ n = n' /\ v = PText s /\ a = []
  | SetArray n' x meta c => k = KArray /\ n = n' /\ v = PArr x /\ a = fst (meta_written meta [])
  | SetFrame n' f => k = KFrame /\ n = n' /\ v = PFrame f /\ a = []
  | _ => False
  end.

(** ** Histories of the grouped container *)
Definition bop_names (o : bop) : list str :=
  match o with
  | BSetDict g n _ | BSetString g n _ | BSetArray g n _ _ _ | BGet _ g n | BDrop _ g n => n :: g
  | BNames _ => []
  end.
Definition good_bop (o : bop) : Prop := Forall good_name (bop_names o).
Definition bop_kind (o : bop) : kind :=
  match o with
  | BSetDict _ _ _ => KDict | BSetString _ _ _ => KString | BSetArray _ _ _ _ _ => KArray
  | BGet k _ _ | BDrop k _ _ | BNames k => k
  end.

Fixpoint bagree_run (ops : list bop) (rs : list (res obs)) (E : fs) : Prop :=
  match ops, rs with
  | [], [] => True
  | o :: ops', r :: rs' => bagree r (fst (bspec o E)) (bop_kind o) (snd (bspec o E)) /\ bagree_run ops' rs' (snd (bspec o E))
  | _, _ => False
  end.

Definition no_files : fs := fun p => match p with [] => Some EGroup | _ => None end.

(** A set call of the grouped container: kind, path, and what it would store. *)
Definition bcontent (o : bop) : option (kind * list str * str * res (payload * attrs)) :=
  match o with
  | BSetDict g n v => Some (KDict, g, n, res_map (fun p => (p, [])) (enc_json v))
  | BSetString g n s => Some (KString, g, n, res_map (fun p => (p, [])) (enc_text s))
  | BSetArray g n a meta c =>
      Some (KArray, g, n, bind (enc_arr a c) (fun p => let (w, complete) := meta_written meta [] in if complete then Ok (p, w) else Err TypeError))
  | _ => None
  end.
Definition breached (t : node) : Prop := exists ops, Forall good_bop ops /\ t = snd (run bstep ops empty).

(** ** What JSON makes of a value *)
(** The text of a dictionary key. *)
Inductive key_text : pykey -> str -> Prop :=
| kt_str s : key_text (KStr s) s
| kt_int z : key_text (KInt z) (str_of_Z z)
| kt_true : key_text (KBool true) (str_of "true")
| kt_false : key_text (KBool false) (str_of "false")
| kt_none : key_text KNone (str_of "null").
(** Entry [s] of a list of pairs, the last one counting. *)
Definition last_of {A} (s : str) (l : list (str * A)) (j : A) : Prop :=
  exists a b, l = a ++ (s, j) :: b /\ ~ In s (map fst b).
(** Lists and tuples become lists, keys their text, the last of equal keys counts. *)
Inductive json_rel : pyval -> pyval -> Prop :=
| jr_none : json_rel VNone VNone
| jr_bool b : json_rel (VBool b) (VBool b)
| jr_int z : json_rel (VInt z) (VInt z)
| jr_float f : json_rel (VFloat f) (VFloat f)
| jr_str s : json_rel (VStr s) (VStr s)
| jr_list l l' : Forall2 json_rel l l' -> json_rel (VList l) (VList l')
| jr_tuple l l' : Forall2 json_rel l l' -> json_rel (VTuple l) (VList l')
| jr_dict l mid d :
    Forall2 (fun kx sy => key_text (fst kx) (fst sy) /\ json_rel (snd kx) (snd sy)) l mid ->
    NoDup (map fst d) -> (forall s j, In (s, j) d <-> last_of s mid j) ->
    json_rel (VDict l) (VDict (map (fun sy => (KStr (fst sy), snd sy)) d)).
(** No foreign object or key anywhere. *)
Fixpoint json_able (v : pyval) : bool :=
  match v with
  | VList l | VTuple l => forallb json_able l
  | VDict l => forallb (fun kv => match kv with (KBad, _) => false | (_, x) => json_able x end) l
  | VOther => false
  | _ => true
  end.
