(** Property theorems C19-C22: the ShakeMap output container. *)
From Coq Require Import ZArith String Ascii Bool List Lia.
From Verif Require Import PyBase HdfModel HdfSpec HdfProofs HdfBaseProofs ShakeSpec ShakeProofs ShakeMoreProofs.
Import ListNotations.
Open Scope Z_scope.

Ltac names := repeat constructor; try discriminate; try (unfold str_of, slash, chr; simpl; intuition discriminate).

Definition ex_arr (n : Z) : arr := {| shape := [n]; cells := [n; n]; storable := true |}.
Definition pga := str_of "PGA".
Definition mmi := str_of "MMI".
Definition larger := str_of "Larger".
Definition ex_points : smop :=
  SmSetArrays pga (ex_arr 2) (ex_arr 2) (ex_arr 2) (ex_arr 2) [(str_of "units", AVal 1)] (ex_arr 2) [] larger true.
Definition ex_grids (i : str) : smop := SmSetGrids i (ex_arr 2) [(str_of "units", AVal 1)] (ex_arr 2) [] larger false.

(** C19.  The data type never changes once set; *)
Theorem C19_type_stable : forall t ops d, sreached t -> Forall smgood ops ->
  fst (smstep SmGetType t) = Ok (SType (Some d)) ->
  fst (smstep SmGetType (snd (run smstep ops t))) = Ok (SType (Some d)).
Proof. exact type_stable. Qed.
Print Assumptions C19_type_stable.

Theorem C19_type_values : forall t, sreached t -> exists d, fst (smstep SmGetType t) = Ok (SType (option_map dtype_name d)).
Proof. exact type_values. Qed.
Print Assumptions C19_type_values.

(** ... calls of the other family raise TypeError and leave the file identical; *)
Theorem C19_other_family : forall t, sreached t ->
  (fst (smstep SmGetType t) = Ok (SType (Some (dtype_name Points))) ->
     forall i m mm d dm c z, smstep (SmSetGrids i m mm d dm c z) t = (Err TypeError, t) /\
       smstep (SmGetGrids i c) t = (Err TypeError, t) /\ smstep (SmSetType (dtype_name Grid)) t = (Err TypeError, t)) /\
  (fst (smstep SmGetType t) = Ok (SType (Some (dtype_name Grid))) ->
     forall i lo la id m mm d dm c z, smstep (SmSetArrays i lo la id m mm d dm c z) t = (Err TypeError, t) /\
       smstep (SmGetArrays i c) t = (Err TypeError, t) /\ smstep (SmSetType (dtype_name Points)) t = (Err TypeError, t)).
Proof. exact refused. Qed.
Print Assumptions C19_other_family.

(** ... and coordinates are stored only in a points file, data only in a typed file. *)
Theorem C19_never_both : forall t i c v, sreached t -> good_name i -> good_name c ->
  (In v [str_of "lons"; str_of "lats"; str_of "ids"] ->
   forall x, fst (hb_get KArray [imts; c; i] v t) = Ok x -> fst (smstep SmGetType t) = Ok (SType (Some (dtype_name Points)))) /\
  (In v [str_of "mean"; str_of "std"] ->
   forall x, fst (hb_get KArray [imts; c; i] v t) = Ok x -> exists d, fst (smstep SmGetType t) = Ok (SType (Some (dtype_name d)))).
Proof. exact never_both. Qed.
Print Assumptions C19_never_both.

Example C19_ex : let t := snd (run smstep [SmSetConfig (VDict []); ex_points] empty) in
  sreached t /\ fst (smstep SmGetType t) = Ok (SType (Some (dtype_name Points))) /\
  is_ok (fst (hb_get KArray [imts; larger; pga] (str_of "lons") t)) = true /\
  fst (run smstep [SmGetType; ex_grids mmi; SmGetArrays pga larger] t) =
    [Ok (SType (Some (dtype_name Points))); Err TypeError;
     Ok (SArrays (PArr (ex_arr 2)) (PArr (ex_arr 2)) (PArr (ex_arr 2)) (PArr (ex_arr 2), [(str_of "units", 1)]) (PArr (ex_arr 2), []))].
Proof. split; [eexists; split; [|reflexivity]; names|]. vm_compute. auto. Qed.

(** C20.  Every history of calls behaves as the specification in ShakeSpec: five
    optional dictionaries, an optional type, datasets by component, IMT and field. *)
Theorem C20_history : forall ops, Forall smgood ops ->
  Forall2 smagree (fst (run smstep ops empty)) (fst (smspec_run ops fresh)).
Proof. exact container_meets_spec. Qed.
Print Assumptions C20_history.

(** C20.  getIMTs and getComponents are inverse relations; *)
Theorem C20_inverse : forall t c i l1 l2, sreached t -> good_name c -> good_name i ->
  fst (smstep (SmIMTs c) t) = Ok (SNames l1) -> fst (smstep (SmComponents i) t) = Ok (SNames l2) ->
  (In i l1 <-> In c l2).
Proof. exact imts_components_inverse. Qed.
Print Assumptions C20_inverse.

Theorem C20_components_total : forall t i, sreached t -> good_name i ->
  exists l, fst (smstep (SmComponents i) t) = Ok (SNames l) /\ NoDup l.
Proof. exact components_total. Qed.
Print Assumptions C20_components_total.

(** ... so does getIMTs without a component, in the form component/IMT. *)
Theorem C20_pairs : forall t, sreached t -> exists ps,
  fst (smstep SmAllIMTs t) = Ok (SNames (map (fun p => fst p ++ slash :: snd p) ps)) /\ NoDup ps /\
  (forall c i l, good_name i -> fst (smstep (SmComponents i) t) = Ok (SNames l) -> (In (c, i) ps <-> In c l)).
Proof. exact pairs_agree. Qed.
Print Assumptions C20_pairs.

(** What is stored is listed, *)
Theorem C20_stored_listed : forall t c i l, sreached t -> good_name c -> good_name i ->
  (is_ok (fst (smstep (SmGetGrids i c) t)) = true \/ is_ok (fst (smstep (SmGetArrays i c) t)) = true) ->
  fst (smstep (SmComponents i) t) = Ok (SNames l) -> In c l.
Proof. exact stored_listed. Qed.
Print Assumptions C20_stored_listed.

(** and, if no write of IMT data failed, what is listed is stored. *)
Theorem C20_listed_stored : forall ops c i l, Forall smgood ops -> good_name c -> good_name i ->
  writes_succeed ops (fst (run smstep ops empty)) ->
  let t := snd (run smstep ops empty) in
  fst (smstep (SmComponents i) t) = Ok (SNames l) -> In c l ->
  is_ok (fst (smstep (SmGetGrids i c) t)) = true \/ is_ok (fst (smstep (SmGetArrays i c) t)) = true.
Proof. exact listed_stored. Qed.
Print Assumptions C20_listed_stored.

Example C20_ex : let ops := [ex_grids pga; ex_grids mmi; SmDropIMT pga] in
  let t := snd (run smstep ops empty) in
  Forall smgood ops /\ writes_succeed ops (fst (run smstep ops empty)) /\
  fst (smstep (SmComponents mmi) t) = Ok (SNames [larger]) /\ fst (smstep (SmIMTs larger) t) = Ok (SNames [mmi]) /\
  fst (smstep (SmComponents pga) t) = Ok (SNames []) /\ is_ok (fst (smstep (SmGetGrids mmi larger) t)) = true.
Proof. split; [names|]. split; [vm_compute; repeat constructor|]. vm_compute. auto. Qed.

(** Without that condition it is false: a failed write leaves the IMT listed. *)
Theorem C20_failed_write_listed_refuted : exists o, smgood o /\
  let t := snd (smstep o empty) in
  is_ok (fst (smstep o empty)) = false /\ fst (smstep (SmComponents pga) t) = Ok (SNames [larger]) /\
  fst (smstep (SmGetGrids pga larger) t) = Err LookupError.
Proof.
  exists (SmSetGrids pga {| shape := [1]; cells := [0]; storable := false |} [] (ex_arr 1) [] larger true).
  split; [names|]. vm_compute. auto.
Qed.
Print Assumptions C20_failed_write_listed_refuted.

(** C20.  dropIMT removes that IMT from every component and nothing else. *)
Theorem C20_drop : forall t i, sreached t -> good_name i ->
  let t1 := snd (smstep (SmDropIMT i) t) in
  fst (smstep (SmDropIMT i) t) = Ok SUnit ->
  fst (smstep (SmComponents i) t1) = Ok (SNames []) /\
  (forall i' c', good_name i' -> i' <> i ->
     (forall l l', fst (smstep (SmComponents i') t) = Ok (SNames l) -> fst (smstep (SmComponents i') t1) = Ok (SNames l') -> (In c' l <-> In c' l')) /\
     (good_name c' -> fst (smstep (SmGetGrids i' c') t1) = fst (smstep (SmGetGrids i' c') t) /\
                      fst (smstep (SmGetArrays i' c') t1) = fst (smstep (SmGetArrays i' c') t))) /\
  (forall c' l l', fst (smstep SmAllComponents t) = Ok (SNames l) -> fst (smstep SmAllComponents t1) = Ok (SNames l') -> (In c' l <-> In c' l')) /\
  fst (smstep SmGetType t1) = fst (smstep SmGetType t).
Proof. exact drop_effect. Qed.
Print Assumptions C20_drop.

Example C20_ex_drop : let t := snd (run smstep [ex_grids pga; ex_grids mmi] empty) in
  sreached t /\ fst (smstep (SmDropIMT pga) t) = Ok SUnit /\ fst (smstep (SmDropIMT (str_of "PGV")) t) = Ok SUnit /\
  fst (smstep SmAllComponents (snd (smstep (SmDropIMT pga) t))) = Ok (SNames [larger]).
Proof. split; [eexists; split; [|reflexivity]; names|]. vm_compute. auto. Qed.

(** C21.  A refused setIMTArrays makes the file a points file, and changes nothing else. *)
Theorem C21_mismatch : forall t i lo la id m mm d dm c z, sreached t -> good_name i -> good_name c ->
  fst (smstep SmGetType t) <> Ok (SType (Some (dtype_name Grid))) ->
  ~ (shape lo = shape la /\ shape lo = shape id /\ shape lo = shape m /\ shape lo = shape d) ->
  let t1 := snd (smstep (SmSetArrays i lo la id m mm d dm c z) t) in
  fst (smstep (SmSetArrays i lo la id m mm d dm c z) t) = Err ValueError /\
  fst (smstep SmGetType t1) = Ok (SType (Some (dtype_name Points))) /\
  (forall i' m' mm' d' dm' c' z', smstep (SmSetGrids i' m' mm' d' dm' c' z') t1 = (Err TypeError, t1)) /\
  (forall x, fst (smstep (get_call x) t1) = fst (smstep (get_call x) t)) /\
  (forall i' l l', good_name i' -> fst (smstep (SmComponents i') t) = Ok (SNames l) -> fst (smstep (SmComponents i') t1) = Ok (SNames l') ->
     forall c', In c' l <-> In c' l').
Proof. exact mismatch_effect. Qed.
Print Assumptions C21_mismatch.

Example C21_ex : sreached empty /\ fst (smstep SmGetType empty) = Ok (SType None) /\
  ~ (shape (ex_arr 2) = shape (ex_arr 2) /\ shape (ex_arr 2) = shape (ex_arr 3) /\ shape (ex_arr 2) = shape (ex_arr 2) /\ shape (ex_arr 2) = shape (ex_arr 2)) /\
  fst (run smstep [SmSetArrays pga (ex_arr 2) (ex_arr 2) (ex_arr 3) (ex_arr 2) [] (ex_arr 2) [] larger true; ex_grids pga; SmGetType] empty)
    = [Err ValueError; Err TypeError; Ok (SType (Some (dtype_name Points)))].
Proof.
  split; [exists []; split; [constructor|reflexivity]|]. split; [vm_compute; reflexivity|].
  split; [vm_compute; intuition discriminate|vm_compute; reflexivity].
Qed.

(** C22.  A get returns (the JSON form of) what the last successful set stored; *)
Theorem C22_last_set_wins : forall h1 h2 x v, Forall smgood h1 -> Forall smgood h2 ->
  forallb (fun o => negb (is_set_call x o)) h2 = true ->
  let t1 := snd (run smstep h1 empty) in
  fst (smstep (set_call x v) t1) = Ok SUnit ->
  exists j, json_norm v = Some j /\
    fst (smstep (get_call x) (snd (run smstep h2 (snd (smstep (set_call x v) t1))))) = Ok (SVal j).
Proof. exact last_dict_wins. Qed.
Print Assumptions C22_last_set_wins.

(** ... it raises when never set, except that the version history is then empty; *)
Theorem C22_never_set : forall h x, Forall smgood h -> forallb (fun o => negb (is_set_call x o)) h = true ->
  fst (smstep (get_call x) (snd (run smstep h empty))) = when_absent x.
Proof. exact never_set. Qed.
Print Assumptions C22_never_set.

(** ... and a rejected set raises TypeError and destroys the old value, except that a
    station list that is not a dictionary leaves it. *)
Theorem C22_rejected : forall t x v, sreached t -> fst (smstep (set_call x v) t) <> Ok SUnit ->
  let t1 := snd (smstep (set_call x v) t) in
  fst (smstep (set_call x v) t) = Err TypeError /\
  fst (smstep (get_call x) t1) = (match x with
     | Stations => if is_dict v then when_absent x else fst (smstep (get_call x) t)
     | _ => when_absent x end) /\
  (forall y, y <> x -> fst (smstep (get_call y) t1) = fst (smstep (get_call y) t)).
Proof. exact rejected_set. Qed.
Print Assumptions C22_rejected.

Example C22_ex : let d := VDict [(KStr (str_of "k"), VInt 1)] in
  let h := [SmSetConfig (VInt 0); SmSetRupture d; SmSetStations d] in
  let t := snd (run smstep h empty) in
  Forall smgood h /\ fst (smstep (set_call Config d) t) = Ok SUnit /\
  fst (smstep (set_call Rupture (VInt 1)) t) <> Ok SUnit /\ fst (smstep (set_call Stations (VInt 1)) t) <> Ok SUnit /\
  fst (smstep (get_call Rupture) (snd (smstep (set_call Rupture (VInt 1)) t))) = Err AttributeError /\
  fst (smstep (get_call Stations) (snd (smstep (set_call Stations (VInt 1)) t))) = Ok (SVal d) /\
  forallb (fun o => negb (is_set_call History o)) h = true.
Proof. split; [names|]. repeat split; vm_compute; (reflexivity || discriminate). Qed.
