(** Property theorems C16-C18: HDF containers. *)
From Coq Require Import ZArith String Ascii Bool List Lia.
From Verif Require Import PyBase HdfModel HdfSpec HdfProofs HdfBaseProofs HdfMoreProofs.
Import ListNotations.
Open Scope Z_scope.

Ltac names := repeat constructor; try discriminate; try (unfold str_of, slash, chr; simpl; intuition discriminate).

(** C16.  The container is five independent finite maps. *)
Theorem C16_five_maps : forall ops, Forall good_op ops ->
  Forall2 agree (fst (run step ops empty)) (fst (arun ops no_maps)).
Proof. exact container_refines. Qed.
Print Assumptions C16_five_maps.

Definition ex_history : list op :=
  [SetDict (str_of "a") (VDict [(KInt 3, VTuple [VInt 1; VNone])]); SetString (str_of "a") (str_of "text");
   Drop KString (str_of "a"); Get KDict (str_of "a"); Names KString].
Example C16_ex : Forall good_op ex_history /\
  fst (run step ex_history empty) =
    [Ok RUnit; Ok RUnit; Ok RUnit;
     Ok (RVal (PJson (VDict [(KStr (str_of "3"), VList [VInt 1; VNone])])) []); Ok (RNames [])].
Proof. split; [names|vm_compute; reflexivity]. Qed.

(** C16.  A get returns what the last successful set of that name and kind stored. *)
Theorem C16_last_set_wins : forall h1 o h2 k n v a, Forall good_op h1 -> good_op o -> Forall good_op h2 ->
  set_op k n v a o ->
  forallb (fun o' => negb (writes k n o')) h2 = true ->
  let t1 := snd (run step h1 empty) in
  fst (step o t1) = Ok RUnit ->
  fst (step (Get k n) (snd (run step h2 (snd (step o t1))))) = Ok (RVal v a).
Proof. exact last_set_wins. Qed.
Print Assumptions C16_last_set_wins.

Example C16_ex_last :
  set_op KList (str_of "x") (PJson (VList [VInt 7])) [] (SetList (str_of "x") (VTuple [VInt 7])) /\
  forallb (fun o' => negb (writes KList (str_of "x") o')) [SetDict (str_of "x") VNone; Drop KDict (str_of "x"); Drop KList (str_of "y")] = true /\
  fst (step (SetList (str_of "x") (VTuple [VInt 7])) (snd (run step [SetString (str_of "x") []] empty))) = Ok RUnit.
Proof. repeat split; vm_compute; reflexivity. Qed.

(** C16.  Plain JSON values come back exactly; everything else stored becomes plain. *)
Theorem C16_plain_values : forall v, (json_plain v = true -> enc_json v = Ok (PJson v)) /\
  (forall p, enc_json v = Ok p -> exists j, p = PJson j /\ json_plain j = true).
Proof. exact json_values. Qed.
Print Assumptions C16_plain_values.

Example C16_ex_plain : json_plain (VDict [(KStr (str_of "a"), VList [VInt 1; VDict []]); (KStr (str_of "b"), VNone)]) = true /\
  enc_json (VDict [(KInt 1, VTuple [])]) = Ok (PJson (VDict [(KStr (str_of "1"), VList [])])) /\
  enc_json (VList [VOther]) = Err TypeError.
Proof. vm_compute. auto. Qed.

(** C16.  What is stored is the JSON form of the value; foreign objects are refused. *)
Theorem C16_json_form : forall v,
  if json_able v then exists j, enc_json v = Ok (PJson j) /\ json_rel v j else enc_json v = Err TypeError.
Proof. exact json_form. Qed.
Print Assumptions C16_json_form.

Example C16_ex_json : json_able (VDict [(KInt 1, VTuple [VNone]); (KStr (str_of "1"), VInt 5)]) = true /\
  enc_json (VDict [(KInt 1, VTuple [VNone]); (KStr (str_of "1"), VInt 5)]) = Ok (PJson (VDict [(KStr (str_of "1"), VInt 5)])).
Proof. vm_compute. auto. Qed.

(** C16 fails for names containing a slash: the listing does not show the name
    and an absolute name reaches another kind. *)
Theorem C16_slash_names_refuted : exists n v,
  let t := snd (run step [SetDict n v] empty) in
  fst (step (Get KDict n) t) = Ok (RVal (PJson v) []) /\ fst (step (Names KDict) t) = Ok (RNames [str_of "a"]) /\ n <> str_of "a".
Proof. exists (str_of "a/b"), (VInt 1). vm_compute. repeat split; discriminate. Qed.
Print Assumptions C16_slash_names_refuted.

Theorem C16_absolute_names_refuted : exists n v,
  let t := snd (run step [SetList (str_of "l") (VInt 0); SetDict (str_of "x") v] empty) in
  fst (step (Get KList n) t) = Ok (RVal (PJson v) []).
Proof. exists (str_of "/dictionaries/x"), (VInt 1). vm_compute. reflexivity. Qed.
Print Assumptions C16_absolute_names_refuted.

(** C17.  A second set fails and changes no stored value; *)
Theorem C17_second_set : forall t k n o v a, reached t -> good_name n -> sets k n o = true ->
  fst (step (Get k n) t) = Ok (RVal v a) ->
  (exists e, fst (step o t) = Err e /\ (forall c, content o = Ok c -> e = ValueError)) /\ same_gets t (snd (step o t)).
Proof. exact second_set. Qed.
Print Assumptions C17_second_set.

Example C17_ex1 : let t := snd (run step [SetString (str_of "s") (str_of "one")] empty) in
  sets KString (str_of "s") (SetString (str_of "s") (str_of "two")) = true /\
  fst (step (Get KString (str_of "s")) t) = Ok (RVal (PText (str_of "one")) []) /\
  fst (step (SetString (str_of "s") (str_of "two")) t) = Err ValueError.
Proof. vm_compute. auto. Qed.

(** ... getting or dropping what is not there raises and changes nothing; *)
Theorem C17_missing : forall ops k n, Forall good_op ops -> good_name n ->
  let t := snd (run step ops empty) in
  let e := if existsb (sets_kind k) ops then LookupError else KeyError in
  (forall v a, fst (step (Get k n) t) <> Ok (RVal v a)) ->
  fst (step (Get k n) t) = Err e /\ step (Drop k n) t = (Err e, t).
Proof. exact missing. Qed.
Print Assumptions C17_missing.

Example C17_ex2 : let ops := [SetString (str_of "s") []; Drop KString (str_of "s")] in
  let t := snd (run step ops empty) in
  Forall good_op ops /\ (forall v a, fst (step (Get KString (str_of "s")) t) <> Ok (RVal v a)) /\
  existsb (sets_kind KString) ops = true /\ existsb (sets_kind KArray) ops = false.
Proof. split; [names|]. split; [intros v a; vm_compute; discriminate|]. vm_compute. auto. Qed.

(** ... and after a drop the name can be set again, nothing else having changed. *)
Theorem C17_drop_then_set : forall t k n, reached t -> good_name n -> fst (step (Drop k n) t) = Ok RUnit ->
  let t1 := snd (step (Drop k n) t) in
  (exists v a, fst (step (Get k n) t) = Ok (RVal v a)) /\
  fst (step (Get k n) t1) = Err LookupError /\
  (forall k' n', good_name n' -> (k', n') <> (k, n) -> fst (step (Get k' n') t1) = fst (step (Get k' n') t)) /\
  (forall o v a, sets k n o = true -> content o = Ok (v, a) ->
     fst (step o t1) = Ok RUnit /\ fst (step (Get k n) (snd (step o t1))) = Ok (RVal v a)).
Proof. exact drop_then_set. Qed.
Print Assumptions C17_drop_then_set.

Example C17_ex3 : let ar := {| shape := [2]; cells := [1; 2]; storable := true |} in
  let t := snd (run step [SetArray (str_of "q") ar [(str_of "units", AVal 5)] true] empty) in
  reached t /\ good_name (str_of "q") /\ fst (step (Drop KArray (str_of "q")) t) = Ok RUnit /\
  content (SetArray (str_of "q") ar [(str_of "units", AVal 5)] true) = Ok (PArr ar, [(str_of "units", 5)]).
Proof.
  split; [eexists; split; [|reflexivity]; names|]. split; [names|]. vm_compute. auto.
Qed.

(** C17.  A failed set is not always without effect: bad metadata raises but the
    array stays, with the metadata written so far. *)
Theorem C17_failed_set_stores_refuted : exists n a meta,
  let r := step (SetArray n a meta true) empty in
  fst r = Err TypeError /\ fst (step (Get KArray n) (snd r)) = Ok (RVal (PArr a) [(str_of "x", 1)]).
Proof.
  exists (str_of "q"), {| shape := [1]; cells := [0]; storable := true |}, [(str_of "x", AVal 1); (str_of "y", ABad); (str_of "z", AVal 2)].
  vm_compute. auto.
Qed.
Print Assumptions C17_failed_set_stores_refuted.

(** C18.  The grouped container is a map from paths to values and groups. *)
Theorem C18_paths : forall ops, Forall good_bop ops -> bagree_run ops (fst (run bstep ops empty)) no_files.
Proof. exact base_refines. Qed.
Print Assumptions C18_paths.

Definition ex_groups : list bop :=
  [BSetString [str_of "g"; str_of "h"] (str_of "s") (str_of "one"); BSetString [] (str_of "t") (str_of "two");
   BSetString [str_of "t"] (str_of "u") []; BNames KString; BDrop KString [str_of "g"; str_of "h"] (str_of "s");
   BNames KString; BGet KString [str_of "g"] (str_of "h"); BGet KString [] (str_of "t")].
Example C18_ex : Forall good_bop ex_groups /\
  fst (run bstep ex_groups empty) =
    [Ok RUnit; Ok RUnit; Err Generic; Ok (RNames [str_of "g/h/s"; str_of "t"]); Ok RUnit;
     Ok (RNames [str_of "g/h"; str_of "t"]); Err TypeError; Ok (RVal (PText (str_of "two")) [])].
Proof. split; [unfold ex_groups, good_bop, bop_names; names|vm_compute; reflexivity]. Qed.

(** C18.  A set is what the next get returns, and no set ever removes or alters a
    stored value. *)
Theorem C18_set_get : forall t o k g n c, breached t -> good_bop o -> bcontent o = Some (k, g, n, c) ->
  let t1 := snd (bstep o t) in
  (fst (bstep o t) = Ok RUnit -> exists v a, c = Ok (v, a) /\ fst (bstep (BGet k g n) t1) = Ok (RVal v a)) /\
  (forall k' g' n' v a, good_bop (BGet k' g' n') -> fst (bstep (BGet k' g' n') t) = Ok (RVal v a) ->
     fst (bstep (BGet k' g' n') t1) = Ok (RVal v a)).
Proof. exact grouped_set. Qed.
Print Assumptions C18_set_get.

Example C18_ex_set :
  let t := snd (run bstep [BSetString [str_of "g"] (str_of "s") (str_of "one")] empty) in
  let o := BSetString [str_of "g"; str_of "h"] (str_of "s") (str_of "two") in
  breached t /\ good_bop o /\ fst (bstep o t) = Ok RUnit /\
  fst (bstep (BGet KString [str_of "g"] (str_of "s")) t) = Ok (RVal (PText (str_of "one")) []).
Proof.
  split; [eexists; split; [|reflexivity]; unfold good_bop, bop_names; names|].
  split; [unfold good_bop, bop_names; names|]. vm_compute. auto.
Qed.
