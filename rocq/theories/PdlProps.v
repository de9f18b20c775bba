(** Property C30: PDL command lines. *)
From Coq Require Import ZArith String Ascii Bool List Lia.
From Verif Require Import PyBase PyStr FsModel FsProofs PdlModel PdlSpec PdlProofs.
Import ListNotations.

(** ** C30  PDL command lines contain every property exactly once *)
Theorem C30_send : forall run decodes count s v ps os, (List.length (p_files s) <= 1)%nat -> configured s v ps os ->
  let cmd := command (str_of "UPDATE") v ps os (file_word s) (dir_word s) in
  fst (pdl_send run decodes count s) = [cmd] /\
  (success (run cmd) = false -> snd (pdl_send run decodes count s) = Err PDLError) /\
  (success (run cmd) = true -> forall text, decodes (out (run cmd)) = Some text ->
     snd (pdl_send run decodes count s) =
       Ok ((List.length (p_files s) + match p_dir s with Some d => count d | None => 0 end)%nat, text)).
Proof.
  intros run decodes count s v ps os Hf C cmd. unfold pdl_send. assert (E : Nat.ltb 1 (List.length (p_files s)) = false) by (apply Nat.ltb_ge; assumption).
  rewrite E, (build_command (str_of "UPDATE") s v ps os Hf (openb_ok (str_of "UPDATE") eq_refl) C). fold cmd. destruct (success (run cmd)).
  - split; [destruct (decodes (out (run cmd))); reflexivity|]. split; [discriminate|]. intros _ text ->. cbn [snd]. f_equal. f_equal. f_equal.
    + destruct (p_files s) as [|f [|g l]]; [reflexivity|reflexivity|cbn in Hf; lia].
    + destruct C as [_ _ _ [_ C5]]. destruct (p_dir s) as [[|c d]|]; [|reflexivity|reflexivity]. destruct (C5 [] eq_refl). congruence.
  - split; [reflexivity|]. split; [reflexivity|discriminate].
Qed.
Print Assumptions C30_send.

Theorem C30_cancel : forall run s v ps os, (List.length (p_files s) <= 1)%nat -> configured s v ps os ->
  let cmd := command (str_of "DELETE") v ps os (file_word s) (dir_word s) in
  fst (pdl_cancel run s) = ([cmd], if success (run cmd) then Ok (out (run cmd)) else Err PDLError).
Proof.
  intros run s v ps os Hf C cmd. unfold pdl_cancel. set (s' := {| p_props := _ |}).
  assert (C' : configured s' v ps os).
  { assert (A : forall k, k <> str_of "directory" -> k <> str_of "file" -> aget k (p_props s') = aget k (p_props s)).
    { intros k N1 N2. subst s'. cbn [p_props]. rewrite !aget_aset. destruct (str_eqb_spec (str_of "directory") k); [congruence|]. destruct (str_eqb_spec (str_of "file") k); [congruence|]. reflexivity. }
    destruct C as [C1 C2 C3 C4]. split; [|exact C2| |exact C4].
    - intros k Hk. rewrite A; [apply C1; assumption| |]; cbn [In] in Hk; repeat (destruct Hk as [<-|Hk]; [discriminate|]); destruct Hk.
    - destruct C3 as (a & b & c & d & e & Ew & H1 & H2 & H3 & H4 & H5). exists a, b, c, d, e. split; [exact Ew|].
      unfold opt_words in *. rewrite !A by discriminate. auto 8. }
  rewrite (build_command (str_of "DELETE") s' v ps os Hf (openb_ok (str_of "DELETE") eq_refl) C'). reflexivity.
Qed.
Print Assumptions C30_cancel.

(** More than one file: no command is run. *)
Theorem C30_one_file : forall run decodes count s, (1 < List.length (p_files s))%nat -> pdl_send run decodes count s = ([], Err PDLError).
Proof. intros run decodes count s H. unfold pdl_send. apply Nat.ltb_lt in H. rewrite H. reflexivity. Qed.
Print Assumptions C30_one_file.

(** Finding: when the output is not UTF-8 the product has been sent and send raises. *)
Theorem C30_undecodable : forall run decodes count s v ps os, (List.length (p_files s) <= 1)%nat -> configured s v ps os ->
  let cmd := command (str_of "UPDATE") v ps os (file_word s) (dir_word s) in
  success (run cmd) = true -> decodes (out (run cmd)) = None -> pdl_send run decodes count s = ([cmd], Err UnicodeErr).
Proof.
  intros run decodes count s v ps os Hf C cmd Hs Hd. unfold pdl_send. assert (E : Nat.ltb 1 (List.length (p_files s)) = false) by (apply Nat.ltb_ge; assumption).
  rewrite E, (build_command (str_of "UPDATE") s v ps os Hf (openb_ok (str_of "UPDATE") eq_refl) C). fold cmd. rewrite Hs, Hd. reflexivity.
Qed.
Print Assumptions C30_undecodable.

Definition ex_value (k : string) : str := str_of "x" ++ str_of k.
Definition ex_pdl : pdl :=
  {| p_props := map (fun k => (str_of k, VStr (ex_value k)))
       ["java"; "jarfile"; "privatekey"; "configfile"; "source"; "type"; "code"; "eventsource"; "eventsourcecode"]%string
       ++ [(str_of "depth", VInt 10); (str_of "latitude", VNum (str_of "32.1000") (str_of "32.1"))];
     p_product := Some [(str_of "alert", VStr (str_of "red"))];
     p_files := [str_of "f"]; p_dir := None |}.
Example C30_ex : configured ex_pdl ex_value [str_of "--property-alert=""red"""] [str_of "--latitude=32.1000"; str_of "--depth=10.0"] /\
  build (str_of "UPDATE") ex_pdl = Ok (str_of ("xjava -jar xjarfile --send --status=UPDATE --source=xsource --type=xtype --code=xcode --eventsource=xeventsource --eventsourcecode=xeventsourcecode --property-alert=""red"" --latitude=32.1000 --depth=10.0 --privateKey=xprivatekey  --configFile=xconfigfile --file=f ")).
Proof.
  split; [|vm_compute; reflexivity]. split.
  - intros k Hk. cbn [In] in Hk. repeat (destruct Hk as [<-|Hk]; [split; [vm_compute; reflexivity|apply openb_ok; reflexivity]|]). destruct Hk.
  - split.
    + constructor; [|constructor]. eexists. split; [apply shown_str|reflexivity].
    + constructor; [apply openb_ok; reflexivity|constructor].
  - exists [str_of "--latitude=32.1000"], [], [str_of "--depth=10.0"], [], []. split; [reflexivity|].
    split; [eexists; split; [apply four_num|reflexivity]|]. split; [reflexivity|]. split; [eexists; split; [apply one_int|reflexivity]|]. split; reflexivity.
  - split; [constructor; [apply openb_ok; reflexivity|constructor]|discriminate].
Qed.

(** Finding: a value containing another property's placeholder is replaced in turn. *)
Theorem C30_brackets_refuted : exists s cmd v,
  (forall k, aget (str_of k) (p_props s) = Some (VStr (v k)) \/ aget (str_of k) (p_props s) = None) /\
  v "source"%string = str_of "[TYPE]" /\ build (str_of "UPDATE") s = Ok cmd /\
  cmd <> command (str_of "UPDATE") v [] [] [] [] /\
  cmd = command (str_of "UPDATE") (fun k => if String.eqb k "source" then v "type"%string else v k) [] [] [] [].
Proof.
  set (v := fun k => if String.eqb k "source" then str_of "[TYPE]" else ex_value k).
  exists {| p_props := map (fun k => (str_of k, VStr (v k)))
       ["java"; "jarfile"; "privatekey"; "configfile"; "source"; "type"; "code"; "eventsource"; "eventsourcecode"]%string;
     p_product := None; p_files := []; p_dir := None |}. eexists. exists v.
  split.
  { intro k. cbn [p_props map]. cbn [aget].
    repeat match goal with |- context [str_eqb (str_of k) (str_of ?x)] => destruct (str_eqb_spec (str_of k) (str_of x)) as [E|];
      [left; apply (f_equal string_of_list_ascii) in E; unfold str_of in E; rewrite !string_of_list_ascii_of_string in E; subst k; reflexivity|] end.
    right. reflexivity. }
  split; [reflexivity|]. split; [vm_compute; reflexivity|]. split; [vm_compute; discriminate|vm_compute; reflexivity].
Qed.
Print Assumptions C30_brackets_refuted.
