(** C31-C33: the scp client. *)
From Coq Require Import ZArith String Ascii Bool List Lia.
From Verif Require Import PyBase PyStr FsModel FsSpec ScpModel ScpSpec ScpProofs ScpTreeProofs.
Import ListNotations.

(** ** C31 *)
(** After any command that itself consists of literal words, the quoted string
    is exactly one more literal word. *)
Theorem C31_word : forall line w ws s, shell_words line = Some (w :: ws) -> s <> [] -> ~ In nul s -> hd " "%char s <> "~"%char ->
  shell_words (line ++ str_of " " ++ sh_quote s) = Some (w :: ws ++ [s]).
Proof. intros line w ws s H Hs Hn Ht. apply quoted_word; try assumption. destruct s; [congruence|exact Ht]. Qed.
Print Assumptions C31_word.
Example C31_ex : shell_words (str_of "scp" ++ str_of " " ++ sh_quote (str_of "a'b; rm -rf $HOME")) = Some [str_of "scp"; str_of "a'b; rm -rf $HOME"].
Proof. reflexivity. Qed.
Example C31_ex_lexer : shell_words (str_of "scp a; rm b") = None /\ shell_words (str_of "scp 'a' ""b c""d") = Some [str_of "scp"; str_of "a"; str_of "b cd"] /\ shell_words (str_of "scp 'a") = None.
Proof. split; [|split]; reflexivity. Qed.

(** The remote command of put. *)
Theorem C31_put : forall (recursive : bool) p, p <> [] -> ~ In nul p -> hd " "%char p <> "~"%char ->
  shell_words (put_command recursive p) = Some ([str_of "scp"] ++ (if recursive then [str_of "-r"] else []) ++ [str_of "-t"; p]).
Proof.
  intros recursive p Hp Hn Ht. unfold put_command. destruct recursive.
  - exact (C31_word (str_of "scp -r -t") _ [str_of "-r"; str_of "-t"] p eq_refl Hp Hn Ht).
  - exact (C31_word (str_of "scp -t") _ [str_of "-t"] p eq_refl Hp Hn Ht).
Qed.
Print Assumptions C31_put.
Example C31_ex_put : shell_words (put_command true (str_of "my dir/$(x)")) = Some [str_of "scp"; str_of "-r"; str_of "-t"; str_of "my dir/$(x)"].
Proof. reflexivity. Qed.

(** The remote command of get, for any number of paths. *)
Theorem C31_get : forall (recursive preserve : bool) paths, paths <> [] ->
  Forall (fun s => s <> [] /\ ~ In nul s /\ hd " "%char s <> "~"%char) paths ->
  shell_words (get_command recursive preserve paths) =
  Some ([str_of "scp"] ++ (if recursive then [str_of "-r"] else []) ++ (if preserve then [str_of "-p"] else []) ++ [str_of "-f"] ++ paths).
Proof.
  intros recursive preserve paths Hne F.
  assert (W : Forall wordy paths).
  { eapply Forall_impl; [|exact F]. intros s (A & B & C). split; [assumption|]. split; [assumption|]. destruct s; [congruence|exact C]. }
  unfold get_command. destruct recursive, preserve.
  - exact (quoted_words paths (str_of "scp -r -p -f") _ [str_of "-r"; str_of "-p"; str_of "-f"] eq_refl Hne W).
  - exact (quoted_words paths (str_of "scp -r -f") _ [str_of "-r"; str_of "-f"] eq_refl Hne W).
  - exact (quoted_words paths (str_of "scp -p -f") _ [str_of "-p"; str_of "-f"] eq_refl Hne W).
  - exact (quoted_words paths (str_of "scp -f") _ [str_of "-f"] eq_refl Hne W).
Qed.
Print Assumptions C31_get.
Example C31_ex_get : shell_words (get_command false true [str_of "a b"; str_of "c"]) = Some [str_of "scp"; str_of "-p"; str_of "-f"; str_of "a b"; str_of "c"].
Proof. reflexivity. Qed.

(** Without the hypotheses: a leading tilde is left to the remote shell, which
    replaces it by a home directory, and an empty path vanishes. *)
Theorem C31_tilde_refuted : exists p, p <> [] /\ ~ In nul p /\ put_command false p = str_of "scp -t ~user" /\ shell_words (put_command false p) = None.
Proof. exists (str_of "~user"). split; [discriminate|]. split; [vm_compute; intuition discriminate|]. split; reflexivity. Qed.
Print Assumptions C31_tilde_refuted.
Theorem C31_empty_refuted : forall recursive, shell_words (put_command recursive []) = Some ([str_of "scp"] ++ (if recursive : bool then [str_of "-r"] else []) ++ [str_of "-t"]).
Proof. intros []; reflexivity. Qed.
Print Assumptions C31_empty_refuted.
(** A string of the safe class is sent unchanged: a path beginning with a dash is an option for the remote scp. *)
Theorem C31_dash_refuted : exists p, p <> [] /\ ~ In nul p /\ put_command false p = str_of "scp -t -x".
Proof. exists (str_of "-x"). split; [discriminate|]. split; [vm_compute; intuition discriminate|reflexivity]. Qed.
Print Assumptions C31_dash_refuted.

(** ** C32 *)
(** Sending ends, and a receiver of the protocol reads back mode, name and
    content, for every content and buffer size, whatever follows. *)
Theorem C32_sent : forall buff mode name content rest, (0 < buff)%nat -> ~ In " "%char mode -> ~ In nl name ->
  exists fuel0, forall fuel, (fuel0 <= fuel)%nat -> exists bytes,
    send_file fuel buff mode (List.length content) name content = Some bytes /\ read_file (bytes ++ rest) = Some (mode, name, content, rest).
Proof.
  intros buff mode name content rest Hb Hm Hn. exists (List.length content). intros fuel Hf.
  destruct (send_file fuel buff mode (List.length content) name content) as [bytes|] eqn:E.
  - exists bytes. split; [reflexivity|]. rewrite (send_file_read _ _ _ _ _ _ rest Hm E Hb Hf), replace1_none by assumption. reflexivity.
  - unfold send_file in E. rewrite send_loop_rest in E by lia. discriminate.
Qed.
Print Assumptions C32_sent.
Example C32_ex_sent : send_file 9 2 (str_of "0644") 5 (str_of "f.txt") (str_of "hello") = Some (str_of "C0644 5 f.txt" ++ [nl] ++ str_of "hello" ++ [nul]).
Proof. reflexivity. Qed.
(** Names with a newline arrive with that newline spelled backslash, caret, J. *)
Theorem C32_newline : forall buff mode name content rest fuel bytes, (0 < buff)%nat -> ~ In " "%char mode -> (List.length content <= fuel)%nat ->
  send_file fuel buff mode (List.length content) name content = Some bytes ->
  read_file (bytes ++ rest) = Some (mode, flat_map (fun c => if Ascii.eqb c nl then str_of "\^J" else [c]) name, content, rest).
Proof.
  intros buff mode name content rest fuel bytes Hb Hm Hf E. rewrite (send_file_read _ _ _ _ _ _ rest Hm E Hb Hf), replace1.
  rewrite (flat_map_ext (fun c => if Ascii.eqb nl c then str_of "\^J" else [c]) (fun c => if Ascii.eqb c nl then str_of "\^J" else [c])); [reflexivity|].
  intro c. rewrite Ascii.eqb_sym. reflexivity.
Qed.
Print Assumptions C32_newline.
Example C32_ex_newline : send_file 9 2 (str_of "0644") 1 (str_of "a" ++ [nl]) (str_of "x") = Some (str_of "C0644 1 a\^J" ++ [nl] ++ str_of "x" ++ [nul]).
Proof. reflexivity. Qed.

(** If the file shrinks after its size has been asked for, sending never ends. *)
Theorem C32_shrunk : forall fuel buff mode size name content, (List.length content < size)%nat -> send_file fuel buff mode size name content = None.
Proof. intros fuel buff mode size name content H. unfold send_file. rewrite send_loop_shrunk by lia. reflexivity. Qed.
Print Assumptions C32_shrunk.
Example C32_ex_shrunk : send_file 100 4 (str_of "0644") 5 (str_of "f") (str_of "hell") = None.
Proof. reflexivity. Qed.
(** If it grows, more bytes are sent than announced, and the receiver cannot
    read the message. *)
Theorem C32_grown_refuted : exists buff mode size name content bytes, (0 < buff)%nat /\ (size < List.length content)%nat /\
  send_file 10 buff mode size name content = Some bytes /\ read_file bytes = None.
Proof.
  exists 16%nat, (str_of "0644"), 3%nat, (str_of "f"), (str_of "hello"). eexists. split; [lia|]. split; [cbn; lia|]. split; [reflexivity|]. reflexivity.
Qed.
Print Assumptions C32_grown_refuted.

(** Receiving: whatever amounts the channel delivers at a time and whatever
    the buffer size, the content is what was sent. *)
Theorem C32_received : forall recv buff content rest, (0 < buff)%nat -> exists fuel0, forall fuel, (fuel0 <= fuel)%nat ->
  recv_content fuel recv buff (List.length content) (content ++ nul :: rest) = Some (Ok content).
Proof. intros recv buff content rest Hb. exists (List.length content). intros fuel Hf. apply recv_content_ok; assumption. Qed.
Print Assumptions C32_received.
Example C32_ex_received : recv_content 20 (fun i => Nat.modulo i 3) 4 5 (str_of "hello" ++ [nul]) = Some (Ok (str_of "hello")).
Proof. reflexivity. Qed.
(** Another byte than NUL after the content is reported. *)
Theorem C32_bad_end : forall recv buff content c rest, (0 < buff)%nat -> c <> nul -> exists fuel0, forall fuel, (fuel0 <= fuel)%nat ->
  recv_content fuel recv buff (List.length content) (content ++ c :: rest) = Some (Err SCPError).
Proof. intros recv buff content c rest Hb Hc. exists (List.length content). intros fuel Hf. apply recv_bad_end; assumption. Qed.
Print Assumptions C32_bad_end.
Example C32_ex_bad_end : recv_content 20 (fun _ => 1%nat) 4 5 (str_of "hello!") = Some (Err SCPError).
Proof. reflexivity. Qed.
(** If the channel closes early, receiving never ends. *)
Theorem C32_closed : forall fuel recv buff size stream, (List.length stream < size)%nat -> recv_content fuel recv buff size stream = None.
Proof. intros fuel recv buff size stream H. unfold recv_content. rewrite recv_closed by lia. reflexivity. Qed.
Print Assumptions C32_closed.
Example C32_ex_closed : recv_content 50 (fun _ => 1%nat) 4 5 (str_of "hell") = None.
Proof. reflexivity. Qed.

(** ** C33 *)
(** For every list of files and directory trees, the receiver is never told to
    leave its top directory, ends there, and gets exactly the directories and
    files of each tree, each once, under the name of that tree. *)
Theorem C33_recursive : forall items,
  Forall (fun it => (exists b, named (fst it) b) /\ wf (snd it) /\ no_newlines (snd it)) items ->
  exists fuel0, forall fuel, (fuel0 <= fuel)%nat -> exists ms parts, put_messages fuel items = Some ms /\
    Forall2 (fun it part => forall b, named (fst it) b -> whole_tree b (snd it) (fst part) (snd part)) items parts /\
    receive [] ms = Some (flat_map fst parts, flat_map snd parts, []).
Proof. exact put_ok. Qed.
Print Assumptions C33_recursive.
Definition C33_tree := Dir [(str_of "a", Dir [(str_of "b", Dir [(str_of "f", File (str_of "1"))]); (str_of "bc", Dir [(str_of "g", File (str_of "2"))])]);
                            (str_of "ab", Dir []); (str_of "h", File (str_of "3"))].
Example C33_ex : exists ms, put_messages 5 [(str_of "x/top", C33_tree)] = Some ms /\ receive [] ms = Some
   ([[str_of "top"]; [str_of "top"; str_of "a"]; [str_of "top"; str_of "a"; str_of "b"]; [str_of "top"; str_of "a"; str_of "bc"]; [str_of "top"; str_of "ab"]],
    [([str_of "top"; str_of "h"], str_of "3"); ([str_of "top"; str_of "a"; str_of "b"; str_of "f"], str_of "1"); ([str_of "top"; str_of "a"; str_of "bc"; str_of "g"], str_of "2")], []).
Proof. eexists. split; reflexivity. Qed.
Example C33_ex_hyps : named (str_of "x/top") (str_of "top") /\ wf C33_tree.
Proof.
  split; [split; [discriminate|split; [vm_compute; intuition discriminate|split; [vm_compute; intuition discriminate|right; exists (str_of "x"); reflexivity]]]|].
  apply wfb_ok. vm_compute. reflexivity.
Qed.
(** A path with a slash at the end gives a directory with an empty name. *)
Theorem C33_slash_refuted : exists base es ms, put_messages 5 [(base, Dir es)] = Some ms /\ receive [] ms = Some ([[[]]], [], []).
Proof. exists (str_of "dir/"), []. eexists. split; reflexivity. Qed.
Print Assumptions C33_slash_refuted.
(** The root directory cannot be sent: the loop of pops never ends. *)
Theorem C33_root : forall fuel es, put_messages fuel [(str_of "/", Dir es)] = None.
Proof.
  intros fuel es. cbn [put_messages]. unfold send_recursive. cbn [walk_dirs send_dirs]. unfold chdir.
  change (fst (os_split (common_prefix (str_of "/" ++ [sl]) (str_of "/" ++ [sl])))) with [sl; sl]. change (rstrip_sl (str_of "/")) with (@nil ascii).
  rewrite (root_stuck fuel [] (or_introl eq_refl)). reflexivity.
Qed.
Print Assumptions C33_root.
Example C33_ex_root : put_messages 30 [(str_of "/", Dir [])] = None.
Proof. reflexivity. Qed.
(** Two different files can arrive under the same name. *)
Theorem C33_newline_refuted : exists es ms p, wf (Dir es) /\ put_messages 5 [(str_of "d", Dir es)] = Some ms /\
  receive [] ms = Some ([[str_of "d"]], [(p, str_of "1"); (p, str_of "2")], []).
Proof.
  exists [(str_of "a" ++ [nl], File (str_of "1")); (str_of "a\^J", File (str_of "2"))]. eexists _, _. split; [|split; reflexivity].
  apply wfb_ok. vm_compute. reflexivity.
Qed.
Print Assumptions C33_newline_refuted.
