(** What a PDL command line should be. *)
From Coq Require Import ZArith String Ascii Bool List Lia.
From Verif Require Import PyBase PyStr PdlModel.
Import ListNotations.

(** Words separated by blanks. *)
Fixpoint spaced (l : list str) : str :=
  match l with [] => [] | [x] => x | x :: r => x ++ str_of " " ++ spaced r end.
(** No opening bracket occurs. *)
Definition no_open (s : str) : Prop := ~ In "["%char s.

(** How a product property's value is shown. *)
Inductive shown : pval -> str -> Prop :=
| shown_str : forall s, shown (VStr s) (str_of """" ++ s ++ str_of """")
| shown_int : forall n, shown (VInt n) (str_of_Z n)
| shown_num : forall a b, shown (VNum a b) a
| shown_time : forall t, shown (VTime t) (firstn 23 t)
| shown_other : forall t, shown (VOther t) t.
Definition product_word (kv : str * pval) (w : str) : Prop :=
  exists t, shown (snd kv) t /\ w = str_of "--property-" ++ fst kv ++ str_of "=" ++ t.

(** How the optional properties are shown, if they are there. *)
Inductive decimals : nat -> pval -> str -> Prop :=
| four_num : forall a b, decimals 4 (VNum a b) a
| one_num : forall a b, decimals 1 (VNum a b) b
| four_int : forall n, decimals 4 (VInt n) (str_of_Z n ++ str_of ".0000")
| one_int : forall n, decimals 1 (VInt n) (str_of_Z n ++ str_of ".0").
Definition opt_words (props : list (str * pval)) (k : string) (render : pval -> str -> Prop) (ws : list str) : Prop :=
  match FsModel.aget (str_of k) props with
  | None => ws = []
  | Some v => exists t, render v t /\ ws = [str_of "--" ++ str_of k ++ str_of "=" ++ t]
  end.
Definition optional_words (props : list (str * pval)) (ws : list str) : Prop :=
  exists a b c d e, ws = a ++ b ++ c ++ d ++ e /\
    opt_words props "latitude" (decimals 4) a /\ opt_words props "longitude" (decimals 4) b /\
    opt_words props "depth" (decimals 1) c /\ opt_words props "magnitude" (decimals 1) d /\
    opt_words props "eventtime" (fun v t => exists full, v = VTime full /\ t = firstn 23 full ++ str_of "Z") e.

(** The command line with the values [v] of the required properties. *)
Definition command (status : str) (v : string -> str) (product optional : list str) (file directory : str) : str :=
  v "java"%string ++ str_of " -jar " ++ v "jarfile"%string ++ str_of " --send --status=" ++ status ++
  str_of " --source=" ++ v "source"%string ++ str_of " --type=" ++ v "type"%string ++ str_of " --code=" ++ v "code"%string ++
  str_of " --eventsource=" ++ v "eventsource"%string ++ str_of " --eventsourcecode=" ++ v "eventsourcecode"%string ++
  str_of " " ++ spaced product ++ str_of " " ++ spaced optional ++
  str_of " --privateKey=" ++ v "privatekey"%string ++ str_of "  --configFile=" ++ v "configfile"%string ++
  str_of " " ++ file ++ str_of " " ++ directory.

(** A complete configuration whose values contain no opening bracket: [v]
    gives the required properties, [ps] and [os] the words of the others. *)
Record configured (s : pdl) (v : string -> str) (ps os : list str) : Prop := {
  c_required : forall k, In k ["java"; "jarfile"; "privatekey"; "configfile"; "source"; "type"; "code"; "eventsource"; "eventsourcecode"]%string ->
    FsModel.aget (str_of k) (p_props s) = Some (VStr (v k)) /\ no_open (v k);
  c_product : Forall2 product_word match p_product s with Some l => l | None => [] end ps /\ Forall no_open ps;
  c_optional : optional_words (p_props s) os;
  c_files : Forall no_open (p_files s) /\ (forall d, p_dir s = Some d -> no_open d /\ d <> [])
}.
(** The words for the file and the directory. *)
Definition file_word (s : pdl) : str := match p_files s with [f] => str_of "--file=" ++ f | _ => [] end.
Definition dir_word (s : pdl) : str := match p_dir s with Some d => str_of "--directory=" ++ d | None => [] end.
