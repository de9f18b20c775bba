(** Vocabulary for palette files. *)
From Coq Require Import ZArith Reals String Ascii Bool List.
From Verif Require Import PyBase PyStr PolySpec.
Import ListNotations.

(** ** Definitions *)
(** A line with [key] and a colon: the text up to the next colon.  Anything may follow the
    key before the first colon. *)
Definition defines (key : string) (line v : str) : Prop :=
  exists t more rest, trimmed line t /\ t = str_of "#$" ++ str_of key ++ more ++ str_of ":" ++ v ++ rest /\ ~ In ":"%char more /\ ~ In ":"%char v /\ (rest = [] \/ exists r, rest = ":"%char :: r).
(** A line that begins like a definition. *)
Definition about (key : string) (line : str) : Prop := exists t more, trimmed line t /\ t = str_of "#$" ++ str_of key ++ more.
(** The value of the last line that gives one, or [d]. *)
Definition last_given {A} (gives : str -> A -> Prop) (lines : list str) (d v : A) : Prop :=
  (exists a l b, lines = a ++ l :: b /\ gives l v /\ forall l' w, In l' b -> ~ gives l' w) \/
  ((forall l' w, In l' lines -> ~ gives l' w) /\ v = d).
Section Numbers.
Variable int_of : str -> option Z.
Variable float_of : str -> option R.
Definition gives_nan (line : str) (l : list Z) : Prop := exists v ps, defines "nan_color" line v /\ parts "," v ps /\ Forall2 (fun p n => int_of p = Some n) ps l.
Definition gives_name (line : str) (s : str) : Prop := exists v, defines "name" line v /\ trimmed v s.
Definition gives_resolution (line : str) (r : option R) : Prop := exists v s x, defines "resolution" line v /\ trimmed v s /\ float_of s = Some x /\ r = Some x.
Definition good_line (line : str) : Prop :=
  (about "nan_color" line -> exists l, gives_nan line l) /\ (about "name" line -> exists s, gives_name line s) /\ (about "resolution" line -> exists r, gives_resolution line r).
End Numbers.

(** ** The table *)
(** A line with the words [ws] before any number sign. *)
Definition carries (line : str) (ws : list str) : Prop :=
  exists d c, line = d ++ c /\ ~ In "#"%char d /\ ~ In (chr 34) d /\ (c = [] \/ exists r, c = "#"%char :: r) /\ words d ws.
(** The rows of a file: lines with nothing, or beginning with a number sign, are left out. *)
Inductive lists : list str -> list (list str) -> Prop :=
| lists_none : lists [] []
| lists_comment r ls t : lists ls t -> lists (("#"%char :: r) :: ls) t
| lists_blank l ls t : blanks l -> lists ls t -> lists (l :: ls) t
| lists_row l ws ls t : ws <> [] -> carries l ws -> lists ls t -> lists (l :: ls) (ws :: t).
(** Column [name] of a table has the values [vs]. *)
Definition holds (field_of : str -> option R) (hs : list str) (rs : list (list str)) (name : string) (vs : list R) : Prop :=
  exists i, nth_error hs i = Some (str_of name) /\ (forall j, (j < i)%nat -> nth_error hs j <> Some (str_of name)) /\
  Forall2 (fun r v => exists x, nth_error r i = Some x /\ field_of x = Some v) rs vs.
