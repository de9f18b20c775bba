(** What is said about mail, independently of how it is batched and sent. *)
From Coq Require Import ZArith String Ascii Bool List Lia.
From Verif Require Import PyBase EmailModel.
Import ListNotations.
Open Scope Z_scope.

(** The recipients in consecutive groups of [size], the last one possibly smaller. *)
Definition groups (recipients : list str) (size : Z) (gs : list (list str)) : Prop :=
  concat gs = recipients /\
  (forall g, In g gs -> 1 <= Z.of_nat (List.length g) <= size) /\
  (forall pre g g' post, gs = pre ++ g :: g' :: post -> Z.of_nat (List.length g) = size).

(** The messages to be sent: address and Bcc list of each. *)
Definition messages (c : settings) (ts : list (str * list str)) : Prop :=
  match e_max_bcc c with
  | Some 0 => map fst ts = e_recipients c /\ (forall t, In t ts -> snd t = [])
  | Some m => groups (e_recipients c) (m - 1) (map snd ts) /\
              (forall t, In t ts -> fst t = match e_primary c with Some p => p | None => [] end)
  | None => groups (e_recipients c) 24 (map snd ts) /\
            (forall t, In t ts -> fst t = match e_primary c with Some p => p | None => [] end)
  end.

(** Outcomes of sessions. *)
Definition accepts (r : reply) : Prop := r <> Rejects.
Definition clean (r : reply) : Prop := exists refused, r = Accepts refused true.
Definition ideal (r : reply) : Prop := r = Rejects \/ r = Accepts [] true.

(** What a server hands on when it accepts. *)
Definition hand_on (r : reply) (s : str) (rcpt : list str) (m : mail) : list delivery :=
  match r with
  | Rejects => []
  | Accepts refused _ => [{| d_server := s; d_to := filter (fun a => if in_dec (list_eq_dec ascii_dec) a refused then false else true) rcpt; d_mail := m |}]
  end.
