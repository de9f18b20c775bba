(** Model of /repo/impactutils/transfer/emailsender.py.  Messages are records
    of their headers and contents: the MIME text is not modelled, only whether
    building it succeeds.  SMTP servers answer according to a schedule indexed
    by the number of sessions opened so far, so every behaviour over time is
    covered. *)
From Coq Require Import ZArith String Ascii Bool List Lia.
From Verif Require Import PyBase PyStr.
Import ListNotations.
Open Scope Z_scope.

(** l[i:j] for integers (Python's slicing rules). *)
Definition slice_index (n i : Z) : Z := if i <? 0 then Z.max 0 (i + n) else Z.min n i.
Definition py_slice {A} (l : list A) (i j : Z) : list A :=
  let n := Z.of_nat (List.length l) in
  let a := slice_index n i in
  let b := slice_index n j in
  firstn (Z.to_nat (b - a)) (skipn (Z.to_nat a) l).

(** emailsender.py:288-293: the while loop, with a bound on the iterations;
    None when the bound is exhausted. *)
Fixpoint split_loop (fuel : nat) (recipients : list str) (max_bcc : Z) (primary : str) (istart : Z) : option (list (str * list str)) :=
  if istart <? Z.of_nat (List.length recipients) then
    match fuel with
    | O => None
    | S fuel' =>
        let iend := Z.min (Z.of_nat (List.length recipients)) (istart + (max_bcc - 1)) in
        match split_loop fuel' recipients max_bcc primary iend with
        | Some rest => Some ((primary, py_slice recipients istart iend) :: rest)
        | None => None
        end
    end
  else Some [].

(** emailsender.py:268-295  _split_addresses *)
Definition split_addresses (fuel : nat) (recipients : list str) (max_bcc : Z) (primary : str) : option (list (str * list str)) :=
  if max_bcc =? 0 then Some (map (fun r => (r, [])) recipients)
  else split_loop fuel recipients max_bcc primary 0.

Definition is_empty (s : str) : bool := match s with [] => true | _ => false end.

Inductive attachment := Plain (f : str) | Zip (name : str) (entries : list (str * str)).  (* entries: name in the archive, file *)
Record mail := { m_from : str; m_to : str; m_subject : str; m_bcc : list str; m_body : str; m_att : list attachment }.

(** One SMTP session: it fails before the message is accepted (connection,
    HELO, sender, all recipients or data refused), or the message is accepted
    for all but the [refused] recipients, and then quit succeeds or raises. *)
Inductive reply := Rejects | Accepts (refused : list str) (quits : bool).
Record delivery := { d_server : str; d_to : list str; d_mail : mail }.

Definition str_in (x : str) (l : list str) : bool := existsb (str_eqb x) l.

(** emailsender.py:315-339: the loop over the servers; [n] sessions have been
    opened so far.  smtplib's sendmail raises only if every recipient is
    refused; its result, the dictionary of refused recipients, is not used. *)
Fixpoint try_servers (smtp : nat -> reply) (n : nat) (servers : list str) (rcpt : list str) (m : mail) (sent : bool)
    : list delivery * nat * bool :=
  match servers with
  | [] => ([], n, sent)
  | s :: servers' =>
      match smtp n with
      | Rejects => try_servers smtp (S n) servers' rcpt m sent
      | Accepts refused quits =>
          let d := {| d_server := s; d_to := filter (fun a => negb (str_in a refused)) rcpt; d_mail := m |} in
          if quits then ([d], S n, true)
          else let '(ds, n', b) := try_servers smtp (S n) servers' rcpt m true in (d :: ds, n', b)
      end
  end.

(** emailsender.py:298-348  _send_email: the deliveries, the sessions opened,
    and whether it returns (otherwise it raises Exception). *)
Definition send_email (smtp : nat -> reply) (n : nat) (rcpt : list str) (m : mail) (servers : list str) : list delivery * nat * bool :=
  try_servers smtp n servers rcpt m false.

Record settings := {
  e_sender : str; e_subject : str; e_text : str; e_servers : list str; e_recipients : list str;
  e_max_bcc : option Z; e_primary : option str; e_zip : option str;
  e_cancel_subject : option str; e_cancel_content : option str;
  e_files : list str; e_dir : option str
}.

(** emailsender.py:132-144 and 235-247: max_bcc (default 25) and the address
    of batched messages; [primary_recipient] is not used when max_bcc is 0. *)
Definition max_bcc_of (c : settings) : Z := match e_max_bcc c with Some m => m | None => 25 end.
Definition primary_of (c : settings) : str := match e_primary c with Some p => p | None => [] end.

(** sender.py:97-112  getAllLocalFiles; [walk] lists the files below a directory. *)
Definition all_local_files (walk : str -> list str) (c : settings) : list str :=
  match e_dir c with Some d => if is_empty d then [] else walk d | None => [] end.
Definition truthy_dir (c : settings) : bool := match e_dir c with Some d => negb (is_empty d) | None => false end.

(** emailsender.py:158-182: the attachments.  Without zip_file, [all_files] is
    assigned inside the loop over the local files (line 180): it is unbound
    when there are none. *)
Definition attachments (walk : str -> list str) (c : settings) : res (list attachment) :=
  if negb (Nat.eqb (List.length (e_files c)) 0) || truthy_dir c then
    match e_zip c with
    | Some z =>
        Ok [Zip z (map (fun f => (snd (os_split f), f)) (e_files c) ++
                   (if truthy_dir c then
                      match e_dir c with
                      | Some d => map (fun f => (py_replace f d [], f)) (all_local_files walk c)
                      | None => []
                      end
                    else []))]
    | None =>
        match e_files c with
        | [] => Err Unbound
        | _ => Ok (map Plain (e_files c ++ all_local_files walk c))
        end
    end
  else Ok [].

(** emailsender.py:157-201: one message per address tuple; [encodes] tells
    whether reading the attachments and building the text succeeds.  The result
    is the deliveries, the sessions opened, and whether no exception arose. *)
Fixpoint send_batches (encodes : mail -> bool) (smtp : nat -> reply) (n : nat) (servers : list str)
    (mk : str -> list str -> res mail) (ts : list (str * list str)) : list delivery * nat * bool :=
  match ts with
  | [] => ([], n, true)
  | (address, bcc) :: ts' =>
      match mk address bcc with
      | Err _ => ([], n, false)
      | Ok m =>
          if encodes m then
            match send_email smtp n (address :: bcc) m servers with
            | (ds, n', false) => (ds, n', false)
            | (ds, n', true) =>
                let '(ds', n'', b) := send_batches encodes smtp n' servers mk ts' in (ds ++ ds', n'', b)
            end
          else ([], n, false)
      end
  end.

(** emailsender.py:116-214  EmailSender.send: None when the splitting does not
    terminate within [fuel] steps; otherwise the deliveries made and the number
    of files reported, or None when it raises Exception. *)
Definition send_mail (fuel : nat) (walk : str -> list str) (encodes : mail -> bool) (smtp : nat -> reply) (c : settings)
    : option (list delivery * option nat) :=
  match split_addresses fuel (e_recipients c) (max_bcc_of c) (primary_of c) with
  | None => None
  | Some ts =>
      let mk address bcc :=
        match attachments walk c with
        | Err e => Err e
        | Ok att => Ok {| m_from := e_sender c; m_to := address; m_subject := e_subject c; m_bcc := bcc;
                          m_body := e_text c; m_att := att |}
        end in
      let '(ds, _, b) := send_batches encodes smtp 0 (e_servers c) mk ts in
      Some (ds, if b then Some (List.length (e_files c) + match e_dir c with Some d => List.length (walk d) | None => 0 end)%nat else None)
  end.

(** emailsender.py:216-265  EmailSender.cancel *)
Definition cancel_mail (fuel : nat) (encodes : mail -> bool) (smtp : nat -> reply) (c : settings) (content : option str)
    : option (list delivery * bool) :=
  let subject := match e_cancel_subject c with Some s => s | None => e_subject c end in
  let content := match e_cancel_content c with Some s => Some s | None => content end in
  match split_addresses fuel (e_recipients c) (max_bcc_of c) (primary_of c) with
  | None => None
  | Some ts =>
      let body := match content with Some s => s | None => str_of "This is a cancel message." end in
      let mk address bcc := Ok {| m_from := e_sender c; m_to := address; m_subject := subject; m_bcc := bcc;
                                  m_body := body; m_att := [] |} in
      let '(ds, _, b) := send_batches encodes smtp 0 (e_servers c) mk ts in
      Some (ds, b)
  end.
