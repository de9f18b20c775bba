(** Model of _get_encoded_message of /repo/impactutils/transfer/emailsender.py, and of what it
    uses of the standard library's email package.  A message is its list of lines: header
    fields, which are kept as names and values (their folding and encoding are left out), and
    lines of text.  Characters and bytes are numbers. *)
From Coq Require Import ZArith String Ascii Bool List.
From Verif Require Import PyBase PyStr.
Import ListNotations.
Open Scope Z_scope.

Definition text := list Z.
Definition codes (s : str) : text := map (fun c => Z.of_nat (nat_of_ascii c)) s.
Inductive line := Head (name value : str) | Text (t : text).
Definition part := list line.

(** ** base64.encodebytes: lines of 76 characters, each with its end *)
Definition digits64 : text := codes (str_of "ABCDEFGHIJKLMNOPQRSTUVWXYZabcdefghijklmnopqrstuvwxyz0123456789+/").
Definition char64 (v : Z) : Z := nth (Z.to_nat v) digits64 0.
Definition pad : Z := 61.
Fixpoint encode64 (l : list Z) : text :=
  match l with
  | a :: b :: c :: r => let n := a * 65536 + b * 256 + c in
      char64 (n / 262144) :: char64 (n / 4096 mod 64) :: char64 (n / 64 mod 64) :: char64 (n mod 64) :: encode64 r
  | [a; b] => let n := a * 65536 + b * 256 in [char64 (n / 262144); char64 (n / 4096 mod 64); char64 (n / 64 mod 64); pad]
  | [a] => let n := a * 65536 in [char64 (n / 262144); char64 (n / 4096 mod 64); pad; pad]
  | [] => []
  end.
Fixpoint chunks (fuel : nat) (l : text) : list text :=
  match fuel, l with
  | _, [] => [[]]
  | O, _ => [l]
  | S f, _ => firstn 76 l :: chunks f (skipn 76 l)
  end.
(** The lines of the encoded text; the last one is empty. *)
Definition lines64 (l : list Z) : list text := let t := encode64 l in chunks (length t) t.

(** The lines of a text *)
Fixpoint text_lines (t : text) : list text :=
  match t with
  | [] => [[]]
  | c :: r => if c =? 10 then [] :: text_lines r else match text_lines r with l :: ls => (c :: l) :: ls | [] => [[c]] end
  end.
Definition is_ascii (t : text) : bool := forallb (fun c => c <? 128) t.

Section Mime.
Variable encode : text -> list Z.                      (* text.encode('utf-8') *)
Variable decode : list Z -> option text.               (* bytes.decode(); None: UnicodeDecodeError *)
Variable guess : str -> option (str * str) * bool.     (* mimetypes.guess_type: the type and whether there is an encoding *)
Variable file : str -> option (list Z).                (* the bytes of a file; None: it can not be opened *)

(** Text files are read with universal newlines. *)
Fixpoint newlines (t : text) : text :=
  match t with
  | [] => []
  | c :: r => if c =? 13 then match r with d :: r' => if d =? 10 then 10 :: newlines r' else 10 :: newlines r | [] => [10] end
              else c :: newlines r
  end.
Definition content_type (main sub : str) : str := main ++ str_of "/" ++ sub.
(** MIMEText(text, _subtype=subtype): ASCII as it is, anything else as base64 of UTF-8 *)
Definition mime_text (t : text) (sub : str) : part :=
  if is_ascii t then
    [Head (str_of "Content-Type") (content_type (str_of "text") sub ++ str_of "; charset=us-ascii"); Head (str_of "MIME-Version") (str_of "1.0");
     Head (str_of "Content-Transfer-Encoding") (str_of "7bit")]
  else
    [Head (str_of "Content-Type") (content_type (str_of "text") sub ++ str_of "; charset=utf-8"); Head (str_of "MIME-Version") (str_of "1.0");
     Head (str_of "Content-Transfer-Encoding") (str_of "base64")].
Definition mime_text_body (t : text) : list text := if is_ascii t then text_lines t else lines64 (encode t).
(** MIMEImage, MIMEAudio, MIMEApplication, and MIMEBase with encode_base64 *)
Definition mime_bytes (main sub : str) : part :=
  [Head (str_of "Content-Type") (content_type main sub); Head (str_of "MIME-Version") (str_of "1.0"); Head (str_of "Content-Transfer-Encoding") (str_of "base64")].

(** emailsender.py:383-388: the type of an attachment *)
Definition attachment_type (path : str) : str * str :=
  match guess path with
  | (Some t, false) => t
  | _ => (str_of "application", str_of "octet-stream")
  end.
(** emailsender.py:389-413: the part of one attachment; the header fields are followed by an empty line *)
Definition attach (path : str) : res part :=
  let '(main, sub) := attachment_type path in
  let disposition := Head (str_of "Content-Disposition") (str_of "attachment; filename=" ++ snd (os_split path)) in
  match file path with
  | None => Err FileNotFoundError
  | Some bytes =>
      if str_eqb main (str_of "text") then
        match decode bytes with
        | None => Err UnicodeErr
        | Some raw => let t := newlines raw in Ok (mime_text t sub ++ [disposition; Text []] ++ map Text (mime_text_body t))
        end
      else Ok (mime_bytes main sub ++ [disposition; Text []] ++ map Text (lines64 bytes))
  end.
Fixpoint attach_all (paths : list str) : res (list part) :=
  match paths with [] => Ok [] | p :: r => bind (attach p) (fun a => bind (attach_all r) (fun l => Ok (a :: l))) end.
(** emailsender.py:376-380: the part of the message's text *)
Definition text_part (t : text) : part :=
  [Head (str_of "Content-type") (str_of "text/plain"); Head (str_of "Content-transfer-encoding") (str_of "7bit"); Text []] ++ map Text (text_lines t).
(** emailsender.py:367-374, 418: the whole, with boundary [b] (the generator takes one that is no line of the parts);
    the date is a parameter of as_string's output that is left out *)
Definition delimiter (b : text) : text := [45; 45] ++ b.
Definition closing (b : text) : text := [45; 45] ++ b ++ [45; 45].
Definition encoded_message (b : text) (address subject sender : str) (t : text) (attachments bcc : list str) : res (list line) :=
  bind (attach_all attachments) (fun parts => Ok (
    [Head (str_of "Content-Type") (str_of "multipart/mixed"); Head (str_of "MIME-Version") (str_of "1.0");
     Head (str_of "Subject") subject; Head (str_of "To") address; Head (str_of "From") sender; Head (str_of "Bcc") (join (str_of ", ") bcc); Text []] ++
    flat_map (fun p => Text (delimiter b) :: p) (text_part t :: parts) ++ [Text (closing b); Text []])).
(** emailsender.py:186-196: without attachments *)
Definition plain_message (address subject sender : str) (t : text) (bcc : list str) : list line :=
  mime_text t (str_of "plain") ++
  [Head (str_of "From") sender; Head (str_of "To") address; Head (str_of "Subject") subject; Head (str_of "Bcc") (join (str_of ", ") bcc); Text []] ++ map Text (mime_text_body t).
(** smtplib's sendmail: the text is encoded in ASCII, else UnicodeEncodeError (which _send_email, emailsender.py:333-335,
    takes for a failed connection) *)
Definition sendable (m : list line) : bool := forallb (fun l => match l with Text t => is_ascii t | Head _ _ => true end) m.
End Mime.
