(** Vocabulary for messages with attachments: what a receiver makes of the lines. *)
From Coq Require Import ZArith String Ascii Bool List.
From Verif Require Import PyBase MimeModel CopySpec.
Import ListNotations.
Open Scope Z_scope.

(** base64 (RFC 4648): three bytes are four digits. *)
Definition digit64 (c v : Z) : Prop :=
  (65 <= c <= 90 /\ v = c - 65) \/ (97 <= c <= 122 /\ v = c - 71) \/ (48 <= c <= 57 /\ v = c + 4) \/ (c = 43 /\ v = 62) \/ (c = 47 /\ v = 63).
Definition byte (a : Z) : Prop := 0 <= a < 256.
Inductive base64 : list Z -> text -> Prop :=
| b64_nil : base64 [] []
| b64_one a c1 c2 v1 v2 : byte a -> digit64 c1 v1 -> digit64 c2 v2 -> a * 16 = v1 * 64 + v2 -> base64 [a] [c1; c2; 61; 61]
| b64_two a b c1 c2 c3 v1 v2 v3 : byte a -> byte b -> digit64 c1 v1 -> digit64 c2 v2 -> digit64 c3 v3 -> (a * 256 + b) * 4 = (v1 * 64 + v2) * 64 + v3 -> base64 [a; b] [c1; c2; c3; 61]
| b64_more a b c c1 c2 c3 c4 v1 v2 v3 v4 l t : byte a -> byte b -> byte c -> digit64 c1 v1 -> digit64 c2 v2 -> digit64 c3 v3 -> digit64 c4 v4 ->
    (a * 256 + b) * 256 + c = ((v1 * 64 + v2) * 64 + v3) * 64 + v4 -> base64 l t -> base64 (a :: b :: c :: l) (c1 :: c2 :: c3 :: c4 :: t).
(** A text and its lines. *)
Fixpoint joined (ls : list text) : text := match ls with [] => [] | [l] => l | l :: r => l ++ 10 :: joined r end.
Definition lines_are (t : text) (ls : list text) : Prop := ls <> [] /\ Forall (fun l => ~ In 10 l) ls /\ t = joined ls.
(** Line ends of all three kinds become line feeds. *)
Inductive unix : text -> text -> Prop :=
| unix_nil : unix [] []
| unix_char c r t : c <> 13 -> unix r t -> unix (c :: r) (c :: t)
| unix_crlf r t : unix r t -> unix (13 :: 10 :: r) (10 :: t)
| unix_cr r t : (forall r', r <> 10 :: r') -> unix r t -> unix (13 :: r) (10 :: t).
Definition all_ascii (t : text) : Prop := Forall (fun c => c < 128) t.

(** A part: header fields, an empty line, lines. *)
Definition reads (p : list line) (hs : list (str * str)) (ls : list text) : Prop := p = map (fun h => Head (fst h) (snd h)) hs ++ Text [] :: map Text ls.
(** The names of header fields are not case sensitive. *)
Definition same_letter (c d : ascii) : Prop :=
  c = d \/ (65 <= nat_of_ascii c <= 90 /\ nat_of_ascii d = nat_of_ascii c + 32)%nat \/ (97 <= nat_of_ascii c <= 122 /\ nat_of_ascii c = nat_of_ascii d + 32)%nat.
Definition has_field (hs : list (str * str)) (name value : str) : Prop := exists n, In (n, value) hs /\ Forall2 same_letter n name.
(** Addresses in a header field. *)
Inductive addresses : list str -> str -> Prop :=
| addresses_none : addresses [] []
| addresses_one a : addresses [a] a
| addresses_more a b l s : addresses (b :: l) s -> addresses (a :: b :: l) (a ++ str_of ", " ++ s).
(** What the lines of a part stand for. *)
Definition holds_text (hs : list (str * str)) (ls : list text) (t : text) : Prop := has_field hs (str_of "Content-Transfer-Encoding") (str_of "7bit") /\ lines_are t ls.
Definition holds_bytes (hs : list (str * str)) (ls : list text) (bytes : list Z) : Prop :=
  has_field hs (str_of "Content-Transfer-Encoding") (str_of "base64") /\ base64 bytes (concat ls) /\ Forall (fun l => (length l <= 76)%nat) ls.

(** The parts between the boundaries. *)
Definition marks (b : text) (l : line) : Prop := l = Text (45 :: 45 :: b) \/ l = Text (45 :: 45 :: b ++ [45; 45]).
Inductive between (b : text) : list line -> list (list line) -> Prop :=
| between_end rest : between b (Text (45 :: 45 :: b ++ [45; 45]) :: rest) []
| between_part p l ps : Forall (fun x => ~ marks b x) p -> between b l ps -> between b (Text (45 :: 45 :: b) :: p ++ l) (p :: ps).
Definition free_of (b : text) (t : text) : Prop := forall ls, lines_are t ls -> Forall (fun l => ~ marks b (Text l)) ls.

Section Arrive.
Variable encode : text -> list Z.
Variable decode : list Z -> option text.
Variable guess : str -> option (str * str) * bool.
Variable file : str -> option (list Z).
(** A file of text that is not compressed; its text. *)
Definition text_file (path sub : str) : Prop := guess path = (Some (str_of "text", sub), false).
Definition file_says (path : str) (t : text) : Prop := exists bytes raw, file path = Some bytes /\ decode bytes = Some raw /\ unix raw t.
(** The type of a file: what is compressed or not known is a stream of bytes. *)
Definition of_type (path main sub : str) : Prop :=
  guess path = (Some (main, sub), false) \/ ((forall t, guess path <> (Some t, false)) /\ main = str_of "application" /\ sub = str_of "octet-stream").
(** A part that brings a file. *)
Definition brings (path : str) (p : list line) : Prop :=
  exists hs ls name, reads p hs ls /\ base_of path name /\ has_field hs (str_of "Content-Disposition") (str_of "attachment; filename=" ++ name) /\
    ((exists sub t, text_file path sub /\ file_says path t /\
        ((all_ascii t /\ holds_text hs ls t /\ has_field hs (str_of "Content-Type") (str_of "text/" ++ sub ++ str_of "; charset=us-ascii")) \/
         (~ all_ascii t /\ holds_bytes hs ls (encode t) /\ has_field hs (str_of "Content-Type") (str_of "text/" ++ sub ++ str_of "; charset=utf-8")))) \/
     (exists bytes main sub, (forall sub, ~ text_file path sub) /\ file path = Some bytes /\ holds_bytes hs ls bytes /\ of_type path main sub /\ has_field hs (str_of "Content-Type") (main ++ str_of "/" ++ sub))).
(** Why a file can not be attached. *)
Definition refuses (path : str) (e : exn) : Prop :=
  (file path = None /\ e = FileNotFoundError) \/ (exists sub bytes, text_file path sub /\ file path = Some bytes /\ decode bytes = None /\ e = UnicodeErr).
End Arrive.
