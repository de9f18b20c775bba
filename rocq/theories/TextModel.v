(** Model of /repo/impactutils/textformat/text.py (integer/string parts).
    The floating-point functions are in RoundModel.v. *)
From Coq Require Import ZArith String Ascii Bool List.
From Verif Require Import PyBase.
Import ListNotations.
Open Scope Z_scope.

(** text.py:10  decimalDens *)
Definition decimalDens : list Z :=
  [1000; 900; 500; 400; 100; 90; 50; 40; 10; 9; 5; 4; 1].

(** text.py:11-12  romanDens *)
Definition romanDens : list str :=
  map str_of ["M"; "CM"; "D"; "CD"; "C"; "XC"; "L"; "XL"; "X"; "IX"; "V"; "IV"; "I"]%string.

(** text.py:40-62  _dec_to_roman.  The recursion is on explicit fuel; [None]
    is fuel exhaustion (never a Python outcome).  [romans[0]] of an empty list
    is an IndexError; [romans[1:]] of an empty list is empty. *)
Fixpoint dec_to_roman_rec (fuel : nat) (num : Z) (s : str)
         (decs : list Z) (romans : list str) : option (res str) :=
  match fuel with
  | O => None
  | S fuel' =>
      match decs with
      | [] => Some (Ok s)                                     (* 60-62 *)
      | d :: decs' =>
          if num <? d                                         (* 54 *)
          then dec_to_roman_rec fuel' num s decs' (tl romans) (* 56 *)
          else match romans with
               | [] => Some (Err IndexError)
               | r :: _ => dec_to_roman_rec fuel' (num - d) (s ++ r) decs romans (* 59 *)
               end
      end
  end.

(** text.py:15-37  dec_to_roman on an integer argument. *)
Definition dec_to_roman (fuel : nat) (dec : Z) : option (res str) :=
  if dec <=? 0 then Some (Err ValueError)                     (* 31-32 *)
  else if 4000 <=? dec then Some (Err ValueError)             (* 34-35 *)
  else dec_to_roman_rec fuel dec [] decimalDens romanDens.    (* 37 *)

(** The replacement template of text.py:251, [rf'\1{separator}\2'], as Python's
    [re] parses it.  A separator starting with a digit is swallowed by the
    group reference: [\1d] is group 1d, which does not exist (re.error), unless
    two octal digits follow, when [\1cd] is an octal character escape.
    Separators containing a backslash are outside the model. *)
Inductive titem := TLit (s : str) | TGrp1 | TGrp2.

Definition is_octal (c : ascii) : bool :=
  let n := nat_of_ascii c in (48 <=? n)%nat && (n <=? 55)%nat.
Definition digit_val (c : ascii) : nat := (nat_of_ascii c - 48)%nat.

Definition parse_template (sep : str) : res (list titem) :=
  if existsb (Ascii.eqb backslash) sep then Err NotModelled
  else match sep with
  | [] => Ok [TGrp1; TGrp2]
  | c :: r =>
      if is_digit c then
        match r with
        | d :: r' => if is_octal c && is_octal d
                     then Ok [TLit [chr (64 + 8 * digit_val c + digit_val d)]; TLit r'; TGrp2]
                     else Err ReError
        | [] => Err ReError
        end
      else Ok [TGrp1; TLit sep; TGrp2]
  end.

Definition expand (t : list titem) (g1 g2 : str) : str :=
  flat_map (fun i => match i with TLit s => s | TGrp1 => g1 | TGrp2 => g2 end) t.

(** text.py:247  the regular expression  ^(-?\d+)(\d{3})  : optional minus,
    maximal digit run of length at least four split before its last three
    digits (greedy [\d+] with backtracking).  Returns group 1, group 2 and the
    unmatched tail. *)
Definition commify_match (num : str) : option (str * str * str) :=
  let (sign, body) :=
    match num with
    | c :: r => if Ascii.eqb c minus then ([c], r) else ([], num)
    | [] => ([], [])
    end in
  let (ds, rest) := span is_digit body in
  let n := length ds in
  if (4 <=? n)%nat
  then Some (sign ++ firstn (n - 3) ds, skipn (n - 3) ds, rest)
  else None.

(** text.py:249-253  the [while more_to_do] loop, on fuel; [None] = the loop is
    still running. *)
Fixpoint commify_loop (fuel : nat) (t : list titem) (num : str) : option str :=
  match fuel with
  | O => None
  | S fuel' =>
      match commify_match num with
      | Some (g1, g2, rest) => commify_loop fuel' t (expand t g1 g2 ++ rest)
      | None => Some num
      end
  end.

(** text.py:233-253  commify applied to a value whose [str()] is [num]. *)
Definition commify (fuel : nat) (num sep : str) : option (res str) :=
  match parse_template sep with
  | Err e => Some (Err e)
  | Ok t => match commify_loop fuel t num with
            | Some s => Some (Ok s)
            | None => None
            end
  end.
