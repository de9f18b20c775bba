(** Model of the numeric functions of /repo/impactutils/textformat/text.py.

    Python numbers are integers or doubles; doubles are reals kept in binary64
    by [rnd].  Infinities and NaN are not modelled. *)
From Coq Require Import ZArith Reals String Ascii Bool List.
From Flocq Require Import Core.
From Verif Require Import PyBase FloatBase TextModel.
Import ListNotations.
Open Scope Z_scope.

Inductive pynum : Type := PInt (z : Z) | PFlt (x : R).

Definition num_val (n : pynum) : R := match n with PInt z => IZR z | PFlt x => x end.

(** [float(n)]: correctly rounded; OverflowError when the integer rounds to
    2^1024 or more. *)
Definition py_float (n : pynum) : res R :=
  match n with
  | PInt z => if 2 ^ 1024 - 2 ^ 970 <=? Z.abs z then Err OverflowError else Ok (rnd (IZR z))
  | PFlt x => Ok x
  end.

(** [a * n] for an integer [n]. *)
Definition py_mul_int (a : pynum) (n : Z) : res pynum :=
  match a with
  | PInt z => Ok (PInt (z * n))
  | PFlt x => bind (py_float (PInt n)) (fun f => Ok (PFlt (rnd (x * f))))
  end.

(** [x / d] for a float [x]. *)
Definition py_truediv (x : R) (d : pynum) : res R :=
  bind (py_float d) (fun y => if Req_bool y 0 then Err ZeroDivisionError else Ok (rnd (x / y))).

(** [int(n)]: truncation. *)
Definition py_int (n : pynum) : Z := match n with PInt z => z | PFlt x => Ztrunc x end.

(** [ds.find('.')], -1 when absent. *)
Fixpoint find_dot_from (i : Z) (ds : str) : Z :=
  match ds with
  | [] => -1
  | c :: r => if Ascii.eqb c (chr 46) then i else find_dot_from (i + 1) r
  end.
Definition find_dot (ds : str) : Z := find_dot_from 0 ds.

(** text.py:166-186, 189-208, 211-230: the three functions are the same text
    up to the integer rounding [f] applied to the quotient ([round], [floor]
    or [ceil]).  [ds] is [str(step)], only used when the step is below one. *)
Definition to_nearest (f : R -> Z) (value step : pynum) (ds : str) : res pynum :=
  if Rlt_bool (num_val step) 1 then                                       (* 176 *)
    let nd := Z.of_nat (List.length ds) - (find_dot ds + 1) in            (* 177-178 *)
    bind (py_mul_int value (10 ^ nd)) (fun value' =>                      (* 179 *)
    bind (py_mul_int step (10 ^ nd)) (fun step' =>                        (* 180 *)
    bind (py_float value') (fun fv =>
    bind (py_truediv fv step') (fun q =>
    bind (py_mul_int step' (f q)) (fun p =>                               (* 181 *)
    bind (py_float (PInt (py_int p))) (fun fr =>
    bind (py_truediv fr (PInt (10 ^ nd))) (fun r => Ok (PFlt r))))))))    (* 182 *)
  else
    bind (py_float value) (fun fv =>
    bind (py_truediv fv step) (fun q =>
    bind (py_mul_int step (f q)) (fun p => Ok (PInt (py_int p))))).       (* 184 *)

(** text.py:166-186 *)
Definition round_to_nearest := to_nearest ZnearestE.
(** text.py:189-208 *)
Definition floor_to_nearest := to_nearest Zfloor.
(** text.py:211-230 *)
Definition ceil_to_nearest := to_nearest Zceil.

(** [str] of a step that is an integer or never used. *)
Definition default_ds : str := str_of "1000".

Definition comma : str := str_of ",".

(** text.py:84-98  pop_round on an integer. *)
Definition pop_round (fuel : nat) (value : Z) : option (res str) :=
  match round_to_nearest (PInt value) (PInt 1000) default_ds with
  | Ok (PInt m) => commify fuel (str_of_Z m) comma
  | Ok (PFlt _) => Some (Err NotModelled)
  | Err e => Some (Err e)
  end.

(** text.py:137-163  pop_round_short on an integer. *)
Definition pop_round_short (fuel : nat) (value : Z) (usemillion : bool) : option (res str) :=
  if value <? 1000 then Some (Ok (str_of_Z value))                          (* 150-151 *)
  else
    let m := (1000000 <=? value) && usemillion in                           (* 153-156 *)
    let suffix := if m then str_of "m" else str_of "k" in
    let roundValue := if m then 1000000 else 1000 in                        (* 158 *)
    match round_to_nearest (PInt value) (PInt 1000) default_ds with
    | Ok (PInt r) =>
        let roundnum := r / roundValue in                                   (* 159 *)
        if roundnum =? 0 then Some (Ok (str_of_Z roundnum))                 (* 160-161 *)
        else match commify fuel (str_of_Z roundnum) comma with              (* 163 *)
             | Some (Ok s) => Some (Ok (s ++ suffix))
             | o => o
             end
    | Ok (PFlt _) => Some (Err NotModelled)
    | Err e => Some (Err e)
    end.

Definition radix10 : radix := Build_radix 10 eq_refl.

(** The number denoted by ['{:.<p-1>e}'.format(x)]: correct rounding, ties to
    even, to [p] significant decimal digits. *)
Definition dec_rnd (p : Z) (x : R) : R := round radix10 (FLX_exp p) ZnearestE x.

(** text.py:65-81  set_num_precision.  A precision below one makes the format
    specification invalid (ValueError).  [float(text)] is [rnd]. *)
Definition set_num_precision_float (number : pynum) (precision : Z) : res R :=
  if precision <? 1 then Err ValueError
  else bind (py_float number) (fun x => Ok (rnd (dec_rnd precision x))).

Definition set_num_precision_int (number : pynum) (precision : Z) : res Z :=
  bind (set_num_precision_float number precision) (fun v => Ok (Ztrunc v)).

(** What dollar_round shows: either a comma-grouped integer or a double
    followed by a unit.  The text of the double ([repr]) is not modelled. *)
Inductive dollar_unit := UK | UM | UB | UThousand | UMillion | UBillion.
Inductive dollar_out := DPlain (n : Z) | DUnit (x : R) (u : dollar_unit).

(** text.py:101-134  dollar_round on an integer amount. *)
Definition dollar_round (value digits : Z) (short : bool) : res dollar_out :=
  let scaled (d : Z) (u : dollar_unit) :=
    bind (py_float (PInt value)) (fun fv =>
    bind (py_truediv fv (PFlt (IZR d))) (fun q =>
    bind (set_num_precision_float (PFlt q) digits) (fun x => Ok (DUnit x u)))) in
  if value <? 1000 then                                                      (* 112-113 *)
    bind (set_num_precision_int (PInt value) digits) (fun n => Ok (DPlain n))
  else if short then
    if (1000 <=? value) && (value <? 1000000) then scaled 1000 UK            (* 116-118 *)
    else if (1000000 <=? value) && (value <? 1000000000) then scaled 1000000 UM (* 119-121 *)
    else scaled 1000000000 UB                                                (* 122-124 *)
  else
    if (1000 <=? value) && (value <? 1000000) then scaled 1000 UThousand     (* 126-128 *)
    else if (1000000 <? value) && (value <? 1000000000) then scaled 1000000 UMillion (* 129-131 *)
    else scaled 1000000000 UBillion.                                         (* 132-134 *)
