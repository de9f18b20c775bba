(** Shared vocabulary for modelling Python code: exceptions as values and
    strings as lists of characters.

    Nothing here models a particular function of /repo; the constructors of
    [exn] are the Python exception classes that the modelled functions raise
    (impactutils/exceptions.py, Python builtins, re.error, h5py errors). *)
From Coq Require Import ZArith String Ascii Bool List Lia.
From Coq Require Import DecimalString DecimalZ.
Import ListNotations.

(** Python exception classes.  [Unbound] is UnboundLocalError, [NameErr] is
    NameError, [ReError] is re.error, [Generic] is a bare [Exception]. *)
Inductive exn : Type :=
| ValueError | KeyError | LookupError | IndexError | TypeError
| AttributeError | AssertionError | NameErr | Unbound | ReError
| FileNotFoundError | NotADirectory | OverflowError | ZeroDivisionError
| RequiredArgumentError | UnsupportedArgumentError | PDLError | SCPError
| AmbiguousTime | IOErr | UnicodeErr | NotImplementedErr | UnsortedError | Generic
| ConsistentLengthError (* impactutils.exceptions *)
| NotModelled.

(** Result of a call: a value or a raised exception. *)
Inductive res (A : Type) : Type :=
| Ok (a : A)
| Err (e : exn).
Arguments Ok {A} a.
Arguments Err {A} e.

Definition bind {A B} (r : res A) (f : A -> res B) : res B :=
  match r with Ok a => f a | Err e => Err e end.

Definition res_map {A B} (f : A -> B) (r : res A) : res B :=
  match r with Ok a => Ok (f a) | Err e => Err e end.

Definition is_ok {A} (r : res A) : bool :=
  match r with Ok _ => true | Err _ => false end.

(** Python [str] (or ASCII [bytes]) as a list of characters. *)
Definition str := list ascii.
Definition str_of (x : string) : str := list_ascii_of_string x.
Coercion str_of : string >-> str.

Definition chr (n : nat) : ascii := ascii_of_nat n.

(** The characters '-' and '\\'. *)
Definition minus : ascii := chr 45.
Definition backslash : ascii := chr 92.

Definition ascii_eqb (a b : ascii) : bool := Ascii.eqb a b.

Fixpoint str_eqb (a b : str) : bool :=
  match a, b with
  | [], [] => true
  | x :: a', y :: b' => Ascii.eqb x y && str_eqb a' b'
  | _, _ => false
  end.

(** Character class [\d] of Python's [re] restricted to ASCII. *)
Definition is_digit (c : ascii) : bool :=
  let n := nat_of_ascii c in (48 <=? n)%nat && (n <=? 57)%nat.

(** Longest prefix satisfying [p] and the remainder. *)
Fixpoint span {A} (p : A -> bool) (l : list A) : list A * list A :=
  match l with
  | [] => ([], [])
  | x :: l' => if p x then let (a, b) := span p l' in (x :: a, b) else ([], l)
  end.

(** Python's [str(n)] for an integer: the standard library's decimal printer. *)
Definition str_of_Z (n : Z) : str :=
  list_ascii_of_string (NilZero.string_of_int (Z.to_int n)).

(** [sep.join(l)]. *)
Fixpoint join (sep : str) (l : list str) : str :=
  match l with
  | [] => []
  | [x] => x
  | x :: l' => x ++ sep ++ join sep l'
  end.

Fixpoint starts_with (p l : str) : bool :=
  match p, l with
  | [], _ => true
  | x :: p', y :: l' => Ascii.eqb x y && starts_with p' l'
  | _ :: _, [] => false
  end.

Lemma str_eqb_spec : forall a b, reflect (a = b) (str_eqb a b).
Proof.
  induction a as [|x a IH]; intros [|y b]; simpl; try (constructor; congruence).
  destruct (Ascii.eqb_spec x y) as [->|Hn]; simpl.
  - destruct (IH b) as [->|Hn]; constructor; congruence.
  - constructor; congruence.
Qed.

Lemma str_eqb_eq : forall a b, str_eqb a b = true <-> a = b.
Proof. intros a b; destruct (str_eqb_spec a b); split; congruence. Qed.

Lemma str_eqb_refl : forall a, str_eqb a a = true.
Proof. intro a; apply str_eqb_eq; reflexivity. Qed.

Lemma str_eqb_neq : forall a b, str_eqb a b = false <-> a <> b.
Proof. intros a b; destruct (str_eqb_spec a b); split; congruence. Qed.

Lemma str_eqb_sym : forall a b, str_eqb a b = str_eqb b a.
Proof.
  intros a b; destruct (str_eqb_spec a b), (str_eqb_spec b a); congruence.
Qed.

Lemma span_app : forall {A} (p : A -> bool) l a b, span p l = (a, b) -> l = a ++ b.
Proof.
  induction l as [|x l IH]; simpl; intros a b H.
  - inversion H; reflexivity.
  - destruct (p x).
    + destruct (span p l) as [a' b']. inversion H; subst. simpl. f_equal. apply IH; reflexivity.
    + inversion H; reflexivity.
Qed.

Lemma span_forall : forall {A} (p : A -> bool) l a b, span p l = (a, b) -> forallb p a = true.
Proof.
  induction l as [|x l IH]; simpl; intros a b H.
  - inversion H; reflexivity.
  - destruct (p x) eqn:Hp.
    + destruct (span p l) as [a' b']. inversion H; subst. simpl. rewrite Hp. simpl. eapply IH; reflexivity.
    + inversion H; reflexivity.
Qed.

Lemma span_rest : forall {A} (p : A -> bool) l a b, span p l = (a, b) ->
  b = [] \/ exists c b', b = c :: b' /\ p c = false.
Proof.
  induction l as [|x l IH]; simpl; intros a b H.
  - inversion H; auto.
  - destruct (p x) eqn:Hp.
    + destruct (span p l) as [a' b']. inversion H; subst. eapply IH; reflexivity.
    + inversion H; subst. right. eauto.
Qed.

(** Characterisation of [span]: it is determined by its result. *)
Lemma span_unique : forall {A} (p : A -> bool) a b,
  forallb p a = true ->
  (b = [] \/ exists c b', b = c :: b' /\ p c = false) ->
  span p (a ++ b) = (a, b).
Proof.
  induction a as [|x a IH]; simpl; intros b Ha Hb.
  - destruct Hb as [->|(c & b' & -> & Hc)]; simpl; [reflexivity|]. rewrite Hc. reflexivity.
  - apply andb_prop in Ha. destruct Ha as [Hx Ha]. rewrite Hx. rewrite (IH b Ha Hb). reflexivity.
Qed.

Lemma join_cons : forall sep x l, l <> [] -> join sep (x :: l) = x ++ sep ++ join sep l.
Proof. intros sep x [|y l] H; [congruence|reflexivity]. Qed.
