(** Shared vocabulary: bytes, Python exceptions as values, list helpers.
    No part of /repo is modelled here except pdfreader/constants.py (whitespace
    and delimiter tables), cited at each definition. *)
From Coq Require Export List ZArith Lia Bool Arith.
From Coq Require Import String Ascii.
From Coq Require Export ZifyBool ZifyNat.
Export ListNotations.
Local Open Scope Z_scope.

(** Python bytes and str are lists of integers (bytes: 0..255, str: code points). *)
Definition byte_ok (b : Z) : Prop := 0 <= b < 256.
Definition bytes_ok (l : list Z) : Prop := Forall byte_ok l.

(** Text literal -> list of codes, for writing "endobj" etc. *)
Fixpoint bs (s : string) : list Z :=
  match s with
  | EmptyString => []
  | String a r => Z.of_nat (nat_of_ascii a) :: bs r
  end.

(** Python exceptions that the modelled code can raise.  [OutOfFuel] is not a Python
    exception: it marks an exhausted loop bound of the model and is never caught. *)
Inductive exn : Set :=
| ParserExc | TypeErr | ValueErr | KeyErr | IndexErr | AttributeErr
| AssertionErr | NotImpl | UnboundLocal | StructErr | BruteForceRec
| PageDoesNotExist | StopIter | ZlibErr | InvalidData | OSErr | EOFExc | UnicodeErr
| DictExc (* reserved *) | ByteSkip
| OutOfFuel.

Definition exn_eqb (a b : exn) : bool :=
  match a, b with
  | ParserExc, ParserExc | TypeErr, TypeErr | ValueErr, ValueErr | KeyErr, KeyErr
  | IndexErr, IndexErr | AttributeErr, AttributeErr | AssertionErr, AssertionErr
  | NotImpl, NotImpl | UnboundLocal, UnboundLocal | StructErr, StructErr
  | BruteForceRec, BruteForceRec | PageDoesNotExist, PageDoesNotExist
  | StopIter, StopIter | ZlibErr, ZlibErr | InvalidData, InvalidData | OSErr, OSErr
  | EOFExc, EOFExc | UnicodeErr, UnicodeErr | DictExc, DictExc | ByteSkip, ByteSkip
  | OutOfFuel, OutOfFuel => true
  | _, _ => false
  end.

Lemma exn_eqb_eq a b : exn_eqb a b = true <-> a = b.
Proof. destruct a, b; simpl; split; intro; congruence. Qed.

(** Outcome of a Python call. *)
Inductive res (A : Type) : Type :=
| Ok (a : A)
| Err (e : exn).
Arguments Ok {A} a.
Arguments Err {A} e.

Definition rbind {A B} (r : res A) (k : A -> res B) : res B :=
  match r with Ok a => k a | Err e => Err e end.

(** Membership of an integer in a list. *)
Fixpoint memZ (x : Z) (l : list Z) : bool :=
  match l with [] => false | y :: r => (x =? y) || memZ x r end.

Lemma memZ_In x l : memZ x l = true <-> In x l.
Proof.
  induction l as [|y r IH]; simpl; [intuition congruence|].
  rewrite orb_true_iff, IH, Z.eqb_eq. intuition congruence.
Qed.

Fixpoint eqlZ (a b : list Z) : bool :=
  match a, b with
  | [], [] => true
  | x :: a', y :: b' => (x =? y) && eqlZ a' b'
  | _, _ => false
  end.

Lemma eqlZ_eq a b : eqlZ a b = true <-> a = b.
Proof.
  revert b; induction a as [|x a IH]; intros [|y b]; simpl; try (split; congruence).
  rewrite andb_true_iff, Z.eqb_eq, IH. split; [intros [-> ->]; auto | intros H; inversion H; auto].
Qed.

Lemma eqlZ_refl a : eqlZ a a = true.
Proof. now apply eqlZ_eq. Qed.

Lemma eqlZ_neq a b : eqlZ a b = false <-> a <> b.
Proof.
  split; intro H.
  - intro E; apply eqlZ_eq in E; congruence.
  - destruct (eqlZ a b) eqn:E; auto. apply eqlZ_eq in E; contradiction.
Qed.

(** Length as an integer (Python len). *)
Definition zlen {A} (l : list A) : Z := Z.of_nat (List.length l).

Lemma zlen_nonneg {A} (l : list A) : 0 <= zlen l.
Proof. unfold zlen; lia. Qed.
Lemma zlen_app {A} (a b : list A) : zlen (a ++ b) = zlen a + zlen b.
Proof. unfold zlen; rewrite app_length; lia. Qed.
Lemma zlen_cons {A} (x : A) l : zlen (x :: l) = 1 + zlen l.
Proof. unfold zlen; cbn [List.length]; lia. Qed.
Lemma zlen_nil {A} : zlen (@nil A) = 0.
Proof. reflexivity. Qed.

(** File byte at an absolute position, [None] outside the file. *)
Definition znth (l : list Z) (p : Z) : option Z :=
  if p <? 0 then None else nth_error l (Z.to_nat p).

(** Python slice l[a:b] for 0 <= a (negative bounds are normalised by the callers). *)
Definition slice {A} (l : list A) (a b : Z) : list A :=
  firstn (Z.to_nat (b - a)) (skipn (Z.to_nat a) l).

(** pdfreader/constants.py 10-11 (WHITESPACES). *)
Definition whitespaces : list Z := [0; 9; 10; 12; 13; 32].
Definition is_ws (c : Z) : bool := memZ c whitespaces.
(** pdfreader/constants.py 10 (DELIMITERS). *)
Definition delimiters : list Z := bs "()<>[]{}/%".
Definition is_delim (c : Z) : bool := memZ c delimiters.
Definition is_digit (c : Z) : bool := (48 <=? c) && (c <=? 57).

(** Hexadecimal digit value. *)
Definition hexval (c : Z) : option Z :=
  if (48 <=? c) && (c <=? 57) then Some (c - 48)
  else if (65 <=? c) && (c <=? 70) then Some (c - 55)
  else if (97 <=? c) && (c <=? 102) then Some (c - 87)
  else None.

(** Upper-case hexadecimal digit of 0..15. *)
Definition hexdig (v : Z) : Z := if v <? 10 then v + 48 else v + 55.

Lemma hexval_range c v : hexval c = Some v -> 0 <= v < 16.
Proof.
  unfold hexval.
  destruct ((48 <=? c) && (c <=? 57)) eqn:E1; [intros H; inversion H; lia|].
  destruct ((65 <=? c) && (c <=? 70)) eqn:E2; [intros H; inversion H; lia|].
  destruct ((97 <=? c) && (c <=? 102)) eqn:E3; [intros H; inversion H; lia|congruence].
Qed.

Lemma hexval_hexdig v : 0 <= v < 16 -> hexval (hexdig v) = Some v.
Proof.
  intros H. unfold hexval, hexdig.
  destruct (v <? 10) eqn:E.
  - replace ((48 <=? v + 48) && (v + 48 <=? 57)) with true by lia. f_equal; lia.
  - replace ((48 <=? v + 55) && (v + 55 <=? 57)) with false by lia.
    replace ((65 <=? v + 55) && (v + 55 <=? 70)) with true by lia. f_equal; lia.
Qed.
