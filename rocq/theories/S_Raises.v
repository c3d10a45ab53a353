(** What a reader may expect when a file is damaged: the exceptions that leave the constructor of a document and the lookups in it. *)
From Coq Require Import String.
From Verif Require Import Prelude M_Prog M_Parser M_Filters M_Document.
Local Open Scope Z_scope.

(** ParserException and built-in exceptions of Python; InvalidData is of the CCITT decoder, struct.error of packing a key.
    The scanner's own BruteForceRecursion is not among them. *)
Definition expected_exceptions : list exn :=
  [ParserExc; TypeErr; ValueErr; KeyErr; AttributeErr; IndexErr; AssertionErr; NotImpl; InvalidData; StructErr].

(** A value, or one of these exceptions. *)
Definition value_or_expected {A} (r : res A) : Prop := match r with Ok _ => True | Err e => In e expected_exceptions end.

(** The model's fuel ran out: the call is taken not to return. *)
Definition never_returns {A} (r : res A) : Prop := r = Err OutOfFuel.

Section Calls.
  Variable inflate : list Z -> option (list Z).
  Variable ccitt : list Z -> fparams -> res (list Z).
  Variable decrypt : Z -> Z -> obj -> res obj.
  Variables (D m k : nat).
  (** [asked f s outcomes s']: lookups made one after the other in the open document, each of which returned or raised. *)
  Inductive asked (f : list Z) : ast rst -> list (res obj) -> ast rst -> Prop :=
  | asked_nothing s : asked f s [] s
  | asked_one s num gen r s1 rs s2 :
      arun f (locate_object inflate ccitt decrypt D m k num gen) s = (r, s1) -> ~ never_returns r -> asked f s1 rs s2 -> asked f s (r :: rs) s2.
End Calls.
