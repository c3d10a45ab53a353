(** Encrypted files with cross-reference streams and object streams (ISO 32000-1, 7.5.7, 7.5.8, 7.6): what
    a sequence of lookups gives when some objects of the file cannot be decrypted. *)
From Coq Require Import String.
From Verif Require Import Prelude M_Parser M_Filters M_Document S_Syntax S_Stream S_Document S_XrefStream S_Registry S_Open S_History S_Modern.
Local Open Scope Z_scope.

(** What stands in the body: an object with those it holds, or an object whose decryption raises. *)
Definition entry : Type := elem + exn.
(** The exceptions a decryption raises. *)
Definition fatal (x : exn) : Prop := In x [ValueErr; TypeErr; AttributeErr; StructErr].
Definition Met (inflate : list Z -> option (list Z)) (ccitt : list Z -> fparams -> res (list Z)) (decrypt : Z -> Z -> obj -> res obj)
    (e : Z * Z * obj) (x : entry) : Prop :=
  match x with
  | inl e' => Viewed inflate ccitt decrypt e e'
  | inr err => decrypt (fst (fst e)) (snd (fst e)) (snd e) = Err err /\ fatal err
  end.

(** The scan stops at an object that cannot be decrypted, and stays there. *)
Fixpoint scan_entries (K : contents) (l : list entry) (num gen : Z) : contents * list entry * option exn :=
  match K num gen with
  | Some _ => (K, l, None)
  | None => match l with
            | [] => (learn K num gen ONull, [], None)
            | inl e :: r => scan_entries (learn_elem K e) r num gen
            | inr x :: _ => (K, l, Some x)
            end
  end.
(** One lookup: of what is known, else of what the sections list in use, else by scanning.  (A known value
    that Python takes for false - null, 0, an empty array - does not keep the sections from being asked.) *)
Definition llook (listed : Z -> Z -> option ((obj * list (Z * obj)) + exn)) (s : contents * list entry) (num gen : Z) : res obj * (contents * list entry) :=
  match fst s num gen with
  | Some w => if truthy w then (Ok w, s) else match listed num gen with Some (inr x) => (Err x, s) | _ => (Ok w, s) end
  | None =>
      match listed num gen with
      | Some (inl (v, ms)) => (Ok v, (learn_elem (fst s) (num, gen, v, ms), snd s))
      | Some (inr x) => (Err x, s)
      | None => let '(K, l, x) := scan_entries (fst s) (snd s) num gen in
                match x with
                | Some e => (Err e, (K, l))
                | None => (Ok (match K num gen with Some v => v | None => ONull end), (K, l))
                end
      end
  end.
Fixpoint llooks (listed : Z -> Z -> option ((obj * list (Z * obj)) + exn)) (s : contents * list entry) (ids : list (Z * Z)) : list (res obj) :=
  match ids with
  | [] => []
  | (n, g) :: r => let '(v, s1) := llook listed s n g in v :: llooks listed s1 r
  end.

(** What the objects before the first undecryptable one provide, and that one's exception. *)
Fixpoint readable (l : list entry) : list elem :=
  match l with inl e :: r => e :: readable r | _ => [] end.
Fixpoint obstacle (l : list entry) : option exn :=
  match l with inl _ :: r => obstacle r | inr x :: _ => Some x | [] => None end.
