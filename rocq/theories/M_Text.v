(** Small text helpers of the library that work on whole strings. *)
From Coq Require Import String.
From Verif Require Import Prelude.
Local Open Scope Z_scope.

(** constants.py 50-57 (ESCAPED_CHARS) *)
Definition escaped_char (c : Z) : option (list Z) :=
  if c =? 10 then Some [92; 110] else if c =? 13 then Some [92; 114] else if c =? 9 then Some [92; 116]
  else if c =? 8 then Some [92; 98] else if c =? 12 then Some [92; 102] else if c =? 40 then Some [92; 40]
  else if c =? 41 then Some [92; 41] else if c =? 92 then Some [92; 92] else None.
(** utils.py 27-31 (pdf_escape_string) *)
Definition pdf_escape_string (s : list Z) : list Z :=
  flat_map (fun c => match escaped_char c with Some e => e | None => [c] end) s.

(** types/native.py 36-37 (HexString.to_bytes): bytes.fromhex on a string of hex digits.
    White space inside the argument, which bytes.fromhex skips, is not modelled (the parser
    produces none). *)
Fixpoint fromhex (s : list Z) : res (list Z) :=
  match s with
  | [] => Ok []
  | a :: b :: r =>
      match hexval a, hexval b with
      | Some h, Some l => match fromhex r with Ok d => Ok (16 * h + l :: d) | Err e => Err e end
      | _, _ => Err ValueErr
      end
  | [_] => Err ValueErr
  end.
