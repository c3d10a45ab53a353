(** Specification of cross-reference streams (ISO 32000-1, 7.5.8). *)
From Verif Require Import Prelude.
Local Open Scope Z_scope.

(** A row: free (next free number, generation), in use (offset, generation), compressed (number of the
    object stream, index within it), or a type the standard reserves. *)
Inductive srow :=
| RFree (next gen : Z)
| RUsed (off gen : Z)
| RComp (stm idx : Z)
| ROther (t a b : Z).
Definition fields (r : srow) : Z * Z * Z :=
  match r with
  | RFree a b => (0, a, b) | RUsed a b => (1, a, b) | RComp a b => (2, a, b) | ROther t a b => (t, a, b)
  end.
(** Big-endian, [w] bytes. *)
Fixpoint be (w : nat) (z : Z) : list Z :=
  match w with O => [] | S w' => be w' (z / 256) ++ [z mod 256] end.
Definition row_bytes (w1 w2 w3 : nat) (r : srow) : list Z :=
  let '(t, a, b) := fields r in be w1 t ++ be w2 a ++ be w3 b.
(** Every field fits in its column. *)
Definition fits (w1 w2 w3 : nat) (r : srow) : Prop :=
  let '(t, a, b) := fields r in
  0 <= t < 256 ^ Z.of_nat w1 /\ 0 <= a < 256 ^ Z.of_nat w2 /\ 0 <= b < 256 ^ Z.of_nat w3 /\
  match r with ROther t _ _ => 2 < t | _ => True end.
(** The row for object [k] when the rows are numbered from [first]. *)
Definition row_of (first : Z) (rows : list srow) (k : Z) : option srow :=
  if k <? first then None else nth_error rows (Z.to_nat (k - first)).
