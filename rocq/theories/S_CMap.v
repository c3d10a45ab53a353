(** Specification of CMap mappings, written without reference to types/cmap.py: hexadecimal codes and their
    values, entries as they are written in a CMap file, which codes an entry covers and which text it gives. *)
From Coq Require Import String.
From Verif Require Import Prelude.
Local Open Scope Z_scope.

Definition hdigit (c : Z) : Prop := 48 <= c <= 57 \/ 65 <= c <= 70 \/ 97 <= c <= 102.
Definition updigit (c : Z) : Prop := 48 <= c <= 57 \/ 65 <= c <= 70.
(** Codes: non-empty texts of hexadecimal digits; upper-case ones are what the parser and the decoder use. *)
Definition HexCode (l : list Z) : Prop := l <> [] /\ Forall hdigit l.
Definition UpperCode (l : list Z) : Prop := l <> [] /\ Forall updigit l.
Definition dval (c : Z) : Z := if c <=? 57 then c - 48 else if c <=? 70 then c - 55 else c - 87.
Fixpoint hnum (l : list Z) : Z := match l with [] => 0 | d :: r => dval d * 16 ^ zlen r + hnum r end.
Definition upcase (l : list Z) : list Z := map (fun c => if c <=? 96 then c else c - 32) l.

(** A destination text: groups of four digits (the last group may be shorter), one character each. *)
Inductive Units : list Z -> list Z -> Prop :=
| U_nil : Units [] []
| U_last g : HexCode g -> zlen g <= 4 -> Units g [hnum g]
| U_cons g d t : HexCode g -> zlen g = 4 -> Units d t -> Units (g ++ d) (hnum g :: t).

(** Entries: a range of codes mapped to consecutive characters, or one code mapped to a text. *)
Inductive entry := ERange (b e : list Z) (start : Z) | EChar (b dst : list Z).
Definition entry_ok (e : entry) : Prop :=
  match e with
  | ERange b e _ => HexCode b /\ HexCode e /\ zlen b = zlen e /\ hnum b <= hnum e
  | EChar b dst => HexCode b /\ exists t, Units dst t
  end.
Definition covers (e : entry) (item : list Z) : Prop :=
  match e with
  | ERange b e _ => zlen item = zlen b /\ hnum b <= hnum item <= hnum e
  | EChar b _ => upcase item = upcase b
  end.
Definition unicode (c : Z) : Z := if (0 <=? c) && (c <=? 1114111) then c else 65533.
Definition gives (e : entry) (item t : list Z) : Prop :=
  match e with
  | ERange b _ start => t = [unicode (start + (hnum item - hnum b))]
  | EChar _ dst => Units dst t
  end.
(** UTF-16BE code units as hexadecimal digits. *)
Definition unit_hex (u : Z) : list Z := map hexdig [u / 4096; u / 256 mod 16; u / 16 mod 16; u mod 16].
