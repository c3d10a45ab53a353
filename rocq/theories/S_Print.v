(** A canonical writer of PDF values, independent of the parser: decimal numbers, names with #xx,
    strings with backslash escapes, one space after every element. *)
From Coq Require Import String.
From Verif Require Import Prelude M_Parser.
Local Open Scope Z_scope.

(** Decimal digits of a non-negative integer. *)
Fixpoint ddigits (n : nat) (z : Z) : list Z :=
  match n with
  | O => []
  | S n' => if z <? 10 then [48 + z] else ddigits n' (z / 10) ++ [48 + z mod 10]
  end.
Definition dec (z : Z) : list Z := ddigits (S (Z.to_nat (Z.log2 z))) z.
Definition int_text (z : Z) : list Z := if z <? 0 then 45 :: dec (- z) else dec z.

(** coef * 10^exp for exp < 0, with enough leading zeros *)
Definition zeros (n : Z) : list Z := repeat 48 (Z.to_nat n).
Definition real_digits (coef exp : Z) : list Z := zeros (1 - exp - zlen (dec coef)) ++ dec coef.
Definition real_text (neg : bool) (coef exp : Z) : list Z :=
  let ds := real_digits coef exp in
  let k := (List.length ds - Z.to_nat (- exp))%nat in
  (if neg then [45] else []) ++ firstn k ds ++ 46 :: skipn k ds.

(** A name character: itself, or #xx when it is not a regular printable character or is # *)
Definition name_char (c : Z) : list Z :=
  if (33 <=? c) && (c <=? 126) && negb (is_delim c) && negb (c =? 35) then [c]
  else [35; hexdig (c / 16); hexdig (c mod 16)].
Definition name_text (s : list Z) : list Z := flat_map name_char s.

(** A string character: PDF 32000-1 table 3 *)
Definition str_char (c : Z) : list Z :=
  if c =? 10 then bs "\n" else if c =? 13 then bs "\r" else if c =? 9 then bs "\t" else if c =? 8 then bs "\b"
  else if c =? 12 then bs "\f" else if c =? 40 then bs "\(" else if c =? 41 then bs "\)" else if c =? 92 then bs "\\"
  else [c].
Definition str_text (s : list Z) : list Z := flat_map str_char s.

Fixpoint print (v : obj) : list Z :=
  match v with
  | ONull => bs "null"
  | OBool true => bs "true"
  | OBool false => bs "false"
  | OInt z => int_text z
  | OReal neg c e => real_text neg c e
  | OName s => 47 :: name_text s
  | OStr s => 40 :: str_text s ++ [41]
  | OHex s => 60 :: s ++ [62]
  | ORef n g => dec n ++ 32 :: dec g ++ 32 :: bs "R"
  | OArr l => 91 :: flat_map (fun x => print x ++ [32]) l ++ [93]
  | ODict d => bs "<<" ++ flat_map (fun kv => 47 :: name_text (fst kv) ++ 32 :: print (snd kv) ++ [32]) d ++ bs ">>"
  | _ => []
  end.

(** Values that have a text: what a PDF file can denote.  Names are byte strings, hexadecimal
    strings an even number of upper-case digits, references non-negative, reals with a fraction
    part (negative ones with at most 28 digits), dictionaries with distinct keys. *)
Fixpoint printable (v : obj) : Prop :=
  match v with
  | ONull | OBool _ | OInt _ => True
  | OReal neg c e => e < 0 /\ 0 <= c /\ (neg = true -> 0 < c < 10 ^ 28)
  | OName s => bytes_ok s
  | OStr s => True
  | OHex s => Forall (fun c => exists h, 0 <= h < 16 /\ c = hexdig h) s /\ Z.even (zlen s) = true
  | ORef n g => 0 <= n /\ 0 <= g
  | OArr l => fold_right (fun x P => printable x /\ P) True l
  | ODict d => NoDup (map fst d) /\ fold_right (fun kv P => bytes_ok (fst kv) /\ printable (snd kv) /\ P) True d
  | _ => False
  end.
