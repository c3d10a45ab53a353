(** Independent specifications of the stream encodings (PDF 32000-1, 7.4).  Nothing here refers
    to the model of the decoders. *)
From Verif Require Import Prelude.
From Coq Require Import String.
Local Open Scope Z_scope.

(** [Interleaved text core]: [text] is [core] with white space inserted anywhere. *)
Inductive Interleaved : list Z -> list Z -> Prop :=
| IL_nil : Interleaved [] []
| IL_ws c t k : is_ws c = true -> Interleaved t k -> Interleaved (c :: t) k
| IL_ch c t k : Interleaved t k -> Interleaved (c :: t) (c :: k).

(** 7.4.2: hexadecimal digits of a byte string, either letter case; the second digit of the last
    byte may be left out if it is 0. *)
Inductive HexDigits : list Z -> list Z -> Prop :=
| HD_nil : HexDigits [] []
| HD_odd h v : hexval h = Some v -> HexDigits [16 * v] [h]
| HD_pair h l v w data ds :
    hexval h = Some v -> hexval l = Some w -> HexDigits data ds ->
    HexDigits ((16 * v + w) :: data) (h :: l :: ds).

(** 7.4.3: base-85 digits, most significant first, offset 33. *)
Definition digits85 (w : Z) : list Z :=
  [ w / 52200625 + 33; (w / 614125) mod 85 + 33; (w / 7225) mod 85 + 33;
    (w / 85) mod 85 + 33; w mod 85 + 33 ].
Definition word32 (a b c d : Z) : Z := ((a * 256 + b) * 256 + c) * 256 + d.

Inductive A85Text : list Z -> list Z -> Prop :=
| A85_nil : A85Text [] []
| A85_z data t : A85Text data t -> A85Text (0 :: 0 :: 0 :: 0 :: data) (122 :: t)
| A85_4 a b c d data t :
    byte_ok a -> byte_ok b -> byte_ok c -> byte_ok d ->
    A85Text data t ->
    A85Text (a :: b :: c :: d :: data) (digits85 (word32 a b c d) ++ t)
| A85_1 a : byte_ok a -> A85Text [a] (firstn 2 (digits85 (word32 a 0 0 0)))
| A85_2 a b : byte_ok a -> byte_ok b -> A85Text [a; b] (firstn 3 (digits85 (word32 a b 0 0)))
| A85_3 a b c : byte_ok a -> byte_ok b -> byte_ok c ->
    A85Text [a; b; c] (firstn 4 (digits85 (word32 a b c 0))).

(** 7.4.5: run-length runs. *)
Inductive run := Lit (l : list Z) | Rep (n : nat) (c : Z).
Definition run_ok (r : run) : Prop :=
  match r with
  | Lit l => (1 <= List.length l <= 128)%nat
  | Rep n _ => (2 <= n <= 128)%nat
  end.
Definition run_data (r : run) : list Z :=
  match r with Lit l => l | Rep n c => repeat c n end.
Definition run_enc (r : run) : list Z :=
  match r with
  | Lit l => (zlen l - 1) :: l
  | Rep n c => [257 - Z.of_nat n; c]
  end.

(** 7.4.4: LZW.  A code stream is a list of segments separated by the clear-table code.  In a
    segment the i-th code stands for the i-th phrase; the code table holds the 256 single bytes
    and, under number 258+j, phrase j followed by the first byte of phrase j+1.
    [defer] allows a code to denote the entry completed by its own phrase (the KwKwK case). *)
Definition lzw_entry (phrases : list (list Z)) (j : nat) : option (list Z) :=
  match nth_error phrases j, nth_error phrases (S j) with
  | Some p, Some (c :: _) => Some (p ++ [c])
  | _, _ => None
  end.

(** [code_denotes defer phrases i code]: [code] may be written for phrase number [i]. *)
Definition code_denotes (defer : bool) (phrases : list (list Z)) (i : nat) (code : Z) : Prop :=
  (exists b, byte_ok b /\ code = b /\ nth_error phrases i = Some [b]) \/
  (exists j, code = 258 + Z.of_nat j /\
             (S (S j) <= i + (if defer then 1 else 0))%nat /\
             lzw_entry phrases j = nth_error phrases i).

Definition segment_ok (defer : bool) (phrases : list (list Z)) (codes : list Z) : Prop :=
  List.length codes = List.length phrases /\
  Forall (fun p => p <> []) phrases /\
  forall i c, nth_error codes i = Some c -> code_denotes defer phrases i c.

(** [v] as [w] bits, most significant first. *)
Fixpoint to_bits (w : nat) (v : Z) : list Z :=
  match w with
  | O => []
  | S k => (v / 2 ^ Z.of_nat k) mod 2 :: to_bits k v
  end.

(** Width of the code that follows [n] codes since the last clear: smallest w >= 9 with
    258 + n < 2^w (table 511 -> 10 bits and so on, "early change"). *)
Definition lzw_width (n : nat) : nat :=
  Nat.max 9 (Z.to_nat (Z.log2 (258 + Z.of_nat n) + 1)).

(** Bits of a segment's codes; the clear code 256 is written like any other code. *)
Fixpoint segment_bits (n : nat) (codes : list Z) : list Z :=
  match codes with
  | [] => []
  | c :: r => to_bits (lzw_width n) c ++ segment_bits (S n) r
  end.
Fixpoint stream_bits (segs : list (list Z)) : list Z :=
  match segs with
  | [] => []
  | [s] => segment_bits 0 s
  | s :: r => segment_bits 0 (s ++ [256]) ++ stream_bits r
  end.

(** Bytes of a bit string, most significant bit first. *)
Fixpoint bits_of_bytes (l : list Z) : list Z :=
  match l with [] => [] | b :: r => to_bits 8 b ++ bits_of_bytes r end.

(** 7.4.4.4: PNG prediction.  [png_row t bpp prev cur] is the encoded row (tag byte included). *)
Definition paeth (a b c : Z) : Z :=
  let p := a + b - c in
  let pa := Z.abs (p - a) in let pb := Z.abs (p - b) in let pc := Z.abs (p - c) in
  if (pa <=? pb) && (pa <=? pc) then a else if pb <=? pc then b else c.
Definition nthz (l : list Z) (i : nat) : Z := nth i l 0.
Definition png_pred (t : Z) (bpp : nat) (prev cur : list Z) (i : nat) : Z :=
  let a := if (i <? bpp)%nat then 0 else nthz cur (i - bpp) in
  let b := nthz prev i in
  let c := if (i <? bpp)%nat then 0 else nthz prev (i - bpp) in
  if t =? 0 then 0 else if t =? 1 then a else if t =? 2 then b
  else if t =? 3 then (a + b) / 2 else paeth a b c.
Definition png_row (t : Z) (bpp : nat) (prev cur : list Z) : list Z :=
  t :: map (fun i => (nthz cur i - png_pred t bpp prev cur i) mod 256) (seq 0 (List.length cur)).
Fixpoint png_rows (bpp : nat) (prev : list Z) (rows : list (Z * list Z)) : list Z :=
  match rows with
  | [] => []
  | (t, row) :: r => png_row t bpp prev row ++ png_rows bpp row r
  end.

(** Filter chains (7.4.1).  [Encoded inflate f d e]: [e] is an encoding of [d] by filter [f].
    [inflate] stands for zlib (e is a zlib stream of d). *)
Inductive Encoded (inflate : list Z -> option (list Z)) : list Z -> list Z -> list Z -> Prop :=
| Enc_hex f d ds text junk : In f [bs "ASCIIHexDecode"; bs "AHx"] ->
    HexDigits d ds -> Interleaved text ds -> Encoded inflate f d (text ++ 62 :: junk)
| Enc_85 f d t text : In f [bs "ASCII85Decode"; bs "A85"] ->
    A85Text d t -> Interleaved text (t ++ [126; 62]) -> Encoded inflate f d text
| Enc_rl f rs junk : In f [bs "RunLengthDecode"; bs "RL"] ->
    Forall run_ok rs -> Encoded inflate f (flat_map run_data rs) (flat_map run_enc rs ++ 128 :: junk)
| Enc_fl f d e : In f [bs "FlateDecode"; bs "Fl"] -> inflate e = Some d -> Encoded inflate f d e.

(** The filters are listed in decoding order: the first one listed was applied last. *)
Inductive EncodedChain (inflate : list Z -> option (list Z)) : list (list Z) -> list Z -> list Z -> Prop :=
| EC_nil d : EncodedChain inflate [] d d
| EC_cons f fs d m e : Encoded inflate f m e -> EncodedChain inflate fs d m ->
    EncodedChain inflate (f :: fs) d e.

(** All filter names of PDF 32000-1 table 6 and their abbreviations (table 94). *)
Definition known_filters : list (list Z) :=
  map bs ["ASCII85Decode"; "A85"; "ASCIIHexDecode"; "AHx"; "FlateDecode"; "Fl"; "LZWDecode"; "LZW";
          "RunLengthDecode"; "RL"; "CCITTFaxDecode"; "CCF"; "DCTDecode"; "DCT"; "JBIG2Decode";
          "JPXDecode"; "Crypt"]%string.
