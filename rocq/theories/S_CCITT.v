(** Specification of Group 4 fax coding, after ITU-T T.6 (and the run length tables of T.4), without reference to the
    decoder: pixels are booleans (true = black), a picture is a list of rows of the same width. *)
From Coq Require Import String.
From Verif Require Import Prelude.
Local Open Scope Z_scope.

Definition bits (s : string) : list bool := map (fun c => c =? 49) (bs s).
Definition bits8 (b : Z) : list bool := map (Z.testbit b) [7; 6; 5; 4; 3; 2; 1; 0].
(** The bits of a byte string, most significant first. *)
Definition bits_of (data : list Z) : list bool := flat_map bits8 data.
(** A row of the decoded picture: one bit per pixel, then zeros up to a whole number of bytes. *)
Definition row_pad (n : Z) : list bool := repeat false (Z.to_nat ((- n) mod 8)).
Definition row_bits (black_is_1 : bool) (row : list bool) : list bool :=
  map (fun px => if black_is_1 then px else negb px) row ++ row_pad (zlen row).
(** [Packed black_is_1 rows out]: the bytes [out] hold exactly these rows. *)
Definition Packed (black_is_1 : bool) (rows : list (list bool)) (out : list Z) : Prop :=
  bytes_ok out /\ bits_of out = flat_map (row_bits black_is_1) rows.

(** *** Run lengths (T.4, tables 2, 3a and 3b) *)
Definition white_term : list string :=
  ["00110101"; "000111"; "0111"; "1000"; "1011"; "1100"; "1110"; "1111";
   "10011"; "10100"; "00111"; "01000"; "001000"; "000011"; "110100"; "110101";
   "101010"; "101011"; "0100111"; "0001100"; "0001000"; "0010111"; "0000011"; "0000100";
   "0101000"; "0101011"; "0010011"; "0100100"; "0011000"; "00000010"; "00000011"; "00011010";
   "00011011"; "00010010"; "00010011"; "00010100"; "00010101"; "00010110"; "00010111"; "00101000";
   "00101001"; "00101010"; "00101011"; "00101100"; "00101101"; "00000100"; "00000101"; "00001010";
   "00001011"; "01010010"; "01010011"; "01010100"; "01010101"; "00100100"; "00100101"; "01011000";
   "01011001"; "01011010"; "01011011"; "01001010"; "01001011"; "00110010"; "00110011"; "00110100"]%string.
Definition black_term : list string :=
  ["0000110111"; "010"; "11"; "10"; "011"; "0011"; "0010"; "00011";
   "000101"; "000100"; "0000100"; "0000101"; "0000111"; "00000100"; "00000111"; "000011000";
   "0000010111"; "0000011000"; "0000001000"; "00001100111"; "00001101000"; "00001101100"; "00000110111"; "00000101000";
   "00000010111"; "00000011000"; "000011001010"; "000011001011"; "000011001100"; "000011001101"; "000001101000"; "000001101001";
   "000001101010"; "000001101011"; "000011010010"; "000011010011"; "000011010100"; "000011010101"; "000011010110"; "000011010111";
   "000001101100"; "000001101101"; "000011011010"; "000011011011"; "000001010100"; "000001010101"; "000001010110"; "000001010111";
   "000001100100"; "000001100101"; "000001010010"; "000001010011"; "000000100100"; "000000110111"; "000000111000"; "000000100111";
   "000000101000"; "000001011000"; "000001011001"; "000000101011"; "000000101100"; "000001011010"; "000001100110"; "000001100111"]%string.
(** Make-up codes for 64, 128, ..., 1728 ... *)
Definition white_makeup : list string :=
  ["11011"; "10010"; "010111"; "0110111"; "00110110"; "00110111"; "01100100"; "01100101"; "01101000"; "01100111";
   "011001100"; "011001101"; "011010010"; "011010011"; "011010100"; "011010101"; "011010110"; "011010111"; "011011000"; "011011001";
   "011011010"; "011011011"; "010011000"; "010011001"; "010011010"; "011000"; "010011011"]%string.
Definition black_makeup : list string :=
  ["0000001111"; "000011001000"; "000011001001"; "000001011011"; "000000110011"; "000000110100"; "000000110101";
   "0000001101100"; "0000001101101"; "0000001001010"; "0000001001011"; "0000001001100"; "0000001001101"; "0000001110010";
   "0000001110011"; "0000001110100"; "0000001110101"; "0000001110110"; "0000001110111"; "0000001010010"; "0000001010011";
   "0000001010100"; "0000001010101"; "0000001011010"; "0000001011011"; "0000001100100"; "0000001100101"]%string.
(** ... and for 1792, ..., 2560, the same for both colours. *)
Definition common_makeup : list string :=
  ["00000001000"; "00000001100"; "00000001101"; "000000010010"; "000000010011"; "000000010100"; "000000010101"; "000000010110";
   "000000010111"; "000000011100"; "000000011101"; "000000011110"; "000000011111"]%string.

Definition term_codes (black : bool) : list string := if black then black_term else white_term.
Definition makeup_codes (black : bool) : list string := (if black then black_makeup else white_makeup) ++ common_makeup.
(** [RunCode black n c]: [c] is a code of a run of [n] pixels: make-up codes, then a terminating code. *)
Inductive RunCode (black : bool) : Z -> list bool -> Prop :=
| RC_term i s : nth_error (term_codes black) i = Some s -> RunCode black (Z.of_nat i) (bits s)
| RC_makeup i s n c : nth_error (makeup_codes black) i = Some s -> RunCode black n c ->
    RunCode black (64 * (Z.of_nat i + 1) + n) (bits s ++ c).

(** *** Two-dimensional coding (T.6, 2.2) *)
(** The pixel before the first one is imaginary and white. *)
Definition pix (l : list bool) (i : Z) : bool := if i <? 0 then false else nth (Z.to_nat i) l false.
Definition changing (l : list bool) (i : Z) : Prop := pix l i <> pix l (i - 1).
(** The first changing element of [l] right of [a] satisfying [ok], or the position after the last pixel. *)
Definition NextChange (l : list bool) (ok : Z -> Prop) (a x : Z) : Prop :=
  a < x <= zlen l /\ (x < zlen l -> changing l x /\ ok x) /\ (forall y, a < y < x -> ~ (changing l y /\ ok y)).
Definition always (_ : Z) : Prop := True.
(** a1: next changing element on the coding line; a2: the one after it. *)
Definition A1 (cur : list bool) (a0 a1 : Z) : Prop := NextChange cur always a0 a1.
Definition After (l : list bool) (x y : Z) : Prop := (x = zlen l /\ y = x) \/ NextChange l always x y.
(** b1: next changing element on the reference line of colour opposite to a0's; b2: the one after it. *)
Definition B1 (ref : list bool) (a0 : Z) (black : bool) (b1 : Z) : Prop := NextChange ref (fun x => pix ref x = negb black) a0 b1.

Definition vertical_code (d : Z) : option (list bool) :=
  if d =? 0 then Some (bits "1") else if d =? 1 then Some (bits "011") else if d =? 2 then Some (bits "000011")
  else if d =? 3 then Some (bits "0000011") else if d =? -1 then Some (bits "010") else if d =? -2 then Some (bits "000010")
  else if d =? -3 then Some (bits "0000010") else None.

(** [CodeLine ref cur a0 black c]: [c] codes the line [cur] from a0 (of colour [black]) on.  Every mode may be used where
    it applies; T.6 prescribes pass, else vertical, else horizontal. *)
Inductive CodeLine (ref cur : list bool) : Z -> bool -> list bool -> Prop :=
| CL_end black : CodeLine ref cur (zlen cur) black []
| CL_pass a0 black a1 b1 b2 c : A1 cur a0 a1 -> B1 ref a0 black b1 -> After ref b1 b2 -> b2 < a1 ->
    CodeLine ref cur b2 black c -> CodeLine ref cur a0 black (bits "0001" ++ c)
| CL_vertical a0 black a1 b1 v c : A1 cur a0 a1 -> B1 ref a0 black b1 -> vertical_code (a1 - b1) = Some v ->
    CodeLine ref cur a1 (negb black) c -> CodeLine ref cur a0 black (v ++ c)
| CL_horizontal a0 black a1 a2 r1 r2 c : A1 cur a0 a1 -> After cur a1 a2 ->
    RunCode black (a1 - Z.max 0 a0) r1 -> RunCode (negb black) (a2 - a1) r2 ->
    CodeLine ref cur a2 black c -> CodeLine ref cur a0 black (bits "001" ++ r1 ++ r2 ++ c).

(** The same with the choice T.6 prescribes (figure 7): pass mode whenever it applies, else vertical mode whenever the
    distance is at most three, else horizontal mode. *)
Inductive T6Line (ref cur : list bool) : Z -> bool -> list bool -> Prop :=
| T6_end black : T6Line ref cur (zlen cur) black []
| T6_pass a0 black a1 b1 b2 c : A1 cur a0 a1 -> B1 ref a0 black b1 -> After ref b1 b2 -> b2 < a1 ->
    T6Line ref cur b2 black c -> T6Line ref cur a0 black (bits "0001" ++ c)
| T6_vertical a0 black a1 b1 b2 v c : A1 cur a0 a1 -> B1 ref a0 black b1 -> After ref b1 b2 -> a1 <= b2 ->
    vertical_code (a1 - b1) = Some v ->
    T6Line ref cur a1 (negb black) c -> T6Line ref cur a0 black (v ++ c)
| T6_horizontal a0 black a1 a2 b1 b2 r1 r2 c : A1 cur a0 a1 -> After cur a1 a2 ->
    B1 ref a0 black b1 -> After ref b1 b2 -> a1 <= b2 -> 3 < Z.abs (a1 - b1) ->
    RunCode black (a1 - Z.max 0 a0) r1 -> RunCode (negb black) (a2 - a1) r2 ->
    T6Line ref cur a2 black c -> T6Line ref cur a0 black (bits "001" ++ r1 ++ r2 ++ c).

Definition eofb : list bool := bits "000000000001000000000001".
(** [CodeRows Line align w ref rows c]: [c] codes the rows, each against the one before it, then end-of-facsimile-block
    and anything, or zeros up to the end of the byte.  With [align] every row is filled up to a whole number of bytes. *)
Inductive CodeRows (Line : list bool -> list bool -> Z -> bool -> list bool -> Prop) (align : bool) (w : Z) (ref : list bool) :
    list (list bool) -> list bool -> Prop :=
| CR_eofb more : CodeRows Line align w ref [] (eofb ++ more)
| CR_end k : (k < 8)%nat -> CodeRows Line align w ref [] (repeat false k)
| CR_row row rows c pad more : zlen row = w -> Line ref row (-1) false c ->
    (if align then zlen pad < 8 /\ zlen (c ++ pad) mod 8 = 0 else pad = []) ->
    CodeRows Line align w row rows more -> CodeRows Line align w ref (row :: rows) (c ++ pad ++ more).
(** A coded picture; the first row is coded against a white line. *)
Definition white_line (w : Z) : list bool := repeat false (Z.to_nat w).
Definition Coded (align : bool) (w : Z) (rows : list (list bool)) (data : list Z) : Prop :=
  bytes_ok data /\ CodeRows CodeLine align w (white_line w) rows (bits_of data).
Definition T6Coded (align : bool) (w : Z) (rows : list (list bool)) (data : list Z) : Prop :=
  bytes_ok data /\ CodeRows T6Line align w (white_line w) rows (bits_of data).
