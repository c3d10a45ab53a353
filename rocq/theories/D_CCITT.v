(** Generated by tools/gen_ccitt.py: the code tables of filters/ccittfax.py, in source order. *)
From Coq Require Import String.
From Verif Require Import Prelude.
Local Open Scope Z_scope.

(** Values of the tables: Python ints or strings. *)
Inductive cval := CI (n : Z) | CS (s : list Z).

(** filters/ccittfax.py 65-82: BitParser.add(MODE, value, bits) *)
Definition mode_table : list (cval * list Z) :=
  [(CI (0), bs "1");
   (CI (1), bs "011");
   (CI (-1), bs "010");
   (CS (bs "h"), bs "001");
   (CS (bs "p"), bs "0001");
   (CI (2), bs "000011");
   (CI (-2), bs "000010");
   (CI (3), bs "0000011");
   (CI (-3), bs "0000010");
   (CS (bs "u"), bs "0000001111");
   (CS (bs "x1"), bs "0000001000");
   (CS (bs "x2"), bs "0000001001");
   (CS (bs "x3"), bs "0000001010");
   (CS (bs "x4"), bs "0000001011");
   (CS (bs "x5"), bs "0000001100");
   (CS (bs "x6"), bs "0000001101");
   (CS (bs "x7"), bs "0000001110");
   (CS (bs "e"), bs "000000000001000000000001")].

(** filters/ccittfax.py 85-188: BitParser.add(WHITE, value, bits) *)
Definition white_table : list (cval * list Z) :=
  [(CI (0), bs "00110101");
   (CI (1), bs "000111");
   (CI (2), bs "0111");
   (CI (3), bs "1000");
   (CI (4), bs "1011");
   (CI (5), bs "1100");
   (CI (6), bs "1110");
   (CI (7), bs "1111");
   (CI (8), bs "10011");
   (CI (9), bs "10100");
   (CI (10), bs "00111");
   (CI (11), bs "01000");
   (CI (12), bs "001000");
   (CI (13), bs "000011");
   (CI (14), bs "110100");
   (CI (15), bs "110101");
   (CI (16), bs "101010");
   (CI (17), bs "101011");
   (CI (18), bs "0100111");
   (CI (19), bs "0001100");
   (CI (20), bs "0001000");
   (CI (21), bs "0010111");
   (CI (22), bs "0000011");
   (CI (23), bs "0000100");
   (CI (24), bs "0101000");
   (CI (25), bs "0101011");
   (CI (26), bs "0010011");
   (CI (27), bs "0100100");
   (CI (28), bs "0011000");
   (CI (29), bs "00000010");
   (CI (30), bs "00000011");
   (CI (31), bs "00011010");
   (CI (32), bs "00011011");
   (CI (33), bs "00010010");
   (CI (34), bs "00010011");
   (CI (35), bs "00010100");
   (CI (36), bs "00010101");
   (CI (37), bs "00010110");
   (CI (38), bs "00010111");
   (CI (39), bs "00101000");
   (CI (40), bs "00101001");
   (CI (41), bs "00101010");
   (CI (42), bs "00101011");
   (CI (43), bs "00101100");
   (CI (44), bs "00101101");
   (CI (45), bs "00000100");
   (CI (46), bs "00000101");
   (CI (47), bs "00001010");
   (CI (48), bs "00001011");
   (CI (49), bs "01010010");
   (CI (50), bs "01010011");
   (CI (51), bs "01010100");
   (CI (52), bs "01010101");
   (CI (53), bs "00100100");
   (CI (54), bs "00100101");
   (CI (55), bs "01011000");
   (CI (56), bs "01011001");
   (CI (57), bs "01011010");
   (CI (58), bs "01011011");
   (CI (59), bs "01001010");
   (CI (60), bs "01001011");
   (CI (61), bs "00110010");
   (CI (62), bs "00110011");
   (CI (63), bs "00110100");
   (CI (64), bs "11011");
   (CI (128), bs "10010");
   (CI (192), bs "010111");
   (CI (256), bs "0110111");
   (CI (320), bs "00110110");
   (CI (384), bs "00110111");
   (CI (448), bs "01100100");
   (CI (512), bs "01100101");
   (CI (576), bs "01101000");
   (CI (640), bs "01100111");
   (CI (704), bs "011001100");
   (CI (768), bs "011001101");
   (CI (832), bs "011010010");
   (CI (896), bs "011010011");
   (CI (960), bs "011010100");
   (CI (1024), bs "011010101");
   (CI (1088), bs "011010110");
   (CI (1152), bs "011010111");
   (CI (1216), bs "011011000");
   (CI (1280), bs "011011001");
   (CI (1344), bs "011011010");
   (CI (1408), bs "011011011");
   (CI (1472), bs "010011000");
   (CI (1536), bs "010011001");
   (CI (1600), bs "010011010");
   (CI (1664), bs "011000");
   (CI (1728), bs "010011011");
   (CI (1792), bs "00000001000");
   (CI (1856), bs "00000001100");
   (CI (1920), bs "00000001101");
   (CI (1984), bs "000000010010");
   (CI (2048), bs "000000010011");
   (CI (2112), bs "000000010100");
   (CI (2176), bs "000000010101");
   (CI (2240), bs "000000010110");
   (CI (2304), bs "000000010111");
   (CI (2368), bs "000000011100");
   (CI (2432), bs "000000011101");
   (CI (2496), bs "000000011110");
   (CI (2560), bs "000000011111")].

(** filters/ccittfax.py 191-294: BitParser.add(BLACK, value, bits) *)
Definition black_table : list (cval * list Z) :=
  [(CI (0), bs "0000110111");
   (CI (1), bs "010");
   (CI (2), bs "11");
   (CI (3), bs "10");
   (CI (4), bs "011");
   (CI (5), bs "0011");
   (CI (6), bs "0010");
   (CI (7), bs "00011");
   (CI (8), bs "000101");
   (CI (9), bs "000100");
   (CI (10), bs "0000100");
   (CI (11), bs "0000101");
   (CI (12), bs "0000111");
   (CI (13), bs "00000100");
   (CI (14), bs "00000111");
   (CI (15), bs "000011000");
   (CI (16), bs "0000010111");
   (CI (17), bs "0000011000");
   (CI (18), bs "0000001000");
   (CI (19), bs "00001100111");
   (CI (20), bs "00001101000");
   (CI (21), bs "00001101100");
   (CI (22), bs "00000110111");
   (CI (23), bs "00000101000");
   (CI (24), bs "00000010111");
   (CI (25), bs "00000011000");
   (CI (26), bs "000011001010");
   (CI (27), bs "000011001011");
   (CI (28), bs "000011001100");
   (CI (29), bs "000011001101");
   (CI (30), bs "000001101000");
   (CI (31), bs "000001101001");
   (CI (32), bs "000001101010");
   (CI (33), bs "000001101011");
   (CI (34), bs "000011010010");
   (CI (35), bs "000011010011");
   (CI (36), bs "000011010100");
   (CI (37), bs "000011010101");
   (CI (38), bs "000011010110");
   (CI (39), bs "000011010111");
   (CI (40), bs "000001101100");
   (CI (41), bs "000001101101");
   (CI (42), bs "000011011010");
   (CI (43), bs "000011011011");
   (CI (44), bs "000001010100");
   (CI (45), bs "000001010101");
   (CI (46), bs "000001010110");
   (CI (47), bs "000001010111");
   (CI (48), bs "000001100100");
   (CI (49), bs "000001100101");
   (CI (50), bs "000001010010");
   (CI (51), bs "000001010011");
   (CI (52), bs "000000100100");
   (CI (53), bs "000000110111");
   (CI (54), bs "000000111000");
   (CI (55), bs "000000100111");
   (CI (56), bs "000000101000");
   (CI (57), bs "000001011000");
   (CI (58), bs "000001011001");
   (CI (59), bs "000000101011");
   (CI (60), bs "000000101100");
   (CI (61), bs "000001011010");
   (CI (62), bs "000001100110");
   (CI (63), bs "000001100111");
   (CI (64), bs "0000001111");
   (CI (128), bs "000011001000");
   (CI (192), bs "000011001001");
   (CI (256), bs "000001011011");
   (CI (320), bs "000000110011");
   (CI (384), bs "000000110100");
   (CI (448), bs "000000110101");
   (CI (512), bs "0000001101100");
   (CI (576), bs "0000001101101");
   (CI (640), bs "0000001001010");
   (CI (704), bs "0000001001011");
   (CI (768), bs "0000001001100");
   (CI (832), bs "0000001001101");
   (CI (896), bs "0000001110010");
   (CI (960), bs "0000001110011");
   (CI (1024), bs "0000001110100");
   (CI (1088), bs "0000001110101");
   (CI (1152), bs "0000001110110");
   (CI (1216), bs "0000001110111");
   (CI (1280), bs "0000001010010");
   (CI (1344), bs "0000001010011");
   (CI (1408), bs "0000001010100");
   (CI (1472), bs "0000001010101");
   (CI (1536), bs "0000001011010");
   (CI (1600), bs "0000001011011");
   (CI (1664), bs "0000001100100");
   (CI (1728), bs "0000001100101");
   (CI (1792), bs "00000001000");
   (CI (1856), bs "00000001100");
   (CI (1920), bs "00000001101");
   (CI (1984), bs "000000010010");
   (CI (2048), bs "000000010011");
   (CI (2112), bs "000000010100");
   (CI (2176), bs "000000010101");
   (CI (2240), bs "000000010110");
   (CI (2304), bs "000000010111");
   (CI (2368), bs "000000011100");
   (CI (2432), bs "000000011101");
   (CI (2496), bs "000000011110");
   (CI (2560), bs "000000011111")].

(** filters/ccittfax.py 297-310: BitParser.add(UNCOMPRESSED, value, bits) *)
Definition uncompressed_table : list (cval * list Z) :=
  [(CS (bs "1"), bs "1");
   (CS (bs "01"), bs "01");
   (CS (bs "001"), bs "001");
   (CS (bs "0001"), bs "0001");
   (CS (bs "00001"), bs "00001");
   (CS (bs "00000"), bs "000001");
   (CS (bs "T00"), bs "00000011");
   (CS (bs "T10"), bs "00000010");
   (CS (bs "T000"), bs "000000011");
   (CS (bs "T100"), bs "000000010");
   (CS (bs "T0000"), bs "0000000011");
   (CS (bs "T1000"), bs "0000000010");
   (CS (bs "T00000"), bs "00000000011");
   (CS (bs "T10000"), bs "00000000010")].
