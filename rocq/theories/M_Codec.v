(** Model of pdfreader/codecs/codec.py, differences.py, __init__.py and of EncodingDecoder in decoder.py.
    Text is a list of code points, glyph names are lists of latin-1 codes (as the parser gives them). *)
From Coq Require Import String.
From Verif Require Import Prelude M_Parser M_Objects D_Glyphs.
Local Open Scope Z_scope.

(** str.split(c) *)
Fixpoint split_on (c : Z) (l : list Z) : list (list Z) :=
  match l with
  | [] => [[]]
  | x :: r => if x =? c then [] :: split_on c r
              else match split_on c r with [] => [[x]] | w :: ws => (x :: w) :: ws end
  end.

(** int(text, 16) of a latin-1 text without underscores: white space around, a sign and 0x are accepted *)
Definition py_space (c : Z) : bool := ((9 <=? c) && (c <=? 13)) || ((28 <=? c) && (c <=? 32)) || (c =? 133) || (c =? 160).
Fixpoint lstrip (l : list Z) : list Z := match l with x :: r => if py_space x then lstrip r else l | [] => [] end.
Definition strip (l : list Z) : list Z := rev (lstrip (rev (lstrip l))).
Fixpoint hex_digits (acc : Z) (l : list Z) : option Z :=
  match l with
  | [] => Some acc
  | x :: r => match hexval x with Some v => hex_digits (16 * acc + v) r | None => None end
  end.
Definition hex_nat (l : list Z) : option Z :=
  match l with
  | [] => None
  | 48 :: x :: r => if (x =? 120) || (x =? 88) then match r with [] => None | _ => hex_digits 0 r end else hex_digits 0 l
  | _ => hex_digits 0 l
  end.
Definition py_int16 (l : list Z) : option Z :=
  match strip l with
  | 43 :: r => hex_nat r
  | 45 :: r => match hex_nat r with Some v => Some (- v) | None => None end
  | r => hex_nat r
  end.
(** chr(v), None for ValueError *)
Definition py_chr (v : Z) : option Z := if (0 <=? v) && (v <=? 1114111) then Some v else None.

(** codec.py 73-74: [chr(int(glyph[i:i+4], 16)) for i in range(3, len(glyph), 4)]; None for ValueError *)
Fixpoint uni_chars (n : nat) (l : list Z) : option (list Z) :=
  match n with
  | O => Some []
  | S n' => match py_int16 (firstn 4 l) with
            | None => None
            | Some v => match py_chr v, uni_chars n' (skipn 4 l) with
                        | Some c, Some r => Some (c :: r)
                        | _, _ => None
                        end
            end
  end.
(** 66-83: one component *)
Definition component (use_zapf : bool) (g : list Z) : list Z :=
  let rest :=
    match aget agl g with
    | Some v => v
    | None =>
        if eqlZ (firstn 3 g) (bs "uni") && ((zlen g - 3) mod 4 =? 0)
        then match uni_chars (Z.to_nat ((zlen g - 3) / 4)) (skipn 3 g) with Some v => v | None => [] end
        else if eqlZ (firstn 1 g) (bs "u") && (5 <=? zlen g) && (zlen g <=? 7)
        then match py_int16 (skipn 1 g) with
             | Some v => match py_chr v with Some c => [c] | None => [] end
             | None => []
             end
        else []
    end in
  if use_zapf then match aget zapf g with Some v => v | None => rest end else rest.
Definition components (name : list Z) : list (list Z) := split_on 95 (hd [] (split_on 46 name)).

(** A codec class: its identity, use_ZapfDingbats, its tables.  Items of decode_table are glyph names, or
    whatever a Differences array contains. *)
Record codec := mkCodec { c_id : Z; c_zapf : bool; c_encode : list (Z * Z); c_decode : list (Z * obj) }.
Fixpoint zassoc {A} (d : list (Z * A)) (k : Z) : option A :=
  match d with [] => None | (k', v) :: r => if k =? k' then Some v else zassoc r k end.

(** codec.py 11 _cache, keyed by class and name *)
Definition gcache := list ((Z * list Z) * list Z).
Fixpoint cget (c : gcache) (id : Z) (n : list Z) : option (list Z) :=
  match c with [] => None | ((i, m), v) :: r => if (id =? i) && eqlZ n m then Some v else cget r id n end.
(** 58-86 glyph_name_to_string *)
Definition glyph_name_to_string (cls : codec) (name : list Z) (c : gcache) : list Z * gcache :=
  match cget c (c_id cls) name with
  | Some v => (v, c)
  | None => let v := fold_left (fun r g => r ++ component (c_zapf cls) g) (components name) [] in
            (v, ((c_id cls, name), v) :: c)
  end.
(** the same on an arbitrary item of a decode table: arrays, dictionaries, streams and references are
    unhashable; bytes.split takes no str; None and numbers have no split (5 in dict first) *)
Definition glyph_item (cls : codec) (o : obj) (c : gcache) : res (list Z) * gcache :=
  match o with
  | OName s | OHex s => let '(v, c') := glyph_name_to_string cls s c in (Ok v, c')
  | OArr _ | ODict _ | OStream _ _ | ORef _ _ | OStr _ => (Err TypeErr, c)
  | _ => (Err AttributeErr, c)
  end.
(** 92-103 decode; the text and how many bytes were used *)
Fixpoint decode_loop (cls : codec) (l : list Z) (acc : list Z) (c : gcache) : res (list Z) * gcache :=
  match l with
  | [] => (Ok acc, c)
  | x :: r => match zassoc (c_decode cls) x with
              | Some o => match glyph_item cls o c with
                          | (Ok g, c') => decode_loop cls r (acc ++ g) c'
                          | (Err e, c') => (Err e, c')
                          end
              | None => decode_loop cls r (acc ++ [x]) c
              end
  end.
Definition decode (cls : codec) (l : list Z) (c : gcache) : res (list Z * Z) * gcache :=
  match decode_loop cls l [] c with (Ok t, c') => (Ok (t, zlen l), c') | (Err e, c') => (Err e, c') end.
(** 88-90 encode: unlisted characters in latin-1, others as '?' *)
Definition encode_char (cls : codec) (x : Z) : Z :=
  match zassoc (c_encode cls) x with Some b => b | None => if x <? 256 then x else 63 end.
Definition encode (cls : codec) (t : list Z) : list Z * Z := (map (encode_char cls) t, zlen t).

(** winansi.py, standard.py, macroman.py, pdfdoc.py *)
Definition names_table (d : list (Z * list Z)) : list (Z * obj) := map (fun p => (fst p, OName (snd p))) d.
Definition winansi : codec := mkCodec 1 true winansi_encode (names_table winansi_decode).
Definition standard : codec := mkCodec 2 true standard_encode (names_table standard_decode).
Definition macroman : codec := mkCodec 3 true macroman_encode (names_table macroman_decode).
Definition pdfdoc : codec := mkCodec 4 true pdfdoc_encode (names_table pdfdoc_decode).

(** differences.py 7-8 *)
Definition base_codec (name : list Z) : option codec :=
  if eqlZ name (bs "WinAnsiEncoding") then Some winansi
  else if eqlZ name (bs "PDFDocEncoding") then Some pdfdoc
  else if eqlZ name (bs "MacRomanEncoding") then Some macroman
  else if eqlZ name (bs "StandardEncoding") then Some standard else None.
(** d[k] = v *)
Fixpoint zset {A} (d : list (Z * A)) (k : Z) (v : A) : list (Z * A) :=
  match d with [] => [(k, v)] | (k', v') :: r => if k =? k' then (k', v) :: r else (k', v') :: zset r k v end.
(** 53-61: isinstance(item, int) includes booleans; [code] is None while it is unbound *)
Fixpoint apply_differences (dt : list (Z * obj)) (code : option Z) (ds : list obj) : res (list (Z * obj)) :=
  match ds with
  | [] => Ok dt
  | OInt z :: r => apply_differences dt (Some z) r
  | OBool b :: r => apply_differences dt (Some (if b then 1 else 0)) r
  | o :: r => match code with
              | None => Err UnboundLocal
              | Some z => apply_differences (zset dt z o) (Some (z + 1)) r
              end
  end.
(** 13-71 DifferencesCodec: [base] is the BaseEncoding entry (None if it is missing or false), [diff] the
    Differences array ([] if missing); every call makes a new class, of identity [id].  An entry BaseEncoding
    that is no string, and Differences that is no array, are not modelled. *)
Definition differences_codec (id : Z) (base : option (list Z)) (diff : list obj) : res codec :=
  let b := match base with None => standard | Some n => match base_codec n with Some c => c | None => standard end end in
  match apply_differences (c_decode b) None diff with
  | Err e => Err e
  | Ok dt => Ok (mkCodec id true (c_encode b) dt)
  end.

(** codecs.lookup after register_pdf_encodings (codecs/__init__.py): Python's own search function comes
    first, then the [search] of each class (codec.py 105-107), which answers for every name. *)
Inductive found := FPython | FClass (c : codec).
Definition search (c : codec) (name : list Z) : option found := Some (FClass c).
Definition first_found (fs : list (list Z -> option found)) (name : list Z) : option found :=
  fold_left (fun r f => match r with Some x => Some x | None => f name end) fs None.
Definition codecs_lookup (python : list Z -> bool) (name : list Z) : option found :=
  first_found [fun n => if python n then Some FPython else None; search winansi; search standard; search macroman; search pdfdoc] name.

(** decoder.py 149-177 EncodingDecoder.decode_string; decode_hexstring is this on the bytes.
    [python_decode] decodes with one of Python's own codecs; latin1 is one of them. *)
Inductive encoding := EName (n : list Z) | EDict (base : option (list Z)) (diff : list obj) | EOther.
Definition latin1 : list Z := bs "latin-1".
Definition encoding_decode (python : list Z -> bool) (python_decode : list Z -> list Z -> res (list Z))
    (id : Z) (e : encoding) (s : list Z) (c : gcache) : res (list Z) * gcache :=
  match e with
  | EName n =>
      match codecs_lookup python n with
      | Some FPython => (python_decode n s, c)
      | Some (FClass cls) => decode_loop cls s [] c
      | None => (python_decode latin1 s, c)
      end
  | EDict base diff =>
      match differences_codec id base diff with
      | Err er => (Err er, c)
      | Ok cls => decode_loop cls s [] c
      end
  | EOther => (Err TypeErr, c)
  end.
