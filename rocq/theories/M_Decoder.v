(** Model of pdfreader/codecs/decoder.py: which decoder a font gets (_get_cmap_encoding, Decoder,
    PredefinedCmaps) and what it does with a string.  CMAPDecoder and EncodingDecoder themselves are in
    M_CMap.v and M_Codec.v, the CMap parser in M_CMapParser.v, the predefined files in D_CMaps.v.
    Simplifications: logging dropped; PredefinedCmaps._cache and the second call of _get_cmap_encoding by
    BaseDecoder.__init__ give the same value again and are left out; the glyph cache starts empty (C59). *)
From Coq Require Import String.
From Verif Require Import Prelude M_Prog M_Parser M_Filters M_Document M_Objects M_Viewer M_Codec M_CMap M_CMapParser D_PSNames D_CMaps.
Local Open Scope Z_scope.

(** a value as the parser made it (the inverse of [raw]; wrapped values lose their class) *)
Fixpoint unraw (v : bv) : obj :=
  match v with
  | VAtom o => o
  | VRef n g => ORef n g
  | VArr l => OArr (map unraw l)
  | VDict _ d => ODict (map (fun p => (fst p, unraw (snd p))) d)
  | VStm _ d data => OStream (map (fun p => (fst p, unraw (snd p))) d) data
  end.
Definition none : bv := VAtom ONull.
Definition is_none (v : bv) : bool := match v with VAtom ONull => true | _ => false end.
Definition or_none (o : option bv) : bv := match o with Some v => v | None => none end.

(** CMapParser(BytesIO(b)).cmap(): enough fuel, by C55_terminates *)
Definition parse_cmap (b : list Z) : res cmap_file := fst (arun b (cmap (Z.to_nat (4 * zlen b + 60))) (mkA 0 [] tt)).
(** decoder.py 17-30 PredefinedCmaps *)
Definition predefined (name : list Z) : res cmap_file :=
  match aget predefined_cmaps name with
  | None => Err KeyErr
  | Some f => match aget cmap_files f with None => Err OSErr | Some b => parse_cmap b end
  end.

(** 33-48 _guess_encoding_by_font_name: the names (with the misspelt Helvetica-Qblique) *)
Definition guessed_fonts : list (list Z) := map bs
  ["Symbol"; "Times-Roman"; "Helvetica"; "Courier"; "Symbol"; "Times-Bold"; "Helvetica-Bold"; "Courier-Bold"; "Times-Italic";
   "Helvetica-Qblique"; "Courier-Oblique"; "Times-BoldItalic"; "Helvetica-BoldOblique"; "Courier-BoldOblique"; "ZapfDingbats"]%string.
Definition guess (name : bv) : res bv :=
  match name with
  | VAtom (OName n) | VAtom (OHex n) => Ok (if existsb (eqlZ n) guessed_fonts then VAtom (OName (bs "Identity-H")) else none)
  | VRef _ _ | VStm _ _ _ => Err AttributeErr      (* __eq__ reads attributes of a str *)
  | _ => Ok none
  end.

(** the decoders; the encoding is kept as it was found *)
Inductive decoder := DCMap (c : cmap_file) (e : bv) | DEncoding (e : bv) | DDefault.

Section Dec.
  (** codecs Python knows, and their decoding *)
  Variable python : list Z -> bool.
  Variable python_decode : list Z -> list Z -> res (list Z).
  (** zlib.decompress and the CCITT filter (M_Filters.v) *)
  Variable inflate : list Z -> option (list Z).
  Variable ccitt : list Z -> fparams -> res (list Z).
  (** doc.build(., lazy=True) *)
  Variable bld : bv -> res bv.
  (** identity of the class made for an encoding dictionary *)
  Variable id : Z.

  (** font.get(k): a dictionary object resolves, a stream gives the raw entry *)
  Definition font_get (font : bv) (k : list Z) : res bv :=
    match font with
    | VDict c d => rbind (dict_entry bld c d k) (fun o => Ok (or_none o))
    | VStm _ d _ => Ok (or_none (aget d k))
    | _ => Err AttributeErr
    end.
  (** v.filtered (types/native.py 108-114); a dictionary object has the attribute if it has the entry,
      else it is None, and BytesIO(None) is empty *)
  Definition filtered_of (v : bv) : res (list Z) :=
    match v with
    | VStm _ d data =>
        match filtered inflate ccitt (map (fun p => (fst p, unraw (snd p))) d) data with
        | Err AttributeErr => Ok []          (* None, see M_Document.if_none *)
        | r => r
        end
    | VDict (Some c) d =>
        rbind (dict_entry bld (Some c) d (bs "filtered")) (fun o =>
          match or_none o with VAtom ONull => Ok [] | VAtom (OStr s) => Ok s | _ => Err TypeErr end)
    | _ => Err AttributeErr
    end.
  (** 55: isinstance(explicit_encoding, Name) and explicit_encoding in predefined_cmap_names *)
  Definition is_predefined (e : bv) : bool :=
    match e with VAtom (OName n) => match aget predefined_cmaps n with Some _ => true | None => false end | _ => false end.

  (** 51-69 _get_cmap_encoding *)
  Definition get_cmap_encoding (font : bv) : res (option cmap_file * bv) :=
    rbind (font_get font (bs "ToUnicode")) (fun tu =>
    rbind (font_get font (bs "Encoding")) (fun en =>
    rbind (if btruthy tu then rbind (filtered_of tu) (fun b => rbind (parse_cmap b) (fun c => Ok (Some c)))
           else match en with
                | VAtom (OName n) => if is_predefined en then rbind (predefined n) (fun c => Ok (Some c)) else Ok None
                | _ => Ok None
                end) (fun cm =>
    let e := if is_predefined en then none else en in
    match cm with
    | None => if is_none e then rbind (font_get font (bs "BaseFont")) (fun bf => rbind (guess bf) (fun g => Ok (None, g))) else Ok (None, e)
    | Some _ => Ok (cm, e)
    end))).
  (** 179-191 Decoder (a CMapResource is always true) *)
  Definition decoder_of (font : bv) : res decoder :=
    rbind (get_cmap_encoding font) (fun ce =>
      match ce with
      | (Some c, e) => Ok (DCMap c e)
      | (None, e) => Ok (if btruthy e then DEncoding e else DDefault)
      end).

  (** 155-173 and differences.py 33-52: what kind of encoding it is.  Differences that is no array is
      iterated: a string's items are integers, a name's and a dictionary's are texts (the code is unbound). *)
  Definition to_encoding (e : bv) : res encoding :=
    match e with
    | VAtom (OName n) | VAtom (OHex n) => Ok (EName n)
    | VDict (Some c) d =>
        rbind (dict_entry bld (Some c) d (bs "BaseEncoding")) (fun b =>
        rbind (let b := or_none b in
               if btruthy b then match b with
                                 | VAtom (OName n) | VAtom (OHex n) => Ok (Some n)
                                 | VAtom _ => Ok (Some [])
                                 | _ => Err TypeErr
                                 end
               else Ok None) (fun base =>
        rbind (dict_entry bld (Some c) d (bs "Differences")) (fun ds =>
          let ds := or_none ds in
          if btruthy ds then
            match ds with
            | VArr l => Ok (EDict base (map unraw l))
            | VAtom (OStr _) => Ok (EDict base [])
            | VAtom (OName _) | VAtom (OHex _) | VDict _ _ => Err UnboundLocal
            | VStm _ _ _ => Err KeyErr
            | _ => Err TypeErr
            end
          else Ok (EDict base []))))
    | _ => Ok EOther
    end.
  (** 152-173 EncodingDecoder.decode_string *)
  Definition decode_bytes (e : bv) (s : list Z) : res (list Z) :=
    rbind (to_encoding e) (fun en => fst (encoding_decode python python_decode id en s [])).
  (** 111-117 CMAPDecoder._encoding_decoder; default_decoder is latin-1: every byte its code point *)
  Definition fallback (e : bv) (s : list Z) : res (list Z) := if btruthy e then decode_bytes e s else Ok s.

  (** decode_string / decode_hexstring of the decoder (119-152).  Operands that are no strings are not modelled
      (TypeError stands for their failures). *)
  Definition run_decoder (d : decoder) (o : obj) : res (list Z) :=
    match o with
    | OStr s => match d with
                | DCMap c e => cm_decode_string (lookup (cm_bf c)) (fallback e) s
                | DEncoding e => decode_bytes e s
                | DDefault => Ok s
                end
    | OHex h => match d with
                | DCMap c e => cm_decode_hex (lookup (cm_bf c)) (fallback e) h
                | DEncoding e => rbind (fromhex h) (decode_bytes e)
                | DDefault => fromhex h
                end
    | _ => Err TypeErr
    end.
  (** viewer/simple.py 85-101: the decoder of the font resource, default_decoder without one *)
  Definition show_text (font : option bv) (o : obj) : res (list Z) :=
    match font with
    | None => run_decoder DDefault o
    | Some f => rbind (decoder_of f) (fun d => run_decoder d o)
    end.
End Dec.
