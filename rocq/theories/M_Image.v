(** Images: pillow.py, types/content.py 13-74 (inline images).  The calls of PIL are described, not run. *)
From Coq Require Import String.
From Verif Require Import Prelude M_Parser M_Document M_Objects M_Viewer.
Local Open Scope Z_scope.

(** *** bitarray (environment): frombytes, tobytes and fill of a big-endian bitarray *)
Definition byte_bits (b : Z) : list bool := map (fun i => Z.testbit b i) [7; 6; 5; 4; 3; 2; 1; 0].
Definition frombytes (data : list Z) : list bool := List.concat (map byte_bits data).
(** zeros up to a multiple of eight *)
Definition fill (l : list bool) : list bool := l ++ repeat false (Z.to_nat ((- zlen l) mod 8)).
Definition bits_val (l : list bool) : Z := fold_left (fun a b => 2 * a + (if b : bool then 1 else 0)) l 0.
Fixpoint to_bytes_ (n : nat) (l : list bool) : list Z :=
  match n with O => [] | S n' => bits_val (firstn 8 l) :: to_bytes_ n' (skipn 8 l) end.
(** tobytes: the last byte is filled up with zeros *)
Definition tobytes (l : list bool) : list Z := let l' := fill l in to_bytes_ (Z.to_nat (zlen l' / 8)) l'.
(** int.from_bytes(., 'big') *)
Definition from_bytes (l : list Z) : Z := fold_left (fun a b => 256 * a + b) l 0.

(** *** pillow.py *)
(** What the image says: attributes after resolving references, filtered data (property filtered)
    (TypeErr if it is None, see M_Document.if_none: frombytes(None) and bytes(None) are TypeErrors), raw data
    (.stream; inline images have no such attribute), and the attribute "data" (inline images: the raw data; XObjects: an entry of the dictionary) *)
Record image := mkImg { im_width : bv; im_height : bv; im_filter : bv; im_bpc : bv; im_decode : bv; im_cs : bv; im_mask : bv;
                        im_filtered : res (list Z); im_stream : res bv; im_data : bv }.

(** 14-28 decoded, for one step of the loop *)
Definition component (bits : list bool) : Z := from_bytes (tobytes (rev (fill (rev bits)))).
Fixpoint groups (n : nat) (k : nat) (l : list bool) : list (list bool) :=
  match n with
  | O => []
  | S n' => match l with [] => [] | _ => firstn k l :: groups n' k (skipn k l) end
  end.
Definition list_index {A} (l : list A) (i : Z) : res A :=
  match nth_error l (Z.to_nat i) with Some x => Ok x | None => Err IndexErr end.
(** BitsPerComponent is the step of a range and a slice width; a negative step gives no values.
    Decode: an array, or (if empty, null or absent) nothing; anything else truthy is not subscriptable. *)
Definition sample (decode : bv) (i : Z) : res bv :=
  if btruthy decode
  then match decode with
       | VArr l => list_index l i
       | VAtom (OStr l) => rbind (list_index l i) (fun c => Ok (VAtom (OInt c)))
       | VAtom (OName l) | VAtom (OHex l) => rbind (list_index l i) (fun c => Ok (VAtom (OName [c])))
       | VDict _ _ | VStm _ _ _ => Err KeyErr
       | _ => Err TypeErr
       end
  else Ok (VAtom (OInt i)).
Definition decoded (im : image) : res (list bv) :=
  rbind (im_filtered im) (fun data =>
  let bits := frombytes data in
  match im_bpc im with
  | VAtom (OInt b) =>
      if b =? 0 then Err ValueErr
      else if b <? 0 then Ok []
      else mapM (fun g => sample (im_decode im) (component g)) (groups (List.length bits) (Z.to_nat b) bits)
  | VAtom (OBool b) =>
      if b : bool then mapM (fun g => sample (im_decode im) (component g)) (groups (List.length bits) 1 bits) else Err ValueErr
  | _ => Err TypeErr
  end).

(** v == "text" *)
Definition says (v : bv) (t : list Z) : bool :=
  match v with VAtom (OName s) | VAtom (OHex s) | VAtom (OTok s) => eqlZ s t | _ => false end.
Definition says_any (v : bv) (ts : list (list Z)) : bool := existsb (says v) ts.
(** 30-54 get_pil_colorspace; [icc_n] is the attribute N of an ICC profile stream (absent: None) *)
Definition icc_n (v : bv) : res bv :=
  match v with
  | VStm _ d _ | VDict _ d => Ok (match aget d (bs "N") with Some x => x | None => VAtom ONull end)
  | _ => Err AttributeErr
  end.
Definition is_num (v : bv) (n : Z) : bool := match v with VAtom (OInt z) => z =? n | VAtom (OBool b) => (if b then 1 else 0) =? n | _ => false end.
Definition pil_mode (cs : bv) : res (list Z) :=
  let plain v :=
    if says_any v [bs "DeviceRGB"; bs "RGB"; bs "CalRGB"] then bs "RGB"
    else if says_any v [bs "DeviceCMYK"; bs "CMYK"; bs "CalCMYK"] then bs "CMYK"
    else if says_any v [bs "DeviceGrey"; bs "G"; bs "CalGrey"] then bs "L"
    else bs "P" in
  match cs with
  | VArr [] => Err IndexErr
  | VArr (h :: r) =>
      if says h (bs "ICCBased")
      then match r with
           | [] => Err IndexErr
           | p :: _ =>
               rbind (icc_n p) (fun n =>
               if is_num n 1 then Ok (plain (VAtom (OName (bs "DeviceGrey"))))
               else if is_num n 3 then Ok (plain (VAtom (OName (bs "DeviceRGB"))))
               else if is_num n 4 then Ok (plain (VAtom (OName (bs "DeviceCMYK"))))
               else Err ValueErr)
           end
      else Ok (plain cs)
  | _ => Ok (plain cs)
  end.

(** raw[:n] *)
Definition upto (n : Z) (l : list Z) : list Z := firstn (Z.to_nat (if n <? 0 then zlen l + n else n)) l.
(** 94-115 _recover_broken_image_if_necessary, for integer sizes; the modes are those of pil_mode *)
Definition recover (mode : list Z) (w h : Z) (raw : list Z) : list Z :=
  let n_pixels := w * h in
  let expected := if eqlZ mode (bs "RGB") then n_pixels * 3 else if eqlZ mode (bs "CMYK") then n_pixels * 4 else n_pixels in
  if zlen raw >? expected then upto expected raw
  else if zlen raw <? expected then raw ++ repeat 0 (Z.to_nat (expected - zlen raw))
  else raw.

(** What PIL is asked to do. *)
Inductive pil : Type :=
| POpen (data : bv)                                           (* Image.open(BytesIO(data)) *)
| PBytes (mode : list Z) (w h : bv) (data : bv)                (* Image.frombytes(mode, (w, h), data) *)
| PPalette (w h : bv) (lookup : bv) (mode : list Z) (data : bv). (* Image.new("P"), putpalette, frombytes *)

(** bitarray(list): only 0 and 1 *)
Definition as_bit (v : bv) : res bool :=
  match v with
  | VAtom (OInt z) => if z =? 0 then Ok false else if z =? 1 then Ok true else Err ValueErr
  | VAtom (OBool b) => Ok b
  | VAtom (OReal _ _ _) => Err TypeErr
  | _ => Err TypeErr
  end.
(** str.fromhex of a HexString (always an even number of digits) *)
Definition hex_bytes (s : list Z) : list Z :=
  (fix go l := match l with a :: b :: r => match hexval a, hexval b with Some x, Some y => 16 * x + y :: go r | _, _ => [] end | _ => [] end) s.
Definition filter_name (f : bv) : res bv :=
  match f with VArr [] => Err IndexErr | VArr l => Ok (last l (VAtom ONull)) | v => Ok v end.

Section ToPillow.
  (** property filtered of the lookup table of an indexed colour space *)
  Variable stream_data : bv -> res (list Z).
  (** 56-92 to_Pillow *)
  Definition to_pillow (im : image) : res pil :=
    rbind (filter_name (im_filter im)) (fun f =>
    if says_any f [bs "DCTDecode"; bs "JPXDecode"] then rbind (im_stream im) (fun s => Ok (POpen s))
    else if says f (bs "CCITTFaxDecode") || btruthy (im_mask im) then
      rbind (decoded im) (fun vs => rbind (mapM as_bit vs) (fun bits =>
      Ok (PBytes (bs "1") (im_width im) (im_height im) (VAtom (OStr (tobytes bits))))))
    else
      match im_cs im with
      | VArr (my :: base :: hival :: lookup :: _) =>
          rbind (match lookup with
                 | VStm _ _ _ => rbind (stream_data lookup) (fun b => Ok (VAtom (OStr b)))
                 | VAtom (OHex s) => Ok (VAtom (OStr (hex_bytes s)))
                 | v => Ok v
                 end) (fun lk =>
          if says my (bs "Indexed")
          then rbind (pil_mode base) (fun m => rbind (im_filtered im) (fun b =>
               Ok (PPalette (im_width im) (im_height im) lk m (VAtom (OStr b)))))
          else rbind (pil_mode base) (fun m => Ok (PBytes m (im_width im) (im_height im) (im_data im))))
      | VArr _ => Err IndexErr
      | cs =>
          rbind (pil_mode cs) (fun m => rbind (im_filtered im) (fun b =>
          match im_width im, im_height im with
          | VAtom (OInt w), VAtom (OInt h) => Ok (PBytes m (im_width im) (im_height im) (VAtom (OStr (recover m w h b))))
          | _, _ => Err TypeErr
          end))
      end).
End ToPillow.

(** types/content.py 29-73: attributes of an inline image: the long name, or the abbreviation *)
Definition inline_attr (d : list (list Z * bv)) (long short : list Z) : bv :=
  let g k := match aget d k with Some v => v | None => VAtom ONull end in
  if btruthy (g long) then g long else g short.
Definition inline_image (filtered : bv -> list Z -> bv -> res (list Z)) (d : list (list Z * bv)) (data : list Z) : image :=
  let a := inline_attr d in
  mkImg (a (bs "Width") (bs "W")) (a (bs "Height") (bs "H")) (a (bs "Filter") (bs "F")) (a (bs "BitsPerComponent") (bs "BPC"))
        (a (bs "Decode") (bs "D")) (a (bs "ColorSpace") (bs "CS")) (a (bs "ImageMask") (bs "IM"))
        (filtered (a (bs "Filter") (bs "F")) data (a (bs "DecodeParms") (bs "DP"))) (Err AttributeErr) (VAtom (OStr data)).
