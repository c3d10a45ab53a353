(** Model of pdfreader/filters/*.py (except ccittfax.py, see M_CCITT.v) and of
    types/native.py apply_filter_multi.  No proofs in this file. *)
From Verif Require Import Prelude.
From Coq Require Import String.
Local Open Scope Z_scope.

(** ---- Python runtime helpers ---- *)

(** Py_ISSPACE, the characters bytes.fromhex skips (CPython >= 3.7). *)
Definition py_isspace (c : Z) : bool := (c =? 32) || ((9 <=? c) && (c <=? 13)).

(** CPython bytes.fromhex: skip spaces, then two digits, ... *)
Fixpoint fromhex (s : list Z) : res (list Z) :=
  match s with
  | [] => Ok []
  | a :: r =>
      if py_isspace a then fromhex r
      else match hexval a with
           | None => Err ValueErr
           | Some h =>
               match r with
               | [] => Err ValueErr
               | b :: r' =>
                   match hexval b with
                   | None => Err ValueErr
                   | Some l => match fromhex r' with
                               | Ok t => Ok ((16 * h + l) :: t)
                               | Err e => Err e
                               end
                   end
               end
           end
  end.

(** Python [try: ... except ValueError]-style handler. *)
Definition catch_value (e : exn) : bool := exn_eqb e ValueErr.

(** ---- filters/asciihex.py 10-49 (decode) ---- *)
(** lines 42-45, after the loop: pad a single pending digit with "0". *)
Definition ahx_final (buffer acc : list Z) : list Z * option exn :=
  match buffer with
  | [] => (acc, None)
  | _ =>
      let buffer' := if zlen buffer =? 1 then buffer ++ [48] else buffer in
      match fromhex buffer' with
      | Ok bts => (acc ++ bts, None)
      | Err e => (acc, Some e)
      end
  end.

(** lines 31-40: [buffer] holds the pending digits, [acc] is [res].
    Returns the value of [res] when the try block is left and the exception that ended it.
    bytes.decode("latin-1") is the identity on code lists. *)
Fixpoint ahx_loop (data : list Z) (buffer : list Z) (acc : list Z) : list Z * option exn :=
  match data with
  | [] => ahx_final buffer acc
  | c :: r =>
      if is_ws c then ahx_loop r buffer acc
      else if c =? 62 then ahx_final buffer acc
      else
        let buffer' := buffer ++ [c] in
        if 1 <? zlen buffer' then
          match fromhex buffer' with
          | Ok bts => ahx_loop r [] (acc ++ bts)
          | Err e => (acc, Some e)
          end
        else ahx_loop r buffer' acc
  end.

(** lines 28-49: only ValueError is caught; what was decoded so far is kept. *)
Definition asciihex_decode (data : list Z) : res (list Z) :=
  match ahx_loop data [] [] with
  | (acc, None) => Ok acc
  | (acc, Some e) => if exn_eqb e ValueErr then Ok acc else Err e
  end.

(** ---- filters/ascii85.py 11-33 (decode), with CPython's base64.a85decode ---- *)

(** CPython base64.a85decode default ignorechars [b' \t\n\r\v']. *)
Definition a85_ignore (c : Z) : bool := memZ c [32; 9; 10; 13; 11].

(** struct '!I'.pack: four big-endian bytes, struct.error beyond 32 bits (re-raised as
    ValueError by a85decode). *)
Definition packI (acc : Z) : res (list Z) :=
  if (0 <=? acc) && (acc <=? 4294967295) then
    Ok [acc / 16777216; (acc / 65536) mod 256; (acc / 256) mod 256; acc mod 256]
  else Err ValueErr.

Definition a85_acc (curr : list Z) : Z :=
  fold_left (fun acc x => 85 * acc + (x - 33)) curr 0.

(** main loop of a85decode: returns the decoded bytes and the pending digits. *)
Fixpoint a85_loop (b : list Z) (curr : list Z) (decoded : list Z) : res (list Z * list Z) :=
  match b with
  | [] => Ok (decoded, curr)
  | x :: r =>
      if (33 <=? x) && (x <=? 117) then
        let curr' := curr ++ [x] in
        if zlen curr' =? 5 then
          match packI (a85_acc curr') with
          | Ok w => a85_loop r [] (decoded ++ w)
          | Err e => Err e
          end
        else a85_loop r curr' decoded
      else if x =? 122 then
        match curr with
        | [] => a85_loop r [] (decoded ++ [0; 0; 0; 0])
        | _ => Err ValueErr
        end
      else if a85_ignore x then a85_loop r curr decoded
      else Err ValueErr
  end.

(** a85decode: append "uuuu", decode, drop [4 - len(curr)] bytes ([result[:-padding]]). *)
Definition a85decode (b : list Z) : res (list Z) :=
  match a85_loop (b ++ [117; 117; 117; 117]) [] [] with
  | Err e => Err e
  | Ok (result, curr) =>
      let padding := 4 - zlen curr in
      if padding =? 0 then Ok result
      else Ok (firstn (Z.to_nat (zlen result - padding)) result)
  end.

(** bytes.endswith *)
Definition ends_with (s suf : list Z) : bool :=
  eqlZ (skipn (List.length s - List.length suf) s) suf.

Definition ascii85_decode (data0 : list Z) : res (list Z) :=
  let data := filter (fun n => negb (is_ws n)) data0 in
  let r :=
    if ends_with data [126; 62] then a85decode (firstn (List.length data - 2) data)
    else Err ValueErr in
  match r with
  | Ok v => Ok v
  | Err e => if exn_eqb e TypeErr || exn_eqb e ValueErr then Ok [] else Err e
  end.

(** ---- filters/runlength.py 8-50 (decode) ---- *)
Inductive rl_state := NeedLength | NeedOne | NeedMany | RLDone.

(** The for loop 25-44.  Line 37 [bytes([c] * (257 - length))]. *)
Fixpoint rl_loop (data : list Z) (st : rl_state) (length : Z) (buffer res : list Z)
  : rl_state * list Z :=
  match data with
  | [] => (st, res)
  | c :: r =>
      match st with
      | NeedLength =>
          if c =? 128 then (RLDone, res)
          else rl_loop r (if 129 <=? c then NeedOne else NeedMany) c [] res
      | NeedOne =>
          rl_loop r NeedLength length buffer (res ++ repeat c (Z.to_nat (257 - length)))
      | NeedMany =>
          let buffer' := buffer ++ [c] in
          if zlen buffer' =? length + 1
          then rl_loop r NeedLength length [] (res ++ buffer')
          else rl_loop r NeedMany length buffer' res
      | RLDone => (RLDone, res) (* unreachable: the loop has been left by [break] *)
      end
  end.

Definition runlength_decode (data : list Z) : res (list Z) :=
  match rl_loop data NeedLength 0 [] [] with
  | (RLDone, res) => Ok res
  | (_, _) => Ok []
  end.

(** ---- filters/predictors.py 4-33 (_remove_predictors) ---- *)
(** Predictor and Columns are modelled as integers or None (missing); other Python types in
    these entries are not modelled. *)

(** lines 25-29: [for i in range(0, len(data), row_size)], [row_size] > 0. [fuel] is an upper
    bound on the number of rows (len(data) suffices). *)
Fixpoint pred_rows (fuel : nat) (data : list Z) (row_size : nat) : list Z :=
  match fuel with
  | O => []
  | S f =>
      match data with
      | [] => []
      | _ => firstn (row_size - 1) (skipn 1 data) ++ pred_rows f (skipn row_size data) row_size
      end
  end.

Definition remove_predictors (data : list Z) (predictor columns : option Z) : res (list Z) :=
  let p := match predictor with None => 1 | Some p => p end in
  if p =? 1 then Ok data
  else if p =? 2 then Err ValueErr
  else if (10 <=? p) && (p <=? 15) then
    match columns with
    | None => Err TypeErr                       (* None + 1 *)
    | Some c =>
        let row_size := c + 1 in
        if row_size =? 0 then Err ValueErr      (* range() arg 3 must not be zero *)
        else if row_size <? 0 then Ok []        (* empty range *)
        else Ok (pred_rows (List.length data) data (Z.to_nat row_size))
    end
  else Err ValueErr.

(** ---- filters/lzw.py ---- *)

(** lines 285-298 (bytestobits), one byte: most significant bit first. *)
Definition byte_bits (v : Z) : list Z :=
  map (fun i => Z.b2z (Z.testbit v i)) [7; 6; 5; 4; 3; 2; 1; 0].
Definition bytestobits (l : list Z) : list Z := flat_map byte_bits l.

(** lines 265-282 (intfrombits), MSB first; [ret | 1 << i] over distinct bits is the sum. *)
Definition intfrombits (bits : list Z) : Z := fold_left (fun a b => 2 * a + b) bits 0.

Record unpacker := mkUnp { u_bits : list Z; u_offset : Z; u_ignore : Z; u_codesize : Z; u_width : Z }.

(** lines 116-120: minwidth for the initial code size 258 is 9. *)
Definition lzw_init_codesize : Z := 258.
Definition lzw_minwidth : Z := 9.
Definition unp_init : unpacker := mkUnp [] 0 0 lzw_init_codesize lzw_minwidth.

(** lines 144-145: [while codesize >= 2**pointwidth: pointwidth += 1], closed form. *)
Definition grow_width (codesize width : Z) : Z :=
  if codesize <? 2 ^ width then width else Z.log2 codesize + 1.

(** lines 122-148: one bit; the yielded code point, if any. *)
Definition unp_step (s : unpacker) (nextbit : Z) : unpacker * option Z :=
  let offset := (u_offset s + 1) mod 8 in
  if 0 <? u_ignore s then
    (mkUnp (u_bits s) offset (u_ignore s - 1) (u_codesize s) (u_width s), None)
  else
    let bits := u_bits s ++ [nextbit] in
    if zlen bits =? u_width s then
      let cp := intfrombits bits in
      let codesize := u_codesize s + 1 in
      let ctl := (cp =? 256) || (cp =? 257) in
      let codesize' := if ctl then lzw_init_codesize else codesize in
      let width' := if ctl then lzw_minwidth else grow_width codesize (u_width s) in
      let ignore' := if cp =? 257 then (8 - offset) mod 8 else u_ignore s in
      (mkUnp [] offset ignore' codesize' width', Some cp)
    else (mkUnp bits offset (u_ignore s) (u_codesize s) (u_width s), None).

Fixpoint unpack (s : unpacker) (bits : list Z) : list Z :=
  match bits with
  | [] => []
  | b :: r => match unp_step s b with
              | (s', Some cp) => cp :: unpack s' r
              | (s', None) => unpack s' r
              end
  end.

(** Decoder state.  The dict [_codepoints] always has keys 0..len-1 (line 232/236 add key
    len(dict)), so it is a list indexed by code; entries 256 and 257 are never looked up. *)
Record lzw_dec := mkDec { d_table : list (list Z); d_prefix : option (list Z) }.

(** lines 242-246 *)
Definition lzw_clear : lzw_dec :=
  mkDec (map (fun n => [Z.of_nat n]) (seq 0 256) ++ [[]; []]) None.

(** lines 222-240 *)
Definition decode_codepoint (d : lzw_dec) (cp : Z) : res (lzw_dec * list Z) :=
  if cp =? 256 then Ok (lzw_clear, [])
  else if cp =? 257 then Err ValueErr
  else
    match nth_error (d_table d) (Z.to_nat cp) with
    | Some ret =>
        let table' := match d_prefix d with
                      | Some p => d_table d ++ [p ++ firstn 1 ret]
                      | None => d_table d
                      end in
        Ok (mkDec table' (Some ret), ret)
    | None =>
        match d_prefix d with
        | None => Err TypeErr                       (* None + b'' *)
        | Some p =>
            (* [ret = self._prefix + ret[0:1]] with ret still b"" *)
            Ok (mkDec (d_table d ++ [p ++ firstn 1 []]) (Some (p ++ firstn 1 [])), p ++ firstn 1 [])
        end
    end.

Fixpoint lzw_decode_codes (d : lzw_dec) (cps : list Z) (decoded : list Z) : res (list Z) :=
  match cps with
  | [] => Ok decoded
  | cp :: r =>
      match decode_codepoint d cp with
      | Ok (d', out) => lzw_decode_codes d' r (decoded ++ out)
      | Err e => Err e
      end
  end.

(** lines 37-44, 195-200 *)
Definition lzw_decompress (data : list Z) : res (list Z) :=
  lzw_decode_codes lzw_clear (unpack unp_init (bytestobits data)) [].

(** lines 21-34: only ValueError is caught. *)
Definition lzw_decode (data : list Z) (predictor columns : option Z) : res (list Z) :=
  match rbind (lzw_decompress data) (fun d => remove_predictors d predictor columns) with
  | Ok v => Ok v
  | Err e => if exn_eqb e ValueErr then Ok [] else Err e
  end.

(** ---- filters/flate.py 10-27, zlib.decompress is a parameter (None = zlib.error) ---- *)
Definition flate_decode (inflate : list Z -> option (list Z)) (data : list Z)
           (predictor columns : option Z) : res (list Z) :=
  match inflate data with
  | None => Ok []
  | Some d => remove_predictors d predictor columns
  end.

(** ---- filters/__init__.py 10-14 (apply_filter) ---- *)

(** DecodeParms as handed to the filters: missing/falsy, a dictionary with integer-valued
    entries (booleans as 0/1), or a (non-empty) array. *)
Inductive fparams :=
| PNone
| PDict (d : list (list Z * Z))
| PArray.

Fixpoint passoc (k : list Z) (d : list (list Z * Z)) : option Z :=
  match d with [] => None | (k', v) :: r => if eqlZ k k' then Some v else passoc k r end.

(** [params.get(name)]; arrays have no [get] (AttributeError). *)
Definition pget (p : fparams) (k : list Z) : res (option Z) :=
  match p with
  | PNone => Ok None
  | PDict d => Ok (passoc k d)
  | PArray => Err AttributeErr
  end.

Inductive filter_kind := FAscii85 | FAsciiHex | FFlate | FLzw | FRunLength | FCcitt | FDct | FJbig2 | FJpx | FCrypt.

(** decoders_by_name: the [filter_names] tuples of the modules. *)
Definition filter_table : list (list Z * filter_kind) :=
  [ (bs "ASCII85Decode", FAscii85); (bs "A85", FAscii85);
    (bs "ASCIIHexDecode", FAsciiHex); (bs "AHx", FAsciiHex);
    (bs "FlateDecode", FFlate); (bs "Fl", FFlate);
    (bs "LZWDecode", FLzw); (bs "LZW", FLzw);
    (bs "RunLengthDecode", FRunLength); (bs "RL", FRunLength);
    (bs "CCITTFaxDecode", FCcitt); (bs "CCF", FCcitt);
    (bs "DCTDecode", FDct); (bs "DCT", FDct);
    (bs "JBIG2Decode", FJbig2); (bs "JPXDecode", FJpx); (bs "Crypt", FCrypt) ].

Fixpoint find_filter (n : list Z) (t : list (list Z * filter_kind)) : option filter_kind :=
  match t with [] => None | (k, f) :: r => if eqlZ n k then Some f else find_filter n r end.

Section ApplyFilter.
  (** zlib.decompress and the CCITT decoder (M_CCITT.v) are supplied from outside. *)
  Variable inflate : list Z -> option (list Z).
  Variable ccitt : list Z -> fparams -> res (list Z).

  (** flate.py 23 / lzw.py 30: the two [params.get] calls happen inside the try block; an
      AttributeError from an array of DecodeParms is not caught. *)
  Definition run_filter (f : filter_kind) (data : list Z) (p : fparams) : res (list Z) :=
    match f with
    | FAscii85 => ascii85_decode data
    | FAsciiHex => asciihex_decode data
    | FRunLength => runlength_decode data
    | FFlate =>
        match inflate data with
        | None => Ok []
        | Some d => rbind (pget p (bs "Predictor")) (fun pr =>
                    rbind (pget p (bs "Columns")) (fun co => remove_predictors d pr co))
        end
    | FLzw =>
        match rbind (lzw_decompress data) (fun d =>
              rbind (pget p (bs "Predictor")) (fun pr =>
              rbind (pget p (bs "Columns")) (fun co => remove_predictors d pr co))) with
        | Ok v => Ok v
        | Err e => if exn_eqb e ValueErr then Ok [] else Err e
        end
    | FCcitt => ccitt data p
    | FDct => Err TypeErr       (* dct.py 7: Image.frombytes(binary) lacks two arguments *)
    | FJbig2 | FJpx => Ok data  (* jbig2.py, jpx.py: raw data *)
    | FCrypt => Err NotImpl     (* crypt.py 5 *)
    end.

  Definition apply_filter (name : list Z) (data : list Z) (p : fparams) : res (list Z) :=
    match find_filter name filter_table with
    | None => Err NotImpl
    | Some f => run_filter f data p
    end.

  (** types/native.py 54-62: the loop over the filter array (exceptions propagate). *)
  Fixpoint apply_filters (names : list (list Z)) (data : list Z) (p : fparams) : res (list Z) :=
    match names with
    | [] => Ok data
    | n :: r => match apply_filter n data p with
                | Ok d => apply_filters r d p
                | Err e => Err e
                end
    end.

  (** The Filter entry of a stream dictionary: absent/falsy, a name, an array of names or
      anything else. *)
  Inductive filter_entry := FENone | FEName (n : list Z) | FEArray (l : list (list Z)) | FEOther.

  (** types/native.py 41-62 (apply_filter_multi) *)
  Definition apply_filter_multi (fe : filter_entry) (data : list Z) (p : fparams) : res (list Z) :=
    match fe with
    | FENone => Ok data
    | FEName [] => Ok data            (* empty name is falsy *)
    | FEName n => apply_filters [n] data p
    | FEArray l => apply_filters l data p
    | FEOther => Err TypeErr
    end.
End ApplyFilter.
