(** Model of pdfreader/types/cmap.py and of CMAPDecoder in codecs/decoder.py.  Hexadecimal strings and texts
    are lists of code points. *)
From Coq Require Import String.
From Verif Require Import Prelude M_Parser M_Objects M_Codec D_PSNames.
Local Open Scope Z_scope.

(** types/native.py 27-32 HexString.as_int: int(self, 16) *)
Definition as_int (l : list Z) : res Z := match py_int16 l with Some v => Ok v | None => Err ValueErr end.
(** str.upper() (simplified: ASCII letters only; hexadecimal strings have no others) *)
Definition py_upper (l : list Z) : list Z := map (fun c => if (97 <=? c) && (c <=? 122) then c - 32 else c) l.
(** hex(v)[2:].upper(), v >= 0 *)
Fixpoint to_hex_loop (n : nat) (v : Z) (acc : list Z) : list Z :=
  match n with
  | O => acc
  | S n' => if v <? 16 then hexdig v :: acc else to_hex_loop n' (v / 16) (hexdig (v mod 16) :: acc)
  end.
Definition to_hex (v : Z) : list Z := to_hex_loop (S (Z.to_nat (Z.log2 v))) v [].
(** str.zfill(n) of unsigned digits *)
Definition zfill (n : Z) (l : list Z) : list Z := repeat 48 (Z.to_nat (n - zlen l)) ++ l.

(** types/cmap.py 5-22 Range (begin and end are only printed) *)
Record range := mkR { r_begin : Z; r_end : Z; r_size : Z }.
Definition mk_range (b e : list Z) : res range :=
  if zlen b =? zlen e then
    rbind (as_int b) (fun x => rbind (as_int e) (fun y => if y <? x then Err ValueErr else Ok (mkR x y (zlen b))))
  else Err AssertionErr.
(** 23-42 *)
Definition range_contains (r : range) (item : list Z) : res bool :=
  if zlen item =? r_size r then rbind (as_int item) (fun v => Ok ((r_begin r <=? v) && (v <=? r_end r))) else Ok false.
(** 47-54 *)
Definition range_len (r : range) : Z := r_end r - r_begin r + 1.
(** 56-62 *)
Fixpoint range_from (n : nat) (v : Z) (size : Z) : list (list Z) :=
  match n with O => [] | S n' => zfill size (to_hex v) :: range_from n' (v + 1) size end.
Definition range_list (r : range) : list (list Z) := range_from (Z.to_nat (range_len r)) (r_begin r) (r_size r).

(** 65-71 MapRange and 120-128 BFChar *)
Inductive mapping := MMap (r : range) (start : Z) | MBF (begin mapped : list Z).
Definition mk_map_int (b e : list Z) (start : Z) : res mapping := rbind (mk_range b e) (fun r => Ok (MMap r start)).
Definition mk_map_hex (b e dst : list Z) : res mapping := rbind (mk_range b e) (fun r => rbind (as_int dst) (fun v => Ok (MMap r v))).
Definition starts_slash (l : list Z) : bool := match l with 47 :: _ => true | _ => false end.
Definition mk_bf (b mapped : list Z) : mapping := MBF (py_upper b) (if starts_slash mapped then mapped else py_upper mapped).
(** the array form of bfrange (parsers/cmap.py 219-222): an item without startswith raises AttributeError,
    bytes.startswith takes no str *)
Definition mk_bf_obj (b : list Z) (o : obj) : res mapping :=
  match o with
  | OHex s | OName s => Ok (mk_bf b s)
  | OStr _ => Err TypeErr
  | _ => Err AttributeErr
  end.

(** 23-42, 133-144 *)
Definition in_mapping (m : mapping) (item : list Z) : res bool :=
  match m with MMap r _ => range_contains r item | MBF b _ => Ok (eqlZ (py_upper item) b) end.
(** 202: chr(HexString(mapped[i:i+4]).as_int) for i in range(0, len(mapped), 4) *)
Fixpoint bf_text (n : nat) (l : list Z) : res (list Z) :=
  match n, l with
  | _, [] => Ok []
  | O, _ => Err OutOfFuel
  | S n', _ => rbind (as_int (firstn 4 l)) (fun v =>
                 match py_chr v with
                 | None => Err ValueErr
                 | Some c => rbind (bf_text n' (skipn 4 l)) (fun r => Ok (c :: r))
                 end)
  end.
(** 73-98, 156-205 *)
Definition get_mapping (m : mapping) (item : list Z) : res (list Z) :=
  match m with
  | MMap r start =>
      rbind (range_contains r item) (fun b =>
        if b then rbind (as_int item) (fun v =>
                    let code := start + (v - r_begin r) in
                    Ok [if (0 <=? code) && (code <=? 1114111) then code else 65533])
        else Err KeyErr)
  | MBF b mapped =>
      if eqlZ item b then
        if starts_slash mapped then Ok (match aget ps_charnames (skipn 1 mapped) with Some v => v | None => mapped end)
        else bf_text (S (List.length mapped)) mapped
      else Err KeyErr
  end.

(** 232-256 any(item in r for r in self.ranges) *)
Fixpoint contains_any (ms : list mapping) (item : list Z) : res bool :=
  match ms with
  | [] => Ok false
  | m :: r => rbind (in_mapping m item) (fun b => if b then Ok true else contains_any r item)
  end.
(** 318-337 *)
Fixpoint lookup (ms : list mapping) (item : list Z) : res (list Z) :=
  match ms with
  | [] => Err KeyErr
  | m :: r => rbind (in_mapping m item) (fun b => if b then get_mapping m item else lookup r item)
  end.
(** 339-355 get(item, default) *)
Definition get_default {A} (f : list Z -> A) (ms : list mapping) (item : list Z) (default : A) : res A :=
  match lookup ms item with Ok v => Ok (f v) | Err KeyErr => Ok default | Err e => Err e end.

(** sorted(set): insertion into a list sorted in string order *)
Fixpoint str_cmp (a b : list Z) : comparison :=
  match a, b with
  | [], [] => Eq | [], _ => Lt | _, [] => Gt
  | x :: a', y :: b' => match x ?= y with Eq => str_cmp a' b' | c => c end
  end.
Fixpoint insert (x : list Z) (l : list (list Z)) : list (list Z) :=
  match l with
  | [] => [x]
  | y :: r => match str_cmp x y with Lt => x :: l | Eq => l | Gt => y :: insert x r end
  end.
(** 272-285 as_list; only ranges have int_begin *)
Fixpoint as_list_loop (ms : list mapping) (acc : list (list Z)) : res (list (list Z)) :=
  match ms with
  | [] => Ok acc
  | MMap r _ :: rest => as_list_loop rest (fold_left (fun a x => insert x a) (range_list r) acc)
  | MBF _ _ :: _ => Err AttributeErr
  end.
Definition as_list (ms : list mapping) : res (list (list Z)) := as_list_loop ms [].
(** 357-366 as_dict: {item: self[item] for item in self.as_list} *)
Fixpoint items_of (ms : list mapping) (l : list (list Z)) : res (list (list Z * list Z)) :=
  match l with
  | [] => Ok []
  | x :: r => rbind (lookup ms x) (fun v => rbind (items_of ms r) (fun d => Ok ((x, v) :: d)))
  end.
Definition as_dict (ms : list mapping) : res (list (list Z * list Z)) := rbind (as_list ms) (items_of ms).

(** bytes.fromhex of a text without white space *)
Fixpoint fromhex (l : list Z) : res (list Z) :=
  match l with
  | [] => Ok []
  | a :: b :: r => match hexval a, hexval b with
                   | Some h, Some k => rbind (fromhex r) (fun t => Ok (16 * h + k :: t))
                   | _, _ => Err ValueErr
                   end
  | _ => Err ValueErr
  end.
(** decoder.py 121: [s[i:i+2] for i in range(0, len(s), 2)] *)
Fixpoint pairs_of (l : list Z) : list (list Z) :=
  match l with [] => [] | [a] => [[a]] | a :: b :: r => [a; b] :: pairs_of r end.
(** 119-142 CMAPDecoder.decode_hexstring.  [bf] is self.cmap.bf_ranges[...], [enc] the decoding of bytes by
    self._encoding_decoder. *)
Section Decode.
  Variable bf : list Z -> res (list Z).
  Variable enc : list Z -> res (list Z).
  Definition enc_hex (h : list Z) : res (list Z) := rbind (fromhex h) enc.
  Fixpoint cm_loop (n : nat) (codes : list (list Z)) (code res : list Z) : Prelude.res (list Z) :=
    match codes with
    | [] => match code with [] => Ok res | _ => rbind (enc_hex code) (fun t => Ok (res ++ t)) end
    | c :: cs =>
        match n with
        | O => Err OutOfFuel
        | S n' =>
            let code := code ++ c in
            match bf code with
            | Ok ch => cm_loop n' cs [] (res ++ ch)
            | Err KeyErr =>
                if zlen code <? 4 then cm_loop n' cs code res
                else if eqlZ (firstn 2 code) (bs "00") then cm_loop n' (skipn 2 code :: cs) [] res
                else rbind (enc_hex (firstn 2 code)) (fun ch => cm_loop n' (skipn 2 code :: cs) [] (res ++ ch))
            | Err e => Err e
            end
        end
    end.
  Definition cm_decode_hex (s : list Z) : Prelude.res (list Z) := cm_loop (S (2 * List.length s)) (pairs_of s) [] [].
  (** 144-146 decode_string: s.hex().upper() *)
  Definition bytes_hex (s : list Z) : list Z := flat_map (fun b => [hexdig (b / 16); hexdig (b mod 16)]) s.
  Definition cm_decode_string (s : list Z) : Prelude.res (list Z) := cm_decode_hex (bytes_hex s).
End Decode.
(** 111-117 _encoding_decoder: the font's encoding, else default_decoder (latin-1) *)
Definition cm_enc (python : list Z -> bool) (python_decode : list Z -> list Z -> res (list Z)) (id : Z) (e : option encoding)
    (s : list Z) : res (list Z) :=
  match e with None => Ok s | Some e => fst (encoding_decode python python_decode id e s []) end.
