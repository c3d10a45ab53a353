(** Model of filters/ccittfax.py: the Group 4 (T.6) decoder.
    Bits are booleans, scan lines lists of integers (array.array 'b'), the tries of nested two-element lists a
    datatype.  Python's while loops carry fuel (OutOfFuel is proved unreachable); self._y, self._pos and the
    debugging helpers _get_bits/_get_refline, which nothing reads, are left out. *)
From Coq Require Import String.
From Verif Require Import Prelude M_Filters D_CCITT.
Local Open Scope Z_scope.

(** Nested lists [zero, one]: None, a value or another list. *)
Inductive trie := TNone | TLeaf (v : cval) | TNode (zero one : trie).

(** ccittfax.py 28-41 BitParser.add (a value on the path, which the tables do not contain, is overwritten) *)
Fixpoint add (t : trie) (v : cval) (bits : list bool) : trie :=
  match bits with
  | [] => TLeaf v
  | b :: r =>
      let '(z, o) := match t with TNode z o => (z, o) | _ => (TNone, TNone) end in
      if b then TNode z (add o v r) else TNode (add z v r) o
  end.
(** 37: bits[i] == '1' *)
Definition code_bits (s : list Z) : list bool := map (fun c => c =? 49) s.
Definition build (tab : list (cval * list Z)) : trie :=
  fold_left (fun t e => add t (fst e) (code_bits (snd e))) tab (TNode TNone TNone).

(** 64, 84, 190, 296: the class attributes *)
Definition MODE : trie := Eval vm_compute in build mode_table.
Definition WHITE : trie := Eval vm_compute in build white_table.
Definition BLACK : trie := Eval vm_compute in build black_table.
Definition UNCOMPRESSED : trie := Eval vm_compute in build uncompressed_table.

(** self._accept *)
Inductive accept := AMode | AHoriz1 | AHoriz2 | AUncompressed.

(** The attributes of the parser *)
Record g4 := mkG {
  g_ref : list Z; g_cur : list Z; g_pos : Z; g_color : Z;
  g_acc : accept; g_state : trie; g_n1 : Z; g_n2 : Z; g_buf : list Z }.

(** How accepting a value ends: next state, or one of the three control exceptions, or another error. *)
Inductive out := GNext (s : g4) (t : trie) | GSkip (s : g4) | GEofb (s : g4) | GFail (e : exn).

(** array indexing: negative indices count from the end *)
Definition aget (l : list Z) (i : Z) : res Z :=
  let j := if i <? 0 then i + zlen l else i in
  if (0 <=? j) && (j <? zlen l) then Ok (nth (Z.to_nat j) l 0) else Err IndexErr.
Fixpoint set_nth (l : list Z) (n : nat) (v : Z) : list Z :=
  match l, n with
  | [], _ => []
  | _ :: r, O => v :: r
  | x :: r, S n' => x :: set_nth r n' v
  end.
Definition aset (l : list Z) (i v : Z) : res (list Z) :=
  let j := if i <? 0 then i + zlen l else i in
  if (0 <=? j) && (j <? zlen l) then Ok (set_nth l (Z.to_nat j) v) else Err IndexErr.
(** for x in range(x, x + n): l[x] = v *)
Fixpoint fill (n : nat) (l : list Z) (x v : Z) : res (list Z) :=
  match n with
  | O => Ok l
  | S n' => rbind (aset l x v) (fun l' => fill n' l' (x + 1) v)
  end.

(** 532-539 output_line: the bytes of a row ([rev] = self.reversed) *)
Definition out_bits (rev : bool) (bits : list Z) : list Z := if rev then map (fun b => 1 - b) bits else bits.
Definition out_byte (bits : list Z) (i : nat) : Z :=
  fold_left (fun acc k => if nth (8 * i + k) bits 0 =? 0 then acc else acc + nth k [128; 64; 32; 16; 8; 4; 2; 1] 0)
    [0%nat; 1%nat; 2%nat; 3%nat; 4%nat; 5%nat; 6%nat; 7%nat] 0.
Definition output_line (rev : bool) (bits : list Z) : list Z :=
  map (out_byte (out_bits rev bits)) (seq 0 (Z.to_nat ((zlen bits + 7) / 8))).

Section G4.
  (** self.width, self.bytealign, self.reversed *)
  Variable width : Z.
  Variable align rev : bool.

  (** [1]*self.width *)
  Definition blank : list Z := repeat 1 (Z.to_nat width).

  (** 426-430 _reset_line *)
  Definition reset_line (s : g4) : g4 :=
    mkG (g_cur s) blank (-1) 1 (g_acc s) (g_state s) (g_n1 s) (g_n2 s) (g_buf s).
  (** 415-420 reset and 524-527 (CCITTFaxDecoder.__init__); _n1 and _n2 do not exist before 'h' (never read) *)
  Definition init : g4 := mkG blank blank (-1) 1 AMode MODE 0 0 [].

  (** 432-438 _flush_line; true: ByteSkip was raised *)
  Definition flush_line (s : g4) : bool * g4 :=
    if width <=? g_pos s then
      let s1 := mkG (g_ref s) (g_cur s) (g_pos s) (g_color s) (g_acc s) (g_state s) (g_n1 s) (g_n2 s)
                    (g_buf s ++ output_line rev (g_cur s)) in
      (align, reset_line s1)
    else (false, s).
  Definition flush_to (s : g4) (t : trie) : out :=
    let '(skip, s') := flush_line s in if skip then GSkip s' else GNext s' t.

  (** 444-453, 469-478: the search for b1 *)
  Fixpoint find_b1 (n : nat) (ref : list Z) (color x1 : Z) : res Z :=
    match n with
    | O => Err OutOfFuel
    | S n' =>
        if x1 =? 0 then
          if color =? 1 then rbind (aget ref x1) (fun r => if negb (r =? color) then Ok x1 else find_b1 n' ref color (x1 + 1))
          else find_b1 n' ref color (x1 + 1)
        else if x1 =? zlen ref then Ok x1
        else rbind (aget ref (x1 - 1)) (fun p =>
          if p =? color then rbind (aget ref x1) (fun r => if negb (r =? color) then Ok x1 else find_b1 n' ref color (x1 + 1))
          else find_b1 n' ref color (x1 + 1))
    end.
  (** 479-488: the search for b2 *)
  Fixpoint find_b2 (n : nat) (ref : list Z) (color x1 : Z) : res Z :=
    match n with
    | O => Err OutOfFuel
    | S n' =>
        if x1 =? 0 then
          if color =? 0 then rbind (aget ref x1) (fun r => if r =? color then Ok x1 else find_b2 n' ref color (x1 + 1))
          else find_b2 n' ref color (x1 + 1)
        else if x1 =? zlen ref then Ok x1
        else rbind (aget ref (x1 - 1)) (fun p =>
          if negb (p =? color) then rbind (aget ref x1) (fun r => if r =? color then Ok x1 else find_b2 n' ref color (x1 + 1))
          else find_b2 n' ref color (x1 + 1))
    end.
  Definition search_fuel : nat := S (S (Z.to_nat width)).

  (** 440-464 _do_vertical *)
  Definition do_vertical (s : g4) (dx : Z) : res g4 :=
    rbind (find_b1 search_fuel (g_ref s) (g_color s) (g_pos s + 1)) (fun b1 =>
    let x0 := Z.max 0 (g_pos s) in
    let x1 := Z.max 0 (Z.min width (b1 + dx)) in
    rbind (if x1 <? x0 then fill (Z.to_nat (x0 - x1)) (g_cur s) x1 (g_color s)
           else if x0 <? x1 then fill (Z.to_nat (x1 - x0)) (g_cur s) x0 (g_color s)
           else Ok (g_cur s)) (fun cur =>
    Ok (mkG (g_ref s) cur x1 (1 - g_color s) (g_acc s) (g_state s) (g_n1 s) (g_n2 s) (g_buf s)))).

  (** 466-492 _do_pass *)
  Definition do_pass (s : g4) : res g4 :=
    rbind (find_b1 search_fuel (g_ref s) (g_color s) (g_pos s + 1)) (fun b1 =>
    rbind (find_b2 search_fuel (g_ref s) (g_color s) b1) (fun b2 =>
    rbind (fill (Z.to_nat (b2 - g_pos s)) (g_cur s) (g_pos s) (g_color s)) (fun cur =>
    Ok (mkG (g_ref s) cur b2 (g_color s) (g_acc s) (g_state s) (g_n1 s) (g_n2 s) (g_buf s))))).

  (** 499-503, 504-508: for _ in range(n): stop at the end of the line, else set and advance *)
  Fixpoint run (n : nat) (l : list Z) (x v : Z) : res (list Z * Z) :=
    match n with
    | O => Ok (l, x)
    | S n' => if zlen l <=? x then Ok (l, x) else rbind (aset l x v) (fun l' => run n' l' (x + 1) v)
    end.
  (** 494-509 _do_horizontal *)
  Definition do_horizontal (s : g4) (n1 n2 : Z) : res g4 :=
    let pos := if g_pos s <? 0 then 0 else g_pos s in
    rbind (run (Z.to_nat n1) (g_cur s) pos (g_color s)) (fun '(l1, x1) =>
    rbind (run (Z.to_nat n2) l1 x1 (1 - g_color s)) (fun '(l2, x2) =>
    Ok (mkG (g_ref s) l2 x2 (g_color s) (g_acc s) (g_state s) (g_n1 s) (g_n2 s) (g_buf s)))).

  (** 511-516 _do_uncompressed, then [return t] of the caller *)
  Fixpoint do_uncompressed (bits : list Z) (s : g4) (t : trie) : out :=
    match bits with
    | [] => GNext s t
    | c :: r =>
        match aset (g_cur s) (g_pos s) (c - 48) with
        | Err e => GFail e
        | Ok cur =>
            let '(skip, s') := flush_line (mkG (g_ref s) cur (g_pos s + 1) (g_color s) (g_acc s) (g_state s) (g_n1 s) (g_n2 s) (g_buf s)) in
            if skip then GSkip s' else do_uncompressed r s' t
        end
    end.

  Definition with_acc (s : g4) (a : accept) : g4 :=
    mkG (g_ref s) (g_cur s) (g_pos s) (g_color s) a (g_state s) (g_n1 s) (g_n2 s) (g_buf s).
  Definition with_color (s : g4) (c : Z) : g4 :=
    mkG (g_ref s) (g_cur s) (g_pos s) c (g_acc s) (g_state s) (g_n1 s) (g_n2 s) (g_buf s).
  Definition with_n1 (s : g4) (n : Z) : g4 :=
    mkG (g_ref s) (g_cur s) (g_pos s) (g_color s) (g_acc s) (g_state s) n (g_n2 s) (g_buf s).
  Definition with_n2 (s : g4) (n : Z) : g4 :=
    mkG (g_ref s) (g_cur s) (g_pos s) (g_color s) (g_acc s) (g_state s) (g_n1 s) n (g_buf s).
  Definition with_state (s : g4) (t : trie) : g4 :=
    mkG (g_ref s) (g_cur s) (g_pos s) (g_color s) (g_acc s) t (g_n1 s) (g_n2 s) (g_buf s).
  (** if self._color: WHITE else BLACK *)
  Definition run_table (s : g4) : trie := if negb (g_color s =? 0) then WHITE else BLACK.

  (** 338-360 _parse_mode *)
  Definition parse_mode (s : g4) (v : option cval) : out :=
    match v with
    | Some (CI dx) => match do_vertical s dx with Ok s' => flush_to s' MODE | Err e => GFail e end
    | Some (CS m) =>
        if eqlZ m (bs "p") then match do_pass s with Ok s' => flush_to s' MODE | Err e => GFail e end
        else if eqlZ m (bs "h") then let s' := with_acc (with_n1 s 0) AHoriz1 in GNext s' (run_table s')
        else if eqlZ m (bs "u") then GNext (with_acc s AUncompressed) UNCOMPRESSED
        else if eqlZ m (bs "e") then GEofb s
        else GFail InvalidData
    | None => GFail InvalidData
    end.

  (** 362-373 _parse_horiz1 *)
  Definition parse_horiz1 (s : g4) (v : option cval) : out :=
    match v with
    | None => GFail InvalidData
    | Some (CS _) => GFail TypeErr
    | Some (CI n) =>
        let s1 := with_n1 s (g_n1 s + n) in
        let s2 := if n <? 64 then with_acc (with_color (with_n2 s1 0) (1 - g_color s1)) AHoriz2 else s1 in
        GNext s2 (run_table s2)
    end.

  (** 375-388 _parse_horiz2 *)
  Definition parse_horiz2 (s : g4) (v : option cval) : out :=
    match v with
    | None => GFail InvalidData
    | Some (CS _) => GFail TypeErr
    | Some (CI n) =>
        let s1 := with_n2 s (g_n2 s + n) in
        if n <? 64 then
          let s2 := with_acc (with_color s1 (1 - g_color s1)) AMode in
          match do_horizontal s2 (g_n1 s2) (g_n2 s2) with Ok s3 => flush_to s3 MODE | Err e => GFail e end
        else GNext s1 (run_table s1)
    end.

  (** 390-400 _parse_uncompressed *)
  Definition parse_uncompressed (s : g4) (v : option cval) : out :=
    match v with
    | None => GFail InvalidData
    | Some (CS []) => GFail InvalidData
    | Some (CI n) => if n =? 0 then GFail InvalidData else GFail AttributeErr
    | Some (CS (84 :: r)) =>
        match r with
        | [] => GFail IndexErr
        | c :: bits => do_uncompressed bits (with_color (with_acc s AMode) (c - 48)) MODE
        end
    | Some (CS bits) => do_uncompressed bits s UNCOMPRESSED
    end.

  Definition do_accept (s : g4) (v : option cval) : out :=
    match g_acc s with
    | AMode => parse_mode s v
    | AHoriz1 => parse_horiz1 s v
    | AHoriz2 => parse_horiz2 s v
    | AUncompressed => parse_uncompressed s v
    end.

  (** 48-57 BitParser._parse_bit *)
  Definition parse_bit (s : g4) (x : bool) : out :=
    match g_state s with
    | TNode z o =>
        match (if x then o else z) with
        | TNode _ _ as t => GNext s t
        | TNone => do_accept s None
        | TLeaf v => do_accept s (Some v)
        end
    | _ => GFail TypeErr
    end.

  (** 330-331: b & m for the eight masks *)
  Definition byte_bits (b : Z) : list bool := map (fun m => negb (Z.land b m =? 0)) [128; 64; 32; 16; 8; 4; 2; 1].

  (** How a byte ends: the parser goes on, stops (EOFB) or an exception leaves feedbytes. *)
  Inductive fed := FGo (s : g4) | FStop (s : g4) | FErr (e : exn).
  (** 329-336: the body of the loop over the bytes *)
  Fixpoint feed_bits (bits : list bool) (s : g4) : fed :=
    match bits with
    | [] => FGo s
    | x :: r =>
        match parse_bit s x with
        | GNext s' t => feed_bits r (with_state s' t)
        | GSkip s' => FGo (with_state (with_acc s' AMode) MODE)
        | GEofb s' => FStop s'
        | GFail e => FErr e
        end
    end.
  (** 327-336 feedbytes *)
  Fixpoint feedbytes (data : list Z) (s : g4) : fed :=
    match data with
    | [] => FGo s
    | b :: r => match feed_bits (byte_bits b) s with FGo s' => feedbytes r s' | o => o end
    end.

  (** 550-554 of ccittfaxdecode and 529-530 close *)
  Definition g4_decode (data : list Z) : res (list Z) :=
    match feedbytes data init with FGo s => Ok (g_buf s) | FStop s => Ok (g_buf s) | FErr e => Err e end.
End G4.

(** 542-557 ccittfaxdecode; Columns absent: [1]*None is a TypeError *)
Definition truthy_opt (v : option Z) : bool := match v with Some z => negb (z =? 0) | None => false end.
Definition ccittfaxdecode (data : list Z) (p : fparams) : res (list Z) :=
  rbind (pget p (bs "K")) (fun k =>
  rbind (pget p (bs "Columns")) (fun cols =>
  rbind (pget p (bs "EncodedByteAlign")) (fun align =>
  rbind (pget p (bs "BlackIs1")) (fun rev =>
  match k with
  | Some (-1) =>
      match cols with
      | Some w => g4_decode w (truthy_opt align) (truthy_opt rev) data
      | None => Err TypeErr
      end
  | _ => Ok data
  end)))).
