(** Model of pdfreader/parsers/document.py (PDFParser, RegistryPDFParser), parsers/objstm.py,
    registry.py and types/xref.py, as programs over a Buffer.

    Simplifications: as in M_Parser.v (collapsed reads of [current], fuel for loops); logging is
    dropped; the repr/len helpers of XRef and the begin/end offsets kept by the registry (never
    read) are not modelled. *)
From Coq Require Import String.
From Verif Require Import Prelude M_Prog M_Parser M_Filters.
Local Open Scope Z_scope.
Local Open Scope prog_scope.

(** bool(v): null, False, 0, 0.0 and empty strings, names, arrays, dictionaries and streams
    (types/native.py 93-94: a stream has a length) are false. *)
Definition truthy (v : obj) : bool :=
  match v with
  | ONull => false
  | OBool b => b
  | OInt z => negb (z =? 0)
  | OReal _ c _ => negb (c =? 0)
  | OName s | OStr s | OHex s | OTok s => match s with [] => false | _ => true end
  | OArr l => match l with [] => false | _ => true end
  | ODict d => match d with [] => false | _ => true end
  | OStream _ data => match data with [] => false | _ => true end
  | ORef _ _ | OInline _ _ => true
  end.
Definition oget (d : dict) (k : list Z) : obj := match dget d k with Some v => v | None => ONull end.
(** v == "text" for str subclasses *)
Definition is_name (v : obj) (s : list Z) : bool :=
  match v with OName x | OTok x | OHex x => eqlZ x s | _ => false end.

(** ---- types/xref.py ---- *)

(** Keyed by integers (OrderedDict/dict). *)
Section ZDict.
  Context {A : Type}.
  Fixpoint zget (d : list (Z * A)) (k : Z) : option A :=
    match d with [] => None | (k', v) :: r => if k =? k' then Some v else zget r k end.
  Fixpoint zset (d : list (Z * A)) (k : Z) (v : A) : list (Z * A) :=
    match d with
    | [] => [(k, v)]
    | (k', v') :: r => if k =? k' then (k', v) :: r else (k', v') :: zset r k v
    end.
End ZDict.

(** 14-70: number, generation and offset (index in the object stream for compressed entries) *)
Record xent := mkE { e_num : Z; e_gen : Z; e_off : Z }.
(** 73-81 *)
Record xref := mkX { x_free : list (Z * xent); x_inuse : list (Z * xent); x_comp : list (Z * xent) }.
Definition xref0 : xref := mkX [] [] [].
Inductive xtyp := TFree | TInUse | TComp.
(** 87-93 *)
Definition add_entry (x : xref) (t : xtyp) (e : xent) : xref :=
  match t with
  | TComp => mkX (x_free x) (x_inuse x) (zset (x_comp x) (e_num e) e)
  | TFree => mkX (zset (x_free x) (e_num e) e) (x_inuse x) (x_comp x)
  | TInUse => mkX (x_free x) (zset (x_inuse x) (e_num e) e) (x_comp x)
  end.
(** 14-24, 45-52, 62-66: the assertions of the constructors *)
Definition new_entry (num gen off : Z) : res xent :=
  if (0 <=? off) && (0 <=? num) && (0 <=? gen) then Ok (mkE num gen off) else Err AssertionErr.

(** Python slice l[a:b], any bounds *)
Definition pybound {A} (l : list A) (i : Z) : Z := if i <? 0 then Z.max 0 (zlen l + i) else Z.min i (zlen l).
Definition pyslice {A} (l : list A) (a b : Z) : list A := slice l (pybound l a) (pybound l b).
(** int.from_bytes(b, "big") *)
Definition big_endian (l : list Z) : Z := fold_left (fun a b => a * 256 + b) l 0.

(** 140-147: one column of a row *)
Definition xcol (size off : Z) (row : list Z) : Z :=
  if size =? 0 then 0 else big_endian (pyslice row off (off + size)).
(** 133-166: one row; types other than 0, 1, 2 are skipped *)
Definition xrow (w1 w2 w3 : Z) (objnum : Z) (row : list Z) (x : xref) : res xref :=
  let c1 := xcol w1 0 row in
  let c2 := xcol w2 w1 row in
  let c3 := xcol w3 (w1 + w2) row in
  if c1 =? 0 then rbind (new_entry c2 c3 0) (fun e => Ok (add_entry x TFree e))
  else if c1 =? 1 then rbind (new_entry objnum c3 c2) (fun e => Ok (add_entry x TInUse e))
  else if c1 =? 2 then rbind (new_entry c2 0 c3) (fun e => Ok (add_entry x TComp e))
  else Ok x.
Fixpoint xrows (w1 w2 w3 : Z) (objnum : Z) (rows : list (list Z)) (x : xref) : res xref :=
  match rows with
  | [] => Ok x
  | row :: r => rbind (xrow w1 w2 w3 objnum row x) (fun x' => xrows w1 w2 w3 (objnum + 1) r x')
  end.
(** 131-132: range(0, len(data), rowsize) and the slices *)
Fixpoint cut (k : nat) (rs : nat) (data : list Z) : list (list Z) :=
  match k with O => [] | S k' => firstn rs data :: cut k' rs (skipn rs data) end.
Definition rows_of (rowsize : Z) (data : list Z) : list (list Z) :=
  cut (Z.to_nat ((zlen data + rowsize - 1) / rowsize)) (Z.to_nat rowsize) data.

Fixpoint ints (l : list obj) : option (list Z) :=
  match l with
  | [] => Some []
  | v :: r => match as_range v, ints r with Some z, Some s => Some (z :: s) | _, _ => None end
  end.
Definition sumZ (l : list Z) : Z := fold_left Z.add l 0.

Section Filtered.
  (** zlib and CCITT decoding are parameters, as in M_Filters.v *)
  Variable inflate : list Z -> option (list Z).
  Variable ccitt : list Z -> fparams -> res (list Z).

  (** types/native.py 54-62 over the raw array: unhashable items give TypeError, others that are no
      known name NotImplementedError *)
  Fixpoint apply_objs (l : list obj) (data : list Z) (p : fparams) : res (list Z) :=
    match l with
    | [] => Ok data
    | v :: r =>
        match v with
        | OName n => rbind (apply_filter inflate ccitt n data p) (fun d => apply_objs r d p)
        | OArr _ | ODict _ | OStream _ _ | ORef _ _ => Err TypeErr
        | _ => Err NotImpl
        end
    end.
  (** DecodeParms.  Simplified: entries of the dictionary that are not integers are dropped, and any
      true value that is not a dictionary behaves like an array (no [get]). *)
  Definition parms_of (v : obj) : fparams :=
    if truthy v then
      match v with
      | ODict d => PDict (fold_right (fun kv r => match as_range (snd kv) with
                                                  | Some z => (fst kv, z) :: r | None => r end) [] d)
      | _ => PArray
      end
    else PNone.
  (** types/native.py 41-62, 109-114 *)
  Definition filtered (d : dict) (data : list Z) : res (list Z) :=
    let fe := oget d (bs "Filter") in
    let p := parms_of (oget d (bs "DecodeParms")) in
    if truthy fe then
      match fe with
      | OArr l => apply_objs l data p
      | OName n => apply_filter inflate ccitt n data p
      | _ => Err TypeErr
      end
    else Ok data.
  (** [filtered] is the body of a cached_property (utils.py 12-25) of a class that has __getattr__ (types/native.py 124-125,
      types/objects.py 53-59): an AttributeError raised in it - by DecodeParms that have no [get] - is swallowed by Python's
      attribute lookup, which asks __getattr__ instead, and stream.filtered is None.  So [Err AttributeErr] stands for None, and
      [if_none] says what its user makes of it.  (An entry named /filtered, which would be the answer, is not modelled.) *)
  Definition if_none (e : exn) (r : res (list Z)) : res (list Z) := match r with Err AttributeErr => Err e | _ => r end.

  (** 108-168.  len(None) is a TypeError.  Simplified: an Index whose first item is not an integer, or that is no array, and
      a W that is no array of integers, give TypeError at once. *)
  Definition xref_from_stream (d : dict) (raw : list Z) : res xref :=
    rbind (match dget d (bs "Index") with
           | Some v => if truthy v then
                         match v with
                         | OArr (a :: b :: _) => match as_range a with Some z => Ok z | None => Err TypeErr end
                         | OArr _ => Err ValueErr
                         | _ => Err TypeErr
                         end
                       else match dget d (bs "Size") with Some _ => Ok 0 | None => Err KeyErr end
           | None => match dget d (bs "Size") with Some _ => Ok 0 | None => Err KeyErr end
           end) (fun first =>
    match dget d (bs "W") with
    | None => Err KeyErr
    | Some (OArr l) =>
        match ints l with
        | None => Err TypeErr
        | Some ws =>
            match ws with
            | w1 :: w2 :: more =>
                let rowsize := sumZ ws in
                rbind (if_none TypeErr (filtered d raw)) (fun data =>
                if rowsize =? 0 then Err ValueErr
                else if rowsize <? 0 then Ok xref0
                else match data with
                     | [] => Ok xref0
                     | _ => match more with
                            | w3 :: _ => xrows w1 w2 w3 first (rows_of rowsize data) xref0
                            | [] => Err IndexErr
                            end
                     end)
            | _ => Err IndexErr
            end
        end
    | Some _ => Err TypeErr
    end).

(** ---- parsers/document.py, PDFParser ---- *)

  Section Pdf.
    Context {U : Type}.
    (** The hook run before reading a stream (see M_Parser.v). *)
    Variable fix_len : dict -> prog U dict.

    (** 42-87.  IndirectObject's own assertions always hold here (native.py 152-164). *)
    Definition indirect_object (n : nat) : prog U (Z * Z * obj) :=
      num <- non_negative_int n ;;
      sp n ;;;
      gen <- non_negative_int n ;;
      sp n ;;;
      tok <- read 3 ;;
      if eqlZ tok (bs "obj") then
        sp n ;;;
        v <- object fix_len FBasic n ;;
        sp n ;;;
        tok2 <- read 6 ;;
        if eqlZ tok2 (bs "endobj") then ret (num, gen, v)
        else match v with
             | OStream _ _ => prevs 6 ;;; ret (num, gen, v)
             | _ => throw ParserExc
             end
      else throw ParserExc.

    (** 89-102 *)
    Definition startxref (n : nat) : prog U Z :=
      tok <- read 9 ;;
      if eqlZ tok (bs "startxref") then sp n ;;; non_negative_int n else throw ParserExc.

    (** 210-229 *)
    Definition trailer (n : nat) : prog U dict :=
      tok <- read 7 ;;
      if eqlZ tok (bs "trailer") then sp n ;;; dictionary fix_len FBasic n else throw ParserExc.

    (** The regular expressions of 16-17.  [\d\.\d], then the two markers. *)
    Definition version_at (l : list Z) : option (list Z) :=
      match l with
      | a :: p :: b :: _ => if is_digit a && (p =? 46) && is_digit b then Some [a; 46; b] else None
      | _ => None
      end.
    Fixpoint after (pre l : list Z) : option (list Z) :=
      match pre, l with
      | [], _ => Some l
      | x :: p, y :: r => if x =? y then after p r else None
      | _ :: _, [] => None
      end.
    Definition pdf_marker (l : list Z) : option (list Z) :=
      match after (bs "%PDF-") l with Some r => version_at r | None => None end.
    Definition ips_marker (l : list Z) : option (list Z) :=
      match after (bs "%IPS-Adobe-") l with
      | Some r => match version_at r with
                  | Some _ => match after (bs " PDF-") (skipn 3 r) with Some r2 => version_at r2 | None => None end
                  | None => None
                  end
      | None => None
      end.
    (** re.MULTILINE search: first position at the start of the window or after LF *)
    Fixpoint search (m : list Z -> option (list Z)) (bol : bool) (i : Z) (w : list Z) : option (Z * list Z) :=
      match (if bol then m w else None) with
      | Some v => Some (i, v)
      | None => match w with
                | [] => None
                | x :: r => search m (x =? 10) (i + 1) r
                end
      end.
    Definition header_in (w : list Z) : option (Z * list Z) :=
      match search pdf_marker true 0 w with
      | Some r => Some r
      | None => search ips_marker true 0 w
      end.
    (** 139-160.  [k] counts the bytes that may still be read (1024 - n_read). *)
    Fixpoint header_loop (k : nat) (w : list Z) : prog U (option (Z * list Z)) :=
      match header_in w with
      | Some r => ret (Some r)
      | None =>
          match k with
          | O => ret None
          | S k' => c <- cur ;;
                    match c with
                    | None => ret None
                    | Some _ => x <- next_byte ;; header_loop k' (skipn 1 w ++ [x])
                    end
          end
      end.
    Definition pdf_header : prog U (list Z * Z) :=
      reset 0 ;;;
      w <- read 22 ;;
      m <- header_loop (1024 - 22) w ;;
      match m with
      | None => throw ParserExc
      | Some (start, v) => prevs 22 ;;; i <- index_ ;; ret (v, i + start)
      end.

    (** int(bytes): white space around, a sign, digits with single underscores between them *)
    Definition py_ws (c : Z) : bool := memZ c [32; 9; 10; 11; 12; 13].
    Fixpoint lstrip (l : list Z) : list Z :=
      match l with x :: r => if py_ws x then lstrip r else l | [] => [] end.
    Definition strip (l : list Z) : list Z := rev (lstrip (rev (lstrip l))).
    Fixpoint uscore (seen : bool) (acc : Z) (l : list Z) : option Z :=
      match l with
      | [] => if seen then Some acc else None
      | x :: r => if is_digit x then uscore true (acc * 10 + (x - 48)) r
                  else if (x =? 95) && seen then uscore false acc r
                  else None
      end.
    Definition py_int (l : list Z) : option Z :=
      match strip l with
      | 43 :: r => uscore false 0 r
      | 45 :: r => option_map Z.opp (uscore false 0 r)
      | r => uscore false 0 r
      end.

    (** 289-308 *)
    Fixpoint until (stop : option Z -> bool) (n : nat) (acc : list Z) : prog U (list Z) :=
      match n with
      | O => throw OutOfFuel
      | S n' => c <- cur ;; if stop c then ret acc else x <- next_byte ;; until stop n' (acc ++ [x])
      end.
    Definition xref_range (n : nat) : prog U (Z * Z) :=
      d1 <- until (fun c => is_cur c 32) n [] ;;
      next ;;;
      d2 <- until p_eol n [] ;;
      match py_int d1, py_int d2 with
      | Some a, Some b => ret (a, b)
      | _, _ => throw ParserExc
      end.

    (** bytes.split(b" ", 2) *)
    Fixpoint split_sp (k : nat) (cur_ : list Z) (l : list Z) : list (list Z) :=
      match l with
      | [] => [cur_]
      | x :: r => match k with
                  | O => [cur_ ++ l]
                  | S k' => if x =? 32 then cur_ :: split_sp k' [] r else split_sp k (cur_ ++ [x]) r
                  end
      end.
    (** 310-320 *)
    Definition xref_entry : prog U (Z * Z * bool) :=
      data <- read 20 ;;
      match split_sp 2 [] (strip data) with
      | [o; g; fl] =>
          match py_int o, py_int g with
          | Some off, Some gen =>
              if eqlZ fl (bs "n") then ret (off, gen, true)
              else if eqlZ fl (bs "f") then ret (off, gen, false)
              else throw ParserExc
          | _, _ => throw ParserExc
          end
      | _ => throw ValueErr
      end.

    (** 231-273 *)
    Fixpoint entries_loop (k : nat) (num : Z) (x : xref) : prog U xref :=
      match k with
      | O => ret x
      | S k' =>
          '(off, gen, used) <- xref_entry ;;
          match new_entry num gen off with
          | Err e => throw e
          | Ok e => entries_loop k' (num + 1) (add_entry x (if used : bool then TInUse else TFree) e)
          end
      end.
    Fixpoint ranges_loop (n : nat) (x : xref) : prog U xref :=
      match n with
      | O => throw OutOfFuel
      | S n' =>
          c <- cur ;;
          match c with
          | None => throw TypeErr
          | Some b =>
              if is_digit b then
                '(first, cnt) <- xref_range n' ;;
                eol ;;;
                x' <- entries_loop (Z.to_nat cnt) first x ;;
                ranges_loop n' x'
              else ret x
          end
      end.
    Definition direct_xref (n : nat) : prog U xref :=
      tok <- read 4 ;;
      if eqlZ tok (bs "xref") then sp n ;;; ranges_loop n xref0 else throw ParserExc.

    (** [window = self.prev() + window]: TypeError at the start of the file *)
    Definition prev_byte : prog U Z :=
      c <- prev ;; match c with Some x => ret x | None => throw TypeErr end.
    Fixpoint read_back (k : nat) (w : list Z) : prog U (list Z) :=
      match k with O => ret w | S k' => x <- prev_byte ;; read_back k' (x :: w) end.
    (** 322-366; [k] is 1024 - n_read *)
    Fixpoint eof_loop (k : nat) (w : list Z) : prog U unit :=
      match k with
      | O => throw ParserExc
      | S k' =>
          c <- cur ;;
          match c with
          | None => throw ParserExc
          | Some _ => if eqlZ w (bs "%%EOF") then ret tt
                      else x <- prev_byte ;; eof_loop k' (x :: removelast w)
          end
      end.
    Definition seek_eof : prog U unit := reset (-1024) ;;; w <- read_back 5 [] ;; eof_loop (1024 - 5) w.

    (** 368-410 *)
    Fixpoint startxref_loop (n : nat) (w : list Z) : prog U unit :=
      match n with
      | O => throw OutOfFuel
      | S n' =>
          c <- cur ;;
          match c with
          | None => throw ParserExc
          | Some _ => if eqlZ w (bs "startxref") then ret tt
                      else x <- prev_byte ;; startxref_loop n' (x :: removelast w)
          end
      end.
    Definition xref_offset (n : nat) : prog U Z :=
      seek_eof ;;;
      w <- read_back 9 [] ;;
      startxref_loop n w ;;;
      read 10 ;;;
      sp n ;;;
      non_negative_int n.

    (** 162-208.  [iobj] is the (overridable) indirect_object.  reset() of something that is not an
        integer raises TypeError; [k] bounds the number of /Prev steps. *)
    Variable iobj : prog U (Z * Z * obj).
    Definition reset_to (v : obj) : prog U unit :=
      match as_range v with Some z => reset z | None => throw TypeErr end.

    (** 172-186: the table at the cursor and its trailer, then the ones before it *)
    Definition table_section (n : nat) : prog U (xref * dict) :=
      x <- direct_xref n ;; sp n ;;; t <- trailer n ;; ret (x, t).
    Fixpoint prev_tables (k n : nat) (p : obj) (acc : list xref) : prog U (list xref) :=
      if truthy p then
        match k with
        | O => throw OutOfFuel
        | S k' => reset_to p ;;;
                  '(x, t) <- table_section n ;;
                  prev_tables k' n (oget t (bs "Prev")) (acc ++ [x])
        end
      else ret acc.

    (** 188-207 *)
    Definition xref_stream_section : prog U (xref * dict) :=
      '(_, _, v) <- iobj ;;
      match v with
      | OStream d raw =>
          match dget d (bs "Type") with
          | None => throw KeyErr
          | Some t =>
              if is_name t (bs "XRef") then
                match xref_from_stream d raw with
                | Ok x => ret (x, d)
                | Err e => throw e
                end
              else throw ParserExc
          end
      | _ => throw ParserExc
      end.
    Fixpoint prev_streams (k : nat) (p : obj) (acc : list xref) : prog U (list xref) :=
      match p with
      | ONull => ret acc
      | _ => match k with
             | O => throw OutOfFuel
             | S k' => reset_to p ;;;
                       '(x, d) <- xref_stream_section ;;
                       prev_streams k' (oget d (bs "Prev")) (acc ++ [x])
             end
      end.
    (** 200-201: the entries kept of the newest stream dictionary *)
    Definition tdict_of (d : dict) : dict :=
      map (fun k => (k, oget d k)) [bs "Size"; bs "Prev"; bs "Root"; bs "Encrypt"; bs "Info"; bs "ID"].

    (** PDFTrailer(all_xrefs, **params): parameters named "xrefs" or "self" clash (TypeError) *)
    Definition pdf_trailer_obj (xs : list xref) (d : dict) : prog U (list xref * dict) :=
      match dget d (bs "xrefs"), dget d (bs "self") with
      | None, None => ret (xs, d)
      | _, _ => throw TypeErr
      end.

    Definition pdf_trailer (k n : nat) : prog U (list xref * dict) :=
      off <- xref_offset n ;;
      reset off ;;;
      c <- cur ;;
      if is_cur c 120 then
        '(x, t) <- table_section n ;;
        xs <- prev_tables k n (oget t (bs "Prev")) [x] ;;
        pdf_trailer_obj xs t
      else
        reset off ;;;
        '(x, d) <- xref_stream_section ;;
        xs <- prev_streams k (oget d (bs "Prev")) [x] ;;
        pdf_trailer_obj xs (tdict_of d).
  End Pdf.

(** ---- registry.py, parsers/objstm.py ---- *)

  Definition regs := list ((Z * Z) * obj).
  Fixpoint rget (r : regs) (num gen : Z) : option obj :=
    match r with
    | [] => None
    | ((n, g), v) :: r' => if (num =? n) && (gen =? g) then Some v else rget r' num gen
    end.
  Fixpoint rset (r : regs) (num gen : Z) (v : obj) : regs :=
    match r with
    | [] => [((num, gen), v)]
    | ((n, g), w) :: r' => if (num =? n) && (gen =? g) then ((n, g), v) :: r' else ((n, g), w) :: rset r' num gen v
    end.
  (** registry.py 20-21 *)
  Definition is_registered (r : regs) (num gen : Z) : bool :=
    match rget r num gen with Some _ => true | None => false end.

  (** objstm.py 8-12 *)
  Fixpoint header_ints {U} (k : nat) (n : nat) : prog U (list Z) :=
    match k with
    | O => ret []
    | S k' => sp n ;;; z <- non_negative_int n ;; r <- header_ints k' n ;; ret (z :: r)
    end.
  (** objstm.py 14-17 together with registry.py 46-49: each object is registered as soon as it is
      yielded. [reg] registers one object in the parser's user state. *)
  Fixpoint unpack {U} (reg : Z -> Z -> obj -> prog U unit) (first : obj) (pairs : list Z) (n : nat) : prog U unit :=
    match pairs with
    | num :: off :: r =>
        match as_range first with
        | None => throw TypeErr
        | Some fo =>
            reset (fo + off) ;;;
            v <- object (fun d => ret d) FBasic n ;;
            reg num 0 v ;;;
            unpack reg first r n
        end
    | _ => ret tt
    end.

  (** registry.py 23-50 (register, register_object_stream) with the nested ObjStmParser.  The result
      is the registry and the exception raised, if any: objects registered before it stay.  [k]
      bounds the nesting of object streams inside object streams. *)
  Fixpoint register (k : nat) (force : bool) (r : regs) (num gen : Z) (v : obj) : regs * option exn :=
    match k with
    | O => (r, Some OutOfFuel)
    | S k' =>
        if force || negb (is_registered r num gen) then
          let r1 := rset r num gen v in
          match v with
          | OStream d raw =>
              if is_name (oget d (bs "Type")) (bs "ObjStm") then
                match filtered d raw with
                | Err e => (r1, Some e)          (* None: Buffer(None) calls None.seek, an AttributeError too *)
                | Ok data =>
                    match dget d (bs "First"), dget d (bs "N") with
                    | Some first, Some cnt =>
                        match as_range cnt with
                        | None => (r1, Some TypeErr)
                        | Some c =>
                            let n := Z.to_nat (4 * zlen data + 8) in
                            let reg num gen v :=
                              u <- getu ;;
                              let '(u', oe) := register k' false u num gen v in
                              setu u' ;;; match oe with None => ret tt | Some e => throw e end in
                            let '(out, s) :=
                              arun data (l <- header_ints (Z.to_nat (2 * c)) n ;; unpack reg first l n)
                                   (mkA 0 [] r1) in
                            (a_usr s, match out with Ok _ => None | Err e => Some e end)
                        end
                    | _, _ => (r1, Some KeyErr)
                    end
                end
              else (r1, None)
          | _ => (r1, None)
          end
        else (r, None)
    end.

(** ---- parsers/document.py, RegistryPDFParser ---- *)

  (** registry; trailer.xrefs (None while pdf_trailer() is still running: self.trailer is then the
      method); brute_force_state; brute_force_lookup_stack *)
  Record rst := mkR { r_objs : regs; r_xrefs : option (list xref); r_bf : option nat; r_stack : list (Z * Z) }.

  Section Reg.
    (** security_handler.decrypt on an indirect object (identity without a handler) *)
    Variable decrypt : Z -> Z -> obj -> res obj.
    (** nesting bound for object streams, fuel for leaf parsing and scanning loops *)
    Variables (D m : nat).

    Definition with_objs (u : rst) (o : regs) : rst := mkR o (r_xrefs u) (r_bf u) (r_stack u).
    Definition do_register (num gen : Z) (v : obj) : prog rst unit :=
      u <- getu ;;
      let '(o, oe) := register D false (r_objs u) num gen v in
      setu (with_objs u o) ;;;
      match oe with None => ret tt | Some e => throw e end.

    (** 440-448, 623-628 *)
    Definition reg_indirect (hook : dict -> prog rst dict) : prog rst (Z * Z * obj) :=
      '(num, gen, v) <- indirect_object hook m ;;
      match decrypt num gen v with
      | Err e => throw e
      | Ok v' => do_register num gen v' ;;; ret (num, gen, v')
      end.
    (** 611-619 *)
    Definition length_hook (locate : Z -> Z -> prog rst obj) (d : dict) : prog rst dict :=
      match dget d (bs "Length") with
      | None => throw KeyErr
      | Some (ORef num gen) =>
          h <- save ;; v <- locate num gen ;; restore h ;;; ret (dset d (bs "Length") v)
      | Some _ => ret d
      end.

    Definition registered (num gen : Z) : prog rst bool := u <- getu ;; ret (is_registered (r_objs u) num gen).
    Definition reg_get (num gen : Z) : prog rst obj :=
      u <- getu ;; ret (match rget (r_objs u) num gen with Some v => v | None => ONull end).

    (** 456-480 *)
    Fixpoint by_xref (locate : Z -> Z -> prog rst obj) (iobj : prog rst (Z * Z * obj))
        (xs : list xref) (num gen : Z) : prog rst obj :=
      match xs with
      | [] => reg_get num gen
      | x :: r =>
          let compressed :=
            match zget (x_comp x) num with
            | Some e =>
                if (e_gen e =? gen) && negb (e_num e =? num) then
                  locate (e_num e) (e_gen e) ;;;
                  b <- registered num gen ;;
                  if b : bool then reg_get num gen else by_xref locate iobj r num gen
                else by_xref locate iobj r num gen
            | None => by_xref locate iobj r num gen
            end in
          match zget (x_inuse x) num with
          | Some e =>
              if e_gen e =? gen then
                catch (reset (e_off e) ;;; iobj ;;; ret tt) is_parser_exc (fun _ => ret tt) ;;;
                b <- registered num gen ;;
                if b : bool then reg_get num gen else compressed
              else compressed
          | None => compressed
          end
      end.

    (** 275-287 with self.trailer shadowed by the PDFTrailer instance (not callable: TypeError) *)
    Definition body_element (iobj : prog rst (Z * Z * obj)) : prog rst unit :=
      c <- cur ;;
      if p_digit c then iobj ;;; ret tt
      else if is_cur c 115 then startxref m ;;; ret tt
      else if is_cur c 116 then throw TypeErr
      else throw ParserExc.

    (** 582-590 *)
    Fixpoint skip_endobj (n : nat) (tok : list Z) : prog rst unit :=
      match n with
      | O => throw OutOfFuel
      | S n' => if eqlZ tok (bs "endobj") then ret tt
                else x <- read 1 ;; skip_endobj n' (skipn 1 tok ++ x)
      end.
    Definition skip_until_next : prog rst unit := tok <- read 6 ;; skip_endobj m tok ;;; sp m.

    Definition is_bfr (e : exn) : bool := exn_eqb e BruteForceRec.
    (** 535-546; [n] bounds the loop *)
    Fixpoint bf_tasks (iobj : prog rst (Z * Z * obj)) (n : nat) (tasks : list nat) (deepest : option nat)
        : prog rst (option nat) :=
      match n with
      | O => throw OutOfFuel
      | S n' =>
          match tasks with
          | [] => ret deepest
          | h :: r =>
              restore h ;;;
              sp m ;;;
              ok <- catch (body_element iobj ;;; ret true) is_bfr (fun _ => ret false) ;;
              if ok : bool then bf_tasks iobj n' r deepest
              else skip_until_next ;;; h2 <- save ;; bf_tasks iobj n' (h2 :: h :: r) (Some h2)
          end
      end.
    (** 523-549 *)
    Definition next_brute_force (iobj : prog rst (Z * Z * obj)) (n : nat) : prog rst unit :=
      u <- getu ;;
      match r_bf u with
      | None => throw AttributeErr
      | Some h0 =>
          d <- bf_tasks iobj n [h0] None ;;
          h <- match d with Some h => ret h | None => save end ;;
          u' <- getu ;;
          setu (mkR (r_objs u') (r_xrefs u') (Some h) (r_stack u'))
      end.

    Definition push (num gen : Z) : prog rst unit :=
      u <- getu ;; setu (mkR (r_objs u) (r_xrefs u) (r_bf u) ((num, gen) :: r_stack u)).
    Definition pop : prog rst unit :=
      u <- getu ;; setu (mkR (r_objs u) (r_xrefs u) (r_bf u) (tl (r_stack u))).
    Definition on_stack (st : list (Z * Z)) (num gen : Z) : bool :=
      existsb (fun p => (fst p =? num) && (snd p =? gen)) st.
    (** 505-518 *)
    Fixpoint brute_force (iobj : prog rst (Z * Z * obj)) (n : nat) (num gen : Z) : prog rst unit :=
      match n with
      | O => throw OutOfFuel
      | S n' =>
          u <- getu ;;
          if is_registered (r_objs u) num gen then ret tt
          else if on_stack (r_stack u) num gen then throw BruteForceRec
          else
            push num gen ;;;
            go <- catch (catch (next_brute_force iobj n' ;;; ret true) is_parser_exc
                               (fun _ => do_register num gen ONull ;;; ret false))
                        (fun _ => true) (fun e => pop ;;; throw e) ;;
            pop ;;;
            if go : bool then brute_force iobj n' num gen else ret tt
      end.

    (** 483-521; [k] bounds the nesting of lookups (stream lengths) *)
    Fixpoint locate_object (k : nat) (num gen : Z) : prog rst obj :=
      match k with
      | O => throw OutOfFuel
      | S k' =>
          let iobj := reg_indirect (length_hook (locate_object k')) in
          u <- getu ;;
          let v0 := match rget (r_objs u) num gen with Some v => v | None => ONull end in
          if truthy v0 then ret v0
          else
            match r_xrefs u with
            | None => throw AttributeErr
            | Some xs =>
                v <- by_xref (locate_object k') iobj xs num gen ;;
                if truthy v then ret v
                else brute_force iobj m num gen ;;; reg_get num gen
            end
      end.

    (** 414-421 (__init__): header, trailer, then the brute-force state at the header's offset *)
    Definition open_document (k : nat) : prog rst (list Z * Z * dict) :=
      '(ver, off) <- pdf_header ;;
      let hook := length_hook (locate_object k) in
      '(xs, t) <- pdf_trailer hook (reg_indirect hook) k m ;;
      u <- getu ;;
      setu (mkR (r_objs u) (Some xs) (r_bf u) (r_stack u)) ;;;
      reset off ;;;
      h <- save ;;
      u2 <- getu ;;
      setu (mkR (r_objs u2) (r_xrefs u2) (Some h) []) ;;;
      ret (ver, off, t).
  End Reg.
End Filtered.
