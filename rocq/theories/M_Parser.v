(** Model of pdfreader/parsers/base.py (BasicTypesParser), parsers/inlineimage.py and the
    _get_parser override of parsers/content.py, as programs over a Buffer (M_Prog.v).

    General simplifications (each is an idempotent rewriting of the Python code):
    - consecutive evaluations of [self.current] with no move in between are collapsed into one;
      re-reading [current] returns the same byte and leaves the buffer as it is after the first read;
    - [while] loops and recursion carry a fuel argument [n]; running out raises OutOfFuel, which no
      [except] catches.  L_Parser.v proves it is never raised when n exceeds the input length;
    - Python's recursion limit and int()'s 4300-digit limit are not modelled. *)
From Coq Require Import String.
From Verif Require Import Prelude M_Prog.
Local Open Scope Z_scope.
Local Open Scope prog_scope.

(** types/native.py 11-37, 65-88, 132-147 (and types/content.py InlineImage): PDF values.
    Real is decimal.Decimal: (-1)^neg * coef * 10^exp.  A dictionary is an association list in
    insertion order with distinct keys.  Names, tokens and strings are latin-1 code lists. *)
Inductive obj : Type :=
| ONull
| OBool (b : bool)
| OInt (z : Z)
| OReal (neg : bool) (coef : Z) (exp : Z)
| OName (s : list Z)
| OStr (s : list Z)
| OHex (s : list Z)
| OArr (l : list obj)
| ODict (d : list (list Z * obj))
| OStream (d : list (list Z * obj)) (data : list Z)
| ORef (num gen : Z)
| OTok (s : list Z)
| OInline (d : list (list Z * obj)) (data : list Z).

Definition dict := list (list Z * obj).

(** d[k], and d[k] = v (a Python dict keeps the position of an existing key). *)
Fixpoint dget (d : dict) (k : list Z) : option obj :=
  match d with
  | [] => None
  | (k', v) :: r => if eqlZ k k' then Some v else dget r k
  end.
Fixpoint dset (d : dict) (k : list Z) (v : obj) : dict :=
  match d with
  | [] => [(k, v)]
  | (k', v') :: r => if eqlZ k k' then (k', v) :: r else (k', v') :: dset r k v
  end.

Section Leaf.
  Context {U : Type}.
  Notation P := (prog U).

  Definition is_cur (c : option Z) (b : Z) : bool := match c with Some x => x =? b | None => false end.
  (** base.py 89-111 on the current byte *)
  Definition p_eol (c : option Z) : bool := match c with Some x => (x =? 13) || (x =? 10) | None => false end.
  Definition p_ws (c : option Z) : bool := match c with Some x => is_ws x | None => false end.
  Definition p_delim (c : option Z) : bool := match c with Some x => is_delim x | None => false end.
  Definition p_regular (c : option Z) : bool :=
    match c with Some x => negb (is_ws x || is_delim x) | None => false end.
  Definition p_digit (c : option Z) : bool := match c with Some x => is_digit x | None => false end.
  Definition is_hex (x : Z) : bool := match hexval x with Some _ => true | None => false end.
  Definition p_hex (c : option Z) : bool := match c with Some x => is_hex x | None => false end.

  (** [acc += self.next()]: TypeError when next() is None *)
  Definition next_byte : P Z :=
    c <- next ;; match c with Some x => ret x | None => throw TypeErr end.

  (** buffer.py 165-166: all n calls of next() are made before join sees a None *)
  Fixpoint read_opts (n : nat) : P (list (option Z)) :=
    match n with
    | O => ret []
    | S n' => c <- next ;; r <- read_opts n' ;; ret (c :: r)
    end.
  Fixpoint all_some (l : list (option Z)) : option (list Z) :=
    match l with
    | [] => Some []
    | Some x :: r => match all_some r with Some r' => Some (x :: r') | None => None end
    | None :: _ => None
    end.
  Definition read (n : nat) : P (list Z) :=
    l <- read_opts n ;; match all_some l with Some b => ret b | None => throw TypeErr end.

  (** 58-60 *)
  Fixpoint maybe_spaces (n : nat) : P unit :=
    match n with
    | O => throw OutOfFuel
    | S n' => c <- cur ;; if p_ws c then next ;;; maybe_spaces n' else ret tt
    end.

  (** 80-87, 74-78 *)
  Definition maybe_eol : P unit :=
    c <- cur ;;
    if is_cur c 13 then next ;;; c2 <- cur ;; (if is_cur c2 10 then next ;;; ret tt else ret tt)
    else if is_cur c 10 then next ;;; ret tt else ret tt.
  Definition eol : P unit :=
    c <- cur ;; if p_eol c then maybe_eol else throw ParserExc.

  (** 183-189; the returned Comment text is dropped (no caller uses it) *)
  Fixpoint comment_loop (n : nat) : P unit :=
    match n with
    | O => throw OutOfFuel
    | S n' => c <- cur ;; if p_eol c then ret tt else next_byte ;;; comment_loop n'
    end.
  Definition comment (n : nat) : P unit :=
    c <- cur ;; if is_cur c 37 then comment_loop n ;;; eol else throw ParserExc.

  (** 62-72 *)
  Fixpoint comments_loop (n : nat) : P unit :=
    match n with
    | O => throw OutOfFuel
    | S n' => c <- cur ;; if is_cur c 37 then comment n' ;;; maybe_spaces n' ;;; comments_loop n' else ret tt
    end.
  Definition sp (n : nat) : P unit := maybe_spaces n ;;; comments_loop n.

  (** 113-169 *)
  Definition keyword (w : list Z) (v : obj) : P obj :=
    val <- read (List.length w) ;; if eqlZ val w then ret v else throw ParserExc.
  Definition null_ : P obj := keyword (bs "null") ONull.
  Definition true_ : P obj := keyword (bs "true") (OBool true).
  Definition false_ : P obj := keyword (bs "false") (OBool false).

  (** 241-243, 249-250: a maximal run of digits *)
  Fixpoint digits (n : nat) (acc : list Z) : P (list Z) :=
    match n with
    | O => throw OutOfFuel
    | S n' => c <- cur ;;
              match c with
              | Some x => if is_digit x then next ;;; digits n' (acc ++ [x]) else ret acc
              | None => ret acc
              end
    end.

  (** int(text) of decimal digits *)
  Definition dec_val (l : list Z) : Z := fold_left (fun a c => a * 10 + (c - 48)) l 0.

  (** number of decimal digits of c > 0 *)
  Fixpoint ndigits (n : nat) (c : Z) : Z :=
    match n with O => 0 | S n' => if c <? 10 then 1 else 1 + ndigits n' (c / 10) end.
  Definition dec_len (c : Z) : Z := ndigits (S (Z.to_nat (Z.log2 c))) c.

  (** -val for Decimal (265-266): decimal's default context rounds the result to 28 significant
      digits, half to even; minus zero is zero.  Emin/Emax limits are not modelled. *)
  Definition dec_neg (coef exp : Z) : obj :=
    if coef =? 0 then OReal false 0 exp
    else
      let k := dec_len coef - 28 in
      if k <=? 0 then OReal true coef exp
      else
        let p := 10 ^ k in
        let q := coef / p in
        let r := coef mod p in
        let up := (p <? 2 * r) || ((2 * r =? p) && Z.odd q) in
        let q' := if up then q + 1 else q in
        if q' =? 10 ^ 28 then OReal true (10 ^ 27) (exp + k + 1) else OReal true q' (exp + k).

  (** 191-268 *)
  Definition numeric (n : nat) : P obj :=
    c <- cur ;;
    neg <- (if is_cur c 43 then next ;;; ret false
            else if is_cur c 45 then next ;;; ret true else ret false) ;;
    ip <- digits n [] ;;
    c2 <- cur ;;
    ofp <- (if is_cur c2 46 then next ;;; fp <- digits n [] ;; ret (Some fp) else ret None) ;;
    match ofp with
    | None =>
        match ip with
        | [] => throw ParserExc
        | _ => ret (OInt (if neg : bool then - dec_val ip else dec_val ip))
        end
    | Some fp =>
        match ip, fp with
        | [], [] => throw ParserExc
        | _, _ =>
            let fp' := match fp with [] => [48] | _ => fp end in
            let coef := dec_val (ip ++ fp') in
            let exp := - zlen fp' in
            ret (if neg then dec_neg coef exp else OReal false coef exp)
        end
    end.

  (** 270-274 *)
  Definition non_negative_int (n : nat) : P Z :=
    v <- numeric n ;;
    match v with
    | OInt z => if z <? 0 then throw ParserExc else ret z
    | _ => throw ParserExc
    end.

  (** 312-327 *)
  Fixpoint name_loop (n : nat) (tok : list Z) : P (list Z) :=
    match n with
    | O => throw OutOfFuel
    | S n' =>
        c <- cur ;;
        if p_regular c then
          if is_cur c 35 then
            next ;;;
            a <- cur ;;
            match a with
            | Some x =>
                if is_hex x then
                  next ;;;
                  b <- cur ;;
                  match b with
                  | Some y =>
                      if is_hex y then
                        next ;;;
                        name_loop n' (tok ++ [match hexval x, hexval y with
                                              | Some h, Some l => 16 * h + l
                                              | _, _ => 0 end])
                      else name_loop n' (tok ++ [35; x])
                  | None => name_loop n' (tok ++ [35; x])
                  end
                else name_loop n' (tok ++ [35])
            | None => name_loop n' (tok ++ [35])
            end
          else ch <- next_byte ;; name_loop n' (tok ++ [ch])
        else ret tok
    end.
  (** 276-331 (empty_names_allowed is True in every class of the package) *)
  Definition name (n : nat) : P (list Z) :=
    c <- cur ;; if is_cur c 47 then next ;;; name_loop n [] else throw ParserExc.

  Definition upper_hex (x : Z) : Z := if (97 <=? x) && (x <=? 102) then x - 32 else x.

  (** 517-519 *)
  Fixpoint hex_loop (n : nat) (tok : list Z) : P (list Z) :=
    match n with
    | O => throw OutOfFuel
    | S n' => c <- cur ;;
              match c with
              | Some x => if is_hex x then next ;;; sp n' ;;; hex_loop n' (tok ++ [x]) else ret tok
              | None => ret tok
              end
    end.
  (** 486-527 *)
  Definition hexstring (n : nat) : P obj :=
    c <- cur ;;
    if is_cur c 60 then
      next ;;; sp n ;;; tok <- hex_loop n [] ;;
      ch <- next ;;
      if is_cur ch 62 then
        let tok' := if Nat.odd (List.length tok) then tok ++ [48] else tok in
        ret (OHex (map upper_hex tok'))
      else throw ParserExc
    else throw ParserExc.

  Definition is_octal (x : Z) : bool := (48 <=? x) && (x <=? 55).
  (** 612-615: up to [k] more octal digits; a None current raises TypeError *)
  Fixpoint octal_more (k : nat) (code : list Z) : P (list Z) :=
    match k with
    | O => ret code
    | S k' => c <- cur ;;
              match c with
              | None => throw TypeErr
              | Some x => if is_octal x then next ;;; octal_more k' (code ++ [x]) else ret code
              end
    end.
  Definition oct_val (l : list Z) : Z := fold_left (fun a c => a * 8 + (c - 48)) l 0.

  (** constants.py 41-48 (STRING_ESCAPED) *)
  Definition string_escaped (ch : Z) : option Z :=
    if ch =? 110 then Some 10 else if ch =? 114 then Some 13 else if ch =? 116 then Some 9
    else if ch =? 98 then Some 8 else if ch =? 102 then Some 12 else if ch =? 40 then Some 40
    else if ch =? 41 then Some 41 else if ch =? 92 then Some 92 else None.

  (** 552-634: [string] checks and skips '(', [str_loop] is the while loop *)
  Fixpoint str_loop (n : nat) (val : list Z) : P (list Z) :=
    match n with
    | O => throw OutOfFuel
    | S n' =>
        ch <- next ;;
        match ch with
        | None => throw TypeErr
        | Some x =>
            if x =? 40 then
              prev ;;;
              (* recursive call of string(): 598-601 then the loop *)
              c <- cur ;;
              (if is_cur c 40 then next ;;; (s <- str_loop n' [] ;; str_loop n' (val ++ [40] ++ s ++ [41]))
               else throw ParserExc)
            else if x =? 92 then
              e <- next ;;
              match e with
              | None => throw TypeErr
              | Some y =>
                  if is_octal y then
                    code <- octal_more 2 [y] ;;
                    (if oct_val code <=? 255 then str_loop n' (val ++ [oct_val code])
                     else str_loop n' (val ++ [92] ++ code))
                  else if (y =? 13) || (y =? 10) then
                    prev ;;; eol ;;; str_loop n' val
                  else match string_escaped y with
                       | Some z => str_loop n' (val ++ [z])
                       | None => str_loop n' (val ++ [92; y])
                       end
              end
            else if x =? 41 then ret val
            else str_loop n' (val ++ [x])
        end
    end.
  Definition string_ (n : nat) : P obj :=
    c <- cur ;;
    if is_cur c 40 then next ;;; s <- str_loop n [] ;; ret (OStr s) else throw ParserExc.

  (** 671-685 *)
  Definition indirect_reference (n : nat) : P obj :=
    num <- non_negative_int n ;; sp n ;;;
    gen <- non_negative_int n ;; sp n ;;;
    ch <- next ;;
    if is_cur ch 82 then ret (ORef num gen) else throw ParserExc.

  Definition is_parser_exc (e : exn) : bool := exn_eqb e ParserExc.

  (** 687-694 *)
  Definition numeric_or_indirect_reference (n : nat) : P obj :=
    h <- save ;;
    catch (indirect_reference n) is_parser_exc (fun _ => restore h ;;; numeric n).

  (** 715-718 *)
  Fixpoint token_loop (n : nat) (tok : list Z) : P (list Z) :=
    match n with
    | O => throw OutOfFuel
    | S n' => c <- cur ;;
              match c with
              | Some x => if p_regular c then next ;;; token_loop n' (tok ++ [x]) else ret tok
              | None => ret tok
              end
    end.
  (** 696-718 *)
  Definition token (n : nat) : P (list Z) :=
    c <- cur ;;
    if p_regular c && negb (p_digit c) then token_loop n [] else throw ParserExc.

  (** 720-736 *)
  Definition expected_name (n : nat) (v : list Z) : P unit :=
    x <- name n ;; if eqlZ x v then ret tt else throw ParserExc.
  Definition expected_token (n : nat) (v : list Z) : P unit :=
    x <- token n ;; if eqlZ x v then ret tt else throw ParserExc.

  (** range(length) in buffer.read: integers, and booleans (a subclass of int) *)
  Definition as_range (v : obj) : option Z :=
    match v with OInt z => Some z | OBool true => Some 1 | OBool false => Some 0 | _ => None end.

  Definition endstream : list Z := bs "endstream".

  (** data.endswith(b'endstream') *)
  Definition ends_with (data suf : list Z) : bool :=
    eqlZ (skipn (List.length data - List.length suf) data) suf && (zlen suf <=? zlen data).

  (** 473-478 *)
  Fixpoint find_endstream (n : nat) (err : nat) (data : list Z) : P (list Z) :=
    match n with
    | O => throw OutOfFuel
    | S n' =>
        if ends_with data endstream then ret data
        else ch <- next ;;
             match ch with
             | None => restore err ;;; throw ParserExc
             | Some x => find_endstream n' err (data ++ [x])
             end
    end.

  (** 481-482: strip trailing CR/LF bytes *)
  Fixpoint lstrip_eol (l : list Z) : list Z :=
    match l with
    | x :: r => if (x =? 13) || (x =? 10) then lstrip_eol r else l
    | [] => []
    end.
  Definition strip_eol (l : list Z) : list Z := rev (lstrip_eol (rev l)).

  (** 413-484 *)
  Definition stream_body (n : nat) (d : dict) : P obj :=
    match dget d (bs "Length") with
    | None => throw KeyErr
    | Some len =>
        tok <- read 6 ;;
        if eqlZ tok (bs "stream") then
          ch <- next ;;
          ch2 <- (if is_cur ch 13 then next else ret ch) ;;
          (if is_cur ch2 10 then ret tt else prev ;;; ret tt) ;;;
          st <- save ;;
          match as_range len with
          | None => throw TypeErr
          | Some k =>
              data <- read (Z.to_nat k) ;;
              maybe_spaces n ;;;
              tok2 <- read 9 ;;
              if eqlZ tok2 endstream then ret (OStream d data)
              else
                err <- save ;;
                restore st ;;;
                data9 <- read 9 ;;
                data2 <- find_endstream n err data9 ;;
                ret (OStream d (strip_eol (firstn (List.length data2 - 9) data2)))
          end
        else throw ParserExc
    end.
End Leaf.

(** Which class is parsing: BasicTypesParser/PDFParser (references allowed), a parser without
    references (CMapParser), ContentParser, InlineImageParser. *)
Inductive flavor := FBasic | FNoRef | FContent | FInline.
Definition refs_allowed (fl : flavor) : bool := match fl with FBasic => true | _ => false end.

Fixpoint prevs {U} (n : nat) : prog U unit :=
  match n with O => ret tt | S n' => prev ;;; prevs n' end.

(** inlineimage.py 55-67: [ei_reached] on the data read so far *)
Definition ei_reached (data : list Z) : bool :=
  match rev data with
  | x :: y :: z :: _ => ((x =? 73) && (y =? 69) && is_ws z) || ((y =? 73) && (z =? 69) && is_ws x)
  | _ => false
  end.
Fixpoint ii_data {U} (n : nat) (data : list Z) : prog U (list Z) :=
  match n with
  | O => throw OutOfFuel
  | S n' => x <- next_byte ;;
            let data' := data ++ [x] in
            if ei_reached data' then ret (firstn (List.length data' - 3) data') else ii_data n' data'
  end.

Section Obj.
  Context {U : Type}.
  (** Hook run on the dictionary before its stream is read (RegistryPDFParser._stream,
      document.py 611-619, replaces an indirect Length); identity in the other parsers. *)
  Variable fix_len : dict -> prog U dict.

  (** 333-351 after the '<' test: [dictionary] is given the already checked "<<". *)
  Fixpoint object (fl : flavor) (n : nat) {struct n} : prog U obj :=
    match n with
    | O => throw OutOfFuel
    | S n' =>
        sp n' ;;;                                                  (* 663 *)
        c <- cur ;;
        (* _get_parser: base 636-659, content.py 68-83, inlineimage.py 23-28 *)
        match c with
        | None => throw TypeErr                                    (* None in b'+-.' / b'nft' *)
        | Some x =>
            if (match fl with FContent => (x =? 110) || (x =? 102) || (x =? 116) | _ => false end) then
              (* content.py 58-66 *)
              t <- token n' ;;
              ret (if eqlZ t (bs "null") then ONull
                   else if eqlZ t (bs "true") then OBool true
                   else if eqlZ t (bs "false") then OBool false
                   else OTok t)
            else if x =? 60 then
              (* 333-351 *)
              next ;;;
              c2 <- cur ;;
              if is_cur c2 60 then
                prev ;;;
                d <- dictionary fl n' ;;
                sp n' ;;;
                c3 <- cur ;;
                (if is_cur c3 115 then d' <- fix_len d ;; stream_body n' d' else ret (ODict d))
              else if p_hex c2 || p_ws c2 || is_cur c2 62 then prev ;;; hexstring n'
              else throw ParserExc
            else if x =? 91 then
              (* 541-550 *)
              next ;;; sp n' ;;; l <- arr_loop fl n' [] ;; next ;;; ret (OArr l)
            else if x =? 40 then string_ n'
            else if x =? 110 then null_
            else if x =? 102 then false_
            else if x =? 116 then true_
            else if (x =? 43) || (x =? 45) || (x =? 46) then numeric n'
            else if is_digit x then
              if refs_allowed fl then numeric_or_indirect_reference n' else numeric n'
            else if x =? 47 then nm <- name n' ;; ret (OName nm)
            else
              match fl with
              | FBasic | FNoRef => throw ParserExc                  (* 668 *)
              | FInline => t <- token n' ;; ret (OTok t)
              | FContent =>
                  t <- token n' ;;
                  prevs (List.length t) ;;;
                  if eqlZ t (bs "BI") then inline_image n'
                  else t2 <- token n' ;; ret (OTok t2)
              end
        end
    end

  (** 353-394 *)
  with dictionary (fl : flavor) (n : nat) {struct n} : prog U dict :=
    match n with
    | O => throw OutOfFuel
    | S n' =>
        pfx <- read 2 ;;
        if eqlZ pfx (bs "<<") then
          sp n' ;;;
          d <- dict_loop fl n' [] ;;
          next ;;;
          c <- next ;;
          if is_cur c 62 then ret d else throw ParserExc
        else throw ParserExc
    end

  (** 386-390 *)
  with dict_loop (fl : flavor) (n : nat) (acc : dict) {struct n} : prog U dict :=
    match n with
    | O => throw OutOfFuel
    | S n' =>
        c <- cur ;;
        if is_cur c 62 then ret acc
        else
          k <- name n' ;;
          sp n' ;;;
          v <- object fl n' ;;
          sp n' ;;;
          dict_loop fl n' (dset acc k v)
    end

  (** 546-548 *)
  with arr_loop (fl : flavor) (n : nat) (acc : list obj) {struct n} : prog U (list obj) :=
    match n with
    | O => throw OutOfFuel
    | S n' =>
        c <- cur ;;
        if is_cur c 93 then ret acc
        else v <- object fl n' ;; sp n' ;;; arr_loop fl n' (acc ++ [v])
    end

  (** inlineimage.py 46-68 *)
  with inline_image (n : nat) {struct n} : prog U obj :=
    match n with
    | O => throw OutOfFuel
    | S n' =>
        t <- object FInline n' ;;
        if (match t with OTok s | OName s | OHex s => eqlZ s (bs "BI") | _ => false end) then
          sp n' ;;;
          d <- entities n' [] ;;
          next ;;;
          c <- next ;;
          if is_cur c 68 then
            w <- cur ;;
            if p_ws w then next ;;; data <- ii_data n' [] ;; ret (OInline d data)
            else throw ParserExc
          else throw ParserExc
        else throw ParserExc
    end

  (** inlineimage.py 33-40 (30-32 and 41-44 are in [inline_image]) *)
  with entities (n : nat) (acc : dict) {struct n} : prog U dict :=
    match n with
    | O => throw OutOfFuel
    | S n' =>
        c <- cur ;;
        if is_cur c 73 then ret acc
        else
          k <- name n' ;;
          sp n' ;;;
          v <- object FInline n' ;;
          match v with
          | OTok _ => throw ParserExc
          | _ => sp n' ;;; entities n' (dset acc k v)
          end
    end.

  (** 529-550 as called directly *)
  Definition array_ (fl : flavor) (n : nat) : prog U obj :=
    c <- cur ;;
    if is_cur c 91 then next ;;; sp n ;;; l <- arr_loop fl n [] ;; next ;;; ret (OArr l)
    else throw ParserExc.
End Obj.

(** parsers/content.py 21-40 (objects, is_operator).  Yielded items; the generator is run to
    exhaustion.  isinstance(obj, Token) and obj[0] not in '/01234567890+-.<[(' *)
Inductive citem := CImage (d : dict) (data : list Z) | COp (name : list Z) (args : list obj).
Definition is_operator (v : obj) : bool :=
  match v with
  | OTok (x :: _) => negb (memZ x (bs "/01234567890+-.<[("))
  | _ => false      (* tokens are never empty *)
  end.
Fixpoint content_loop {U} (n : nat) (operands : list obj) (out : list citem) : prog U (list citem) :=
  match n with
  | O => throw OutOfFuel
  | S n' =>
      c <- cur ;;
      match c with
      | None => ret out
      | Some _ =>
          v <- object (fun d => ret d) FContent n' ;;
          match v with
          | OInline d data => sp n' ;;; content_loop n' [] (out ++ [CImage d data])
          | _ =>
              if is_operator v then
                sp n' ;;; content_loop n' [] (out ++ [COp (match v with OTok s => s | _ => [] end) operands])
              else sp n' ;;; content_loop n' (operands ++ [v]) out
          end
      end
  end.
Definition content_objects {U} (n : nat) : prog U (list citem) := sp n ;;; content_loop n [] [].
