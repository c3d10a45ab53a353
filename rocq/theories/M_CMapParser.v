(** Model of pdfreader/parsers/cmap.py (CMapParser) over the parser programs of M_Parser.v.
    Simplifications: CodespaceRanges and MappedCodespaceRanges are the lists of their members
    (types/cmap.py 147-190: add appends, merge extends); the exception texts and the logging are dropped;
    "begin{}range".format(name) is written as concatenation. *)
From Coq Require Import String.
From Verif Require Import Prelude M_Prog M_Parser M_CMap.
Local Open Scope Z_scope.
Local Open Scope prog_scope.

(** types/cmap.py CMapResource (the constructor's arguments) *)
Record cmap_file := mkCMap {
  cm_name : option (list Z);
  cm_codespace : list range;
  cm_cid : list mapping;
  cm_notdef : list mapping;
  cm_bf : list mapping }.

Section CM.
  Context {U : Type}.
  Notation P := (prog U).
  Notation hook := (fun d : dict => ret d : P dict).

  Definition lift {A} (r : res A) : P A := match r with Ok a => ret a | Err e => throw e end.

  (** 20-28 *)
  Definition object_or_token (n : nat) : P obj :=
    h <- save ;;
    catch (object hook FNoRef n) is_parser_exc (fun _ => restore h ;;; (t <- token n ;; ret (OTok t))).

  (** 30-40 *)
  Fixpoint skip_until_name (n : nat) (nm : list Z) : P bool :=
    match n with
    | O => throw OutOfFuel
    | S n' =>
        sp n' ;;;
        c <- cur ;;
        match c with
        | None => ret false
        | Some _ =>
            o <- object_or_token n' ;;
            match o with
            | OName x => if eqlZ x nm then prevs (S (List.length nm)) ;;; ret true else skip_until_name n' nm
            | _ => skip_until_name n' nm
            end
        end
    end.

  (** 42-55 *)
  Fixpoint skip_until_token (n : nat) (w : list Z) : P bool :=
    match n with
    | O => throw OutOfFuel
    | S n' =>
        c0 <- cur ;;
        match c0 with
        | None => ret false
        | Some _ =>
            sp n' ;;;
            c <- cur ;;
            match c with
            | None => ret false
            | Some _ =>
                o <- object_or_token n' ;;
                match o with
                | OTok x => if eqlZ x w then prevs (List.length w) ;;; ret true else skip_until_token n' w
                | _ => skip_until_token n' w
                end
            end
        end
    end.

  (** 57-61 *)
  Definition cmap_name (n : nat) : P (list Z) :=
    skip_until_name n (bs "CMapName") ;;;
    expected_name n (bs "CMapName") ;;;
    sp n ;;;
    name n.

  Definition hextext (o : obj) : list Z := match o with OHex s => s | _ => [] end.

  (** 216-221 *)
  Fixpoint codespace_loop (n : nat) (acc : list range) : P (list range) :=
    match n with
    | O => throw OutOfFuel
    | S n' =>
        c <- cur ;;
        if is_cur c 60 then
          a <- hexstring n' ;; sp n' ;;;
          b <- hexstring n' ;; sp n' ;;;
          r <- lift (mk_range (hextext a) (hextext b)) ;;
          codespace_loop n' (acc ++ [r])
        else ret acc
    end.
  (** 212-223 *)
  Definition codespacerange (n : nat) : P (list range) :=
    expected_token n (bs "begincodespacerange") ;;;
    sp n ;;;
    l <- codespace_loop n [] ;;
    expected_token n (bs "endcodespacerange") ;;;
    ret l.

  (** 241-242: the codes of the range with the items of the array *)
  Fixpoint array_maps (codes : list (list Z)) (vs : list obj) : res (list mapping) :=
    match codes with
    | [] => Ok []
    | c :: cs =>
        match vs with
        | [] => Err IndexErr
        | v :: vs' => rbind (mk_bf_obj c v) (fun m => rbind (array_maps cs vs') (fun r => Ok (m :: r)))
        end
    end.
  (** 235-242; bool is a subclass of int, so true and false pass for 1 and 0 *)
  Definition range_maps (b e : list Z) (o : obj) : res (list mapping) :=
    match o with
    | OHex s => rbind (mk_map_hex b e s) (fun m => Ok [m])
    | OInt z => rbind (mk_map_int b e z) (fun m => Ok [m])
    | OBool v => rbind (mk_map_int b e (if v then 1 else 0)) (fun m => Ok [m])
    | OArr vs => rbind (mk_range b e) (fun r => array_maps (range_list r) vs)
    | _ => Err ParserExc
    end.
  (** 229-243 *)
  Fixpoint mapped_loop (n : nat) (acc : list mapping) : P (list mapping) :=
    match n with
    | O => throw OutOfFuel
    | S n' =>
        c <- cur ;;
        if is_cur c 60 then
          a <- hexstring n' ;; sp n' ;;;
          b <- hexstring n' ;; sp n' ;;;
          o <- object hook FNoRef n' ;;
          ms <- lift (range_maps (hextext a) (hextext b) o) ;;
          sp n' ;;;
          mapped_loop n' (acc ++ ms)
        else ret acc
    end.
  (** 225-246 *)
  Definition mapped_codespacerange (n : nat) (rangename : list Z) : P (list mapping) :=
    expected_token n (bs "begin" ++ rangename ++ bs "range") ;;;
    sp n ;;;
    l <- mapped_loop n [] ;;
    expected_token n (bs "end" ++ rangename ++ bs "range") ;;;
    ret l.

  (** 255-260 *)
  Definition char_map (rangename src dst : list Z) : res mapping :=
    if eqlZ rangename (bs "bf") then Ok (mk_bf src dst) else mk_map_hex src src dst.
  (** 252-261 *)
  Fixpoint char_loop (n : nat) (rangename : list Z) (acc : list mapping) : P (list mapping) :=
    match n with
    | O => throw OutOfFuel
    | S n' =>
        c <- cur ;;
        if is_cur c 60 then
          a <- hexstring n' ;; sp n' ;;;
          b <- hexstring n' ;; sp n' ;;;
          m <- lift (char_map rangename (hextext a) (hextext b)) ;;
          char_loop n' rangename (acc ++ [m])
        else ret acc
    end.
  (** 248-263 *)
  Definition mapped_char (n : nat) (rangename : list Z) : P (list mapping) :=
    expected_token n (bs "begin" ++ rangename ++ bs "char") ;;;
    sp n ;;;
    l <- char_loop n rangename [] ;;
    expected_token n (bs "end" ++ rangename ++ bs "char") ;;;
    ret l.

  (** 170-171 and the six loops of the same form: while self.skip_until_token(w): acc.merge(section()) *)
  Fixpoint sections {A} (n : nat) (w : list Z) (section : nat -> P (list A)) (acc : list A) : P (list A) :=
    match n with
    | O => throw OutOfFuel
    | S n' =>
        found <- skip_until_token n' w ;;
        if found : bool then l <- section n' ;; sections n' w section (acc ++ l) else ret acc
    end.

  (** 174-181, 184-191, 194-201: range sections, then char sections *)
  Definition mapped_sections (n h : nat) (rangename : list Z) : P (list mapping) :=
    restore h ;;;
    l <- sections n (bs "begin" ++ rangename ++ bs "range") (fun k => mapped_codespacerange k rangename) [] ;;
    restore h ;;;
    sections n (bs "begin" ++ rangename ++ bs "char") (fun k => mapped_char k rangename) l.

  (** 63-210; the two set_state calls of 165 and 168 restore the same state, one is kept *)
  Definition cmap (n : nat) : P cmap_file :=
    sp n ;;; expected_name n (bs "CIDInit") ;;;
    sp n ;;; expected_name n (bs "ProcSet") ;;;
    sp n ;;; expected_token n (bs "findresource") ;;;
    sp n ;;; expected_token n (bs "begin") ;;;
    sp n ;;; non_negative_int n ;;;
    sp n ;;; expected_token n (bs "dict") ;;;
    sp n ;;; expected_token n (bs "begin") ;;;
    sp n ;;; expected_token n (bs "begincmap") ;;;
    sp n ;;;
    h <- save ;;
    nm <- catch (x <- cmap_name n ;; ret (Some x)) is_parser_exc (fun _ => restore h ;;; ret None) ;;
    restore h ;;;
    cs <- sections n (bs "begincodespacerange") codespacerange [] ;;
    cid <- mapped_sections n h (bs "cid") ;;
    nd <- mapped_sections n h (bs "notdef") ;;
    bf <- mapped_sections n h (bs "bf") ;;
    ret (mkCMap nm cs cid nd bf).
End CM.
