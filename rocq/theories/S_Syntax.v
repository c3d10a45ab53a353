(** Specification of PDF surface syntax, written without reference to the parser: which texts
    stand for which value, and in which context they may stand ("followed by [rest]"). *)
From Coq Require Import String.
From Verif Require Import Prelude M_Parser.
Local Open Scope Z_scope.

Definition head_is (p : Z -> bool) (l : list Z) : bool := match l with x :: _ => p x | [] => false end.

(** Ends of line inside/after a comment: LF, CR LF, or CR (not followed by LF). *)
Definition Eol (e tail : list Z) : Prop :=
  e = [10] \/ e = [13; 10] \/ (e = [13] /\ head_is (fun c => c =? 10) tail = false).

(** Any mix of white space and comments. *)
Inductive Sep : list Z -> Prop :=
| Sep_nil : Sep []
| Sep_ws c s : is_ws c = true -> Sep s -> Sep (c :: s)
| Sep_comment body e s :
    Forall (fun c => c <> 13 /\ c <> 10) body -> Eol e s -> Sep s ->
    Sep (37 :: body ++ e ++ s).

(** [rest] starts with neither white space nor a comment. *)
Definition nosep (rest : list Z) : Prop := head_is (fun c => is_ws c || (c =? 37)) rest = false.
(** [rest] starts with no regular character (or is empty). *)
Definition nonreg (rest : list Z) : Prop := head_is (fun c => negb (is_ws c || is_delim c)) rest = false.

(** Decimal digits and their value. *)
Definition digits_ok (l : list Z) : Prop := Forall (fun c => is_digit c = true) l.
Fixpoint dvalue (l : list Z) : Z :=
  match l with [] => 0 | d :: r => (d - 48) * 10 ^ zlen r + dvalue r end.

(** Integer literal: optional sign, digits. *)
Inductive IntText : Z -> list Z -> Prop :=
| IT_plain ds : ds <> [] -> digits_ok ds -> IntText (dvalue ds) ds
| IT_plus ds : ds <> [] -> digits_ok ds -> IntText (dvalue ds) (43 :: ds)
| IT_minus ds : ds <> [] -> digits_ok ds -> IntText (- dvalue ds) (45 :: ds).

(** Real literal: optional sign, digits, point, digits, at least one digit; its Decimal has the
    digits as coefficient and minus the number of fraction digits as exponent; "1." is 1.0.
    Negative literals: at most 28 significant digits, and -0.0 is 0.0. *)
Definition frac (fp : list Z) : list Z := match fp with [] => [48] | _ => fp end.
Inductive RealText : obj -> list Z -> Prop :=
| RT_pos sg ip fp : sg = [] \/ sg = [43] -> digits_ok ip -> digits_ok fp -> ip ++ fp <> [] ->
    RealText (OReal false (dvalue (ip ++ frac fp)) (- zlen (frac fp))) (sg ++ ip ++ 46 :: fp)
| RT_neg ip fp : digits_ok ip -> digits_ok fp -> ip ++ fp <> [] ->
    0 < dvalue (ip ++ frac fp) < 10 ^ 28 ->
    RealText (OReal true (dvalue (ip ++ frac fp)) (- zlen (frac fp))) (45 :: ip ++ 46 :: fp)
| RT_neg0 ip fp : digits_ok ip -> digits_ok fp -> ip ++ fp <> [] ->
    dvalue (ip ++ frac fp) = 0 ->
    RealText (OReal false 0 (- zlen (frac fp))) (45 :: ip ++ 46 :: fp).

(** What may follow a number. *)
Definition int_end (rest : list Z) : Prop := head_is (fun c => is_digit c || (c =? 46)) rest = false.
Definition real_end (rest : list Z) : Prop := head_is is_digit rest = false.

(** What may follow an unsigned integer where references are allowed: anything but "sep int sep R". *)
Inductive NotRefTail : list Z -> Prop :=
| NR_other sep r : Sep sep -> nosep r ->
    head_is (fun c => is_digit c || memZ c [43; 45; 46]) r = false -> NotRefTail (sep ++ r)
| NR_int sep z t sep2 r : Sep sep -> IntText z t -> Sep sep2 -> nosep r ->
    int_end (sep2 ++ r) -> head_is (fun c => c =? 82) r = false \/ z < 0 ->
    NotRefTail (sep ++ t ++ sep2 ++ r)
| NR_real sep v t r : Sep sep -> RealText v t -> real_end r -> NotRefTail (sep ++ t ++ r).

(** Names: regular characters except #, or #xx; a # that two hexadecimal digits do not follow stands for itself. *)
Definition two_hex (t : list Z) : bool :=
  match t with a :: b :: _ => match hexval a, hexval b with Some _, Some _ => true | _, _ => false end | _ => false end.
Inductive NameText : list Z -> list Z -> Prop :=
| NT_nil : NameText [] []
| NT_raw c cs t : is_ws c = false -> is_delim c = false -> c <> 35 -> NameText cs t ->
    NameText (c :: cs) (c :: t)
| NT_hex a b h l cs t : hexval a = Some h -> hexval b = Some l -> NameText cs t ->
    NameText (16 * h + l :: cs) (35 :: a :: b :: t)
| NT_hash cs t : two_hex t = false -> NameText cs t -> NameText (35 :: cs) (35 :: t).

(** Literal strings, between the parentheses. *)
Inductive Escape : Z -> Z -> Prop :=   (* value, letter after the backslash *)
| E_n : Escape 10 110 | E_r : Escape 13 114 | E_t : Escape 9 116 | E_b : Escape 8 98
| E_f : Escape 12 102 | E_op : Escape 40 40 | E_cl : Escape 41 41 | E_bs : Escape 92 92.
Definition octal_ok (l : list Z) : Prop := Forall (fun c => 48 <= c <= 55) l.
Fixpoint ovalue (l : list Z) : Z :=
  match l with [] => 0 | d :: r => (d - 48) * 8 ^ zlen r + ovalue r end.
Inductive StrText : list Z -> list Z -> Prop :=
| ST_nil : StrText [] []
| ST_raw c v t : c <> 40 -> c <> 41 -> c <> 92 -> StrText v t -> StrText (c :: v) (c :: t)
| ST_paren v1 t1 v t : StrText v1 t1 -> StrText v t -> StrText (40 :: v1 ++ 41 :: v) (40 :: t1 ++ 41 :: t)
| ST_esc c e v t : Escape c e -> StrText v t -> StrText (c :: v) (92 :: e :: t)
| ST_oct ds v t : octal_ok ds -> 1 <= zlen ds <= 3 -> ovalue ds <= 255 ->
    (zlen ds < 3 -> head_is (fun c => (48 <=? c) && (c <=? 55)) t = false) ->
    StrText v t -> StrText (ovalue ds :: v) (92 :: ds ++ t)
| ST_cont e v t : Eol e t -> StrText v t -> StrText v (92 :: e ++ t)   (* escaped end of line *)
(* what the library makes of other escapes: it keeps them (C07_iso_refuted) *)
| ST_other e v t : (48 <= e <= 55 -> False) -> e <> 13 -> e <> 10 -> (forall c, ~ Escape c e) -> StrText v t -> StrText (92 :: e :: v) (92 :: e :: t)
| ST_big ds v t : octal_ok ds -> zlen ds = 3 -> 255 < ovalue ds -> StrText v t -> StrText (92 :: ds ++ v) (92 :: ds ++ t).

(** Literal strings as ISO 32000-1, 7.3.4.2 has them: an end of line in the text is a line feed, a
    backslash before any other character is dropped, and the high bits of an octal code are dropped.
    [IsoStr true v t]: the text [t] of [v] has no such escape, no such code, and no end of line but LF. *)
Inductive IsoStr : bool -> list Z -> list Z -> Prop :=
| IS_nil : IsoStr true [] []
| IS_raw b c v t : c <> 40 -> c <> 41 -> c <> 92 -> c <> 13 -> c <> 10 -> IsoStr b v t -> IsoStr b (c :: v) (c :: t)
| IS_eol b e v t : Eol e t -> IsoStr b v t -> IsoStr (b && (zlen e =? 1) && negb (head_is (fun c => c =? 13) e)) (10 :: v) (e ++ t)
| IS_paren b1 b2 v1 t1 v t : IsoStr b1 v1 t1 -> IsoStr b2 v t -> IsoStr (b1 && b2) (40 :: v1 ++ 41 :: v) (40 :: t1 ++ 41 :: t)
| IS_esc b c e v t : Escape c e -> IsoStr b v t -> IsoStr b (c :: v) (92 :: e :: t)
| IS_oct b ds v t : octal_ok ds -> 1 <= zlen ds <= 3 ->
    (zlen ds < 3 -> head_is (fun c => (48 <=? c) && (c <=? 55)) t = false) ->
    IsoStr b v t -> IsoStr (b && (ovalue ds <=? 255)) (ovalue ds mod 256 :: v) (92 :: ds ++ t)
| IS_cont b e v t : Eol e t -> IsoStr b v t -> IsoStr b v (92 :: e ++ t)
| IS_other b e v t : (48 <= e <= 55 -> False) -> e <> 13 -> e <> 10 -> (forall c, ~ Escape c e) -> IsoStr b v t -> IsoStr false (e :: v) (92 :: e :: t).

(** Hexadecimal strings, between < and >: digits separated by white space and comments. *)
Inductive HexBody : list Z -> list Z -> Prop :=
| HB_nil : HexBody [] []
| HB_cons d h s ds t : hexval d = Some h -> Sep s -> HexBody ds t -> HexBody (d :: ds) (d :: s ++ t).
Definition upper (c : Z) : Z := if (97 <=? c) && (c <=? 122) then c - 32 else c.
Definition even_pad (ds : list Z) : list Z := if Z.odd (zlen ds) then ds ++ [48] else ds.

(** The dictionary denoted by a list of entries in text order: the last value of each key. *)
Definition dict_of (es : list (list Z * obj)) : dict := fold_left (fun d kv => dset d (fst kv) (snd kv)) es [].

(** [Ser fl v s rest]: [s] is a text of the value [v] when followed by [rest], for parser class
    [fl] (references only where the class allows them). *)
Inductive Ser (fl : flavor) : obj -> list Z -> list Z -> Prop :=
| Ser_null rest : (fl = FContent -> nonreg rest) -> Ser fl ONull (bs "null") rest
| Ser_true rest : (fl = FContent -> nonreg rest) -> Ser fl (OBool true) (bs "true") rest
| Ser_false rest : (fl = FContent -> nonreg rest) -> Ser fl (OBool false) (bs "false") rest
| Ser_int z t rest : IntText z t -> int_end rest ->
    (refs_allowed fl = true -> head_is is_digit t = true -> NotRefTail rest) ->
    Ser fl (OInt z) t rest
| Ser_real v t rest : RealText v t -> real_end rest -> Ser fl v t rest
| Ser_name cs t rest : NameText cs t -> nonreg rest -> Ser fl (OName cs) (47 :: t) rest
| Ser_str v t rest : StrText v t -> Ser fl (OStr v) (40 :: t ++ [41]) rest
| Ser_hex ds s0 t rest : Sep s0 -> head_is (fun c => c =? 37) s0 = false -> HexBody ds t ->
    Ser fl (OHex (map upper (even_pad ds))) (60 :: s0 ++ t ++ [62]) rest
| Ser_ref ds1 s1 ds2 s2 rest : refs_allowed fl = true ->
    ds1 <> [] -> digits_ok ds1 -> ds2 <> [] -> digits_ok ds2 -> Sep s1 -> s1 <> [] -> Sep s2 ->
    Ser fl (ORef (dvalue ds1) (dvalue ds2)) (ds1 ++ s1 ++ ds2 ++ s2 ++ [82]) rest
| Ser_arr vs s0 s rest : Sep s0 -> SerElems fl vs s (93 :: rest) ->
    Ser fl (OArr vs) (91 :: s0 ++ s ++ [93]) rest
| Ser_dict es s0 s sp' rest' : Sep s0 -> SerEntries fl es s (62 :: 62 :: sp' ++ rest') ->
    Sep sp' -> nosep rest' -> head_is (fun c => c =? 115) rest' = false ->
    Ser fl (ODict (dict_of es)) (60 :: 60 :: s0 ++ s ++ [62; 62]) (sp' ++ rest')
(** Array elements / dictionary entries, each followed by a separator. *)
with SerElems (fl : flavor) : list obj -> list Z -> list Z -> Prop :=
| SE_nil rest : SerElems fl [] [] rest
| SE_cons v s sep vs ss rest : Ser fl v s (sep ++ ss ++ rest) -> Sep sep -> SerElems fl vs ss rest ->
    SerElems fl (v :: vs) (s ++ sep ++ ss) rest
with SerEntries (fl : flavor) : list (list Z * obj) -> list Z -> list Z -> Prop :=
| SN_nil rest : SerEntries fl [] [] rest
| SN_cons k kt sep1 v s sep2 es ss rest :
    NameText k kt -> nonreg (sep1 ++ s) -> Sep sep1 ->
    Ser fl v s (sep2 ++ ss ++ rest) -> Sep sep2 -> SerEntries fl es ss rest ->
    SerEntries fl ((k, v) :: es) (47 :: kt ++ sep1 ++ s ++ sep2 ++ ss) rest.

(** White space the parser also swallows after a dictionary (it looks for "stream"). *)
Definition trailing (v : obj) (sp' : list Z) : list Z := match v with ODict _ => sp' | _ => [] end.
(** For a dictionary, what follows must be such a separator [sp'] and then something else. *)
Definition tail_ok (v : obj) (sp' rest : list Z) : Prop :=
  match v with ODict _ => exists X, rest = sp' ++ X /\ Sep sp' /\ nosep X | _ => True end.
