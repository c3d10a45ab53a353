(** Specification of CMap files, written without reference to parsers/cmap.py: a CMap file is a sequence of
    PostScript items (objects and words) in any layout; its mappings are those of its sections. *)
From Coq Require Import String.
From Verif Require Import Prelude M_Parser S_Syntax S_CMap.
Local Open Scope Z_scope.

(** *** Layout: objects and words, separated by white space and comments *)
Inductive item := IObj (v : obj) | IWord (w : list Z).

Definition prefix_of (p l : list Z) : Prop := exists t, l = p ++ t.
(** A word (PostScript operator): regular characters, not starting like a number, nor with null, true or false. *)
Definition Word (w : list Z) : Prop :=
  w <> [] /\ Forall (fun c => is_ws c = false /\ is_delim c = false) w /\
  head_is (fun c => is_digit c || memZ c [43; 45; 46]) w = false /\
  ~ prefix_of (bs "null") w /\ ~ prefix_of (bs "true") w /\ ~ prefix_of (bs "false") w.

(** [Items its s]: [s] is a text of the items [its] up to the end of the file.  Limits of the reader: at least
    five bytes from the start of a word to the end of the file if it starts with n, t or f; the name
    CMapName is written without escapes. *)
Inductive Items : list item -> list Z -> Prop :=
| It_nil : Items [] []
| It_obj v s sep its ss : Ser FNoRef v s (sep ++ ss) -> Sep sep -> Items its ss ->
    (v = OName (bs "CMapName") -> s = bs "/CMapName") ->
    Items (IObj v :: its) (s ++ sep ++ ss)
| It_word w sep its ss : Word w -> nonreg (sep ++ ss) -> Sep sep -> Items its ss ->
    (head_is (fun c => memZ c [110; 116; 102]) w = true -> 5 <= zlen (w ++ sep ++ ss)) ->
    Items (IWord w :: its) (w ++ sep ++ ss).

(** *** Contents: sections among other items *)
Inductive kind := Cid | Notdef | Bf.
Definition kind_word (k : kind) : list Z :=
  match k with Cid => bs "cid" | Notdef => bs "notdef" | Bf => bs "bf" end.

Inductive chunk :=
| KPlain (i : item)                                            (* anything else *)
| KCodespace (l : list (list Z * list Z))                      (* n begincodespacerange <..> <..> ... *)
| KRange (k : kind) (l : list (list Z * list Z * obj))         (* n begin..range <..> <..> dst ... *)
| KChar (k : kind) (l : list (list Z * obj)).                  (* n begin..char <..> dst ... *)

Definition section_words : list (list Z) :=
  [bs "begincodespacerange"; bs "begincidrange"; bs "begincidchar"; bs "beginnotdefrange"; bs "beginnotdefchar";
   bs "beginbfrange"; bs "beginbfchar"].

Definition chunk_items (c : chunk) : list item :=
  match c with
  | KPlain i => [i]
  | KCodespace l =>
      IWord (bs "begincodespacerange") :: flat_map (fun be => [IObj (OHex (fst be)); IObj (OHex (snd be))]) l
        ++ [IWord (bs "endcodespacerange")]
  | KRange k l =>
      IWord (bs "begin" ++ kind_word k ++ bs "range")
        :: flat_map (fun bed => [IObj (OHex (fst (fst bed))); IObj (OHex (snd (fst bed))); IObj (snd bed)]) l
        ++ [IWord (bs "end" ++ kind_word k ++ bs "range")]
  | KChar k l =>
      IWord (bs "begin" ++ kind_word k ++ bs "char")
        :: flat_map (fun bd => [IObj (OHex (fst bd)); IObj (snd bd)]) l
        ++ [IWord (bs "end" ++ kind_word k ++ bs "char")]
  end.

(** The header every file starts with; [n] is the size given to dict. *)
Definition header (n : Z) : list item :=
  [IObj (OName (bs "CIDInit")); IObj (OName (bs "ProcSet")); IWord (bs "findresource"); IWord (bs "begin");
   IObj (OInt n); IWord (bs "dict"); IWord (bs "begin"); IWord (bs "begincmap")].

(** *** Meaning *)
(** The name: what follows the first CMapName, if it is a name. *)
Fixpoint named (its : list item) : option (list Z) :=
  match its with
  | [] => None
  | IObj (OName x) :: r =>
      if eqlZ x (bs "CMapName") then match r with IObj (OName nm) :: _ => Some nm | _ => None end else named r
  | _ :: r => named r
  end.

(** Entries of one line of a range section: a start value (integer or code) or an array with one code
    for every code of the range, in order (further items of the array are ignored). *)
Inductive RangeEntries : list Z * list Z * obj -> list entry -> Prop :=
| RE_int b e z : entry_ok (ERange b e z) -> RangeEntries (b, e, OInt z) [ERange b e z]
| RE_hex b e d : entry_ok (ERange b e (hnum d)) -> HexCode d -> RangeEntries (b, e, OHex d) [ERange b e (hnum d)]
| RE_arr b e ds more es : HexCode b -> HexCode e -> zlen b = zlen e -> zlen ds = hnum e - hnum b + 1 -> 1 <= zlen ds ->
    Forall (fun d => exists t, Units d t) ds ->
    Forall2 (fun d x => exists c, x = EChar c d) ds es ->
    (forall i c d, nth_error es i = Some (EChar c d) -> UpperCode c /\ zlen c = zlen b /\ hnum c = hnum b + Z.of_nat i) ->
    RangeEntries (b, e, OArr (map OHex ds ++ more)) es.
(** ... and of a char section: for bf a text, otherwise a number. *)
Inductive CharEntry : kind -> list Z * obj -> entry -> Prop :=
| CE_bf b d : HexCode b -> (exists t, Units d t) -> CharEntry Bf (b, OHex d) (EChar b d)
| CE_num k b d : k <> Bf -> HexCode b -> HexCode d -> CharEntry k (b, OHex d) (ERange b b (hnum d)).

(** The entries of all sections of one kind and form, in order. *)
Inductive RangesOf (k : kind) : list chunk -> list entry -> Prop :=
| RO_nil : RangesOf k [] []
| RO_range l cs ess es : Forall2 RangeEntries l ess -> RangesOf k cs es ->
    RangesOf k (KRange k l :: cs) (List.concat ess ++ es)
| RO_other c cs es : (forall l, c <> KRange k l) -> RangesOf k cs es -> RangesOf k (c :: cs) es.
Inductive CharsOf (k : kind) : list chunk -> list entry -> Prop :=
| CO_nil : CharsOf k [] []
| CO_char l cs es0 es : Forall2 (CharEntry k) l es0 -> CharsOf k cs es -> CharsOf k (KChar k l :: cs) (es0 ++ es)
| CO_other c cs es : (forall l, c <> KChar k l) -> CharsOf k cs es -> CharsOf k (c :: cs) es.
(** The ranges of all codespace sections, in order. *)
Definition codespace_of (cs : list chunk) : list (list Z * list Z) :=
  flat_map (fun c => match c with KCodespace l => l | _ => [] end) cs.

(** A plain item is no section word, and all destinations are serializable anyway. *)
Definition plain_ok (c : chunk) : Prop := forall w, c = KPlain (IWord w) -> ~ In w section_words.
(** Entries of char sections whose destination is an integer (the usual form in cidchar and notdefchar
    sections) or a name (allowed in bfchar sections). *)
Definition NumOrNameDst (bd : list Z * obj) : Prop := (exists z, snd bd = OInt z) \/ (exists x, snd bd = OName x).
