(** Specification of file bodies whose streams give their Length as a reference, where the integer
    object referred to is either listed in a cross-reference table or stands directly after the stream. *)
From Coq Require Import String.
From Verif Require Import Prelude M_Parser S_Syntax S_Stream S_Document S_Xref S_Open S_Print S_Write.
Local Open Scope Z_scope.

(** [w] occurs in [x] *)
Definition has (w x : list Z) : Prop := exists a b, x = a ++ w ++ b.

(** "n g obj << .. /Length a b R .. >> stream data endstream endobj" where neither the data nor the
    comments between endstream and endobj contain the word endobj *)
Inductive CleanStream : Z -> Z -> Z -> Z -> dict -> list Z -> list Z -> list Z -> Prop :=
| CS ds1 s1 ds2 s2 s3 es s0 s sp' e data ws s4 rest a b :
    ind_head_ok ds1 s1 ds2 s2 s3 -> Sep s0 -> Sep sp' ->
    SerEntries FBasic es s (62 :: 62 :: sp' ++ bs "stream" ++ e ++ data ++ ws ++ bs "endstream" ++ s4 ++ bs "endobj" ++ rest) ->
    StreamEol e (data ++ ws ++ bs "endstream" ++ s4 ++ bs "endobj" ++ rest) -> all_ws ws -> Sep s4 ->
    dget (dict_of es) (bs "Length") = Some (ORef a b) ->
    ~ has (bs "endobj") data -> ~ has (bs "endobj") s4 ->
    CleanStream (dvalue ds1) (dvalue ds2) a b (dict_of es) data
      (ind_head ds1 s1 ds2 s2 s3 ++ stream_text s0 s sp' e data ws ++ s4 ++ bs "endobj") rest.

Section Body.
  Variable content : contents.
  Variable ls : list (list listed).
  Definition with_length (d : dict) (data : list Z) : obj := OStream (dset d (bs "Length") (OInt (zlen data))) data.
  (** [LenBody l body rest]: [body], followed by [rest], is the texts of the objects [l] one after the
      other; a stream may have its Length as a reference if a table lists the integer object referred to,
      or if no table does and that object is the next one in the body. *)
  Inductive LenBody : list (Z * Z * obj) -> list Z -> list Z -> Prop :=
  | LB_nil s rest : Sep s -> nosep rest -> LenBody [] s rest
  | LB_direct s n g v t l ts rest : Sep s -> IndObj n g v t (ts ++ rest) -> LenBody l ts rest ->
      LenBody ((n, g, v) :: l) (s ++ t ++ ts) rest
  | LB_listed s n g a b o d data t l ts rest : Sep s -> LenStream n g a b d data t (ts ++ rest) ->
      content a b = Some (OInt (zlen data)) -> newest ls a b o -> LenBody l ts rest ->
      LenBody ((n, g, with_length d data) :: l) (s ++ t ++ ts) rest
  | LB_next s n g a b d data t l ts rest : Sep s -> CleanStream n g a b d data t (ts ++ rest) ->
      (forall o, ~ newest ls a b o) -> LenBody ((a, b, OInt (zlen data)) :: l) ts rest ->
      LenBody ((n, g, with_length d data) :: (a, b, OInt (zlen data)) :: l) (s ++ t ++ ts) rest.
End Body.

(** A writer of such files: some objects are written whole, some streams with their length in the object
    after them; the table lists those objects for which [sel] says so, and none of the lengths. *)
Inductive item :=
| Whole (n g : Z) (v : obj)
| Deferred (n g : Z) (d : dict) (data : list Z) (a b : Z).
Definition item_text (it : item) : list Z :=
  match it with
  | Whole n g v => object_text n g v ++ [10]
  | Deferred n g d data a b =>
      object_text n g (OStream (d ++ [(bs "Length", ORef a b)]) data) ++ [10] ++ object_text a b (OInt (zlen data)) ++ [10]
  end.
Definition item_objs (it : item) : list (Z * Z * obj) :=
  match it with
  | Whole n g v => [(n, g, v)]
  | Deferred n g d data a b => [(n, g, OStream (d ++ [(bs "Length", OInt (zlen data))]) data); (a, b, OInt (zlen data))]
  end.
Definition item_id (it : item) : Z * Z := match it with Whole n g _ => (n, g) | Deferred n g _ _ _ _ => (n, g) end.
Fixpoint item_listings (sel : Z -> bool) (start : Z) (items : list item) : list listed :=
  match items with
  | [] => []
  | it :: r => (if sel (fst (item_id it)) then [mkListed (fst (item_id it)) (snd (item_id it)) start true] else []) ++
               item_listings sel (start + zlen (item_text it)) r
  end.
Definition deferred_file (a b : Z) (sel : Z -> bool) (items : list item) (t : dict) : list Z :=
  version_line a b ++ flat_map item_text items ++ section_text (item_listings sel (zlen (version_line a b)) items) t ++
  end_text (zlen (version_line a b) + zlen (flat_map item_text items)).
Definition item_ok (it : item) : Prop :=
  match it with
  | Whole n g v => 0 <= n /\ 0 <= g < 10 ^ 5 /\ writable v
  | Deferred n g d data a b => 0 <= n /\ 0 <= g < 10 ^ 5 /\ 0 <= a /\ 0 <= b /\ printable (ODict d) /\
      dget d (bs "Length") = None /\ dget d (bs "Type") <> Some (OName (bs "ObjStm")) /\ ~ has (bs "endobj") data
  end.
Definition items_ok (items : list item) (t : dict) : Prop :=
  Forall item_ok items /\ NoDup (map (fun e => fst (fst e)) (flat_map item_objs items)) /\
  printable (ODict t) /\ dget t (bs "Prev") = None /\ dget t (bs "xrefs") = None /\ dget t (bs "self") = None.
