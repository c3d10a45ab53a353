(** Specification of whole files: which object an id denotes in a file with cross-reference tables. *)
From Coq Require Import String.
From Verif Require Import Prelude M_Parser S_Syntax S_Stream S_Document S_Xref.
Local Open Scope Z_scope.

(** [newest ls num gen o]: among the tables [ls] (newest first) the first one whose in-use listing of
    [num] has generation [gen] lists it at offset [o]. *)
Definition newest (ls : list (list listed)) (num gen o : Z) : Prop :=
  exists newer l older, ls = newer ++ l :: older /\ last_listed true num l = Some (gen, o) /\
    Forall (fun l' => forall o', last_listed true num l' <> Some (gen, o')) newer.

(** "n g obj << .. /Length a b R .. >> stream data endstream endobj" *)
Inductive LenStream : Z -> Z -> Z -> Z -> dict -> list Z -> list Z -> list Z -> Prop :=
| LS ds1 s1 ds2 s2 s3 es s0 s sp' e data ws s4 rest a b :
    ind_head_ok ds1 s1 ds2 s2 s3 -> Sep s0 -> Sep sp' ->
    SerEntries FBasic es s (62 :: 62 :: sp' ++ bs "stream" ++ e ++ data ++ ws ++ bs "endstream" ++ s4 ++ bs "endobj" ++ rest) ->
    StreamEol e (data ++ ws ++ bs "endstream" ++ s4 ++ bs "endobj" ++ rest) -> all_ws ws -> Sep s4 ->
    dget (dict_of es) (bs "Length") = Some (ORef a b) ->
    LenStream (dvalue ds1) (dvalue ds2) a b (dict_of es) data
      (ind_head ds1 s1 ds2 s2 s3 ++ stream_text s0 s sp' e data ws ++ s4 ++ bs "endobj") rest.

(** The objects of a document: what each id denotes. *)
Definition contents : Type := Z -> Z -> option obj.

Section Content.
  Variable content : contents.
  (** What a lookup of an id gives: its object, or null. *)
  Definition denoted (num gen : Z) : obj := match content num gen with Some v => v | None => ONull end.

  (** [ObjText num gen v s rest]: [s], followed by [rest], is a text of the object [num gen]; a
      stream's Length may be a reference to an integer object of the document, which is then the value
      of Length in the dictionary. *)
  Inductive ObjText : Z -> Z -> obj -> list Z -> list Z -> Prop :=
  | OT_direct num gen v s rest : IndObj num gen v s rest -> ObjText num gen v s rest
  | OT_length num gen a b d data s rest :
      LenStream num gen a b d data s rest -> content a b = Some (OInt (zlen data)) ->
      ObjText num gen (OStream (dset d (bs "Length") (OInt (zlen data))) data) s rest.
  Definition stands (f : list Z) (o : Z) (num gen : Z) (v : obj) : Prop :=
    exists pre text rest, f = pre ++ text ++ rest /\ o = zlen pre /\ ObjText num gen v text rest.

  (** Every object of the document is listed, at the place where it stands. *)
  Definition all_listed (f : list Z) (ls : list (list listed)) : Prop :=
    forall num gen v, content num gen = Some v -> exists o, newest ls num gen o /\ stands f o num gen v.
  (** Every in-use listing leads to an object of the document. *)
  Definition listings_right (f : list Z) (ls : list (list listed)) : Prop :=
    forall num gen o, newest ls num gen o -> exists v, content num gen = Some v /\ stands f o num gen v.

  (** A file body: objects with separators (white space and comments) before and between them. *)
  Inductive BodyText : list (Z * Z * obj) -> list Z -> list Z -> Prop :=
  | BT_nil s rest : Sep s -> nosep rest -> BodyText [] s rest
  | BT_cons s num gen v t l ts rest : Sep s -> ObjText num gen v t (ts ++ rest) -> BodyText l ts rest ->
      BodyText ((num, gen, v) :: l) (s ++ t ++ ts) rest.
End Content.
