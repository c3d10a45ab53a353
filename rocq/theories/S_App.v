(** What is in a document, said of its objects alone: pages, their content data, their resources, and the text
    that content shows.  Nothing here mentions the viewer. *)
From Coq Require Import String.
From Verif Require Import Prelude M_Parser S_Print S_Filters M_Objects S_Objects S_Viewer.
Local Open Scope Z_scope.

(** ids without an object mean null *)
Definition or_null (o : Z -> Z -> option obj) (n g : Z) : option obj := Some (match o n g with Some v => v | None => ONull end).

(** What a stream's Filter and DecodeParms say of its data: without filters they are the data; else they are encoded by the
    filter, or by all filters listed, without prediction; or they are compressed rows of a PNG image nothing was predicted for
    (each row is preceded by the tag 0; predicted rows are not restored: C47).  DecodeParms, if any, are one dictionary
    (an array loses the data: C90). *)
Section Encoding.
  Variable inflate : list Z -> option (list Z).
  Definition unpredicted_parms (d : dict) : Prop :=
    dget d (bs "DecodeParms") = None \/ dget d (bs "DecodeParms") = Some ONull \/
    exists p, dget d (bs "DecodeParms") = Some (ODict p) /\ (dget p (bs "Predictor") = None \/ dget p (bs "Predictor") = Some (OInt 1)).
  Definition png_parms (d : dict) (columns : nat) : Prop :=
    exists p k, dget d (bs "DecodeParms") = Some (ODict p) /\ dget p (bs "Predictor") = Some (OInt k) /\ 10 <= k <= 15 /\
      dget p (bs "Columns") = Some (OInt (Z.of_nat columns)).
  Inductive Decoded (d : dict) (data : list Z) : list Z -> Prop :=
  | De_plain : dget d (bs "Filter") = None \/ dget d (bs "Filter") = Some ONull -> Decoded d data data
  | De_one f b : dget d (bs "Filter") = Some (OName f) -> unpredicted_parms d -> Encoded inflate f b data -> Decoded d data b
  | De_many fs b : dget d (bs "Filter") = Some (OArr (map OName fs)) -> unpredicted_parms d -> EncodedChain inflate fs b data -> Decoded d data b
  | De_rows f columns rows : In f [bs "FlateDecode"; bs "Fl"] -> dget d (bs "Filter") = Some (OName f) \/ dget d (bs "Filter") = Some (OArr [OName f]) ->
      png_parms d columns -> Forall (fun r => List.length r = columns) rows ->
      inflate data = Some (flat_map (fun r => 0 :: r) rows) -> Decoded d data (List.concat rows).
End Encoding.

Section Doc.
  (** the objects of the document *)
  Variable o : Z -> Z -> option obj.
  (** A reference means the object of that id.  If there is none it means nothing at all: the empty token is no value, so no
      condition below can be met by following such a reference.  Where ids without an object mean null, use [or_null]. *)
  Definition meant (n g : Z) : obj := match o n g with Some v => v | None => OTok [] end.
  (** what a lookup of an id answers; lookups of other ids are not answered (no handler catches OutOfFuel) *)
  Definition answer (n g : Z) : res bv := match o n g with Some v => Ok (raw v) | None => Err OutOfFuel end.
  Definition follow (v : obj) : obj := match v with ORef n g => meant n g | _ => v end.
  Definition entry (d : dict) (k : string) : obj := match dget d (bs k) with Some v => follow v | None => ONull end.
  (** A value all whose references (outside dictionaries) lead somewhere that is no reference, and whose
      dictionaries and streams have a name or nothing as Type. *)
  Definition meaning (v : obj) (w : bv) : Prop := Stands answer (raw v) w.
  Definition Sound (v : obj) : Prop := exists w, meaning v w.

  (** The page tree: the page dictionaries below a value of Kids (or of the catalog's Pages), left to right. *)
  Inductive PagesAt : obj -> list dict -> Prop :=
  | Pa_page v d : follow v = ODict d -> dget d (bs "Type") = Some (OName (bs "Page")) -> PagesAt v [d]
  | Pa_node v d l ps : follow v = ODict d -> dget d (bs "Type") = Some (OName (bs "Pages")) ->
      entry d "Kids" = OArr l -> PagesIn l ps -> PagesAt v ps
  with PagesIn : list obj -> list dict -> Prop :=
  | Pi_nil : PagesIn [] []
  | Pi_cons v l ps qs : PagesAt v ps -> PagesIn l qs -> PagesIn (v :: l) (ps ++ qs).
  (** The document: the trailer's Root is the catalog, whose Pages is the root of the page tree. *)
  Definition Document (t : dict) (ps : list dict) : Prop :=
    exists n g c d l, dget t (bs "Root") = Some (ORef n g) /\ meant n g = ODict c /\ dict_class (map (fun p => (fst p, raw (snd p))) c) (bs "Catalog") /\
      entry c "Pages" = ODict d /\ dget d (bs "Type") = Some (OName (bs "Pages")) /\ entry d "Kids" = OArr l /\ PagesIn l ps.

  (** A stream's data, decoded; streams of any type but XObjects. *)
  Variable inflate : list Z -> option (list Z).
  Definition Data (v : obj) (b : list Z) : Prop :=
    exists d data, follow v = OStream d data /\
      (dget d (bs "Type") = None \/ exists s, dget d (bs "Type") = Some (OName s) /\ s <> bs "XObject") /\ Decoded inflate d data b.
  (** A page's content: one stream, or several, one after the other. *)
  Definition ContentOf (d : dict) (b : list Z) : Prop :=
    exists v, dget d (bs "Contents") = Some v /\
      (Data v b \/ exists l bs', follow v = OArr l /\ Forall2 Data l bs' /\ b = List.concat bs').

  (** Resources: the page's own dictionary and those of its ancestors, from near to far. *)
  Definition here (d : dict) (ls : list dict) : Prop :=
    (exists r, entry d "Resources" = ODict r /\ r <> [] /\ ls = [r]) \/
    ((entry d "Resources" = ONull \/ entry d "Resources" = ODict []) /\ ls = []).
  Inductive Levels : dict -> list dict -> Prop :=
  | Le_top d ls : here d ls -> entry d "Parent" = ONull -> Levels d ls
  | Le_up d ls p up : here d ls -> entry d "Parent" = ODict p -> dget p (bs "Type") = Some (OName (bs "Pages")) ->
      Levels p up -> Levels d (ls ++ up).
  (** A resource dictionary: no kind is called "self" (C37_kind_named_self), ProcSet is an array of names, all other kinds are dictionaries of sound values. *)
  Definition LevelOk (r : dict) : Prop :=
    (dget r (bs "Type") = None /\ dget r (bs "self") = None) /\ NoDup (map fst r) /\
    forall k v, In (k, v) r ->
      if eqlZ k (bs "ProcSet") then exists names, follow v = OArr (map OName names)
      else exists d, follow v = ODict d /\ dget d (bs "Type") = None /\ NoDup (map fst d) /\ forall k' x, In (k', x) d -> Sound x.
  (** The nearest level that has the font decides. *)
  Fixpoint font_in (ls : list dict) (f : list Z) : option obj :=
    match ls with
    | [] => None
    | r :: more => match entry r "Font" with
                   | ODict fd => match dget fd f with Some v => Some v | None => font_in more f end
                   | _ => font_in more f
                   end
    end.
End Doc.

(** Text content: operators for text and graphics state parameters, and any others the viewer has no handler for,
    with operands that can be written down again.  Not: gs, Do, DP, BDC, the double quote, inline images. *)
Fixpoint showable (v : obj) : Prop :=
  match v with
  | OArr l => (fix all l := match l with [] => True | x :: r => showable x /\ all r end) l
  | ODict d => (fix all d := match d with [] => True | (_, x) :: r => showable x /\ all r end) d
  | OStream _ _ | ORef _ _ | OInline _ _ => False
  | _ => True
  end.
Definition unhandled (w : list Z) : Prop :=
  ~ In w (map bs ["q"; "Q"; "cm"; "w"; "J"; "j"; "M"; "d"; "ri"; "i"; "gs"; "Tf"; "Tj"; "TJ"; "'"; """"; "DP"; "BDC"; "BT"; "ET"; "Do";
                  "apostrophe"; "quotation"; "inline_image"; "document_load"; "handler"; "navigate"]%string).
Inductive TextOp : citem -> Prop :=
| To_font f size : showable size -> TextOp (COp (bs "Tf") [OName f; size])
| To_save : TextOp (COp (bs "q") [])
| To_restore : TextOp (COp (bs "Q") [])
| To_bracket w : w = bs "BT" \/ w = bs "ET" -> TextOp (COp w [])
| To_show w v : w = bs "Tj" \/ w = bs "'" -> is_string v = true -> TextOp (COp w [v])
| To_show_many l : Forall showable l -> TextOp (COp (bs "TJ") [OArr l])
| To_param w a args : In w (map bs ["cm"; "w"; "J"; "j"; "M"; "d"; "ri"; "i"]%string) -> showable a -> Forall showable args -> TextOp (COp w (a :: args))
| To_other w args : unhandled w -> Forall showable args -> TextOp (COp w args).

(** The strings shown, each with the name of the font in effect: set by Tf, saved and restored by q and Q. *)
Fixpoint shows (font : option (list Z)) (saved : list (option (list Z))) (l : list citem) : list (option (list Z) * obj) :=
  match l with
  | [] => []
  | i :: r =>
      map (fun v => (font, v)) (shown i) ++
      match i with
      | COp w args =>
          if eqlZ w (bs "Tf") then match args with OName f :: _ => shows (Some f) saved r | _ => shows font saved r end
          else if eqlZ w (bs "q") then shows font (font :: saved) r
          else if eqlZ w (bs "Q") then match saved with f :: more => shows f more r | [] => shows None [] r end
          else shows font saved r
      | CImage _ _ => shows font saved r
      end
  end.

(** Content written down: operands printed, each followed by a space, then the operator and a newline. *)
Definition content_text (its : list citem) : list Z :=
  flat_map (fun i => match i with COp w args => flat_map (fun x => print x ++ [32]) args ++ w ++ [10] | CImage _ _ => [] end) its.
