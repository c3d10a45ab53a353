(** What a page draws - text, images, forms, inline images - said of the document's objects alone. *)
From Coq Require Import String.
From Verif Require Import Prelude M_Parser M_Objects S_Syntax S_Stream M_Viewer S_Objects S_Viewer S_App S_Canvas.
Local Open Scope Z_scope.

(** An inline image that can be written into the page's text: entries that can be written down, a filter list that is not
    empty, and plain ASCII data if the first filter is an ASCII one. *)
Definition ascii_names : list (list Z) := map bs ["ASCIIHexDecode"; "AHx"; "ASCII85Decode"; "A85"]%string.
Definition first_filter (d : dict) (f : obj) : Prop :=
  let pick v := match v with OArr (x :: _) => x = f | OArr [] => False | v => v = f end in
  match dget d (bs "Filter") with
  | Some (OName (c :: s)) => f = OName (c :: s)
  | Some (OArr (x :: _)) => f = x
  | None => pick (match dget d (bs "F") with Some v => v | None => ONull end)
  | _ => False
  end.
Definition image_fine (d : dict) (data : list Z) : Prop :=
  Forall (fun p => showable (snd p)) d /\
  exists f, first_filter d f /\ ((forall s, f = OName s \/ f = OHex s -> ~ In s ascii_names) \/ Forall (fun c => c < 128) data).

Section Doc.
  Variable o : Z -> Z -> option obj.
  Variable inflate : list Z -> option (list Z).

  (** The resource of kind [kind] called [f]: the nearest level that has one decides. *)
  Fixpoint res_in (kind : string) (ls : list dict) (f : list Z) : option obj :=
    match ls with
    | [] => None
    | r :: more => match entry o r kind with
                   | ODict d => match dget d f with Some v => Some v | None => res_in kind more f end
                   | _ => res_in kind more f
                   end
    end.

  (** XObjects: streams with data, Type XObject, and their Subtype *)
  Definition XObject (v : obj) (subtype : string) (d : dict) (data : list Z) : Prop :=
    follow o v = OStream d data /\ data <> [] /\
    dget d (bs "Type") = Some (OName (bs "XObject")) /\ dget d (bs "Subtype") = Some (OName (bs subtype)).
  (** XObjects the viewer does not see: empty ones, and those that leave out the (optional) Type *)
  Definition Unseen (v : obj) : Prop :=
    exists d data, follow o v = OStream d data /\
      (dget d (bs "Type") = None \/ data = [] /\ dget d (bs "Type") = Some (OName (bs "XObject")) /\ exists s, dget d (bs "Subtype") = Some (OName s)).
  (** a form's content data, and its own resources *)
  Definition FormData (d : dict) (data b : list Z) : Prop := Decoded inflate d data b.

  (** Operators that draw: text, marks without Contents, inline images, gs of dictionaries that set no font. *)
  Definition gs_fine (ls : list dict) (k : list Z) : Prop :=
    match res_in "ExtGState" ls k with
    | None => True
    | Some v => exists d, follow o v = ODict d /\ dget d (bs "Font") = None /\ dget d (bs "self") = None /\ dget d (bs "font_name") = None
    end.
  Inductive DrawOp (ls : list dict) : citem -> Prop :=
  | Do_text i : TextOp i -> DrawOp ls i
  | Do_mark w t p : w = bs "DP" \/ w = bs "BDC" -> showable t -> showable p ->
      (forall d s, p = ODict d -> dget d (bs "Contents") <> Some (OStr s)) -> DrawOp ls (COp w [t; p])
  | Do_image d data : image_fine d data -> DrawOp ls (CImage d data)
  | Do_gs k : gs_fine ls k -> DrawOp ls (COp (bs "gs") [OName k]).

  (** the font in effect after some content, and the saved ones *)
  Fixpoint fonts_after (font : option (list Z)) (saved : list (option (list Z))) (l : list citem) : option (list Z) * list (option (list Z)) :=
    match l with
    | [] => (font, saved)
    | COp w args :: r =>
        if eqlZ w (bs "Tf") then match args with OName f :: _ => fonts_after (Some f) saved r | _ => fonts_after font saved r end
        else if eqlZ w (bs "q") then fonts_after font (font :: saved) r
        else if eqlZ w (bs "Q") then match saved with f :: more => fonts_after f more r | [] => fonts_after None [] r end
        else fonts_after font saved r
    | CImage _ _ :: r => fonts_after font saved r
    end.

  (** how a font's strings read: given by the property (FontText) *)
  Variable font_text : option obj -> obj -> list Z -> Prop.
  Definition texts (ls : list dict) (font : option (list Z)) (its : list citem) (ts : list (list Z)) : Prop :=
    Forall2 (fun p t => font_text (match fst p with None => None | Some f => res_in "Font" ls f end) (snd p) t) (shows font [] its) ts.

  (** A form painted where [font] is in effect, on a page with resources [ls]: content with balanced q/Q, drawn with the form's
      resources before the page's; painting XObjects inside forms is ignored. *)
  Definition FormDraws (ls : list dict) (d : dict) (data : list Z) (font : option (list Z)) (its : list citem) (ts : list (list Z)) : Prop :=
    exists lead ss fl, FormData d data (lead ++ ss) /\ Sep lead /\ Content its ss /\ Balanced its /\
      Forall (fun i => DrawOp (fl ++ ls) i \/ exists k, i = COp (bs "Do") [OName k]) its /\
      here o d fl /\ Forall (LevelOk o) fl /\ texts (fl ++ ls) font its ts.

  (** What [k Do] does on a page where [font] is in effect. *)
  Definition do_fine (ls : list dict) (font : option (list Z)) (k : list Z) : Prop :=
    match res_in "XObject" ls k with
    | None => True
    | Some v => Unseen v \/ (exists d data, XObject v "Image" d data) \/ (exists d data its ts, XObject v "Form" d data /\ FormDraws ls d data font its ts)
    end.
  (** A page's content: every operator draws; XObjects painted are fine where they are painted. *)
  Definition PageContent (ls : list dict) (its : list citem) : Prop :=
    forall pre i post, its = pre ++ i :: post ->
      DrawOp ls i \/ exists k, i = COp (bs "Do") [OName k] /\ do_fine ls (fst (fonts_after None [] pre)) k.

  (** the names painted, of one kind of XObject, in order *)
  Definition of_subtype (subtype : string) (v : obj) : bool :=
    match follow o v with
    | OStream d (_ :: _) => match dget d (bs "Type"), dget d (bs "Subtype") with
                            | Some (OName t), Some (OName s) => eqlZ t (bs "XObject") && eqlZ s (bs subtype)
                            | _, _ => false
                            end
    | _ => false
    end.
  Definition painted_names (ls : list dict) (subtype : string) (its : list citem) : list (list Z) :=
    flat_map (fun i => match i with
      | COp w [OName k] => if eqlZ w (bs "Do") then match res_in "XObject" ls k with Some v => if of_subtype subtype v then [k] else [] | None => [] end else []
      | _ => []
      end) its.

  (** A page of the document: what it holds ([its] is its content, [ls] its resources), and the texts it shows. *)
  Definition PageIs (d : dict) (its : list citem) (ls : list dict) (ts : list (list Z)) : Prop :=
    exists lead ss, ContentOf o inflate d (lead ++ ss) /\ Sep lead /\ Content its ss /\ Levels o d ls /\ Forall (LevelOk o) ls /\
      PageContent ls its /\ texts ls None its ts.
  (** The canvas of such a page. *)
  Definition Drawn (its : list citem) (ls : list dict) (ts : list (list Z)) (c : canvas) : Prop :=
    cv_strings c = ts /\ cv_inline c = inline_images its /\
    map fst (cv_images c) = firsts (painted_names ls "Image" its) /\
    (forall k w, aget (cv_images c) k = Some w -> exists v d data,
       res_in "XObject" ls k = Some v /\ XObject v "Image" d data /\ w = VStm (Some (bs "Image")) (map (fun p => (fst p, raw (snd p))) d) data) /\
    map fst (cv_forms c) = firsts (painted_names ls "Form" its) /\
    (forall k fc, aget (cv_forms c) k = Some fc -> exists pre post v d data,
       its = pre ++ COp (bs "Do") [OName k] :: post /\ ~ In (COp (bs "Do") [OName k]) pre /\
       res_in "XObject" ls k = Some v /\ XObject v "Form" d data /\ cv_images fc = [] /\ cv_forms fc = [] /\
       forall fits fts, FormDraws ls d data (fst (fonts_after None [] pre)) fits fts -> cv_strings fc = fts /\ cv_inline fc = inline_images fits).
End Doc.
