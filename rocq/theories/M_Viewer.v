(** Model of the viewers: pdfreader/viewer/pdfviewer.py, simple.py, canvas.py, graphicsstate.py, resources.py. *)
From Coq Require Import String.
From Verif Require Import Prelude M_Parser M_Text M_Document M_Objects S_Print.
Local Open Scope Z_scope.

(** bool(v) *)
Definition btruthy (v : bv) : bool :=
  match v with
  | VAtom o => truthy o
  | VRef _ _ => true
  | VArr l => match l with [] => false | _ => true end
  | VDict _ d => match d with [] => false | _ => true end
  | VStm _ _ data => match data with [] => false | _ => true end
  end.

(** *** Graphics state (graphicsstate.py) *)
(** 8-55: the attributes that have been set (class attributes are None) *)
Definition gstate := list (list Z * bv).
Definition gs_fields : list (list Z) := map bs
  ["CTM"; "LW"; "LC"; "LJ"; "ML"; "D"; "RI"; "I"; "Font"; "Tc"; "Tw"; "Tz"; "TL"; "Tr"; "Ts"]%string.
(** 62-66 update: [other] was made of the entries of an ExtGState dictionary, unresolved (`**state`
    copies a dict subclass without calling its methods) *)
Definition gs_update (s other : gstate) : gstate :=
  fold_left (fun s f => match aget other f with
                        | None | Some (VAtom ONull) => s
                        | Some v => aset s f v
                        end) gs_fields s.
(** 69-99 the stack; the list's end (the current state) comes first here.
    deepcopy is the identity on these immutable values. *)
Definition gss_state (g : list gstate) : gstate * list gstate :=
  match g with [] => ([], [[]]) | s :: _ => (s, g) end.
Definition gss_save (g : list gstate) : list gstate := let '(s, g1) := gss_state g in s :: g1.
Definition gss_restore (g : list gstate) : list gstate := match g with [] => [] | _ :: r => r end.
Definition gss_set (g : list gstate) (f : list Z) (v : bv) : list gstate :=
  let '(s, g1) := gss_state g in match g1 with [] => [] | _ :: r => aset s f v :: r end.
(** 57-60 font_name: self.Font[0] if self.Font *)
Definition font_name (s : gstate) : res (option bv) :=
  match aget s (bs "Font") with
  | None => Ok None
  | Some v =>
      if btruthy v
      then match v with
           | VArr (x :: _) => Ok (Some x)
           | VAtom (OName (c :: _)) | VAtom (OHex (c :: _)) => Ok (Some (VAtom (OName [c])))
           | VAtom (OStr (c :: _)) => Ok (Some (VAtom (OInt c)))
           | VDict _ _ | VStm _ _ _ => Err KeyErr
           | _ => Err TypeErr
           end
      else Ok None
  end.

(** *** Canvas (canvas.py) *)
Inductive canvas := mkCv (images : list (list Z * bv)) (forms : list (list Z * canvas)) (text : list Z)
                         (inline : list citem) (strings : list (list Z)).
Definition empty_canvas : canvas := mkCv [] [] [] [] [].
Definition cv_images (c : canvas) := let 'mkCv a _ _ _ _ := c in a.
Definition cv_forms (c : canvas) := let 'mkCv _ a _ _ _ := c in a.
Definition cv_text (c : canvas) := let 'mkCv _ _ a _ _ := c in a.
Definition cv_inline (c : canvas) := let 'mkCv _ _ _ a _ := c in a.
Definition cv_strings (c : canvas) := let 'mkCv _ _ _ _ a := c in a.

(** *** Resources (resources.py) *)
(** 1-24: one dictionary per kind; kinds not listed in the constructor are dropped.  Simplified: where a dictionary is expected
    but the kind was given as a (non-empty) array, [rs_dict] is empty; set.get is an AttributeError and set[...] a TypeError there. *)
Inductive rentry := RDict (d : list (list Z * bv)) | RSet (l : list (list Z)).
Definition resources := list (list Z * rentry).
Definition rs_dict (r : resources) (kind : list Z) : list (list Z * bv) :=
  match aget r kind with Some (RDict d) => d | _ => [] end.
Definition rs_set (r : resources) (kind : list Z) : list (list Z) :=
  match aget r kind with Some (RSet l) => l | _ => [] end.
Definition rs_fields : list (list Z) := map bs
  ["ExtGState"; "ColorSpace"; "Pattern"; "Shading"; "XObject"; "Font"; "ProcSet"; "Properties"]%string.

Definition set_add (l : list (list Z)) (x : list Z) : list (list Z) := if existsb (eqlZ x) l then l else l ++ [x].
(** 55-59: an element that is not a name is an iterable of names to add; other iterables (strings) are not
    modelled and count as the TypeError of non-iterables *)
Fixpoint names_of (l : list bv) : res (list (list Z)) :=
  match l with
  | [] => Ok []
  | VAtom (OName s) :: r => rbind (names_of r) (fun x => Ok (s :: x))
  | VArr m :: r =>
      rbind ((fix go m := match m with [] => Ok [] | VAtom (OName s) :: q => rbind (go q) (fun x => Ok (s :: x)) | _ => Err TypeErr end) m) (fun a =>
      rbind (names_of r) (fun b => Ok (a ++ b)))
  | _ => Err TypeErr
  end.
(** 41-62: one level's entries, merged over what farther levels gave.  [items] is res.items(): built
    values; the values of a dictionary entry are its items(), built by [bld]. *)
Fixpoint merge_entries (bld : bv -> res bv) (kw : resources) (items : list (list Z * bv)) : res resources :=
  match items with
  | [] => Ok kw
  | (e, v) :: r =>
      rbind (if negb (btruthy v) then Ok kw
             else match v with
                  | VDict _ d =>
                      match aget kw e with
                      | Some (RSet _) => Err TypeErr       (* a set does not support item assignment *)
                      | old =>
                          rbind (map_vals bld d) (fun d' =>
                          Ok (aset kw e (RDict (fold_left (fun a p => aset a (fst p) (snd p)) d'
                                                          (match old with Some (RDict a) => a | _ => [] end)))))
                      end
                  | VArr l =>
                      match aget kw e with
                      | Some (RDict _) => Err AttributeErr  (* 'dict' has no attribute 'add' *)
                      | old =>
                          rbind (names_of l) (fun ns =>
                          Ok (aset kw e (RSet (fold_left set_add ns (match old with Some (RSet a) => a | _ => [] end)))))
                      end
                  | _ => Ok kw                              (* logged and skipped *)
                  end) (fun kw' => merge_entries bld kw' r)
  end.
(** 37-64: [levels] is the stack of resource dictionaries, the form's first, then the page's, its parent's
    and so on to the root; it is popped from the root end. *)
Fixpoint merge_levels (bld : bv -> res bv) (levels : list (list (list Z * bv))) : res resources :=
  match levels with
  | [] => Ok []
  | l :: r => rbind (merge_levels bld r) (fun kw => merge_entries bld kw l)
  end.
(** 26-36: the page's and its ancestors' Resources; [n] bounds the walk along Parent.
    Attribute access of a dictionary object builds the entry (None if missing). *)
Definition attr (bld : bv -> res bv) (v : bv) (k : list Z) : res bv :=
  match v with
  | VDict (Some _) d => match aget d k with
                        | None => Ok (VAtom ONull)
                        | Some x => match bld x with Err KeyErr => Ok (VAtom ONull) | r => r end
                        end
  | VStm (Some _) d _ => bld (match aget d k with None => VAtom ONull | Some x => x end)
  | _ => Err AttributeErr
  end.
(** res.items() of a level: dictionaries only (a stream or an atom has no items) *)
Definition level_items (bld : bv -> res bv) (v : bv) : res (list (list Z * bv)) :=
  match v with VDict (Some _) d => map_vals bld d | VStm _ _ _ => Err TypeErr | _ => Err AttributeErr end.
Fixpoint ancestors (bld : bv -> res bv) (n : nat) (node : bv) : res (list bv) :=
  match n with
  | O => Err OutOfFuel
  | S n' =>
      rbind (attr bld node (bs "Resources")) (fun rs =>
      rbind (attr bld node (bs "Parent")) (fun p =>
      rbind (if btruthy p then ancestors bld n' p else Ok []) (fun more =>
      Ok (if btruthy rs then rs :: more else more))))
  end.
(** 41-43 build each level's entries when it is popped, farthest first; here all are built first (which exception is raised
    first if several levels are broken may differ).  64: Resources( **kwargs ): a kind named "self" clashes with the method's own. *)
Definition from_page (bld : bv -> res bv) (n : nat) (page : bv) (form : list bv) : res resources :=
  rbind (ancestors bld n page) (fun lv =>
  rbind (mapM (level_items bld) (form ++ lv)) (fun ls =>
  rbind (merge_levels bld ls) (fun kw =>
  if amem kw (bs "self") then Err TypeErr
  else Ok (filter (fun p => existsb (eqlZ (fst p)) rs_fields) kw)))).

(** *** Text of objects (simple.py 20-62) *)
Fixpoint join (sep : list Z) (l : list (list Z)) : list Z :=
  match l with [] => [] | [x] => x | x :: r => x ++ sep ++ join sep r end.
(** base64.b85encode *)
Definition b85_alphabet : list Z := bs "0123456789ABCDEFGHIJKLMNOPQRSTUVWXYZabcdefghijklmnopqrstuvwxyz!#$%&()*+-;<=>?@^_`{|}~".
Definition b85_digit (d : Z) : Z := nth (Z.to_nat d) b85_alphabet 0.
Fixpoint b85_go (n : nat) (l : list Z) : list Z :=
  match n with
  | O => []
  | S n' =>
      match l with
      | [] => []
      | _ =>
          let k := Nat.min 4 (List.length l) in
          let w := fold_left (fun a x => 256 * a + x) (firstn 4 (l ++ [0; 0; 0])) 0 in
          let ds := map b85_digit [w / 52200625 mod 85; w / 614125 mod 85; w / 7225 mod 85; w / 85 mod 85; w mod 85] in
          firstn (k + 1) ds ++ b85_go n' (skipn 4 l)
      end
  end.
Definition b85encode (l : list Z) : list Z := b85_go (List.length l) l.

Section Text.
  (** str(Decimal) *)
  Variable real_str : bool -> Z -> Z -> list Z.
  Fixpoint to_str (o : obj) : res (list Z) :=
    match o with
    | ONull => Ok (bs "null")
    | OBool b => Ok (if b then bs "true" else bs "false")
    | OName s => Ok (47 :: s)
    | OHex s | OTok s => Ok s
    | OInt z => Ok (int_text z)
    | OReal n c e => Ok (real_str n c e)
    | OStr s => Ok s
    | OArr l =>
        rbind ((fix go l := match l with [] => Ok [] | x :: r => rbind (to_str x) (fun a => rbind (go r) (fun b => Ok (a :: b))) end) l)
              (fun ss => Ok (91 :: join [32] ss ++ [93]))
    | ODict d =>
        rbind ((fix go d := match d with [] => Ok [] | (k, v) :: r => rbind (to_str v) (fun a => rbind (go r) (fun b => Ok ((47 :: k ++ 32 :: a) :: b))) end) d)
              (fun ss => Ok (60 :: 60 :: join [32] ss ++ [62; 62]))
    | _ => Err ValueErr
    end.
  (** 35-37 *)
  Definition op_str (name : list Z) (args : list obj) : res (list Z) :=
    rbind (mapM to_str args) (fun ss => Ok (10 :: join [32] ss ++ 32 :: name)).
  (** types/content.py 30-32: Filter *)
  Definition image_filter (d : dict) : obj := if truthy (oget d (bs "Filter")) then oget d (bs "Filter") else oget d (bs "F").
  Definition ascii_filters : list (list Z) := map bs ["ASCIIHexDecode"; "AHx"; "ASCII85Decode"; "A85"]%string.
  (** "{}".format(f) for a string or None; other values (their repr) are not modelled *)
  Definition fmt_filter (o : obj) : list Z := match o with OName s | OHex s => s | ONull => bs "None" | _ => [] end.
  (** 38-56 *)
  Definition image_str (d : dict) (data : list Z) : res (list Z) :=
    rbind (mapM (fun p => rbind (to_str (snd p)) (fun s => Ok (47 :: fst p ++ 32 :: s)))
                (filter (fun p => negb (eqlZ (fst p) (bs "F") || eqlZ (fst p) (bs "Filter"))) d)) (fun es =>
    let fs := match image_filter d with OArr l => l | f => [f] end in
    match fs with
    | [] => Err IndexErr
    | f0 :: _ =>
        let ascii := match f0 with OName s | OHex s => existsb (eqlZ s) ascii_filters | _ => false end in
        let fs' := if ascii then map fmt_filter fs else bs "ASCII85Decode" :: map fmt_filter fs in
        let content := if ascii then data else b85encode data ++ bs "~>" in
        if forallb (fun c => c <? 128) content
        then Ok ([10] ++ bs "BI" ++ [10] ++ join [32] es ++ bs " /Filter [" ++ flat_map (fun f => bs " /" ++ f ++ [32]) fs' ++ bs "]"
                 ++ [10] ++ bs "ID" ++ [10] ++ content ++ [10] ++ bs "EI")
        else Err UnicodeErr
    end).
End Text.

(** *** Interpreting content (pdfviewer.py 55-190, simple.py 65-235) *)
Record vst := mkV { v_gss : list gstate; v_br : list (list Z); v_cv : canvas }.
(** what happened, and the state it left (handlers that fail leave what they did before failing) *)
Definition vm (A : Type) := vst -> res A * vst.
Definition vret {A} (a : A) : vm A := fun s => (Ok a, s).
Definition vbind {A B} (m : vm A) (k : A -> vm B) : vm B :=
  fun s => match m s with (Ok a, s1) => k a s1 | (Err e, s1) => (Err e, s1) end.
Definition vlift {A} (r : res A) : vm A := fun s => (r, s).
Definition vmod (g : vst -> vst) : vm unit := fun s => (Ok tt, g s).
Definition vget : vm vst := fun s => (Ok s, s).
Declare Scope vm_scope.
Notation "x <-- p ;; q" := (vbind p (fun x => q)) (at level 81, p at next level, right associativity) : vm_scope.
Notation "p ;;;; q" := (vbind p (fun _ => q)) (at level 81, right associativity) : vm_scope.
Local Open Scope vm_scope.

Definition with_gss (g : list gstate -> list gstate) : vm unit := vmod (fun s => mkV (g (v_gss s)) (v_br s) (v_cv s)).
Definition with_cv (g : canvas -> canvas) : vm unit := vmod (fun s => mkV (v_gss s) (v_br s) (g (v_cv s))).
Definition add_string (t : list Z) : vm unit :=
  with_cv (fun c => mkCv (cv_images c) (cv_forms c) (cv_text c) (cv_inline c) (cv_strings c ++ [t])).
Definition add_text (t : list Z) : vm unit :=
  with_cv (fun c => mkCv (cv_images c) (cv_forms c) (cv_text c ++ t) (cv_inline c) (cv_strings c)).
Definition add_inline (i : citem) : vm unit :=
  with_cv (fun c => mkCv (cv_images c) (cv_forms c) (cv_text c) (cv_inline c ++ [i]) (cv_strings c)).
Definition arg0 (args : list obj) : vm obj := match args with [] => vlift (Err IndexErr) | a :: _ => vret a end.

(** dict.get(name): strings are keys, other hashable values are absent, arrays and dictionaries are
    unhashable *)
Definition name_lookup {V} (d : list (list Z * V)) (o : bv) : res (option V) :=
  match o with
  | VAtom (OName s) | VAtom (OHex s) | VAtom (OTok s) => Ok (aget d s)
  | VAtom _ => Ok None
  | _ => Err TypeErr
  end.

(** simple.py 79-83: the viewer's mode *)
Definition mode (s : vst) : option (list Z) := match v_br s with [] => None | b :: _ => Some b end.

Section Viewer.
  Variable real_str : bool -> Z -> Z -> list Z.
  (** Decoder(font).decode_string / decode_hexstring; None is default_decoder *)
  Variable show : option bv -> obj -> res (list Z).
  (** a form's filtered data, parsed: what the content parser yields before it ends or fails *)
  Variable form_content : bv -> res (list citem * option exn).
  (** Resources.from_page(page, [form.Resources]) *)
  Variable form_resources : bv -> res resources.
  (** what after_navigate sets up when it is called: simple.py 211-214, pdfviewer.py 311-321.
      (It succeeded for this page already.) *)

  (** simple.py 85-101: the decoder of the current font; its cache (per page and name) is not modelled,
      since resources do not change within a page *)
  Definition decode (rs : resources) (o : obj) : vm (list Z) :=
    s <-- vget ;;
    with_gss (fun g => snd (gss_state g)) ;;;;
    fn <-- vlift (font_name (fst (gss_state (v_gss s)))) ;;
    f <-- vlift (match fn with None => Ok None | Some n => name_lookup (rs_dict rs (bs "Font")) n end) ;;
    vlift (show f o).

  (** simple.py 127-133 *)
  Definition on_Tj (rs : resources) (args : list obj) : vm (list obj) :=
    a <-- arg0 args ;; t <-- decode rs a ;; add_string t ;;;; vret [OTok (40 :: pdf_escape_string t ++ [41])].
  (** simple.py 137-146: len(arr), arr[i]; strings have no string elements; a dictionary has no key 0 *)
  Fixpoint show_all (rs : resources) (l : list obj) : vm (list obj) :=
    match l with
    | [] => vret []
    | (OStr _ | OHex _) as x :: r =>
        t <-- decode rs x ;; add_string t ;;;; r' <-- show_all rs r ;; vret (OTok (40 :: pdf_escape_string t ++ [41]) :: r')
    | x :: r => r' <-- show_all rs r ;; vret (x :: r')
    end.
  Definition on_TJ (rs : resources) (args : list obj) : vm (list obj) :=
    a <-- arg0 args ;;
    match a with
    | OArr l => l' <-- show_all rs l ;; vret (OArr l' :: tl args)
    | OStr _ | OHex _ | OName _ | OTok _ | ODict [] => vret args
    | ODict _ => vlift (Err KeyErr)
    | OStream _ [] => vret args
    | OStream _ _ => vlift (Err KeyErr)
    | _ => vlift (Err TypeErr)
    end.
  (** simple.py 155-166 *)
  Definition on_props (rs : resources) (args : list obj) : vm (list obj) :=
    match args with
    | [t; ODict d] =>
        match dget d (bs "Contents") with
        | Some (OStr s) => x <-- decode rs (OStr s) ;; vret [t; ODict (dset d (bs "Contents") (OTok x))]
        | _ => vret args
        end
    | [_; _] => vret args
    | _ => vlift (Err ValueErr)
    end.
  (** simple.py 79-83 (mode; see below), 110-120; the stack's end comes first *)
  Definition on_BT : vm unit :=
    vmod (fun s => mkV (v_gss s) (bs "BT" :: match v_br s with b :: r => if eqlZ b (bs "BT") then r else b :: r | [] => [] end) (v_cv s)).
  Definition on_ET : vm unit :=
    vmod (fun s => mkV (v_gss s) (match v_br s with b :: r => if eqlZ b (bs "BT") then r else b :: r | [] => [] end) (v_cv s)).
  (** pdfviewer.py 144-174 *)
  Definition set_arg (f : list Z) (args : list obj) : vm unit :=
    a <-- arg0 args ;; with_gss (fun g => gss_set g f (raw a)).
  Definition set_args (f : list Z) (args : list obj) : vm unit := with_gss (fun g => gss_set g f (VArr (map raw args))).
  (** pdfviewer.py 176-183; `**state` of something that is no dictionary is a TypeError *)
  Definition on_gs (rs : resources) (args : list obj) : vm unit :=
    a <-- arg0 args ;;
    o <-- vlift (name_lookup (rs_dict rs (bs "ExtGState")) (raw a)) ;;
    match o with
    | None => vret tt
    | Some st =>
        if btruthy st
        then match st with
             | VDict _ d =>
                 with_gss (fun g => snd (gss_state g)) ;;;;
                 (if amem d (bs "self") then vlift (Err TypeErr) else if amem d (bs "font_name") then vlift (Err AttributeErr) else vret tt) ;;;;
                 with_gss (fun g => match g with s :: r => gs_update s d :: r | [] => [] end)
             | _ => vlift (Err TypeErr)
             end
        else vret tt
    end.

  Inductive vkind := KPage | KForm.
  (** operators_aliases, simple.py 69-71 *)
  Definition alias (name : list Z) : list Z :=
    if eqlZ name [39] then bs "apostrophe" else if eqlZ name [34] then bs "quotation" else if eqlZ name (bs "T*") then bs "Tstar" else name.

  Section Handlers.
    (** simple.py 216-230, given later *)
    Variable on_Do : resources -> list obj -> vm unit.
    (** after_navigate called as the handler of an operator named "navigate" *)
    Definition renavigate : vm unit := vmod (fun s => mkV [] [] empty_canvas).

    (** before_<name>, on_<name>, after_<name> (pdfviewer.py 93-112): every attribute of the two viewer
        classes whose name has that form.  Returns the operands as the handlers left them. *)
    Definition before_ (k : vkind) (name : list Z) : vm unit :=
      if eqlZ name (bs "Do") then with_gss gss_save else vret tt.
    Definition on_ (k : vkind) (rs : resources) (name : list Z) (args : list obj) : vm (list obj) :=
      let keep (m : vm unit) := m ;;;; vret args in
      if eqlZ name (bs "q") then keep (with_gss gss_save)
      else if eqlZ name (bs "Q") then keep (with_gss gss_restore)
      else if eqlZ name (bs "cm") then keep (set_args (bs "CTM") args)
      else if eqlZ name (bs "w") then keep (set_arg (bs "LW") args)
      else if eqlZ name (bs "J") then keep (set_arg (bs "LC") args)
      else if eqlZ name (bs "j") then keep (set_arg (bs "LJ") args)
      else if eqlZ name (bs "M") then keep (set_arg (bs "ML") args)
      else if eqlZ name (bs "d") then keep (set_args (bs "D") args)
      else if eqlZ name (bs "ri") then keep (set_arg (bs "RI") args)
      else if eqlZ name (bs "i") then keep (set_arg (bs "FL") args)
      else if eqlZ name (bs "gs") then keep (on_gs rs args)
      else if eqlZ name (bs "Tf") then keep (set_args (bs "Font") args)
      else if eqlZ name (bs "Tj") || eqlZ name (bs "apostrophe") then on_Tj rs args
      else if eqlZ name (bs "TJ") || eqlZ name (bs "quotation") then on_TJ rs args
      else if eqlZ name (bs "DP") || eqlZ name (bs "BDC") then on_props rs args
      else if eqlZ name (bs "BT") then keep on_BT
      else if eqlZ name (bs "ET") then keep on_ET
      else if eqlZ name (bs "inline_image") then keep (add_inline (COp name args))
      else if eqlZ name (bs "document_load") then vlift (Err TypeErr)
      else match k with
           | KPage => if eqlZ name (bs "Do") then keep (on_Do rs args) else vret args
           | KForm => vret args
           end.
    Definition after_ (k : vkind) (name : list Z) (args : list obj) : vm unit :=
      if eqlZ name (bs "Do") then with_gss gss_restore
      else if eqlZ name (bs "handler") then t <-- vlift (op_str real_str name args) ;; add_text t
      else match k with KPage => if eqlZ name (bs "navigate") then renavigate else vret tt | KForm => vret tt end.

    (** pdfviewer.py 93-112 notify, simple.py 103-108 *)
    Definition notify (k : vkind) (rs : resources) (i : citem) : vm unit :=
      match i with
      | CImage d data => add_inline i ;;;; t <-- vlift (image_str real_str d data) ;; add_text t
      | COp name args =>
          let h := alias name in
          before_ k h ;;;; args' <-- on_ k rs h args ;; after_ k h args' ;;;;
          t <-- vlift (op_str real_str name args') ;; add_text t
      end.
    (** pdfviewer.py 114-120 render *)
    Fixpoint run (k : vkind) (rs : resources) (l : list citem) : vm unit :=
      match l with [] => vret tt | i :: r => notify k rs i ;;;; run k rs r end.
    Definition render (k : vkind) (rs : resources) (content : list citem * option exn) : vm unit :=
      run k rs (fst content) ;;;; match snd content with None => vret tt | Some e => vlift (Err e) end.
  End Handlers.

  (** simple.py 233-235: forms have no on_Do *)
  Definition no_Do : resources -> list obj -> vm unit := fun _ _ => vret tt.
  (** simple.py 216-230 on_Do of pages: the form is drawn by a viewer of its own on the same graphics
      state stack *)
  Definition in_form (rs : resources) (content : list citem * option exn) : vm canvas :=
    fun s => match render no_Do KForm rs content (mkV (v_gss s) [] empty_canvas) with
             | (Ok _, s1) => (Ok (v_cv s1), mkV (v_gss s1) (v_br s) (v_cv s))
             | (Err e, s1) => (Err e, mkV (v_gss s1) (v_br s) (v_cv s))
             end.
  Definition is_class (x : bv) (c : list Z) : bool := match x with VStm (Some k) _ _ => eqlZ k c | _ => false end.
  Definition key_of (o : obj) : list Z := match o with OName s | OHex s | OTok s => s | _ => [] end.
  Definition page_Do (rs : resources) (args : list obj) : vm unit :=
    a <-- arg0 args ;;
    x <-- vlift (name_lookup (rs_dict rs (bs "XObject")) (raw a)) ;;
    match x with
    | None => vret tt
    | Some xo =>
        if btruthy xo
        then
          s <-- vget ;;
          if amem (cv_forms (v_cv s)) (key_of a) then vret tt
          else if is_class xo (bs "Image")
          then with_cv (fun c => mkCv (aset (cv_images c) (key_of a) xo) (cv_forms c) (cv_text c) (cv_inline c) (cv_strings c))
          else if is_class xo (bs "Form")
          then frs <-- vlift (form_resources xo) ;;
               ct <-- vlift (form_content xo) ;;
               cv <-- in_form frs ct ;;
               with_cv (fun c => mkCv (cv_images c) (aset (cv_forms c) (key_of a) cv) (cv_text c) (cv_inline c) (cv_strings c))
          else vret tt
        else vret tt
    end.
  Definition render_page (rs : resources) (content : list citem * option exn) : vm unit := render page_Do KPage rs content.
End Viewer.
