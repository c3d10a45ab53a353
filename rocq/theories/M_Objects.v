(** Model of resolved objects: pdfreader/document.py (build, obj_by_ref, pages), pdfreader/types/objects.py
    (DictBasedObject, ArrayBasedObject, StreamBasedObject, obj_factory, PageTreeNode.pages).
    locate_object is a function [H] from ids to results: C25 says that it is one within a session. *)
From Coq Require Import String.
From Verif Require Import Prelude M_Parser.
Local Open Scope Z_scope.

(** Python dicts: insertion ordered, unique keys. *)
Section Alist.
  Context {V : Type}.
  Fixpoint aget (d : list (list Z * V)) (k : list Z) : option V :=
    match d with [] => None | (k', v) :: r => if eqlZ k k' then Some v else aget r k end.
  Fixpoint aset (d : list (list Z * V)) (k : list Z) (v : V) : list (list Z * V) :=
    match d with
    | [] => [(k, v)]
    | (k', v') :: r => if eqlZ k k' then (k', v) :: r else (k', v') :: aset r k v
    end.
  Fixpoint adel (d : list (list Z * V)) (k : list Z) : list (list Z * V) :=
    match d with [] => [] | (k', v) :: r => if eqlZ k k' then r else (k', v) :: adel r k end.
  Definition amem (d : list (list Z * V)) (k : list Z) : bool := match aget d k with Some _ => true | None => false end.
End Alist.

(** Values as build() sees them.  [VDict None]/[VStm None] are parsed dictionaries and streams,
    [VDict (Some c)]/[VStm (Some c)] instances of the DictBasedObject/StreamBasedObject class of key [c]
    ([] for the base class).  [VArr] stands for list and ArrayBasedObject alike (they differ in .doc only).
    Atoms are null, booleans, numbers, names and strings. *)
Inductive bv : Type :=
| VAtom (o : obj)
| VRef (num gen : Z)
| VArr (l : list bv)
| VDict (c : option (list Z)) (d : list (list Z * bv))
| VStm (c : option (list Z)) (d : list (list Z * bv)) (data : list Z).

(** A parsed object (tokens and inline images do not occur in documents' objects). *)
Fixpoint raw (o : obj) : bv :=
  match o with
  | ORef n g => VRef n g
  | OArr l => VArr (map raw l)
  | ODict d => VDict None (map (fun p => (fst p, raw (snd p))) d)
  | OStream d data => VStm None (map (fun p => (fst p, raw (snd p))) d) data
  | _ => VAtom o
  end.

(** types/objects.py 462-523: the class tables, by their keys (the class of key 'Pages' is PageTreeNode) *)
Definition dict_classes : list (list Z) := map bs
  ["Catalog"; "Pages"; "Page"; "OCG"; "OCMD"; "Font"; "Encoding"; "CIDFont"; "FontDescriptior"; "Halftone"; "Outlines";
   "Collection"; "CollectionField"; "CollectionSort"; "CollectionSchema"; "PageLabel"; "Bread"; "Thread"; "Trans"; "NavNode";
   "Annot"; "Border"; "Action"; "Sig"; "SigRef"; "TransformParams"; "Requirement"; "ReqHandler"; "Rendition"; "MediaCriteria";
   "MinBitDepth"; "MinScreenSize"; "MediaClip"; "MediaPermissions"; "MediaDuration"; "MediaScreenParams"; "FWParams";
   "MediaOffset"; "Timespan"; "MediaPlayers"; "MediaPlayerInfo"; "SoftwareIdentifier"; "Sound"; "SlideShow"; "LastModified";
   "StructTreeRoot"; "StructElem"; "MCR"; "OBJR"]%string.
Definition stream_classes : list (list Z) := map bs ["ObjectStream"; "XObject"; "CMap"; "Metadata"]%string.
Definition xobject_classes : list (list Z) := map bs ["Image"; "Form"; "Group"]%string.

(** TABLE.get(v, default): strings (names, hexadecimal strings) are looked up, other hashable values are
    in no table; references, arrays, dictionaries and streams are unhashable (IndirectReference and
    Stream define __eq__ and no __hash__). *)
Definition table_get (t : list (list Z)) (dflt : list Z) (v : option bv) : res (list Z) :=
  match v with
  | None => Ok dflt
  | Some (VAtom (OName s)) | Some (VAtom (OHex s)) => Ok (if existsb (eqlZ s) t then s else dflt)
  | Some (VAtom _) => Ok dflt
  | Some _ => Err TypeErr
  end.
(** v == 'XObject': IndirectReference.__eq__ and Stream.__eq__ read attributes that a str has not
    (types/native.py 117-118, 146-147) *)
Definition is_xobject (v : option bv) : res bool :=
  match v with
  | Some (VAtom (OName s)) | Some (VAtom (OHex s)) => Ok (eqlZ s (bs "XObject"))
  | Some (VRef _ _) | Some (VStm _ _ _) => Err AttributeErr
  | _ => Ok false
  end.

Fixpoint mapM {A B} (g : A -> res B) (l : list A) : res (list B) :=
  match l with
  | [] => Ok []
  | a :: r => rbind (g a) (fun b => rbind (mapM g r) (fun bs => Ok (b :: bs)))
  end.
Definition map_vals (g : bv -> res bv) (d : list (list Z * bv)) : res (list (list Z * bv)) :=
  mapM (fun p => rbind (g (snd p)) (fun v => Ok (fst p, v))) d.

(** obj.get('Type') / obj.Type: a parsed dictionary or stream gives the raw entry, a wrapped one builds it
    (types/objects.py 53-59, 86-103: DictBasedObject.get turns KeyError into the default) *)
Definition dict_entry (bld : bv -> res bv) (c : option (list Z)) (d : list (list Z * bv)) (k : list Z) : res (option bv) :=
  match aget d k with
  | None => Ok None
  | Some v => match c with
              | None => Ok (Some v)
              | Some _ => match bld v with Ok w => Ok (Some w) | Err KeyErr => Ok None | Err e => Err e end
              end
  end.
Definition stm_entry (bld : bv -> res bv) (c : option (list Z)) (d : list (list Z * bv)) (k : list Z) : res (option bv) :=
  match aget d k with
  | None => match c with None => Ok None | Some _ => rbind (bld (VAtom ONull)) (fun w => Ok (Some w)) end
  | Some v => match c with None => Ok (Some v) | Some _ => rbind (bld v) (fun w => Ok (Some w)) end
  end.

(** types/objects.py 131-143 obj_factory, 62-71 ArrayBasedObject; [bld] is doc.build(., lazy=True) with a
    fresh visited list *)
Definition factory (bld : bv -> res bv) (x : bv) : res bv :=
  match x with
  | VStm c d data =>
      rbind (stm_entry bld c d (bs "Type")) (fun t =>
      rbind (is_xobject t) (fun xo =>
      if xo : bool
      then rbind (stm_entry bld c d (bs "Subtype")) (fun s =>
           rbind (table_get xobject_classes (bs "XObject") s) (fun k => Ok (VStm (Some k) d data)))
      else rbind (table_get stream_classes [] t) (fun k => Ok (VStm (Some k) d data))))
  | VDict c d =>
      rbind (dict_entry bld c d (bs "Type")) (fun t =>
      rbind (table_get dict_classes [] t) (fun k => Ok (VDict (Some k) d)))
  | VArr l => rbind (mapM bld l) (fun l' => Ok (VArr l'))
  | _ => Ok x
  end.

Section Build.
  Variable H : Z -> Z -> res bv.

  Definition visited (vis : list (Z * Z)) (n g : Z) : bool := existsb (fun p => (fst p =? n) && (snd p =? g)) vis.

  (** document.py 64-106 build and 111-113 obj_by_ref; [n] bounds the recursion depth *)
  Fixpoint build (n : nat) (lazy : bool) (vis : list (Z * Z)) (x : bv) : res bv :=
    match n with
    | O => Err OutOfFuel
    | S n' =>
        let bld := build n' true [] in
        let k := fun vis' x1 =>
          match x1 with
          | VArr l => rbind (mapM (build n' lazy vis') l) (fun l' => Ok (VArr l'))
          | VDict c d =>
              if lazy then factory bld (VDict c d)
              else
                (* obj.items(): a DictBasedObject builds its values first (types/objects.py 113-114) *)
                rbind (match c with None => Ok d | Some _ => map_vals bld d end) (fun d1 =>
                rbind (map_vals (build n' lazy vis') d1) (fun d2 => factory bld (VDict None d2)))
          | VStm c d data =>
              if lazy then factory bld (VStm c d data)
              else rbind (map_vals (build n' lazy vis') d) (fun d2 => factory bld (VStm c d2 data))
          | _ => Ok x1
          end in
        match x with
        | VRef a g =>
            if visited vis a g then k vis x
            else rbind (H a g) (fun v => rbind (factory bld v) (fun x1 => k ((a, g) :: vis) x1))
        | _ => k vis x
        end
    end.
End Build.

(** A DictBasedObject: the underlying dict and the cache of built values (types/objects.py 74-128).
    [bld] is doc.build(., lazy=True).  The values handed out are shared with the cache; changing them in
    place is not modelled. *)
Record dobj := mkD { d_raw : list (list Z * bv); d_cache : list (list Z * bv) }.
Definition new_dobj (d : list (list Z * bv)) : dobj := mkD d [].

Section Dobj.
  Variable bld : bv -> res bv.
  (** 86-92 __getitem__ *)
  Definition d_item (o : dobj) (k : list Z) : res bv * dobj :=
    match aget (d_cache o) k with
    | Some v => (Ok v, o)
    | None => match aget (d_raw o) k with
              | None => (Err KeyErr, o)
              | Some v => match bld v with
                          | Ok w => (Ok w, mkD (d_raw o) (aset (d_cache o) k w))
                          | Err e => (Err e, o)
                          end
              end
    end.
  (** 83-84, 98-103 get and attribute access *)
  Definition d_get (o : dobj) (k : list Z) (dflt : bv) : res bv * dobj :=
    match d_item o k with
    | (Err KeyErr, o') => (Ok dflt, o')
    | r => r
    end.
  (** 94-96 __delitem__: only the cache is touched *)
  Definition d_del (o : dobj) (k : list Z) : res unit * dobj :=
    match aget (d_cache o) k with
    | Some _ => (Ok tt, mkD (d_raw o) (adel (d_cache o) k))
    | None => (Err KeyErr, o)
    end.
  (** dict.__setitem__ is inherited: only the underlying dict is touched *)
  Definition d_set (o : dobj) (k : list Z) (v : bv) : dobj := mkD (aset (d_raw o) k v) (d_cache o).
  (** 107-114 *)
  Definition d_keys (o : dobj) : list (list Z) := map fst (d_raw o).
  Fixpoint d_items_of (ks : list (list Z)) (o : dobj) : res (list (list Z * bv)) * dobj :=
    match ks with
    | [] => (Ok [], o)
    | k :: r => match d_item o k with
                | (Ok v, o1) => match d_items_of r o1 with
                                | (Ok l, o2) => (Ok ((k, v) :: l), o2)
                                | (Err e, o2) => (Err e, o2)
                                end
                | (Err e, o1) => (Err e, o1)
                end
    end.
  Definition d_items (o : dobj) : res (list (list Z * bv)) * dobj := d_items_of (d_keys o) o.
  Definition d_values (o : dobj) : res (list bv) * dobj :=
    match d_items o with (Ok l, o') => (Ok (map snd l), o') | (Err e, o') => (Err e, o') end.
  (** k in d, len(d): inherited *)
  Definition d_in (o : dobj) (k : list Z) : bool := amem (d_raw o) k.
  (** 116-122 pop (without a default: dict.pop takes no keyword arguments) *)
  Definition d_pop (o : dobj) (k : list Z) : res bv * dobj :=
    if d_in o k
    then match d_item o k with
         | (Ok v, o1) => (Ok v, mkD (adel (d_raw o1) k) (d_cache o1))
         | r => r
         end
    else (Err KeyErr, o).
  (** 124-128 popitem: the first key *)
  Definition d_popitem (o : dobj) : res (list Z * bv) * dobj :=
    match d_raw o with
    | [] => (Err KeyErr, o)
    | (k, _) :: _ => match d_pop o k with (Ok v, o1) => (Ok (k, v), o1) | (Err e, o1) => (Err e, o1) end
    end.
End Dobj.

(** Pages.  A generator is the stack of its iterators: the children still to come of the innermost node
    first. *)
Definition is_page (c : bv) : bool := match c with VDict (Some k) _ => eqlZ k (bs "Page") | _ => false end.
Section Pages.
  Variable bld : bv -> res bv.
  (** the children of a node, types/objects.py 174: node.Kids, iterated.  Dictionaries and streams look
      the entry up (None if missing), other values have no such attribute.  Iterating None, numbers,
      booleans, references or streams without __iter__ is a TypeError (a stream has __getitem__, which
      fails with KeyError 0); strings and dictionaries are iterated by element, and no element has .Kids. *)
  Definition iter_kids (v : bv) : res (list bv) :=
    match v with
    | VArr l => Ok l
    | VAtom (OName []) | VAtom (OStr []) | VAtom (OHex []) | VDict _ [] => Ok []
    | VAtom (OName _) | VAtom (OStr _) | VAtom (OHex _) | VDict _ _ => Err AttributeErr
    | VStm _ _ _ => Err KeyErr
    | _ => Err TypeErr
    end.
  Definition kids (node : bv) : res (list bv) :=
    match node with
    | VDict (Some _) d =>
        rbind (match aget d (bs "Kids") with
               | None => Ok (VAtom ONull)
               | Some v => match bld v with Err KeyErr => Ok (VAtom ONull) | r => r end
               end) iter_kids
    | VStm (Some _) d _ =>
        rbind (bld (match aget d (bs "Kids") with None => VAtom ONull | Some v => v end)) iter_kids
    | _ => Err AttributeErr
    end.
  (** 172-173: pages(None) starts over at the node itself *)
  Definition node_of (self child : bv) : bv := match child with VAtom ONull => self | _ => child end.

  (** next(generator), types/objects.py 166-179 *)
  Fixpoint next_page (n : nat) (self : bv) (stk : list (list bv)) : res (option (bv * list (list bv))) :=
    match n with
    | O => Err OutOfFuel
    | S n' =>
        match stk with
        | [] => Ok None
        | [] :: s => next_page n' self s
        | (c :: r) :: s =>
            if is_page c then Ok (Some (c, r :: s))
            else rbind (kids (node_of self c)) (fun l => next_page n' self (l :: r :: s))
        end
    end.
  (** the first [count] pages, or all of them; document.py 137-143.  [Ok (l, true)]: the generator ended
      after [l]; an error carries the pages yielded before it. *)
  Fixpoint take_pages (n count : nat) (self : bv) (stk : list (list bv)) : list bv * res bool :=
    match count with
    | O => ([], Ok false)
    | S k => match next_page n self stk with
             | Err e => ([], Err e)
             | Ok None => ([], Ok true)
             | Ok (Some (p, stk')) => let '(l, r) := take_pages n k self stk' in (p :: l, r)
             end
    end.
  (** document.py 137-143: root.Pages.pages(); only PageTreeNode has that method (any other dictionary
      object answers None for it, which cannot be called) *)
  Definition pages (n count : nat) (root : bv) : list bv * res bool :=
    match root with
    | VDict (Some c) _ =>
        if eqlZ c (bs "Pages")
        then match count with
             | O => ([], Ok false)
             | _ => match kids root with Err e => ([], Err e) | Ok l => take_pages n count root [l] end
             end
        else ([], Err TypeErr)
    | VStm (Some _) _ _ => ([], Err TypeErr)
    | _ => ([], Err AttributeErr)
    end.
End Pages.
