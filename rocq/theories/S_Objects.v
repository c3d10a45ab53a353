(** Specification of resolved objects, independent of build(): what an object of the document stands for. *)
From Coq Require Import String.
From Verif Require Import Prelude M_Parser M_Objects.
Local Open Scope Z_scope.

Definition is_ref (x : bv) : Prop := exists n g, x = VRef n g.
(** The class of a dictionary: its /Type name if that is a known class, else the base class. *)
Definition class_from (t : list (list Z)) (dflt : list Z) (v : option bv) (c : list Z) : Prop :=
  match v with
  | Some (VAtom (OName s)) => (In s t /\ c = s) \/ (~ In s t /\ c = dflt)
  | Some (VAtom (OHex s)) => ~ In s t /\ c = dflt
  | Some (VAtom _) | None => c = dflt
  | _ => False
  end.
Definition dict_class (d : list (list Z * bv)) (c : list Z) : Prop :=
  class_from dict_classes [] (aget d (bs "Type")) c.
Definition xobject (v : option bv) : Prop := v = Some (VAtom (OName (bs "XObject"))).
Definition stm_class (d : list (list Z * bv)) (c : list Z) : Prop :=
  (xobject (aget d (bs "Type")) /\ class_from xobject_classes (bs "XObject") (aget d (bs "Subtype")) c) \/
  (~ xobject (aget d (bs "Type")) /\ class_from stream_classes [] (aget d (bs "Type")) c).

(** [Stands H x v]: with ids meaning [H], the object [x] stands for [v]: references are followed, arrays
    element by element, dictionaries and streams are typed and keep their entries as they are. *)
Inductive Stands (H : Z -> Z -> res bv) : bv -> bv -> Prop :=
| St_atom o : Stands H (VAtom o) (VAtom o)
| St_ref n g o v : H n g = Ok o -> ~ is_ref o -> Stands H o v -> Stands H (VRef n g) v
| St_arr l l' : StandsL H l l' -> Stands H (VArr l) (VArr l')
| St_dict d c : dict_class d c -> Stands H (VDict None d) (VDict (Some c) d)
| St_stm d c data : stm_class d c -> Stands H (VStm None d data) (VStm (Some c) d data)
with StandsL (H : Z -> Z -> res bv) : list bv -> list bv -> Prop :=
| Sl_nil : StandsL H [] []
| Sl_cons x v l l' : Stands H x v -> StandsL H l l' -> StandsL H (x :: l) (v :: l').
Scheme Stands_mind := Induction for Stands Sort Prop with StandsL_mind := Induction for StandsL Sort Prop.
Combined Scheme Stands_both from Stands_mind, StandsL_mind.

(** The references an object leads to through arrays only. *)
Inductive through_arrays : bv -> Z -> Z -> Prop :=
| Ta_ref n g : through_arrays (VRef n g) n g
| Ta_arr l x n g : In x l -> through_arrays x n g -> through_arrays (VArr l) n g.

(** Parsed objects whose dictionaries and streams (outside other dictionaries) have proper types. *)
Inductive typed : bv -> Prop :=
| Ty_atom o : typed (VAtom o)
| Ty_ref n g : typed (VRef n g)
| Ty_arr l : Forall typed l -> typed (VArr l)
| Ty_dict d c : dict_class d c -> typed (VDict None d)
| Ty_stm d c data : stm_class d c -> typed (VStm None d data).

(** Page trees: the leaves of a node, left to right, when [children] gives the children of a node. *)
Inductive ptree : Type := Leaf (p : bv) | Node (l : list ptree).
Fixpoint leaves (t : ptree) : list bv :=
  match t with
  | Leaf p => [p]
  | Node l => concat (map leaves l)
  end.
(** [kids_are bld c l]: the node [c] is a dictionary object whose /Kids is the array [l] (of built objects). *)
Definition kids_are (bld : bv -> res bv) (c : bv) (l : list bv) : Prop :=
  exists k d v, c = VDict (Some k) d /\ aget d (bs "Kids") = Some v /\ bld v = Ok (VArr l).
Definition page_object (p : bv) : Prop := exists d, p = VDict (Some (bs "Page")) d.
Inductive PageTree (bld : bv -> res bv) : bv -> ptree -> Prop :=
| PT_leaf p : page_object p -> PageTree bld p (Leaf p)
| PT_node c l ts : ~ page_object c -> kids_are bld c l -> PageTrees bld l ts -> PageTree bld c (Node ts)
with PageTrees (bld : bv -> res bv) : list bv -> list ptree -> Prop :=
| PTs_nil : PageTrees bld [] []
| PTs_cons c t l ts : PageTree bld c t -> PageTrees bld l ts -> PageTrees bld (c :: l) (t :: ts).
Definition all_leaves (ts : list ptree) : list bv := concat (map leaves ts).
